(** Running the source text (RepoCode.v): rows, tables and decision lists. *)
From Coq Require Import List NArith ZArith Bool String Lia.
From Verif Require Import PyStr Values Schema Parse Date Markdown Basics StrFacts PySyntax PySem RepoCode CodeFacts CodeFacts2 CodeFacts3 CodeFacts4 CodeFacts5 CodeFacts9.
Import ListNotations.
Open Scope string_scope.
Open Scope list_scope.

Ltac the_loop c inv f raw acc0 j0 HF HP HR :=
  match goal with |- context [withv ?en ?e (fun vs => iterate ?st vs ?en)] =>
    assert (HR : ran inv (loop c f raw) acc0 (withv en e (fun vs => iterate st vs en)));
    [refine (loop_run c inv st f raw HF HP _ _ acc0 j0)|]
  end.
Section Rows.
Variable E : runtime.
Notation class_ok := (class_ok E).
Notation CL k := (call E repo node_cls mark_cls k).
Notation GA := (get_attr repo node_cls mark_cls).
Lemma child_kw k n ign : child_ok E k n -> CL k (PBound (PN n) "to_markdown") [] [("ignore_error", PV (VBool ign))] = of_res (rmap PV (to_md E n None ign)).
Proof. intros H. exact (H None (Some ign)). Qed.
Lemma class_tableRow ty ve tx a co ma : class_ok (Node KtableRow ty ve tx a co ma).
Proof.
  class_ E m_NodeTableRow_to_markdown k HF HK HAC ign. field_of HF co HCF HCP. rewrite freeze_slot. unfold table_row_md.
  the_loop co (fun acc (j : pv * pv) => [("self", PN (Node KtableRow ty ve tx a co ma)); ("ignore_error", PV (VBool ign)); ("cells", PL true (map PV acc));
                        ("cell", fst j); ("md", snd j)])
                (fun n => do v <- to_md E n None ign; Ok [v]) (@Err (list value) AttributeError) (@nil value) (PUnbound, PUnbound) HCF HCP HR.
  - intros l ->. pose proof (kids_at E _ (S (S (S k))) _ HK ltac:(lia) l eq_refl) as HC. revert HC. apply Forall_impl. intros n HN acc j. py. rewrite (child_kw _ _ _ HN).
    destruct (to_md E n None ign) as [v|e]; cbn [rmap rbind]; py; [|eexists; reflexivity].
    eexists (_, _). left. rewrite map_app. reflexivity.
  - intros x acc j. py. eexists; reflexivity.
  - destruct (loop co _ _) as [xs|e]; destruct HR as [j ->]; [|reflexivity]. py. rewrite as_strs_pv. cbn [app rbind]. unfold join_values. destruct (mapM as_str xs); [|reflexivity].
    py. rewrite <- app_assoc. reflexivity.
Qed.
Lemma class_decisionList ty ve tx a co ma : class_ok (Node KdecisionList ty ve tx a co ma).
Proof.
  class_ E m_NodeDecisionList_to_markdown k HF HK HAC ign. field_of HF co HCF HCP. rewrite freeze_slot. unfold decision_list_md.
  the_loop co (fun acc (j : pv * pv) => [("self", PN (Node KdecisionList ty ve tx a co ma)); ("ignore_error", PV (VBool ign)); ("decision_blocks", PL true (map PV acc));
                        ("item", fst j); ("md", snd j); ("e", PUnbound)])
                (fun item => if is_type_of item [s "decisionItem"] then try_ ign (to_md E item None ign) else Ok []) (@Err (list value) AttributeError)
                (@nil value) (PUnbound, PUnbound) HCF HCP HR.
  - intros l ->. pose proof (kids_at E _ (S (S (S k))) _ HK ltac:(lia) l eq_refl) as HC. revert HC. apply Forall_impl. intros n HN acc j. py. rewrite type1. py.
    destruct (is_type_of n [s "decisionItem"]); py; [|exists (PN n, snd j); left; now rewrite app_nil_r].
    rewrite (child_kw _ _ _ HN). destruct (to_md E n None ign) as [v|e]; cbn [rmap rbind try_]; py.
    + eexists (_, _). left. rewrite map_app. reflexivity.
    + destruct ign; py; [exists (PN n, snd j); left; now rewrite app_nil_r|eexists; reflexivity].
  - intros x acc j. py. eexists; reflexivity.
  - destruct (loop co _ _) as [xs|e]; destruct HR as [j ->]; [|reflexivity]. py. rewrite as_strs_pv. cbn [app rbind]. unfold join_values. destruct (mapM as_str xs); reflexivity.
Qed.
Lemma fits_children k ty ve tx a l ma : fits (Node k ty ve tx a (Items l) ma) -> Forall fits l.
Proof. intros H. inversion H; subst. auto. Qed.
Lemma fits_proper n : fits n -> proper_slot (n_content n).
Proof.
  intros H. inversion H as [k ty ve tx a co ma HTX HA HC HM HCI HMI]; subst. cbn [n_content]. destruct (nc_content (nk_class k)), co; try exact I; try exact HC; contradiction.
Qed.
Lemma header_run k n : proper_slot (n_content n) ->
  (let* g := let* o := let* x := slot_value PNs (n_content n) in subscript x (PV (VInt 0)) in GA o "is_type_of" in apply E (CL (S (S (S k)))) g [PEnum "tableHeader"] [])
  = of_res (do w <- header_width n; Ok (PV (VBool (match w with Some _ => true | None => false end)))).
Proof.
  intros HP. unfold header_width. destruct (n_content n) as [| |l|v]; [reflexivity|reflexivity| |].
  - destruct l as [|c l]; [reflexivity|]. cbn [slot_value obind].
    assert (subscript (PNs (c :: l)) (PV (VInt 0)) = Val (PN c)) as -> by reflexivity. py. rewrite type1. cbn [rbind of_res].
    destruct (is_type_of c [s "tableHeader"]); reflexivity.
  - destruct v; try contradiction; try reflexivity. destruct x as [|c x]; [reflexivity|]. cbn [slot_value obind].
    assert (subscript (PV (VStr (c :: x))) (PV (VInt 0)) = Val (PV (VStr [c]))) as -> by reflexivity. py. reflexivity.
Qed.
Lemma dashes_run x n : List.concat (repeat [PV (VStr x)] n) = map pstr (repeat x n).
Proof. induction n as [|n IH]; [reflexivity|]. cbn [repeat List.concat map app]. rewrite IH. reflexivity. Qed.
Lemma class_table ty ve tx a co ma : class_ok (Node Ktable ty ve tx a co ma).
Proof.
  class_ E m_NodeTable_to_markdown k HF HK HAC ign. field_of HF co HCF HCP. rewrite freeze_slot. unfold table_md.
  the_loop co (fun acc (j : pv * pv) => [("self", PN (Node Ktable ty ve tx a co ma)); ("ignore_error", PV (VBool ign)); ("lines", PL true (map PV acc));
                        ("row", fst j); ("md", snd j); ("e", PUnbound)])
                (table_row_lines (to_md E) ign) (try_ ign (@Err value AttributeError))
                (@nil value) (PUnbound, PUnbound) HCF HCP HR.
  - intros l ->. pose proof (kids_at E _ (S (S (S k))) _ HK ltac:(lia) l eq_refl) as HC. apply fits_children in HF.
    rewrite Forall_forall in HC, HF |- *. intros n HI acc j. specialize (HC n HI) as HN. specialize (HF n HI). py.
    rewrite (child0 _ _ _ HN). unfold table_row_lines. destruct (to_md E n None false) as [v|e]; cbn [rmap rbind try_]; py.
    + rewrite (header_run k n (fits_proper n HF)). destruct (header_width n) as [w|e] eqn:HW; cbn [rbind of_res].
      * destruct w as [w|]; py; [|eexists (_, _); left; rewrite map_app; reflexivity].
        assert (exists l', n_content n = Items l' /\ w = List.length l') as (l' & HC' & ->).
        { unfold header_width in HW. destruct (n_content n) as [| |[|c l']|[| | | |[|? ?]| | |]]; try discriminate HW.
          destruct (is_type_of c [s "tableHeader"]); [|discriminate HW]. injection HW as <-. exists (c :: l'). split; reflexivity. }
        rewrite HC'. cbn [slot_value]. py. rewrite Nat2Z.id, dashes_run, strs_run. py. eexists (_, _). left. rewrite map_app, <- !app_assoc. reflexivity.
      * py. destruct ign; py; [eexists (_, _); left; rewrite map_app; reflexivity|eexists; reflexivity].
    + destruct ign; py; [exists (PN n, snd j); left; now rewrite app_nil_r|eexists; reflexivity].
  - intros x acc j. py. destruct ign; py; cbn [try_]; [exists (PV (VStr x), snd j); left; now rewrite app_nil_r|eexists; reflexivity].
  - destruct (loop co _ _) as [xs|e]; destruct HR as [j ->]; [|reflexivity]. py. rewrite as_strs_pv. cbn [app rbind]. unfold join_values. destruct (mapM as_str xs); reflexivity.
Qed.
End Rows.
