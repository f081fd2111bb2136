(** Running the source text (RepoCode.v): ordered lists and task lists. *)
From Coq Require Import List NArith ZArith Bool String Lia.
From Verif Require Import PyStr Values Schema Parse Date Markdown Basics StrFacts PySyntax PySem RepoCode CodeFacts CodeFacts2 CodeFacts3 CodeFacts4 CodeFacts5 CodeFacts9 CodeFacts10 CodeFacts11 CodeFacts12.
Import ListNotations.
Open Scope string_scope.
Open Scope list_scope.



Section Lists2.
Variable E : runtime.
Notation class_ok2 := (class_ok2 E).
Notation CL k := (call E repo node_cls mark_cls k).
Notation GA := (get_attr repo node_cls mark_cls).
Lemma fits_kids k ty ve tx a co ma : fits (Node k ty ve tx a co ma) -> forall l, co = Items l -> Forall fits l.
Proof. intros H l ->. exact (fits_children _ _ _ _ _ _ _ H). Qed.
Lemma isinstance_int v : isinstance (PV v) "builtins.int" = Val (match v with VInt _ | VBool _ => true | _ => false end).
Proof. destruct v; reflexivity. Qed.
Lemma class_orderedList ty ve tx a co ma : class_ok2 (Node KorderedList ty ve tx a co ma).
Proof.
  intros k HF HK HG lv oi; rewrite (call_bound E _ _ _ m_NodeOrderedList_to_markdown) by (vm_compute; reflexivity).
  rewrite level_kws by reflexivity; cbn [to_md]; generalize (ign_of oi) as ign; clear oi; intros ign.
  change (match lv with Some l => l | None => O end) with (lvl lv); generalize (lvl lv) as level; clear lv; intros level.
  pose proof (fits_attrs_class _ HF) as HAC; cbn [n_attrs n_content] in HAC, HG.
  assert (HC : has_field co /\ proper_slot co) by (apply (fits_content _ HF); discriminate). destruct HC as [HCF HCP].
  pose proof (fun start HS => ordered_loop E k start level ign ty ve tx a co ma HS HCF HCP (fits_kids _ _ _ _ _ _ _ HF) HG) as HL.
  unfold run_func. change (f_body m_NodeOrderedList_to_markdown) with (firstn 3 (f_body m_NodeOrderedList_to_markdown) ++ ordered_rest).
  generalize dependent ordered_rest. intros rest HL.
  cbn [m_NodeOrderedList_to_markdown f_params f_body f_locals no_unknown forallb existsb fst snd String.eqb Ascii.eqb Bool.eqb andb orb bind_params assoc option_map map app firstn].
  py. rewrite times_run. py. unfold ordered_list_md. destruct level as [|level].
  - py. fieldr HAC "order". destruct (attr a (s "order")) as [o|e] eqn:HO; cbn [rmap of_res obind withv rbind]; [|reflexivity].
    py. rewrite isinstance_int. py. destruct o; py; fieldr HAC "order"; rewrite ?HO; py; (rewrite <- HL by exact I; reflexivity).
  - change (Z.of_nat (S level) =? 0)%Z with false. py. rewrite <- HL by exact I. reflexivity.
Qed.
Lemma child_task k n level ign : child_ok E k n ->
  CL k (PBound (PN n) "to_markdown") [] [("level", PV (VInt (Z.of_nat level + 1))); ("ignore_error", PV (VBool ign))] = of_res (rmap PV (to_md E n (Some (S level)) ign)).
Proof. intros H. specialize (H (Some (S level)) (Some ign)). cbn [kw_lv kw_ign app] in H. rewrite Nat2Z.inj_succ, <- Z.add_1_r in H. exact H. Qed.
Lemma eq_done v : pv_eq (PV v) (PV (VStr (s "DONE"))) = Val (match v with VStr x => str_eqb x (s "DONE") | _ => false end).
Proof. destruct v; reflexivity. Qed.
Lemma class_taskList ty ve tx a co ma : class_ok2 (Node KtaskList ty ve tx a co ma).
Proof.
  lclass_ E m_NodeTaskList_to_markdown k HF HK HG HAC level ign. rewrite times_run. py. field_of HF co HCF HCP. rewrite freeze_slot. unfold task_list_md.
  the_loop co (fun acc (j : pv * pv * pv * pv * pv * pv * pv) => let '(item, cp, nd, md, ic, cb, ln) := j in
       [("self", PN (Node KtaskList ty ve tx a co ma)); ("level", PV (VInt (Z.of_nat level))); ("ignore_error", PV (VBool ign));
         ("lines", PL true (map PV acc));
         ("indent", PV (VStr (repeat_nat (s "    ") level))); ("item", item); ("content_parts", cp); ("node", nd); ("md", md); ("e", PUnbound); ("item_content", ic);
         ("checkbox", cb); ("line", ln)])
    (fun item : node => if is_type_of item [s "taskItem"] then do l <- task_item_line (to_md E) level ign item; Ok [l]
                        else if is_type_of item [s "taskList"] then try_ ign (to_md E item (Some (S level)) ign) else Ok [])
    (@Err (list value) AttributeError)
    (@nil value) (PUnbound, PUnbound, PUnbound, PUnbound, PUnbound, PUnbound, PUnbound) HCF HCP HR.
  - intros l ->. specialize (HG l eq_refl) as HC. pose proof (kids_at E _ (S (S (S k))) _ HK ltac:(lia) l eq_refl) as HKL. apply fits_children in HF.
    rewrite Forall_forall in HC, HF, HKL |- *. intros n HI acc [[[[[[item cp] nd] md] ic] cb] ln]. specialize (HC n HI). specialize (HF n HI). specialize (HKL n HI). py.
    rewrite type1. py. destruct (is_type_of n [s "taskItem"]); py.
    + unfold task_item_line. pose proof (fits_attrs_class _ HF) as HAN. set (ci := n_content n) in *. assert (HCP' : proper_slot ci) by (apply fits_proper; exact HF).
      assert (ci = NoField \/ has_field ci) as [HN|HCF']; [destruct ci; [now left|right; discriminate..]|rewrite HN; cbn [slot_value]; py; eexists; reflexivity|].
      rewrite (get_slot PNs ci HCF'). py. rewrite freeze_slot.
      set (lines := map PV acc). set (self := PN (Node KtaskList ty ve tx a (Items l) ma)).
      the_loop ci (fun acc (j : pv * pv) => [("self", self); ("level", PV (VInt (Z.of_nat level))); ("ignore_error", PV (VBool ign));
         ("lines", PL true lines);
         ("indent", PV (VStr (repeat_nat (s "    ") level))); ("item", PN n); ("content_parts", PL true (map PV acc)); ("node", fst j); ("md", snd j); ("e", PUnbound); ("item_content", ic);
         ("checkbox", cb); ("line", ln)])
      (fun nd : node => try_ ign (to_md E nd None false))
      (try_ ign (@Err value AttributeError)) (@nil value) (nd, md) HCF' HCP' HR.
      * intros l2 HL2. pose proof (kids_at E _ (S (S (S k))) _ HC ltac:(lia) l2 HL2) as HC2. revert HC2. apply Forall_impl. intros n2 HN2 acc2 [nd2 md2]. cbn [fst snd].
        py. rewrite (child0 _ _ _ HN2). destruct (to_md E n2 None false) as [v|e]; cbn [rmap rbind try_]; py.
        -- eexists (_, _). left. rewrite map_app. reflexivity.
        -- destruct ign; py; [eexists (_, _); left; rewrite app_nil_r; reflexivity|eexists; reflexivity].
      * intros x acc2 [nd2 md2]. cbn [fst snd]. py. destruct ign; py; cbn [try_]; [eexists (_, _); left; rewrite app_nil_r; reflexivity|eexists; reflexivity].
      * destruct (loop ci _ _) as [xs|e]; [|destruct HR as [en HR]; rewrite HR; eexists; reflexivity]. destruct HR as [[nd2 md2] HR]. rewrite HR. clear HR.
        py. rewrite as_strs_pv. cbn [app rbind]. unfold join_values. destruct (mapM as_str xs) as [ys|e]; cbn [rbind]; [|py; eexists; reflexivity].
        py. fieldr HAN "state". destruct (attr (n_attrs n) (s "state")) as [st|e]; cbn [rmap of_res obind withv rbind]; [|eexists; reflexivity].
        cbn [compare]. rewrite eq_done. py.
        assert (HCB : match st with VStr x => if str_eqb x (s "DONE") then s "[x]" else s "[ ]" | _ => s "[ ]" end =
                      if match st with VStr x => str_eqb x (s "DONE") | _ => false end then s "[x]" else s "[ ]") by now destruct st.
        cbv zeta. rewrite HCB. destruct (match st with VStr x => str_eqb x (s "DONE") | _ => false end); py.
        all: eexists (_, _, _, _, _, _, _); left; rewrite map_app; reflexivity.
    + rewrite type1. py. destruct (is_type_of n [s "taskList"]); py; [|eexists (_, _, _, _, _, _, _); left; rewrite app_nil_r; reflexivity].
      rewrite (child_task _ _ _ _ HKL). destruct (to_md E n (Some (S level)) ign) as [v|e]; cbn [rmap rbind try_]; py.
      * eexists (_, _, _, _, _, _, _). left. rewrite map_app. reflexivity.
      * destruct ign; py; [eexists (_, _, _, _, _, _, _); left; rewrite app_nil_r; reflexivity|eexists; reflexivity].
  - intros x acc [[[[[[item cp] nd] md] ic] cb] ln]. py. eexists; reflexivity.
  - destruct (loop co _ _) as [xs|e]; [|destruct HR as [en HR]; rewrite HR; reflexivity]. destruct HR as [[[[[[[item cp] nd] md] ic] cb] ln] HR]. rewrite HR.
    py. rewrite as_strs_pv. cbn [app rbind]. unfold join_values. destruct (mapM as_str xs); reflexivity.
Qed.
End Lists2.
