(** Running the source text (RepoCode.v): the helpers of markdown_helpers.py and type_enum.py. *)
From Coq Require Import List NArith ZArith Bool String Lia.
From Verif Require Import PyStr Values Schema Parse Date Markdown Basics PySyntax PySem RepoCode CodeFacts.
Import ListNotations.
Open Scope string_scope.
Open Scope list_scope.

(** Objects as from_dict makes them: the fields that the class declares, and no others. *)
Definition fits_attrs (o : option (list (str * fkind))) (a : attrs) : Prop :=
  match o, a with
  | None, NoAttrs | Some _, AOpt => True
  | Some fs, AObj l => map fst l = map fst fs
  | _, _ => False
  end.
Definition fits_slot {A} (fk : option fkind) (c : slot A) : Prop :=
  match fk, c with
  | None, NoField => True
  | Some _, NoField => False
  | Some _, c => proper_slot c
  | _, _ => False
  end.
Definition fits_mark (m : mark) : Prop := fits_attrs (mk_attrs (m_kind m)) (m_attrs m).
Inductive fits : node -> Prop :=
| fits_intro k ty ve tx a co ma :
    (if nc_text (nk_class k) then exists t, tx = Some t else tx = None) ->
    fits_attrs (option_map snd (nc_attrs (nk_class k))) a ->
    fits_slot (nc_content (nk_class k)) co ->
    fits_slot (nc_marks (nk_class k)) ma ->
    (forall l, co = Items l -> Forall fits l) ->
    (forall l, ma = Items l -> Forall fits_mark l) ->
    fits (Node k ty ve tx a co ma).

Section Run.
Variable E : runtime.
Notation CL k := (call E repo node_cls mark_cls k).
Notation GA := (get_attr repo node_cls mark_cls).

(** ---------------------------------------------------------------- methods *)
Lemma call_fun k q f args kws : assoc q (p_funs repo) = Some f ->
  CL (S k) (PFun q) args kws = run_func E repo node_cls mark_cls (CL k) f args kws.
Proof. intros H. cbn [call]. now rewrite H. Qed.
Lemma call_bound k o m f args kws : method repo node_cls mark_cls o m = Some f ->
  CL (S k) (PBound o m) args kws = run_func E repo node_cls mark_cls (CL k) f (o :: args) kws.
Proof. intros H. cbn [call]. now rewrite H. Qed.

(** ---------------------------------------------------------------- is_type_of *)
Lemma any_eq_type ty l : any_eq (PV ty) (map (fun x => PV (VStr x)) l) = Val (check_type_match ty l).
Proof.
  induction l as [|x l IH]; [now destruct ty|]. cbn [map any_eq pv_eq]. destruct ty; cbn [py_eq obind]; try exact IH.
  destruct (str_eqb x0 x) eqn:D; cbn [check_type_match existsb]; rewrite D; [reflexivity|exact IH].
Qed.
Definition enums (l : list string) : pv := match l with [x] => PEnum x | _ => PL false (map PEnum l) end.
Lemma check1 k ty x : CL (S k) (PFun "type_enum.check_type_match") [PV ty; PEnum x] [] = Val (PV (VBool (check_type_match ty [s x]))).
Proof.
  rewrite (call_fun k _ f_check_type_match) by reflexivity. enter f_check_type_match. py. cbn [py_in]. pose proof (any_eq_type ty [s x]) as H; cbn [map] in H; rewrite H. reflexivity.
Qed.
Lemma check3 k ty a b c : CL (S k) (PFun "type_enum.check_type_match") [PV ty; PL false [PEnum a; PEnum b; PEnum c]] [] =
  Val (PV (VBool (check_type_match ty [s a; s b; s c]))).
Proof.
  rewrite (call_fun k _ f_check_type_match) by reflexivity. enter f_check_type_match. py. cbn [py_in]. pose proof (any_eq_type ty [s a; s b; s c]) as H; cbn [map] in H; rewrite H. reflexivity.
Qed.
Lemma node_is_type_of_method n : method repo node_cls mark_cls (PN n) "is_type_of" = Some m_BaseMarkOrNode_is_type_of.
Proof. destruct n as [k]; destruct k; vm_compute; reflexivity. Qed.
Lemma type1 k n x : CL (S (S k)) (PBound (PN n) "is_type_of") [PEnum x] [] = Val (PV (VBool (is_type_of n [s x]))).
Proof.
  rewrite (call_bound _ _ _ _ _ _ (node_is_type_of_method n)). enter m_BaseMarkOrNode_is_type_of. py. rewrite check1. reflexivity.
Qed.
Lemma type3 k n a b c : CL (S (S k)) (PBound (PN n) "is_type_of") [PL false [PEnum a; PEnum b; PEnum c]] [] =
  Val (PV (VBool (is_type_of n [s a; s b; s c]))).
Proof.
  rewrite (call_bound _ _ _ _ _ _ (node_is_type_of_method n)). enter m_BaseMarkOrNode_is_type_of. py. rewrite check3. reflexivity.
Qed.

(** ---------------------------------------------------------------- strip_double_empty_line *)
Lemma strip_run k x : CL (S k) (PFun "markdown_helpers.strip_double_empty_line") [PV (VStr x)] [] = Val (PV (VStr (strip_double_empty_line x))).
Proof.
  rewrite (call_fun k _ f_strip_double_empty_line) by reflexivity. enter f_strip_double_empty_line. py.
  change (seq 0 (Z.to_nat 3)) with [0; 1; 2]%nat. cbn [iterate]. py. reflexivity.
Qed.

(** ---------------------------------------------------------------- content_to_markdown *)
Definition kw_lv (lv : option nat) : list (string * pv) := match lv with Some l => [("level", PV (VInt (Z.of_nat l)))] | None => [] end.
Definition child_ok (k : nat) (n : node) : Prop :=
  forall lv oi, CL k (PBound (PN n) "to_markdown") [] (kw_lv lv ++ kw_ign oi) = of_res (rmap PV (to_md E n lv (ign_of oi))).
Definition children_ok (k : nat) (c : slot node) : Prop := forall l, c = Items l -> Forall (child_ok k) l.
Lemma read_slot {A} (mk : list A -> pv) (c : slot A) : has_field c -> (forall l, match mk l with PUnbound | PL _ _ => False | _ => True end) ->
  match slotv mk c with PUnbound => Wrong | _ => Val (borrow (slotv mk c)) end = Val (slotv mk c).
Proof. intros HF HM. destruct c as [| |l|v]; [now contradiction HF| |cbn [slotv]; specialize (HM l); destruct (mk l); try contradiction|]; reflexivity. Qed.
Lemma read_content (c : slot node) : has_field c -> match slotv PNs c with PUnbound => Wrong | _ => Val (borrow (slotv PNs c)) end = Val (slotv PNs c).
Proof. intros HF. now apply read_slot. Qed.
Lemma not_opt (c : slot node) : has_field c -> proper_slot c -> c <> SOpt ->
  compare CIs (slotv PNs c) (PV VOpt) = Val false.
Proof. intros HF HP HO. destruct c as [| |l|v]; [now contradiction HF|now contradiction HO|reflexivity|]. destruct v; try contradiction; reflexivity. Qed.
Lemma get_slot {A} (mk : list A -> pv) (c : slot A) : has_field c -> slot_value mk c = Val (slotv mk c).
Proof. intros HF. destruct c; [now contradiction HF| | |]; reflexivity. Qed.
Lemma child0 k n : child_ok k n -> CL k (PBound (PN n) "to_markdown") [] [] = of_res (rmap PV (to_md E n None false)).
Proof. intros H. exact (H None None). Qed.
Lemma as_strs_pv l : as_strs (map PV l) = of_res (mapM as_str l).
Proof.
  induction l as [|v l IH]; [reflexivity|]. unfold as_strs in *. cbn [map omap mapM]. fold (mapM as_str). rewrite IH.
  destruct v; cbn [as_str obind rbind of_res]; try reflexivity. now destruct (mapM as_str l).
Qed.

Ltac the_loop c inv f raw acc0 j0 HF HP HR :=
  match goal with |- context [withv ?en ?e (fun vs => iterate ?st vs ?en)] =>
    assert (HR : ran inv (loop c f raw) acc0 (withv en e (fun vs => iterate st vs en)));
    [refine (loop_run c inv st f raw HF HP _ _ acc0 j0)|]
  end.
Lemma content_run k c ign : has_field c -> proper_slot c -> children_ok k c ->
  CL (S k) (PFun "markdown_helpers.content_to_markdown") [] [("content", slotv PNs c); ("ignore_error", PV (VBool ign))] =
  of_res (rmap (fun x => PV (VStr x)) (content_to_markdown (to_md E) c ign)).
Proof.
  intros HF HP HC. rewrite (call_fun k _ f_content_to_markdown) by reflexivity. enter f_content_to_markdown. py.
  assert (c = SOpt \/ c <> SOpt) as [-> | HO]; [destruct c; auto; right; discriminate|py; reflexivity|].
  rewrite (read_content c HF). cbn [obind]. rewrite (not_opt c HF HP HO). py. rewrite freeze_slot.
  the_loop c (fun acc (j : pv * pv) => [("content", slotv PNs c); ("concat", PV (VStr [])); ("ignore_error", PV (VBool ign)); ("lst", PL true (map PV acc));
                        ("node", fst j); ("md", snd j); ("e", PUnbound)])
                (fun n => try_ ign (to_md E n None false)) (try_ ign (@Err value AttributeError)) (@nil value) (PUnbound, PUnbound) HF HP HR.
  - intros l ->. specialize (HC l eq_refl). revert HC. apply Forall_impl. intros n HN acc j. py. rewrite (child0 _ _ HN).
    destruct (to_md E n None false) as [v|e]; cbn [rmap try_]; py.
    + exists (PN n, PV v). left. now rewrite map_app.
    + destruct ign; py; [exists (PN n, snd j); left; now rewrite app_nil_r|eexists; reflexivity].
  - intros x acc j. py. destruct ign; py; cbn [try_]; [exists (PV (VStr x), snd j); left; now rewrite app_nil_r|eexists; reflexivity].
  - assert (content_to_markdown (to_md E) c ign = do lst <- loop c (fun n => try_ ign (to_md E n None false)) (try_ ign (Err AttributeError)); join_values [] lst) as ->
      by now destruct c.
    destruct (loop c (fun n => try_ ign (to_md E n None false)) (try_ ign (Err AttributeError))) as [xs|e]; destruct HR as [j ->]; [|reflexivity].
    py. rewrite as_strs_pv. cbn [app]. unfold join_values. destruct (mapM as_str xs); reflexivity.
Qed.
(** ---------------------------------------------------------------- doc_content_to_markdown *)
Lemma doc_run k c ign args kws : has_field c -> proper_slot c -> children_ok (S (S k)) c ->
  (args = [] /\ kws = [("content", slotv PNs c); ("ignore_error", PV (VBool ign))] \/ args = [slotv PNs c] /\ kws = [("ignore_error", PV (VBool ign))]) ->
  CL (S (S (S k))) (PFun "markdown_helpers.doc_content_to_markdown") args kws =
  of_res (rmap (fun x => PV (VStr x)) (doc_content_to_markdown (to_md E) c ign)).
Proof.
  intros HF HP HC HA. rewrite (call_fun _ _ f_doc_content_to_markdown) by reflexivity.
  assert (run_func E repo node_cls mark_cls (CL (S (S k))) f_doc_content_to_markdown args kws =
          run_func E repo node_cls mark_cls (CL (S (S k))) f_doc_content_to_markdown [] [("content", slotv PNs c); ("ignore_error", PV (VBool ign))]) as ->
    by now destruct HA as [[-> ->]|[-> ->]].
  clear args kws HA. enter f_doc_content_to_markdown. py.
  assert (c = SOpt \/ c <> SOpt) as [-> | HO]; [destruct c; auto; right; discriminate|py; reflexivity|].
  rewrite (read_content c HF). cbn [obind]. rewrite (not_opt c HF HP HO). py. rewrite freeze_slot.
  the_loop c (fun acc (j : pv * pv) => [("content", slotv PNs c); ("concat", PV (VStr nl)); ("ignore_error", PV (VBool ign)); ("lst", PL true (map PV acc));
                        ("node", fst j); ("md", snd j); ("e", PUnbound)])
                (fun n => try_ ign (block_md (to_md E) n)) (try_ ign (@Err value AttributeError)) (@nil value) (PUnbound, PUnbound) HF HP HR.
  - intros l ->. specialize (HC l eq_refl). revert HC. apply Forall_impl. intros n HN acc j. py. rewrite type3. unfold block_md, padded.
    destruct (is_type_of n [s "bulletList"; s "orderedList"; s "codeBlock"]); py; rewrite (child0 _ _ HN).
    + destruct (to_md E n None false) as [v|e]; cbn [rmap try_ rbind of_res obind].
      * destruct v; cbn [as_str rbind]; py;
          try (destruct ign; py; cbn [try_]; [exists (PN n, snd j); left; now rewrite app_nil_r|eexists; reflexivity]).
        exists (PN n, PV (VStr (nl ++ x ++ nl))). left. rewrite map_app. reflexivity.
      * py. destruct ign; py; [exists (PN n, snd j); left; now rewrite app_nil_r|eexists; reflexivity].
    + destruct (to_md E n None false) as [v|e]; cbn [rmap try_]; py.
      * exists (PN n, PV v). left. now rewrite map_app.
      * destruct ign; py; [exists (PN n, snd j); left; now rewrite app_nil_r|eexists; reflexivity].
  - intros x acc j. py. destruct ign; py; cbn [try_]; [exists (PV (VStr x), snd j); left; now rewrite app_nil_r|eexists; reflexivity].
  - assert (doc_content_to_markdown (to_md E) c ign = do lst <- loop c (fun n => try_ ign (block_md (to_md E) n)) (try_ ign (Err AttributeError));
              do x <- join_values nl lst; Ok (strip_double_empty_line x)) as -> by now destruct c.
    destruct (loop c (fun n => try_ ign (block_md (to_md E) n)) (try_ ign (Err AttributeError))) as [xs|e]; destruct HR as [j ->]; [|reflexivity].
    py. rewrite as_strs_pv. cbn [app]. unfold join_values. destruct (mapM as_str xs); [|reflexivity]. py. rewrite strip_run. reflexivity.
Qed.
End Run.
