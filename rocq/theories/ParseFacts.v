(** Proofs about parsing. *)
From Coq Require Import List NArith ZArith Bool String Lia.
From Verif Require Import PyStr Values Schema Parse Basics SpecParse.
Import ListNotations.
Open Scope string_scope.
Open Scope list_scope.

(** ---------------------------------------------------------------- registered types *)
Lemma mem_In x l : mem x l = true <-> In x l.
Proof.
  unfold mem. rewrite existsb_exists. split.
  - intros [y [HI HE]]. apply str_eqb_eq in HE. now subst.
  - intros H. exists x. split; [exact H|apply str_eqb_refl].
Qed.

Lemma registry_get_missing {A} (name : A -> str) all ty :
  registry_get name all ty = Missing <->
  match ty with
  | VStr t => mem t (map name all) = false
  | VList _ | VDict _ => False
  | _ => True
  end.
Proof.
  destruct ty; cbn; try tauto; try (split; [discriminate|tauto]).
  destruct (find _ all) as [k|] eqn:F.
  - split; [discriminate|]. intros H. apply find_some in F as [HI HE].
    apply str_eqb_eq in HE. subst.
    assert (In (name k) (map name all)) as HM by (now apply in_map).
    apply mem_In in HM. congruence.
  - split; [|reflexivity]. intros _. destruct (mem x (map name all)) eqn:E; [|reflexivity].
    apply mem_In in E. apply in_map_iff in E as [k [HE HI]].
    apply (find_none _ _ F) in HI. rewrite HE, str_eqb_refl in HI. discriminate.
Qed.

Lemma unregistered_iff {A} (name : A -> str) all v :
  unregistered (map name all) v = true <->
  exists d ty, v = VDict d /\ lookup (s "type") d = Some ty /\ registry_get name all ty = Missing.
Proof.
  unfold unregistered, elem_type. split.
  - destruct v; try discriminate. intros H.
    destruct (lookup (s "type") d) as [ty|] eqn:L; [|discriminate].
    exists d, ty. repeat split; [exact L|]. apply registry_get_missing.
    destruct ty; try exact I; try discriminate. now apply negb_true_iff in H.
  - intros (d & ty & -> & L & R). rewrite L. apply registry_get_missing in R.
    destruct ty; try reflexivity; try contradiction. now rewrite R.
Qed.

Lemma parse_node_unregistered w v :
  unregistered node_names v = true -> parse_node w v = raise (Unimplemented CNode (type_of_elem v)).
Proof.
  intros H. apply unregistered_iff in H as (d & ty & -> & L & R).
  rewrite parse_node_dict, L. unfold node_class_of. rewrite R.
  unfold type_of_elem, elem_type. now rewrite L.
Qed.
Lemma parse_mark_unregistered v :
  unregistered mark_names v = true -> parse_mark v = Err (Unimplemented CMark (type_of_elem v)).
Proof.
  intros H. apply unregistered_iff in H as (d & ty & -> & L & R).
  unfold parse_mark. rewrite L. unfold mark_class_of. rewrite R.
  unfold type_of_elem, elem_type. now rewrite L.
Qed.

(** ---------------------------------------------------------------- no UnimplementedTypeError escapes *)
Definition not_unimpl {A} (r : res A) : Prop := forall c ty, r <> Err (Unimplemented c ty).

Lemma attrs_from_dict_nu fs v : not_unimpl (attrs_from_dict fs v).
Proof.
  intros c ty. unfold attrs_from_dict. destruct v; try discriminate.
  destruct (missing is_Pos fs d); [discriminate|]. destruct (missing is_Req fs d); discriminate.
Qed.
Lemma mark_from_dict_nu k v : not_unimpl (mark_from_dict k v).
Proof.
  intros c ty. unfold mark_from_dict. destruct v; try discriminate.
  destruct (mk_attrs k); [|discriminate].
  destruct (lookup _ d) as [a|]; [|discriminate].
  destruct (attrs_from_dict l a) eqn:E; cbn; [discriminate|].
  intros [= ->]. now apply (attrs_from_dict_nu l a c ty).
Qed.
Lemma parse_mark_nu v : unregistered mark_names v = false -> not_unimpl (parse_mark v).
Proof.
  intros U c ty. unfold parse_mark. destruct v; try discriminate.
  destruct (lookup (s "type") d) as [t|] eqn:L; [|discriminate].
  destruct (mark_class_of t) as [k| |] eqn:R; [apply mark_from_dict_nu| |discriminate].
  exfalso. enough (unregistered mark_names (VDict d) = true) by congruence.
  apply unregistered_iff. eauto.
Qed.
Lemma collect_nu {A} w (ms : list (M A)) : not_unimpl (snd (collect w ms)).
Proof.
  intros c ty. induction ms as [|[lg [a|e]] ms IH]; [discriminate| |].
  - cbn. destruct (collect w ms) as [lg' [l|e]]; cbn in *; [discriminate|exact IH].
  - cbn. destruct e; try discriminate. cbn.
    destruct (collect w ms) as [lg' [l|e]]; cbn in *; [discriminate|exact IH].
Qed.
Lemma run_entry_nu {A} w (e : entry A) : not_unimpl (snd (run_entry w e)).
Proof.
  intros c ty. destruct e as [|ms|v]; cbn; [discriminate| |destruct v; discriminate].
  pose proof (collect_nu w ms c ty) as H.
  destruct (collect w ms) as [lg [l|e]]; cbn in *; congruence.
Qed.
Lemma attrs_entry_nu c d : not_unimpl (attrs_entry c d).
Proof.
  intros x ty. unfold attrs_entry. destruct (nc_attrs c) as [[fk fs]|]; [|discriminate].
  destruct (lookup _ d) as [a|]; [|discriminate].
  pose proof (attrs_from_dict_nu fs a x ty) as H. destruct (attrs_from_dict fs a); cbn; congruence.
Qed.
Lemma construct_err k d oa oc om e : construct k d oa oc om = Err e -> e = ParamError.
Proof.
  unfold construct.
  destruct (if nc_text (nk_class k) then _ else _) as [tx|e1] eqn:E1; cbn.
  2:{ destruct (nc_text _); [destruct (lookup _ d)|]; congruence. }
  destruct (attrs_field (nk_class k) oa) as [a|e2] eqn:E2; cbn.
  2:{ unfold attrs_field in E2. destruct (nc_attrs _) as [[fk fs]|]; [|discriminate].
      destruct oa; [discriminate|]. destruct fk; congruence. }
  destruct (slot_field (nc_content _) oc) as [co|e3] eqn:E3; cbn.
  2:{ unfold slot_field in E3. destruct (nc_content _) as [fk|]; [|discriminate].
      destruct oc; [discriminate|]. destruct fk; congruence. }
  destruct (slot_field (nc_marks _) om) as [ma|e4] eqn:E4; cbn; [discriminate|].
  unfold slot_field in E4. destruct (nc_marks _) as [fk|]; [|discriminate].
  destruct om; [discriminate|]. destruct fk; congruence.
Qed.
Lemma node_from_entry_nu w k d ce : not_unimpl (snd (node_from_entry w k d ce)).
Proof.
  intros c ty. unfold node_from_entry, lift.
  pose proof (attrs_entry_nu (nk_class k) d c ty) as H1.
  destruct (attrs_entry (nk_class k) d) as [oa|e]; cbn; [|congruence].
  pose proof (run_entry_nu w ce c ty) as H2.
  destruct (run_entry w ce) as [lg [oc|e]]; cbn in *; [|congruence].
  pose proof (run_entry_nu w (marks_entry d) c ty) as H3.
  destruct (run_entry w (marks_entry d)) as [lg' [om|e]]; cbn in *; [|congruence].
  destruct (construct k d oa oc om) eqn:E; [discriminate|].
  apply construct_err in E. congruence.
Qed.
Lemma from_dict_nu w k v : not_unimpl (snd (from_dict w k v)).
Proof.
  intros c ty. unfold from_dict. destruct v; try discriminate. apply node_from_entry_nu.
Qed.
Lemma parse_node_nu w v : unregistered node_names v = false -> not_unimpl (snd (parse_node w v)).
Proof.
  intros U c ty. destruct v; try discriminate. rewrite parse_node_dict.
  destruct (lookup (s "type") d) as [t|] eqn:L; [|discriminate].
  destruct (node_class_of t) as [k| |] eqn:R; [apply from_dict_nu| |discriminate].
  exfalso. enough (unregistered node_names (VDict d) = true) by congruence.
  apply unregistered_iff. eauto.
Qed.
Lemma parse_node_unimpl_iff w v c ty :
  snd (parse_node w v) = Err (Unimplemented c ty) <->
  unregistered node_names v = true /\ c = CNode /\ ty = type_of_elem v.
Proof.
  split.
  - intros H. destruct (unregistered node_names v) eqn:U.
    + rewrite parse_node_unregistered in H by exact U. cbn in H. injection H as <- <-. auto.
    + exfalso. exact (parse_node_nu w v U c ty H).
  - intros (U & -> & ->). now rewrite parse_node_unregistered.
Qed.

(** ---------------------------------------------------------------- collect, one element at a time *)
Lemma collect_cons {A} w (m : M A) ms :
  collect w (m :: ms) =
  match m with
  | (lg, Err (Unimplemented c ty)) =>
      let (lg', r) := collect w ms in ((lg ++ (if w then [Warn c ty] else [])) ++ lg', r)
  | (lg, Err e) => (lg, Err e)
  | (lg, Ok a) =>
      match collect w ms with
      | (lg', Ok l) => (lg ++ lg', Ok (a :: l))
      | (lg', Err e) => (lg ++ lg', Err e)
      end
  end.
Proof.
  destruct m as [lg [a|e]].
  - cbn. destruct (collect w ms) as [lg' [l|e]]; cbn; [now rewrite !app_nil_r|reflexivity].
  - destruct e; try reflexivity.
Qed.

(** ---------------------------------------------------------------- logs *)
(** [lg] is what may have been logged for the deletions [all] when the outcome is [r]:
    nothing if the flag is off; if on, all of them on success and a prefix on failure. *)
Definition log_ok {A} (w : bool) (lg all : list warning) (r : res A) : Prop :=
  if w then exists rest, all = lg ++ rest /\ (forall a, r = Ok a -> rest = [])
  else lg = [].

Lemma log_ok_nil {A} w (r : res A) : log_ok w [] [] r.
Proof. destruct w; cbn; [exists []; auto|reflexivity]. Qed.
Lemma log_ok_nil_err {A} w all e : @log_ok A w [] all (Err e).
Proof. destruct w; cbn; [exists all; split; [reflexivity|discriminate]|reflexivity]. Qed.
Lemma log_ok_app {A B} w lg1 a1 (x : A) lg2 a2 (r : res B) :
  log_ok w lg1 a1 (Ok x) -> log_ok w lg2 a2 r -> log_ok w (lg1 ++ lg2) (a1 ++ a2) r.
Proof.
  destruct w; cbn.
  - intros (r1 & -> & H1) (r2 & -> & H2). rewrite (H1 x eq_refl), app_nil_r.
    exists r2. split; [now rewrite app_assoc|exact H2].
  - intros -> ->. reflexivity.
Qed.
Lemma log_ok_stop {A B} w lg a1 a2 e :
  @log_ok A w lg a1 (Err e) -> @log_ok B w lg (a1 ++ a2) (Err e).
Proof.
  destruct w; cbn; [|auto].
  intros (r & -> & _). exists (r ++ a2). split; [now rewrite app_assoc|discriminate].
Qed.
Lemma log_ok_res {A B} w lg all (a : A) (b : B) : log_ok w lg all (Ok a) -> log_ok w lg all (Ok b).
Proof. destruct w; cbn; [|auto]. intros (r & H1 & H2). exists r. split; [exact H1|]. intros; eauto. Qed.

Lemma log_ok_err {A B} w lg all e : @log_ok A w lg all (Err e) -> @log_ok B w lg all (Err e).
Proof. destruct w; cbn; [|auto]. intros (r & H1 & _). exists r. split; [exact H1|discriminate]. Qed.

(** ---------------------------------------------------------------- pruning *)
Lemma pruned_dict d :
  pruned (VDict d) =
  flat_map (fun y => if unregistered node_names y then [Warn CNode (type_of_elem y)] else pruned y)
           (list_at (s "content") d)
  ++ flat_map (fun y => if unregistered mark_names y then [Warn CMark (type_of_elem y)] else [])
              (list_at (s "marks") d).
Proof.
  cbn [pruned]. f_equal. unfold list_at.
  induction d as [|[k x] d IH]; [reflexivity|]. cbn [lookup].
  destruct (str_eqb k (s "content")); [destruct x; reflexivity|exact IH].
Qed.

Lemma prune_dict d :
  prune (VDict d) = VDict (map (fun e => (fst e, prune_entry prune (fst e) (snd e))) d).
Proof. cbn [prune]. f_equal. apply map_ext. now intros [k x]. Qed.

Lemma lookup_pruned key d :
  lookup key (map (fun e => (fst e, prune_entry prune (fst e) (snd e))) d) =
  match lookup key d with Some v => Some (prune_entry prune key v) | None => None end.
Proof. exact (lookup_map (fun k v => prune_entry prune k v) key d). Qed.

Lemma prune_entry_other key x :
  str_eqb key (s "content") = false -> str_eqb key (s "marks") = false -> prune_entry prune key x = x.
Proof. unfold prune_entry. now intros -> ->. Qed.

Ltac look d key :=
  rewrite (lookup_pruned (s key) d);
  destruct (lookup (s key) d) as [?v|] eqn:?; [rewrite (prune_entry_other (s key)) by reflexivity|].

Lemma construct_same k d d' oa oc om :
  (forall key, In key [s "type"; s "text"; s "version"] -> lookup key d' = lookup key d) ->
  construct k d' oa oc om = construct k d oa oc om.
Proof.
  intros H. unfold construct, type_field.
  rewrite !H by (cbn; tauto). reflexivity.
Qed.
Lemma attrs_entry_same c d d' :
  lookup (s "attrs") d' = lookup (s "attrs") d -> attrs_entry c d' = attrs_entry c d.
Proof. intros H. unfold attrs_entry. now rewrite H. Qed.

Lemma lookup_prune_same key d :
  In key [s "type"; s "text"; s "version"; s "attrs"] ->
  lookup key (map (fun e => (fst e, prune_entry prune (fst e) (snd e))) d) = lookup key d.
Proof.
  intros H. rewrite lookup_pruned. destruct (lookup key d) as [v|]; [|reflexivity].
  f_equal. cbn [In] in H.
  decompose [or] H; try contradiction; subst key; apply prune_entry_other; reflexivity.
Qed.

(** Marks list. *)
Lemma collect_marks w w' l lg r :
  collect w (map (fun v => lift (parse_mark v)) l) = (lg, r) ->
  collect w' (map (fun v => lift (parse_mark v)) (filter (fun y => negb (unregistered mark_names y)) l)) = ([], r)
  /\ log_ok w lg (flat_map (fun y => if unregistered mark_names y then [Warn CMark (type_of_elem y)] else []) l) r.
Proof.
  revert lg r. induction l as [|v l IH]; intros lg r H.
  - cbn in H. injection H as <- <-. split; [reflexivity|apply log_ok_nil].
  - cbn [map] in H. rewrite collect_cons in H. cbn [filter flat_map].
    destruct (unregistered mark_names v) eqn:U; cbn [negb].
    + rewrite (parse_mark_unregistered _ U) in H. cbn in H.
      destruct (collect w (map _ l)) as [lg' r'] eqn:E. injection H as <- <-.
      destruct (IH _ _ eq_refl) as [IH1 IH2]. split; [exact IH1|].
      apply (log_ok_app w _ _ tt); [|exact IH2]. destruct w; cbn; [exists []; auto|reflexivity].
    + pose proof (parse_mark_nu v U) as NU. cbn [map]. rewrite collect_cons.
      unfold lift in H |- *. destruct (parse_mark v) as [m|e].
      * destruct (collect w (map _ l)) as [lg' r'] eqn:E.
        destruct (IH _ _ eq_refl) as [IH1 IH2]. unfold lift in IH1. rewrite IH1.
        destruct r' as [ms|e]; injection H as <- <-; cbn [app]; (split; [reflexivity|]).
        -- eapply log_ok_res. exact IH2.
        -- exact IH2.
      * destruct e; try (injection H as <- <-; split; [reflexivity|apply log_ok_nil_err]).
        exfalso. exact (NU _ _ eq_refl).
Qed.

(** Content list, given the claim for its elements. *)
Definition prune_claim (v : value) : Prop :=
  forall w w' lg r, parse_node w v = (lg, r) ->
    parse_node w' (prune v) = ([], r) /\ log_ok w lg (pruned v) r.

Lemma collect_content w w' l lg r :
  Forall prune_claim l ->
  collect w (map (parse_node w) l) = (lg, r) ->
  collect w' (map (parse_node w') (flat_map (fun y => if unregistered node_names y then [] else [prune y]) l)) = ([], r)
  /\ log_ok w lg (flat_map (fun y => if unregistered node_names y then [Warn CNode (type_of_elem y)] else pruned y) l) r.
Proof.
  intros HF. revert lg r. induction HF as [|v l HV HF IH]; intros lg r H.
  - cbn in H. injection H as <- <-. split; [reflexivity|apply log_ok_nil].
  - cbn [map] in H. rewrite collect_cons in H. cbn [flat_map].
    destruct (unregistered node_names v) eqn:U.
    + rewrite (parse_node_unregistered w _ U) in H. cbn in H.
      destruct (collect w (map _ l)) as [lg' r'] eqn:E. injection H as <- <-.
      destruct (IH _ _ eq_refl) as [IH1 IH2]. split; [exact IH1|].
      apply (log_ok_app w _ _ tt); [|exact IH2]. destruct w; cbn; [exists []; auto|reflexivity].
    + pose proof (parse_node_nu w v U) as NU. cbn [app map]. rewrite collect_cons.
      destruct (parse_node w v) as [lv rv] eqn:EV.
      destruct (HV w w' lv rv EV) as [HV1 HV2]. rewrite HV1.
      destruct rv as [n|e].
      * destruct (collect w (map _ l)) as [lg' r'] eqn:E.
        destruct (IH _ _ eq_refl) as [IH1 IH2]. rewrite IH1.
        destruct r' as [ns|e]; injection H as <- <-; (split; [reflexivity|]).
        -- eapply log_ok_app; [exact HV2|]. eapply log_ok_res. exact IH2.
        -- eapply log_ok_app; [exact HV2|exact IH2].
      * destruct e; try (injection H as <- <-; split; [reflexivity|eapply log_ok_stop; exact HV2]).
        exfalso. exact (NU _ _ eq_refl).
Qed.

Lemma run_content w w' d lg r :
  (forall l, lookup (s "content") d = Some (VList l) -> Forall prune_claim l) ->
  run_entry w (content_entry w d) = (lg, r) ->
  run_entry w' (content_entry w' (map (fun e => (fst e, prune_entry prune (fst e) (snd e))) d)) = ([], r)
  /\ log_ok w lg (flat_map (fun y => if unregistered node_names y then [Warn CNode (type_of_elem y)] else pruned y)
                           (list_at (s "content") d)) r.
Proof.
  intros HF H. unfold content_entry, list_at in *. rewrite lookup_pruned.
  destruct (lookup (s "content") d) as [v|] eqn:L.
  2:{ cbn in H. injection H as <- <-. split; [reflexivity|apply log_ok_nil]. }
  unfold prune_entry. change (str_eqb (s "content") (s "content")) with true. cbn iota.
  destruct v; try (cbn in H; injection H as <- <-; split; [reflexivity|apply log_ok_nil]).
  cbn [run_entry] in *. specialize (HF _ eq_refl).
  destruct (collect w (map (parse_node w) l)) as [lg' r'] eqn:E.
  destruct (collect_content w w' l lg' r' HF E) as [H1 H2]. rewrite H1.
  destruct r' as [ns|e]; cbn in H; injection H as <- <-; (split; [reflexivity|]).
  - rewrite app_nil_r. eapply log_ok_res. exact H2.
  - eapply log_ok_err. exact H2.
Qed.

Lemma run_marks w w' d lg r :
  run_entry w (marks_entry d) = (lg, r) ->
  run_entry w' (marks_entry (map (fun e => (fst e, prune_entry prune (fst e) (snd e))) d)) = ([], r)
  /\ log_ok w lg (flat_map (fun y => if unregistered mark_names y then [Warn CMark (type_of_elem y)] else [])
                           (list_at (s "marks") d)) r.
Proof.
  intros H. unfold marks_entry, list_at in *. rewrite lookup_pruned.
  destruct (lookup (s "marks") d) as [v|] eqn:L.
  2:{ cbn in H. injection H as <- <-. split; [reflexivity|apply log_ok_nil]. }
  unfold prune_entry. change (str_eqb (s "marks") (s "content")) with false.
  change (str_eqb (s "marks") (s "marks")) with true. cbn iota.
  destruct v; try (cbn in H; injection H as <- <-; split; [reflexivity|apply log_ok_nil]).
  cbn [run_entry] in *.
  destruct (collect w (map _ l)) as [lg' r'] eqn:E.
  destruct (collect_marks w w' l lg' r' E) as [H1 H2]. rewrite H1.
  destruct r' as [ns|e]; cbn in H; injection H as <- <-; (split; [reflexivity|]).
  - rewrite app_nil_r. eapply log_ok_res. exact H2.
  - eapply log_ok_err. exact H2.
Qed.

Lemma from_dict_prune k d :
  (forall l, lookup (s "content") d = Some (VList l) -> Forall prune_claim l) ->
  forall w w' lg r, from_dict w k (VDict d) = (lg, r) ->
    from_dict w' k (prune (VDict d)) = ([], r) /\ log_ok w lg (pruned (VDict d)) r.
Proof.
  intros HF w w' lg r H. rewrite prune_dict, pruned_dict. cbn [from_dict] in *.
  unfold node_from_entry in *.
  rewrite (attrs_entry_same (nk_class k) d) by (apply lookup_prune_same; cbn; tauto).
  unfold lift in *. destruct (attrs_entry (nk_class k) d) as [oa|e]; cbn [bind] in *.
  2:{ injection H as <- <-. split; [reflexivity|apply log_ok_nil_err]. }
  destruct (run_entry w (content_entry w d)) as [lg1 r1] eqn:E1.
  destruct (run_content w w' d lg1 r1 HF E1) as [H1 L1]. rewrite H1.
  destruct r1 as [oc|e]; cbn [bind] in *.
  2:{ injection H as <- <-. split; [reflexivity|]. cbn [app]. eapply log_ok_stop. exact L1. }
  destruct (run_entry w (marks_entry d)) as [lg2 r2] eqn:E2.
  destruct (run_marks w w' d lg2 r2 E2) as [H2 L2]. rewrite H2.
  destruct r2 as [om|e]; cbn [bind app] in *.
  2:{ injection H as <- <-. split; [reflexivity|]. eapply log_ok_app; [exact L1|eapply log_ok_err; exact L2]. }
  rewrite (construct_same k d) by (intros key HK; apply lookup_prune_same; cbn in *; tauto).
  injection H as <- <-. split; [reflexivity|].
  rewrite app_nil_r. eapply log_ok_app; [exact L1|].
  destruct (construct k d oa oc om) as [n|e]; [eapply log_ok_res; exact L2|].
  destruct w; [|exact L2]. destruct L2 as (rest & -> & _).
  exists rest. split; [reflexivity|discriminate].
Qed.

Lemma prune_correct v : prune_claim v.
Proof.
  induction v as [v HX|d IH] using doc_ind; intros w w' lg r H.
  - rewrite parse_node_nondict in H by exact HX.
    injection H as <- <-. split; [|apply log_ok_nil_err].
    destruct v; try reflexivity. exfalso. eapply HX. reflexivity.
  - rewrite parse_node_dict in H. rewrite prune_dict.
    rewrite parse_node_dict. rewrite (lookup_prune_same (s "type")) by (cbn; tauto).
    destruct (lookup (s "type") d) as [ty|].
    2:{ injection H as <- <-. split; [reflexivity|apply log_ok_nil_err]. }
    destruct (node_class_of ty) as [k| |].
    + rewrite <- prune_dict. eapply from_dict_prune; [|exact H]. intros l HL. exact (IH _ _ HL).
    + injection H as <- <-. split; [reflexivity|apply log_ok_nil_err].
    + injection H as <- <-. split; [reflexivity|apply log_ok_nil_err].
Qed.

Lemma from_dict_prune_all k v w w' lg r :
  from_dict w k v = (lg, r) ->
  from_dict w' k (prune v) = ([], r) /\ log_ok w lg (pruned v) r.
Proof.
  destruct v; intros H; try (cbn in H; injection H as <- <-; split; [reflexivity|apply log_ok_nil_err]).
  eapply from_dict_prune; [|exact H]. intros l _. apply Forall_forall. intros v _. apply prune_correct.
Qed.
