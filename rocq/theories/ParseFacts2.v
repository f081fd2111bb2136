(** Proofs about parsing, second part: undeclared keys, acceptance, preservation. *)
From Coq Require Import List NArith ZArith Bool String Lia.
From Verif Require Import PyStr Values Schema Parse Basics SpecParse ParseFacts.
Import ListNotations.
Open Scope string_scope.
Open Scope list_scope.

(** ---------------------------------------------------------------- C01 *)
Lemma lookup_restrict keys (F : str -> value -> value) key d :
  lookup key (restrict keys (map (fun e => (fst e, F (fst e) (snd e))) d)) =
  if mem key keys then match lookup key d with Some v => Some (F key v) | None => None end else None.
Proof.
  unfold restrict. rewrite (lookup_filter (fun k => mem k keys)).
  now rewrite lookup_map.
Qed.
Lemma lookup_restrict_plain keys key d :
  lookup key (restrict keys d) = if mem key keys then lookup key d else None.
Proof. unfold restrict. apply (lookup_filter (fun k => mem k keys)). Qed.

Lemma attrs_from_dict_same fs d d' :
  (forall f, In f (map fst fs) -> lookup f d' = lookup f d) ->
  attrs_from_dict fs (VDict d') = attrs_from_dict fs (VDict d).
Proof.
  intros H. unfold attrs_from_dict.
  assert (HM : forall q, missing q fs d' = missing q fs d).
  { intros q. unfold missing. induction fs as [|[f fk] fs IH]; [reflexivity|]. cbn.
    unfold has. rewrite (H f) by (now left). f_equal. apply IH. intros g HG. apply H. now right. }
  rewrite !HM. destruct (missing is_Pos fs d); [reflexivity|]. destruct (missing is_Req fs d); [reflexivity|].
  f_equal. apply map_ext_in. intros f HF. rewrite H; [reflexivity|]. now apply in_map.
Qed.
Lemma attrs_from_dict_known fs v : attrs_from_dict fs (restrict_dict (map fst fs) v) = attrs_from_dict fs v.
Proof.
  destruct v; try reflexivity. cbn [restrict_dict]. apply attrs_from_dict_same.
  intros f HF. rewrite lookup_restrict_plain. apply mem_In in HF. now rewrite HF.
Qed.

Lemma parse_mark_known v : parse_mark (known_mark v) = parse_mark v.
Proof.
  destruct v; try reflexivity. cbn [known_mark].
  destruct (lookup (s "type") d) as [ty|] eqn:L; [|reflexivity].
  destruct (mark_class_of ty) as [k| |] eqn:R.
  - pose (F := fun (key : str) (x : value) =>
                 if str_eqb key (s "attrs")
                 then match mk_attrs k with Some fs => restrict_dict (map fst fs) x | None => x end else x).
    set (d' := restrict (mark_keys k) _).
    assert (L' : forall key, lookup key d' = if mem key (mark_keys k)
                 then match lookup key d with Some v => Some (F key v) | None => None end else None)
      by (intros key; exact (lookup_restrict (mark_keys k) F key d)).
    assert (LT : lookup (s "type") d' = Some ty) by (rewrite L', L; reflexivity).
    unfold parse_mark. rewrite LT, L, R. unfold mark_from_dict, type_field. rewrite LT, L.
    destruct (mk_attrs k) as [fs|] eqn:A; [|reflexivity]. rewrite L'.
    assert (MA : mem (s "attrs") (mark_keys k) = true) by (unfold mark_keys; rewrite A; vm_compute; reflexivity). rewrite MA.
    unfold F. change (str_eqb (s "attrs") (s "attrs")) with true. cbn iota.
    destruct (lookup (s "attrs") d) as [a|]; [|reflexivity].
    now rewrite attrs_from_dict_known.
  - unfold parse_mark. rewrite lookup_restrict_plain, L; change (mem (s "type") [s "type"]) with true; cbn iota; now rewrite R.
  - unfold parse_mark. rewrite lookup_restrict_plain, L; change (mem (s "type") [s "type"]) with true; cbn iota; now rewrite R.
Qed.

Lemma mem_node_keys k key :
  mem key (node_keys k) =
  str_eqb key (s "type") || str_eqb key (s "content") || str_eqb key (s "marks")
  || (nc_version (nk_class k) && str_eqb key (s "version"))
  || (nc_text (nk_class k) && str_eqb key (s "text"))
  || (match nc_attrs (nk_class k) with Some _ => true | None => false end && str_eqb key (s "attrs")).
Proof.
  unfold mem, node_keys. cbn [existsb app]. rewrite !existsb_app.
  destruct (nc_version _), (nc_text _), (nc_attrs _); cbn;
    now rewrite ?orb_false_r, ?orb_assoc.
Qed.

Lemma node_from_entry_ext w k d d' ce ce' :
  run_entry w ce' = run_entry w ce ->
  run_entry w (marks_entry d') = run_entry w (marks_entry d) ->
  attrs_entry (nk_class k) d' = attrs_entry (nk_class k) d ->
  (forall oa oc om, construct k d' oa oc om = construct k d oa oc om) ->
  node_from_entry w k d' ce' = node_from_entry w k d ce.
Proof.
  intros H1 H2 H3 H4. unfold node_from_entry. rewrite H1, H2, H3.
  destruct (attrs_entry _ d) as [oa|e]; cbn; [|reflexivity].
  destruct (run_entry w ce) as [lg [oc|e]]; cbn; [|reflexivity].
  destruct (run_entry w (marks_entry d)) as [lg' [om|e]]; cbn; [|reflexivity].
  now rewrite H4.
Qed.

Lemma construct_lookups k d d' oa oc om :
  lookup (s "type") d' = lookup (s "type") d ->
  (nc_text (nk_class k) = true -> lookup (s "text") d' = lookup (s "text") d) ->
  (nc_version (nk_class k) = true -> lookup (s "version") d' = lookup (s "version") d) ->
  construct k d' oa oc om = construct k d oa oc om.
Proof.
  intros H1 H2 H3. unfold construct, type_field. rewrite H1.
  destruct (nc_text _); [rewrite H2 by reflexivity|];
  (destruct (nc_version _); [rewrite H3 by reflexivity|]); reflexivity.
Qed.

Lemma from_dict_known k d :
  (forall l, lookup (s "content") d = Some (VList l) ->
             Forall (fun v => forall w, parse_node w (known_node v) = parse_node w v) l) ->
  forall w, from_dict w k (known_for k (VDict d)) = from_dict w k (VDict d).
Proof.
  intros HF w. cbn [known_for from_dict].
  set (d' := restrict (node_keys k) _).
  assert (L : forall key, lookup key d' =
            if mem key (node_keys k)
            then match lookup key d with Some v => Some (known_entry known_node k key v) | None => None end else None).
  { intros key. exact (lookup_restrict (node_keys k) (fun key x => known_entry known_node k key x) key d). }
  apply node_from_entry_ext.
  - unfold content_entry. rewrite L, mem_node_keys.
    change (str_eqb (s "content") (s "type")) with false. change (str_eqb (s "content") (s "content")) with true.
    cbn [orb]. destruct (lookup (s "content") d) as [v|] eqn:LC; [|reflexivity].
    unfold known_entry. change (str_eqb (s "content") (s "content")) with true. cbn iota.
    destruct v; try reflexivity. specialize (HF _ eq_refl). f_equal. f_equal. rewrite map_map.
    apply map_ext_in. intros v HV. rewrite Forall_forall in HF. now apply HF.
  - unfold marks_entry. rewrite L, mem_node_keys.
    change (str_eqb (s "marks") (s "type")) with false. change (str_eqb (s "marks") (s "content")) with false.
    change (str_eqb (s "marks") (s "marks")) with true. cbn [orb].
    destruct (lookup (s "marks") d) as [v|] eqn:LC; [|reflexivity].
    unfold known_entry. change (str_eqb (s "marks") (s "content")) with false.
    change (str_eqb (s "marks") (s "marks")) with true. cbn iota.
    destruct v; try reflexivity. f_equal. f_equal. rewrite map_map.
    apply map_ext. intros v. now rewrite parse_mark_known.
  - unfold attrs_entry. destruct (nc_attrs (nk_class k)) as [[fk fs]|] eqn:A; [|reflexivity].
    rewrite L, mem_node_keys, A. change (str_eqb (s "attrs") (s "attrs")) with true.
    rewrite !orb_true_r || (cbn [andb]; rewrite !orb_true_r).
    destruct (lookup (s "attrs") d) as [v|]; [|reflexivity].
    unfold known_entry. change (str_eqb (s "attrs") (s "content")) with false.
    change (str_eqb (s "attrs") (s "marks")) with false. change (str_eqb (s "attrs") (s "attrs")) with true.
    cbn iota. rewrite A. now rewrite attrs_from_dict_known.
  - intros oa oc om. apply construct_lookups.
    + rewrite L, mem_node_keys. change (str_eqb (s "type") (s "type")) with true. cbn [orb].
      destruct (lookup (s "type") d); reflexivity.
    + intros T. rewrite L, mem_node_keys, T. change (str_eqb (s "text") (s "text")) with true.
      cbn [andb]. rewrite !orb_true_r. cbn [orb].
      destruct (lookup (s "text") d); reflexivity.
    + intros T. rewrite L, mem_node_keys, T. change (str_eqb (s "version") (s "version")) with true.
      cbn [andb]. rewrite !orb_true_r. cbn [orb].
      destruct (lookup (s "version") d); reflexivity.
Qed.

Lemma known_node_dict d :
  known_node (VDict d) =
  match lookup (s "type") d with
  | None => VDict d
  | Some ty => match node_class_of ty with
               | Found k => known_for k (VDict d)
               | _ => VDict (restrict [s "type"] d)
               end
  end.
Proof.
  cbn [known_node]. destruct (lookup (s "type") d) as [ty|]; [|reflexivity].
  destruct (node_class_of ty); try reflexivity. unfold known_for. f_equal. f_equal.
  apply map_ext. now intros [k x].
Qed.

Lemma lookup_type_known_for k d :
  match known_for k (VDict d) with VDict d' => lookup (s "type") d' = lookup (s "type") d | _ => True end.
Proof.
  cbn [known_for].
  rewrite (lookup_restrict (node_keys k) (fun key x => known_entry known_node k key x) (s "type") d).
  rewrite mem_node_keys. change (str_eqb (s "type") (s "type")) with true. cbn [orb].
  destruct (lookup (s "type") d); reflexivity.
Qed.

Lemma parse_node_known v : forall w, parse_node w (known_node v) = parse_node w v.
Proof.
  induction v as [v HX|d IH] using doc_ind; intros w.
  - destruct v; try reflexivity. exfalso. eapply HX. reflexivity.
  - rewrite known_node_dict. destruct (lookup (s "type") d) as [ty|] eqn:L; [|reflexivity].
    destruct (node_class_of ty) as [k| |] eqn:R.
    + pose proof (lookup_type_known_for k d) as LT.
      pose proof (from_dict_known k d (fun l HL => IH _ l HL) w) as FK.
      rewrite (parse_node_dict w d), L, R.
      destruct (known_for k (VDict d)) as [| | | | | |d'|] eqn:K; try discriminate K.
      rewrite parse_node_dict, LT, L, R. exact FK.
    + rewrite !parse_node_dict, lookup_restrict_plain, L; change (mem (s "type") [s "type"]) with true; cbn iota; now rewrite R.
    + rewrite !parse_node_dict, lookup_restrict_plain, L; change (mem (s "type") [s "type"]) with true; cbn iota; now rewrite R.
Qed.
Lemma from_dict_known_all w k v : from_dict w k (known_for k v) = from_dict w k v.
Proof.
  destruct v; try reflexivity. apply from_dict_known.
  intros l _. apply Forall_forall. intros v _. exact (parse_node_known v).
Qed.
