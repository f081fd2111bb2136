(** Running the source text of the functions that read and write dictionaries (RepoCode2.v): classes, their fields, Base.from_dict. *)
From Coq Require Import List NArith ZArith Bool String Lia.
From Verif Require Import PyStr Values Schema Parse Serialize Basics PySyntax PySem RepoCode RepoCode2 PySem2.
Import ListNotations.
Open Scope string_scope.
Open Scope list_scope.

(** ---------------------------------------------------------------- the objects of Parse.v as instances *)
Definition node_q (k : nkind) : string := match lookup (nk_name k) node_registry with Some q => q | None => "" end.
Definition mark_q (k : mkind) : string := match lookup (mk_name k) mark_registry with Some q => q | None => "" end.
Definition attrs_q (q : string) : string := match lookup (s "attrs") (all_fields repo2 q) with Some (_, Some c) => c | _ => "" end.
Definition data_fields (l : list (str * value)) : list (str * rv) := map (fun e => (fst e, RV (snd e))) l.
Definition rv_attrs (q : string) (a : attrs) : list (str * rv) :=
  match a with NoAttrs => [] | AOpt => [(s "attrs", RV VOpt)] | AObj l => [(s "attrs", RInst (attrs_q q) (data_fields l))] end.
Definition rv_slot {A} (f : A -> rv) (name : str) (c : slot A) : list (str * rv) :=
  match c with NoField => [] | SOpt => [(name, RV VOpt)] | Items l => [(name, RList Done (map f l))] | Raw v => [(name, RV v)] end.
Definition rv_opt (name : str) (o : option value) : list (str * rv) := match o with Some v => [(name, RV v)] | None => [] end.
Definition rv_mark (m : mark) : rv :=
  RInst (mark_q (m_kind m)) ((s "type", RV (m_type m)) :: rv_attrs (mark_q (m_kind m)) (m_attrs m)).
Fixpoint rv_node (n : node) : rv :=
  match n with
  | Node k ty ve tx a co ma =>
      RInst (node_q k) ((s "type", RV ty) :: rv_opt (s "version") ve ++ rv_opt (s "text") tx ++ rv_attrs (node_q k) a
        ++ match co with NoField => [] | SOpt => [(s "content", RV VOpt)] | Items l => [(s "content", RList Done (map rv_node l))] | Raw v => [(s "content", RV v)] end
        ++ rv_slot rv_mark (s "marks") ma)
  end.

(** ---------------------------------------------------------------- the classes of the program *)
Definition decl (k : fkind) : default := match k with Req => DReq | Opt => DOpt | Pos => DNone end.
(** Name and default of a field. *)
Definition field_decl (f : str * (default * option string)) : str * default := (fst f, fst (snd f)).
Definition model_decl (f : str * fkind) : str * default := (fst f, decl (snd f)).
Definition node_fields (k : nkind) : list (str * (default * option string)) :=
  let c := nk_class k in
  (s "type", (DVal (VStr (nk_name k)), None))
  :: (if nc_version c then [(s "version", (DVal (VInt 1), None))] else [])
  ++ (if nc_text c then [(s "text", (DReq, None))] else [])
  ++ (match nc_attrs c with Some (fk, _) => [(s "attrs", (decl fk, Some (attrs_q (node_q k))))] | None => [] end)
  ++ (match nc_content c with Some fk => [(s "content", (decl fk, None))] | None => [] end)
  ++ (match nc_marks c with Some fk => [(s "marks", (decl fk, None))] | None => [] end).
Definition mark_fields (k : mkind) : list (str * (default * option string)) :=
  (s "type", (DVal (VStr (mk_name k)), None))
  :: match mk_attrs k with Some _ => [(s "attrs", (DReq, Some (attrs_q (mark_q k))))] | None => [] end.
Lemma node_fields_of k : all_fields repo2 (node_q k) = node_fields k.
Proof. destruct k; vm_compute; reflexivity. Qed.
Lemma mark_fields_of k : all_fields repo2 (mark_q k) = mark_fields k.
Proof. destruct k; vm_compute; reflexivity. Qed.
Lemma node_attrs_fields_of k fk fs : nc_attrs (nk_class k) = Some (fk, fs) -> map field_decl (all_fields repo2 (attrs_q (node_q k))) = map model_decl fs.
Proof. destruct k; try discriminate; intros [= <- <-]; vm_compute; reflexivity. Qed.
Lemma mark_attrs_fields_of k fs : mk_attrs k = Some fs -> map field_decl (all_fields repo2 (attrs_q (mark_q k))) = map model_decl fs.
Proof. destruct k; try discriminate; intros [= <-]; vm_compute; reflexivity. Qed.

(** Methods. *)
Record node_class (q : string) : Prop := {
  nc_from : find repo2 8 q "from_dict" = Some (true, m_BaseNode_from_dict);
  nc_get : find repo2 8 q "get_fields" = Some (true, m_Base_get_fields);
  nc_to : find repo2 8 q "to_dict" = Some (false, m_BaseNode_to_dict);
  nc_kw : find repo2 8 q "to_kwargs" = Some (false, m_Base_to_kwargs);
  nc_is : find repo2 8 q "is_opt" = Some (false, m_Base_is_opt) }.
Record mark_class (q : string) : Prop := {
  mc_from : find repo2 8 q "from_dict" = Some (true, m_BaseMark_from_dict);
  mc_get : find repo2 8 q "get_fields" = Some (true, m_Base_get_fields);
  mc_to : find repo2 8 q "to_dict" = Some (false, m_BaseMark_to_dict);
  mc_kw : find repo2 8 q "to_kwargs" = Some (false, m_Base_to_kwargs);
  mc_is : find repo2 8 q "is_opt" = Some (false, m_Base_is_opt) }.
Record attrs_class (q : string) : Prop := {
  ac_from : find repo2 8 q "from_dict" = Some (true, m_Base_from_dict);
  ac_get : find repo2 8 q "get_fields" = Some (true, m_Base_get_fields);
  ac_to : find repo2 8 q "to_dict" = Some (false, m_Base_to_dict);
  ac_kw : find repo2 8 q "to_kwargs" = Some (false, m_Base_to_kwargs);
  ac_is : find repo2 8 q "is_opt" = Some (false, m_Base_is_opt) }.
Lemma node_class_q k : node_class (node_q k).
Proof. destruct k; constructor; vm_compute; reflexivity. Qed.
Lemma mark_class_q k : mark_class (mark_q k).
Proof. destruct k; constructor; vm_compute; reflexivity. Qed.
Lemma node_attrs_class k x : nc_attrs (nk_class k) = Some x -> attrs_class (attrs_q (node_q k)).
Proof. destruct k; try discriminate; intros _; constructor; vm_compute; reflexivity. Qed.
Lemma mark_attrs_class k x : mk_attrs k = Some x -> attrs_class (attrs_q (mark_q k)).
Proof. destruct k; try discriminate; intros _; constructor; vm_compute; reflexivity. Qed.

(** ---------------------------------------------------------------- get_fields *)
Definition field_dict (q : string) : list (str * rv) := map (fun f => (fst f, RField (fst f) (snd (snd f)))) (all_fields repo2 q).
(** The caches hold what dataclasses.fields says. *)
Definition good (w : world) : Prop := forall q v, assoc q (w_cache w) = Some v -> v = RDict Done (field_dict q).
Definition does {A} (m : S A) (lg : list warning) (r : out A) : Prop :=
  forall w, good w -> exists w', m w = (w', r) /\ good w' /\ w_log w' = w_log w ++ lg.

Fixpoint distinct (l : list str) : bool := match l with [] => true | x :: r => negb (existsb (str_eqb x) r) && distinct r end.
Lemma distinct_node k : distinct (map fst (all_fields repo2 (node_q k))) = true.
Proof. destruct k; vm_compute; reflexivity. Qed.
Lemma distinct_mark k : distinct (map fst (all_fields repo2 (mark_q k))) = true.
Proof. destruct k; vm_compute; reflexivity. Qed.
Lemma distinct_node_attrs k x : nc_attrs (nk_class k) = Some x -> distinct (map fst (all_fields repo2 (attrs_q (node_q k)))) = true.
Proof. destruct k; try discriminate; intros _; vm_compute; reflexivity. Qed.
Lemma distinct_mark_attrs k x : mk_attrs k = Some x -> distinct (map fst (all_fields repo2 (attrs_q (mark_q k)))) = true.
Proof. destruct k; try discriminate; intros _; vm_compute; reflexivity. Qed.

Lemma dput_new {A} k (v : A) d : existsb (str_eqb k) (map fst d) = false -> dput k v d = d ++ [(k, v)].
Proof.
  induction d as [|[k' v'] d IH]; [reflexivity|]. cbn [map fst existsb dput app]. intros H. apply orb_false_iff in H as [H1 H2].
  rewrite str_eqb_sym in H1. rewrite H1. now rewrite IH.
Qed.
