(** C72: the source text of the functions that read and write ADF dictionaries (RepoCode2.v, generated from /repo), run by the interpreter
    of PySem2.v, does what the other theorems say about [from_dict], [parse_node] and [to_dict]: same objects, same exceptions, same
    warnings, whatever was read before in the same process. *)
From Coq Require Import List NArith ZArith Bool String Lia.
From Verif Require Import PyStr Values Schema Parse Serialize Basics SpecSize PySyntax PySem RepoCode CodeFacts CodeFacts2 CodeFacts14 Properties_Code.
From Verif Require Import RepoCode2 PySem2 ReadFacts ReadFacts2 ReadFacts3 ReadFacts4 ReadFacts5 ReadFacts6 ReadFacts7 ReadFacts8 ReadFacts9 WriteFacts WriteFacts2 WriteFacts3.
Import ListNotations.
Open Scope string_scope.
Open Scope list_scope.
Open Scope nat_scope.

(** A call of [f] in the library with at most [k] calls of its own functions inside each other gives [r] and logs [lg], in every state of
    the process in which the module-level cache of fields holds what dataclasses.fields says; and leaves such a state. *)
Definition cache_true (w : world) : Prop := forall c v, assoc c (w_cache w) = Some v -> v = RDict Done (map (fun f => (fst f, RField (fst f) (snd (snd f)))) (all_fields repo2 c)).
Definition gives (W : bool) (k : nat) (f : rv) (args : list rv) (lg : list warning) (r : out rv) : Prop :=
  forall w, cache_true w -> exists w', rcall W repo2 k f args w = (w', r) /\ cache_true w' /\ w_log w' = w_log w ++ lg.
Definition an_object {A} (f : A -> rv) (r : res A) : out rv := match r with Ok a => Val (f a) | Err e => Exc e end.
(** The state of a new process. *)
Theorem C72_start : cache_true (World [] []).
Proof. intros c v H. discriminate. Qed.

(** parse_node(v) *)
Theorem C72_parse_node : forall W v k, nesting v + 6 <= k ->
  gives W k (RFun "nodes.parse_node.parse_node") [RV v] (fst (parse_node W v)) (an_object rv_node (snd (parse_node W v))).
Proof. intros W v k HK. exact (parse_node_run W (nesting v) v k (le_n _) HK). Qed.
(** parse_mark(v) *)
Theorem C72_parse_mark : forall W v k, 4 <= k -> gives W k (RFun "marks.parse_mark.parse_mark") [RV v] [] (an_object rv_mark (parse_mark v)).
Proof. intros W v k HK. destruct k as [|[|[|[|k]]]]; try lia. exact (parse_mark_run W k v). Qed.
(** C.from_dict(v), [C] the class of the nodes (marks) of type [K]; [C.from_dict] is the method called here. *)
Theorem C72_from_dict : forall W K v k, nesting v + 5 <= k ->
  rattr W repo2 (RClass (node_q K)) "from_dict" = Val (RBound (node_q K) (RClass (node_q K)) "from_dict") /\
  gives W k (RBound (node_q K) (RClass (node_q K)) "from_dict") [RV v] (fst (from_dict W K v)) (an_object rv_node (snd (from_dict W K v))).
Proof. intros W K v k HK. split; [exact (a_class W _ "from_dict" _ (nc_from _ (node_class_q K)) eq_refl)|exact (from_dict_run W K v k HK)]. Qed.
Theorem C72_mark_from_dict : forall W K v k, 3 <= k ->
  rattr W repo2 (RClass (mark_q K)) "from_dict" = Val (RBound (mark_q K) (RClass (mark_q K)) "from_dict") /\
  gives W k (RBound (mark_q K) (RClass (mark_q K)) "from_dict") [RV v] [] (an_object rv_mark (mark_from_dict K v)).
Proof.
  intros W K v k HK. split; [exact (a_class W _ "from_dict" _ (mc_from _ (mark_class_q K)) eq_refl)|].
  destruct k as [|[|[|k]]]; try lia. exact (mark_from_dict_run W k K v).
Qed.
(** The classes meant are those of the two registries. *)
Theorem C72_classes : node_registry = map (fun k => (nk_name k, node_q k)) all_nkinds /\ mark_registry = map (fun k => (mk_name k, mark_q k)) all_mkinds.
Proof. split; [exact node_table|exact mark_table]. Qed.

(** What parsing gives can be written. *)
Lemma no_to_dict k fk fs : nc_attrs (nk_class k) = Some (fk, fs) -> existsb (str_eqb (s "to_dict")) (map fst fs) = false.
Proof. destruct k; try discriminate; intros [= <- <-]; vm_compute; reflexivity. Qed.
Lemma lookup_none (x : str) (l : list (str * value)) : existsb (str_eqb x) (map fst l) = false -> lookup x l = None.
Proof.
  induction l as [|[k v] l IH]; [reflexivity|]. cbn [map fst existsb lookup]. intros H. apply orb_false_iff in H as [H1 H2]. rewrite str_eqb_sym, H1. exact (IH H2).
Qed.
Lemma fits_slot_settled {A} fk (c : slot A) : fits_slot fk c -> settled c.
Proof. destruct fk, c as [| | |[]]; cbn; auto. Qed.
Lemma fits_writable n : fits n -> writable n.
Proof.
  induction n as [k ty ve tx a co ma IH] using node_ind'. intros H. inversion H as [? ? ? ? ? ? ? HT HA HC HM HF HG EQ]. subst. constructor.
  - destruct a as [| |l]; try exact I. unfold fits_attrs in HA. destruct (nc_attrs (nk_class k)) as [[fk fs]|] eqn:E; cbn [option_map snd] in HA; [|contradiction].
    split; [discriminate|]. apply lookup_none. rewrite HA. exact (no_to_dict _ _ _ E).
  - exact (fits_slot_settled _ _ HC).
  - exact (fits_slot_settled _ _ HM).
  - intros l ->. cbn [on_items] in IH. specialize (HF l eq_refl). rewrite Forall_forall in *. intros x HX. exact (IH x HX (HF x HX)).
Qed.
Lemma parsed_writable n : parsed n -> writable n.
Proof. intros H. exact (fits_writable n (parsed_fits n H)). Qed.

(** n.to_dict() and n.to_kwargs() *)
Theorem C72_to_dict : forall W n k, parsed n -> depth n + 2 <= k ->
  rattr W repo2 (rv_node n) "to_dict" = Val (RBound (node_q (n_kind n)) (rv_node n) "to_dict") /\
  gives W k (RBound (node_q (n_kind n)) (rv_node n) "to_dict") [] [] (an_object RV (node_to_dict n)).
Proof.
  intros W n k HP HK. split; [exact (node_method W n "to_dict" _ (nc_to _ (node_class_q (n_kind n))) (or_introl eq_refl))|].
  exact (node_to_dict_run W n (parsed_writable n HP) k HK).
Qed.
Theorem C72_to_kwargs : forall W n k, parsed n -> depth n + 3 <= k ->
  gives W k (RBound (node_q (n_kind n)) (rv_node n) "to_kwargs") [] [] (an_object RV (node_to_dict n)).
Proof. intros W n k HP HK. exact (node_to_kwargs_run W n (parsed_writable n HP) k HK). Qed.
Theorem C72_mark_to_dict : forall W m k, 3 <= k ->
  gives W k (RBound (mark_q (m_kind m)) (rv_mark m) "to_dict") [] [] (Val (RV (mark_to_dict m))) /\
  gives W k (RBound (mark_q (m_kind m)) (rv_mark m) "to_kwargs") [] [] (Val (RV (mark_to_dict m))).
Proof. intros W m k HK. destruct k as [|[|[|k]]]; try lia. split; [exact (mark_to_dict_run W (Datatypes.S k) m)|exact (mark_to_kwargs_run W m k)]. Qed.
(** n.is_opt(v): whether [v] is OPT itself. *)
Theorem C72_is_opt : forall W n v k, 1 <= k ->
  gives W k (RBound (node_q (n_kind n)) (rv_node n) "is_opt") [RV v] [] (Val (RV (VBool (match v with VOpt => true | _ => false end)))).
Proof. intros W n v k HK. destruct k as [|k]; [lia|]. exact (is_opt_run W n v k). Qed.

(** These never do what [Wrong] stands for: they do not change their argument (input data is never changed in PySem2.v), do not change
    a list or dictionary that has two names, and come to an end. *)
Theorem C72_only_reads : forall W v k w, nesting v + 6 <= k -> cache_true w ->
  snd (rcall W repo2 k (RFun "nodes.parse_node.parse_node") [RV v] w) <> Wrong.
Proof.
  intros W v k w HK HG. destruct (C72_parse_node W v k HK w HG) as (w' & E & _). rewrite E. cbn [snd]. now destruct (snd (parse_node W v)).
Qed.
(** The instance determines the object. *)
Theorem C72_faithful : forall a b, parsed a -> parsed b -> rv_node a = rv_node b -> a = b.
Proof. intros a b HA HB. apply rv_node_inj; now apply parsed_writable. Qed.
Theorem C72_mark_faithful : forall a b, rv_mark a = rv_mark b -> a = b.
Proof. exact rv_mark_inj. Qed.

(** A whole history: documents read one after the other in one process, from its start. *)
Inductive request := Parse (v : value) | Read (K : nkind) (v : value).
Definition ask (W : bool) (k : nat) (r : request) : S rv :=
  match r with
  | Parse v => rcall W repo2 k (RFun "nodes.parse_node.parse_node") [RV v]
  | Read K v => rcall W repo2 k (RBound (node_q K) (RClass (node_q K)) "from_dict") [RV v]
  end.
Definition answer (W : bool) (r : request) : M node := match r with Parse v => parse_node W v | Read K v => from_dict W K v end.
Definition input (r : request) : value := match r with Parse v | Read _ v => v end.
Fixpoint session (W : bool) (k : nat) (rs : list request) (w : world) : list (out rv) * world :=
  match rs with
  | [] => ([], w)
  | r :: rest => let (w1, o) := ask W k r w in let (os, w2) := session W k rest w1 in (o :: os, w2)
  end.
Theorem C72_history : forall W rs k, Forall (fun r => nesting (input r) + 6 <= k) rs ->
  fst (session W k rs (World [] [])) = map (fun r => an_object rv_node (snd (answer W r))) rs /\
  w_log (snd (session W k rs (World [] []))) = flat_map (fun r => fst (answer W r)) rs.
Proof.
  intros W rs k HK.
  assert (H : forall w, cache_true w -> fst (session W k rs w) = map (fun r => an_object rv_node (snd (answer W r))) rs /\
    w_log (snd (session W k rs w)) = w_log w ++ flat_map (fun r => fst (answer W r)) rs).
  { induction HK as [|r rs HR HK IH]; intros w HG; [cbn; now rewrite app_nil_r|]. cbn [session].
    assert (HA : exists w', ask W k r w = (w', an_object rv_node (snd (answer W r))) /\ cache_true w' /\ w_log w' = w_log w ++ fst (answer W r)).
    { destruct r as [v|K v]; cbn [input] in HR; [exact (C72_parse_node W v k HR w HG)|]. assert (HR' : nesting v + 5 <= k) by lia. exact (proj2 (C72_from_dict W K v k HR') w HG). }
    destruct HA as (w1 & E1 & G1 & L1). rewrite E1. specialize (IH w1 G1). destruct (session W k rs w1) as [os w2]. cbn [fst snd map flat_map] in *.
    destruct IH as [I1 I2]. rewrite I1, I2, L1, app_assoc. auto. }
  exact (H _ C72_start).
Qed.

(** A document, read and written by the source text; and one with an unknown type, a bad attribute and a warning. *)
Definition ex2_text (x : string) : value := VDict [(s "type", VStr (s "text")); (s "text", VStr (s x)); (s "marks", VList [VDict [(s "type", VStr (s "strong"))]; VDict [(s "type", VStr (s "link")); (s "attrs", VDict [(s "href", VStr (s "u"))])]])].
Definition ex2_doc : value := VDict [(s "type", VStr (s "doc")); (s "version", VInt 1); (s "content", VList
  [VDict [(s "type", VStr (s "heading")); (s "attrs", VDict [(s "level", VInt 2)]); (s "content", VList [ex2_text "t"])]; VDict [(s "type", VStr (s "nope"))];
   VDict [(s "type", VStr (s "paragraph")); (s "content", VList [ex2_text "p"])]])].
Example C72_ex_nesting : nesting ex2_doc = 8. Proof. vm_compute. reflexivity. Qed.
Example C72_ex_read : let r := rcall true repo2 14 (RFun "nodes.parse_node.parse_node") [RV ex2_doc] (World [] []) in
  w_log (fst r) = [Warn CNode (VStr (s "nope"))] /\
  match snd r with Val (RInst "nodes.node_doc.NodeDoc" fs) => match lookup (s "content") fs with Some (RList Done [RInst "nodes.node_heading.NodeHeading" _; RInst "nodes.node_paragraph.NodeParagraph" _]) => True | _ => False end | _ => False end.
Proof. vm_compute. split; [reflexivity|exact I]. Qed.
Example C72_ex_bad : snd (rcall true repo2 14 (RFun "nodes.parse_node.parse_node") [RV (VDict [(s "type", VStr (s "heading")); (s "attrs", VDict [])])] (World [] [])) = Exc ParamError.
Proof. vm_compute. reflexivity. Qed.
Example C72_ex_write : match snd (parse_node true ex2_doc) with
  | Ok n => parsed n /\ depth n = 3 /\ match snd (rcall true repo2 5 (RBound "nodes.node_doc.NodeDoc" (rv_node n) "to_dict") [] (World [] [])) with Val (RV (VDict d)) => map fst d = [s "type"; s "version"; s "content"] | _ => False end
  | Err _ => False
  end.
Proof.
  destruct (snd (parse_node true ex2_doc)) as [n|e] eqn:E; [|vm_compute in E; discriminate]. split; [left; eauto|].
  vm_compute in E. injection E as <-. vm_compute. auto.
Qed.
