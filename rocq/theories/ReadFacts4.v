(** Running the source text of the functions that read dictionaries: marks. *)
From Coq Require Import List NArith ZArith Bool String Lia.
From Verif Require Import PyStr Values Schema Parse Serialize Basics PySyntax PySem RepoCode RepoCode2 PySem2 ReadFacts ReadFacts2 ReadFacts3.
Import ListNotations.
Open Scope string_scope.
Open Scope list_scope.

Lemma attrs_step_kept c ao d d' : attrs_step c ao d = Val d' -> Forall (fun e => kept (snd e)) d'.
Proof.
  unfold attrs_step. destruct (lookup (s "attrs") d) as [a|]; [|intros [= <-]; apply kept_data]. destruct ao as [fs|]; [|intros [= <-]; apply kept_data].
  destruct (attrs_rv c fs a) as [v| |] eqn:A; cbn [obind]; try discriminate. intros [= <-]. apply kept_dput; [exact (attrs_rv_kept _ _ _ _ A)|apply kept_data].
Qed.
Lemma mark_construct k d :
  match attrs_step (mark_q k) (mk_attrs k) d with
  | Val d' => PySem2.construct repo2 (mark_q k) (picked (all_fields repo2 (mark_q k)) d')
  | Exc e => Exc e
  | Wrong => Wrong
  end = out_of rv_mark (mark_from_dict k (VDict d)).
Proof.
  pose proof (attrs_step_kept (mark_q k) (mk_attrs k) d) as HK. unfold attrs_step in *. cbn [mark_from_dict].
  destruct (mk_attrs k) as [fs|] eqn:A.
  - destruct (lookup (s "attrs") d) as [a|] eqn:LA.
    + unfold attrs_rv in *. destruct (attrs_from_dict fs a) as [l|e]; cbn [out_of obind rbind] in *; [|reflexivity].
      specialize (HK _ eq_refl). rewrite construct_picked by exact HK. rewrite mark_fields_of. unfold mark_fields. rewrite A.
      unfold absent. cbn [existsb fst snd is_none is_req andb orb]. unfold has. rewrite lookup_dput_same. cbn [negb orb out_of map filled fst snd].
      unfold rv_mark, filled. cbn [m_kind m_type m_attrs rv_attrs fst snd]. rewrite lookup_dput_same, lookup_dput_other by reflexivity. unfold type_field. rewrite lookup_data.
      destruct (lookup (s "type") d); reflexivity.
    + rewrite construct_picked by apply kept_data. rewrite mark_fields_of. unfold mark_fields. rewrite A.
      unfold absent. cbn [existsb fst snd is_none is_req andb orb]. rewrite has_data. unfold has. rewrite LA. reflexivity.
  - assert (HX : match match lookup (s "attrs") d with Some _ => Val (data_fields d) | None => Val (data_fields d) end with
                 | Val d' => PySem2.construct repo2 (mark_q k) (picked (all_fields repo2 (mark_q k)) d') | Exc e => Exc e | Wrong => Wrong end
               = PySem2.construct repo2 (mark_q k) (picked (all_fields repo2 (mark_q k)) (data_fields d))) by (now destruct (lookup (s "attrs") d)).
    rewrite HX. rewrite construct_picked by apply kept_data. rewrite mark_fields_of. unfold mark_fields. rewrite A.
    unfold absent. cbn [existsb fst snd is_none is_req andb orb out_of map]. unfold rv_mark, filled. cbn [m_kind m_type m_attrs rv_attrs fst snd].
    unfold type_field. rewrite lookup_data. destruct (lookup (s "type") d); reflexivity.
Qed.

Lemma super_from : find repo2 8 "mark_or_node.BaseMarkOrNode" "from_dict" = Some (true, m_Base_from_dict).
Proof. vm_compute. reflexivity. Qed.

(** [TABLE[type_]] *)
Definition table_get (d : list (str * string)) (ty : value) : out rv :=
  match ty with
  | VStr k => match lookup k d with Some c => Val (RClass c) | None => Exc KeyError end
  | VList _ | VDict _ => Exc TypeError
  | _ => Exc KeyError
  end.
Lemma table_of {A} (name : A -> str) (q : A -> string) all ty :
  table_get (map (fun k => (name k, q k)) all) ty =
  match registry_get name all ty with Found k => Val (RClass (q k)) | Missing => Exc KeyError | Unhashable => Exc TypeError end.
Proof.
  destruct ty; try reflexivity. cbn [table_get registry_get]. induction all as [|a all IH]; [reflexivity|]. cbn [map lookup List.find].
  destruct (str_eqb (name a) x); [reflexivity|exact IH].
Qed.
Lemma mark_table : mark_registry = map (fun k => (mk_name k, mark_q k)) all_mkinds.
Proof. vm_compute. reflexivity. Qed.
Lemma node_table : node_registry = map (fun k => (nk_name k, node_q k)) all_nkinds.
Proof. vm_compute. reflexivity. Qed.

Section Run5.
Variable W : bool.
Notation CL k := (rcall W repo2 k).
Notation EV := (reval W repo2).
Notation EX := (rexec W repo2).
Notation BL := (rblock W repo2).
Lemma call_fun k q f args : assoc q (q_funs repo2) = Some f -> CL (Datatypes.S k) (RFun q) args = rrun W repo2 (CL k) f args.
Proof. intros H. cbn [rcall]. now rewrite H. Qed.
Lemma a_super_mark c : rattr W repo2 (RSuper "mark_or_node.BaseMark" (RClass c)) "from_dict" = Val (RBound "mark_or_node.BaseMarkOrNode" (RClass c) "from_dict").
Proof. vm_compute. reflexivity. Qed.
Lemma a_super_node c : rattr W repo2 (RSuper "mark_or_node.BaseNode" (RClass c)) "from_dict" = Val (RBound "mark_or_node.BaseMarkOrNode" (RClass c) "from_dict").
Proof. vm_compute. reflexivity. Qed.
Lemma rin_data x v : match v with VDict _ => False | _ => True end ->
  rin (RV (VStr x)) (RV v) = Exc TypeError \/ exists b, rin (RV (VStr x)) (RV v) = Val b.
Proof.
  intros _. cbn [rin py_in]. destruct v; try (left; reflexivity); right.
  - eexists. reflexivity.
  - induction l as [|y l IH]; [eexists; reflexivity|]. cbn [map any_eq pv_eq]. destruct IH as [b IH].
    assert (HE : exists t, py_eq (VStr x) y = Val t) by (destruct y; eexists; reflexivity). destruct HE as [t HE]. rewrite HE. cbn [obind]. destruct t; [now exists true|now exists b].
  - induction d as [|y l IH]; [eexists; reflexivity|]. cbn [map any_eq pv_eq py_eq obind]. destruct IH as [b IH]. destruct (str_eqb x (fst y)); [now exists true|now exists b].
Qed.
Lemma mark_attrs_bad k c ao v w : find repo2 8 c "get_fields" = Some (true, m_Base_get_fields) -> attrs_ok c ao ->
  distinct (map fst (all_fields repo2 c)) = true -> all_fields repo2 c <> [] -> match v with VDict _ => False | _ => True end -> good w ->
  exists w' f a, good w' /\ w_log w' = w_log w /\
  exists sg, EX (CL (Datatypes.S (Datatypes.S k))) attrs_stmt (mark_env c (RV v) RUnbound RUnbound) w = (w', Some (mark_env c (RV v) f a, sg)) /\ (sg = RNext \/ sg = RRais TypeError).
Proof.
  intros HC HO HD HN HV HG. unfold attrs_stmt, mark_env. rewrite exec_if. rs.
  destruct (rin_data (s "attrs") v HV) as [HI|[b HI]]; rewrite HI; rs.
  { exists w, RUnbound, RUnbound. split; [exact HG|]. split; [reflexivity|]. eexists. split; [reflexivity|now right]. }
  destruct b. 2:{ exists w, RUnbound, RUnbound. split; [exact HG|]. split; [reflexivity|]. eexists. split; [reflexivity|now left]. }
  rewrite block_cons. rs. rewrite (a_class W c "get_fields" _ HC eq_refl). rs.
  destruct (get_fields_run W (Datatypes.S k) c c HC HD HN w HG) as (w1 & E1 & G1 & L1). rewrite E1. rs. rewrite app_nil_r in L1.
  rewrite block_cons, exec_if. rs. cbn [rin]. unfold has at 1. rewrite lookup_field_dict.
  destruct ao as [fs|].
  2:{ cbn [attrs_ok] in HO. rewrite HO. rs. exists w1, (RDict Done (field_dict c)), RUnbound. split; [exact G1|]. split; [exact L1|]. eexists. split; [reflexivity|now left]. }
  pose proof HO as ((df & HF) & [HA _ _ _ _] & _). rewrite HF. rs. rewrite block_cons. rs. rewrite lookup_field_dict, HF. rs. rewrite block_cons, exec_if. rs.
  rewrite (has_class W _ _ HA). rs. rewrite block_cons. rs. rewrite (a_class W _ "from_dict" _ HA eq_refl). rs.
  eexists w1, _, _. split; [exact G1|]. split; [exact L1|]. exists (RRais TypeError). split; [|now right]. destruct v; try contradiction; reflexivity.
Qed.
(** BaseMark.from_dict *)
Lemma mark_from_dict_run k K v : does (CL (Datatypes.S (Datatypes.S (Datatypes.S k))) (RBound (mark_q K) (RClass (mark_q K)) "from_dict") [RV v]) [] (out_of rv_mark (mark_from_dict K v)).
Proof.
  intros w HG. destruct (mark_class_q K) as [HF HC _ _ _]. rewrite (call_bound _ _ _ _ _ _ _ _ HF). renter m_BaseMark_from_dict. rewrite block_cons. rs. fold attrs_stmt.
  pose proof (distinct_mark K) as HD. assert (HN : all_fields repo2 (mark_q K) <> []) by (rewrite mark_fields_of; discriminate).
  pose proof (attrs_ok_mark K) as HO.
  assert (HB : match v with VDict _ => False | _ => True end -> out_of rv_mark (mark_from_dict K v) = Exc TypeError) by (now destruct v).
  destruct v as [| | | | |l|d|]. 
  7:{ cbn [deepcopy]. fold (data_fields d). rs. rewrite block_cons.
      destruct (mark_attrs_step W k (mark_q K) (mk_attrs K) d w HC HO HD HN HG) as (w1 & f & a & dct & G1 & L1 & E1).
      unfold mark_env in E1 at 1. rewrite E1. clear E1. pose proof (mark_construct K d) as HM. destruct (attrs_step (mark_q K) (mk_attrs K) d) as [d'|e|] eqn:A.
      - unfold mark_env. rewrite block_cons. rs. rewrite a_super_mark. rs.
        pose proof (attrs_step_kept _ _ _ _ A) as HK. 
        destruct (base_from_dict W k _ _ _ _ super_from HC HD HN (dict_lent d' HK) w1 G1) as (w2 & E2 & G2 & L2). rewrite E2, HM.
        exists w2. rewrite L2, L1. split; [|split; [exact G2|now rewrite !app_nil_r]].
        destruct (mark_from_dict K (VDict d)) as [m|e]; reflexivity.
      - unfold mark_env. exists w1. rewrite <- HM. rewrite L1, app_nil_r. auto.
      - exfalso. clear - HM. destruct (mark_from_dict K (VDict d)); discriminate. }
  all: rewrite HB by exact I; cbn [deepcopy]; rs; rewrite block_cons;
    match goal with |- context [("dct", RV ?v)] => destruct (mark_attrs_bad k (mark_q K) (mk_attrs K) v w HC HO HD HN I HG) as (w1 & ff & aa & G1 & L1 & sg & E1 & [->| ->]) end;
    unfold mark_env in E1 at 1; rewrite E1; clear E1; unfold mark_env;
    [| exists w1; rewrite app_nil_r; auto].
  all: rewrite block_cons; rs; rewrite a_super_mark; rs;
    match goal with |- context [[RV ?v]] => destruct (base_from_dict_bad W k _ _ v super_from HC HD HN I w1 G1) as (w2 & E2 & G2 & L2) end;
    rewrite E2; exists w2; rewrite L2, L1, !app_nil_r; auto.
Qed.
(** parse_mark *)
Lemma parse_mark_run k v : does (CL (Datatypes.S (Datatypes.S (Datatypes.S (Datatypes.S k)))) (RFun "marks.parse_mark.parse_mark") [RV v]) [] (out_of rv_mark (parse_mark v)).
Proof.
  intros w HG. rewrite (call_fun _ "marks.parse_mark.parse_mark" f_parse_mark _ eq_refl).
  renter f_parse_mark. rewrite block_cons. rs.
  assert (HT : match v with VDict _ => False | _ => True end -> match v with VDict d => match lookup (s "type") d with Some v => Val (RV v) | None => Exc KeyError end | _ => Exc TypeError end = Exc TypeError /\ parse_mark v = Err TypeError) by (now destruct v).
  destruct v as [| | | | |l|d|]; try (destruct (HT I) as [HT1 HT2]; rewrite HT2; exists w; rewrite app_nil_r; auto; fail). clear HT.
  cbn [parse_mark]. destruct (lookup (s "type") d) as [ty|] eqn:LT; [|exists w; rewrite app_nil_r; auto]. rs.
  rewrite block_cons, exec_try1, block_cons. rs.
  fold (table_get mark_registry ty). rewrite mark_table, (table_of mk_name mark_q). fold (mark_class_of ty).
  destruct (mark_class_of ty) as [K| |].
  - rs. rewrite block_nil, block_cons. rs. rewrite (a_class W _ "from_dict" _ (mc_from _ (mark_class_q K)) eq_refl). rs.
    destruct (mark_from_dict_run k K (VDict d) w HG) as (w1 & E1 & G1 & L1). rewrite E1. exists w1. split; [|auto].
    destruct (mark_from_dict K (VDict d)) as [m|e]; reflexivity.
  - rs. rewrite block_cons. rs. exists w. rewrite app_nil_r. split; [|auto]. reflexivity.
  - rs. exists w. rewrite app_nil_r. auto.
Qed.
End Run5.
