(** Running the source text of the functions that read dictionaries: BaseNode.from_dict and parse_node, put together. *)
From Coq Require Import List NArith ZArith Bool String Lia.
From Verif Require Import PyStr Values Schema Parse Serialize Basics PySyntax PySem RepoCode RepoCode2 PySem2 ReadFacts ReadFacts2 ReadFacts3 ReadFacts4 ReadFacts5 ReadFacts6 ReadFacts7.
Import ListNotations.
Open Scope string_scope.
Open Scope list_scope.

(** ---------------------------------------------------------------- entries *)
Definition put_slot {A} (rva : A -> rv) (name : str) (oc : option (slot A)) (D : list (str * rv)) : list (str * rv) :=
  match oc with Some (Items l) => dput name (RList Done (map rva l)) D | _ => D end.
Definition entry_of {A} (p : value -> M A) (o : option value) : entry A :=
  match o with None => EAbsent | Some (VList l) => EList (map p l) | Some v => EOther v end.
Lemma slot_entry {A} W (rva : A -> rv) name o (p : value -> M A) D :
  slot_step rva name o (fun l => collect W (map p l)) D = bind (run_entry W (entry_of p o)) (fun oc => ret (put_slot rva name oc D)).
Proof.
  destruct o as [[]|]; try reflexivity. cbn [slot_step entry_of run_entry]. destruct (collect W (map p l)) as [lg [ns|e]]; [|reflexivity]. cbn [bind ret put_slot]. now rewrite ?app_nil_r.
Qed.
Lemma slot_lookup {A} W (rva : A -> rv) name o (p : value -> M A) D lg oc : run_entry W (entry_of p o) = (lg, Ok oc) -> lookup name D = option_map RV o ->
  lookup name (put_slot rva name oc D) = slot_rv rva oc /\ oc <> Some NoField.
Proof.
  intros HR HL. destruct o as [v|].
  - assert (HO : match v with VList _ | VOpt => False | _ => True end -> run_entry W (entry_of p (Some v)) = ret (Some (Raw v))) by (now destruct v).
    destruct v as [| | | | |l|d|]; try (rewrite (HO I) in HR; injection HR as <- <-; split; [exact HL|discriminate]).
    + cbn [entry_of run_entry] in HR. destruct (collect W (map p l)) as [lg' [ns|e]]; [|discriminate]. cbn [bind ret] in HR. injection HR as <- <-. split; [apply lookup_dput_same|discriminate].
    + injection HR as <- <-. split; [exact HL|discriminate].
  - injection HR as <- <-. split; [exact HL|discriminate].
Qed.
Lemma put_other {A} (rva : A -> rv) name oc D x : str_eqb name x = false -> lookup x (put_slot rva name oc D) = lookup x D.
Proof. intros H. destruct oc as [[]|]; try reflexivity. now apply lookup_dput_other. Qed.
Lemma put_kept {A} (rva : A -> rv) name oc D : Forall (fun e => kept (snd e)) D -> Forall (fun e => kept (snd e)) (put_slot rva name oc D).
Proof. intros H. destruct oc as [[]|]; try exact H. now apply kept_dput. Qed.
(** What the attrs step makes of the dictionary. *)
Definition put_attrs (q : string) (oa : option attrs) (d : list (str * value)) : list (str * rv) :=
  match oa with Some (AObj l) => dput (s "attrs") (RInst (attrs_q q) (data_fields l)) (data_fields d) | _ => data_fields d end.
Lemma attrs_entry_step k d : attrs_step (node_q k) (option_map snd (nc_attrs (nk_class k))) d =
  match attrs_entry (nk_class k) d with Ok oa => Val (put_attrs (node_q k) oa d) | Err e => Exc e end.
Proof.
  unfold attrs_step, attrs_entry. destruct (nc_attrs (nk_class k)) as [[fk fs]|]; cbn [option_map snd]; destruct (lookup (s "attrs") d) as [a|]; try reflexivity.
  unfold attrs_rv. now destruct (attrs_from_dict fs a).
Qed.
Lemma put_attrs_lookup k d oa : attrs_entry (nk_class k) d = Ok oa ->
  (nc_attrs (nk_class k) <> None -> lookup (s "attrs") (put_attrs (node_q k) oa d) = attrs_rvo (node_q k) oa) /\ match oa with Some (AObj _) | None => True | _ => False end.
Proof.
  unfold attrs_entry. destruct (nc_attrs (nk_class k)) as [[fk fs]|].
  - destruct (lookup (s "attrs") d) as [a|] eqn:L.
    + destruct (attrs_from_dict fs a) as [l|e]; [|discriminate]. intros [= <-]. split; [intros _; apply lookup_dput_same|exact I].
    + intros [= <-]. split; [|exact I]. intros _. cbn [put_attrs attrs_rvo]. now rewrite lookup_data, L.
  - intros [= <-]. split; [congruence|exact I].
Qed.
Lemma put_attrs_other q oa d x : str_eqb (s "attrs") x = false -> lookup x (put_attrs q oa d) = option_map RV (lookup x d).
Proof. intros H. rewrite <- lookup_data. destruct oa as [[]|]; try reflexivity. now apply lookup_dput_other. Qed.
Lemma put_attrs_kept q oa d : Forall (fun e => kept (snd e)) (put_attrs q oa d).
Proof. destruct oa as [[]|]; try apply kept_data. apply kept_dput; [reflexivity|apply kept_data]. Qed.
Lemma final_puts W k d oa lc oc lm om : attrs_entry (nk_class k) d = Ok oa ->
  run_entry W (entry_of (parse_node W) (lookup (s "content") d)) = (lc, Ok oc) -> run_entry W (entry_of lpm (lookup (s "marks") d)) = (lm, Ok om) ->
  final k (put_slot rv_mark (s "marks") om (put_slot rv_node (s "content") oc (put_attrs (node_q k) oa d))) d oa oc om.
Proof.
  intros HA HC HM. destruct (put_attrs_lookup k d oa HA) as [A1 A2].
  destruct (slot_lookup W rv_node (s "content") _ _ (put_attrs (node_q k) oa d) _ _ HC) as [C1 C2]; [now apply put_attrs_other|].
  destruct (slot_lookup W rv_mark (s "marks") _ _ (put_slot rv_node (s "content") oc (put_attrs (node_q k) oa d)) _ _ HM) as [M1 M2].
  { rewrite put_other by reflexivity. now apply put_attrs_other. }
  constructor; try assumption.
  - apply put_kept, put_kept, put_attrs_kept.
  - rewrite !put_other by reflexivity. now apply put_attrs_other.
  - rewrite !put_other by reflexivity. now apply put_attrs_other.
  - rewrite !put_other by reflexivity. now apply put_attrs_other.
  - rewrite !put_other by reflexivity. exact A1.
  - rewrite put_other by reflexivity. exact C1.
Qed.
Lemma entries W d : content_entry W d = entry_of (parse_node W) (lookup (s "content") d) /\ marks_entry d = entry_of lpm (lookup (s "marks") d).
Proof. split; [unfold content_entry; destruct (lookup (s "content") d) as [[]|]; reflexivity|unfold marks_entry; destruct (lookup (s "marks") d) as [[]|]; reflexivity]. Qed.

Section Run8.
Variable W : bool.
Notation CL k := (rcall W repo2 k).
Notation EV := (reval W repo2).
Notation EX := (rexec W repo2).
Notation BL := (rblock W repo2).
Notation "'S4' k" := (Datatypes.S (Datatypes.S (Datatypes.S (Datatypes.S k)))) (at level 10).
Lemma node_dict_run k K d : match lookup (s "content") d with Some (VList l) => Forall (parses (CL (S4 k)) "nodes.parse_node.parse_node" rv_node (parse_node W)) l | _ => True end ->
  does (CL (Datatypes.S (S4 k)) (RBound (node_q K) (RClass (node_q K)) "from_dict") [RV (VDict d)]) (fst (from_dict W K (VDict d))) (out_of rv_node (snd (from_dict W K (VDict d)))).
Proof.
  intros HP w HG. destruct (node_class_q K) as [HF HC _ _ _]. rewrite (call_bound _ _ _ _ _ _ _ _ HF). renter m_BaseNode_from_dict.
  rewrite block_cons. rs. rewrite block_cons. rs. rewrite block_cons. rs. fold attrs_stmt. fold content_body. fold content_stmt. fold marks_body. fold marks_stmt.
  cbn [deepcopy]. fold (data_fields d). rs.
  pose proof (distinct_node K) as HD. assert (HN : all_fields repo2 (node_q K) <> []) by (rewrite node_fields_of; discriminate).
  rewrite block_cons.
  destruct (node_attrs_step W (Datatypes.S (Datatypes.S k)) (node_q K) _ d w HC (attrs_ok_node K) HD HN HG) as (w1 & f & a & dct1 & G1 & L1 & E1).
  unfold nenv in E1 at 1. unfold node_env in E1 at 1. rewrite E1. clear E1. rewrite attrs_entry_step.
  cbn [from_dict]. unfold node_from_entry. destruct (entries W d) as [EC EM]. rewrite EC, EM. clear EC EM.
  destruct (attrs_entry (nk_class K) d) as [oa|e] eqn:HA; cbn [lift bind fst snd out_of].
  2:{ exists w1. rewrite L1. rewrite app_nil_r. auto. }
  rewrite block_cons. unfold nenv.
  destruct (content_run W (CL (S4 k)) (node_q K) (put_attrs (node_q K) oa d) (lookup (s "content") d) f a RUnbound RUnbound w1) as (w2 & dct2 & nc & dd & co & e & G2 & L2 & E2);
    [now apply put_attrs_other|exact HP|exact G1|].
  rewrite E2. clear E2. rewrite slot_entry in *.
  destruct (run_entry W (entry_of (parse_node W) (lookup (s "content") d))) as [lc [oc|x]] eqn:HCo; cbn [lift bind ret fst snd out_of app] in *.
  2:{ exists w2. rewrite L2, L1. auto. }
  rewrite app_nil_r in L2. rewrite block_cons.
  destruct (marks_run W (CL (S4 k)) (node_q K) (put_slot rv_node (s "content") oc (put_attrs (node_q K) oa d)) (lookup (s "marks") d) f a nc dd co e w2)
    as (w3 & dct3 & dd3 & e3 & nm & ma & G3 & L3 & E3).
  { rewrite put_other by reflexivity. now apply put_attrs_other. }
  { destruct (lookup (s "marks") d) as [[]|]; try exact I. apply Forall_forall. intros v _. unfold parses, lpm. cbn [lift fst snd]. apply parse_mark_run. }
  { exact G2. }
  rewrite E3. clear E3. rewrite slot_entry in *.
  destruct (run_entry W (entry_of lpm (lookup (s "marks") d))) as [lm [om|x]] eqn:HMa; cbn [lift bind ret fst snd out_of app] in *.
  2:{ exists w3. rewrite L3, L2, L1, app_assoc. auto. }
  rewrite app_nil_r in L3. rewrite block_cons. unfold node_env. rs. rewrite a_super_node. rs.
  pose proof (final_puts _ _ _ _ _ _ _ _ HA HCo HMa) as HFi.
  destruct (base_from_dict W (Datatypes.S (Datatypes.S k)) _ _ _ _ super_from HC HD HN (dict_lent _ (f_kept _ _ _ _ _ _ HFi)) w3 G3) as (w4 & E4 & G4 & L4).
  rewrite E4, (construct_node _ _ _ _ _ _ HFi). exists w4. rewrite L4, L3, L2, L1, !app_nil_r, !app_assoc.
  split; [|auto]. destruct (Parse.construct K d oa oc om) as [n|x]; [|reflexivity]. destruct n; reflexivity.
Qed.
(** Anything that is not a dictionary. *)
Lemma content_bad cl c v f a w : match v with VDict _ => False | _ => True end ->
  exists sg, EX cl content_stmt (nenv c (RV v) f a) w = (w, Some (nenv c (RV v) f a, sg)) /\ (sg = RNext \/ sg = RRais TypeError).
Proof.
  intros HV. unfold content_stmt, nenv, node_env. rewrite exec_if. rs.
  destruct (rin_data (s "content") v HV) as [HI|[b HI]]; rewrite HI; rs; [eexists; split; [reflexivity|now right]|].
  destruct b; [|rewrite block_nil; eexists; split; [reflexivity|now left]]. rewrite block_cons, exec_if. rs.
  exists (RRais TypeError). split; [|now right]. destruct v; try contradiction; reflexivity.
Qed.
Lemma marks_bad cl c v f a w : match v with VDict _ => False | _ => True end ->
  exists sg, EX cl marks_stmt (nenv c (RV v) f a) w = (w, Some (nenv c (RV v) f a, sg)) /\ (sg = RNext \/ sg = RRais TypeError).
Proof.
  intros HV. unfold marks_stmt, nenv, node_env. rewrite exec_if. rs.
  destruct (rin_data (s "marks") v HV) as [HI|[b HI]]; rewrite HI; rs; [eexists; split; [reflexivity|now right]|].
  destruct b; [|rewrite block_nil; eexists; split; [reflexivity|now left]]. rewrite block_cons, exec_if. rs.
  exists (RRais TypeError). split; [|now right]. destruct v; try contradiction; reflexivity.
Qed.
Lemma node_bad_run k K v : match v with VDict _ => False | _ => True end ->
  does (CL (Datatypes.S (S4 k)) (RBound (node_q K) (RClass (node_q K)) "from_dict") [RV v]) [] (Exc TypeError).
Proof.
  intros HV w HG. destruct (node_class_q K) as [HF HC _ _ _]. rewrite (call_bound _ _ _ _ _ _ _ _ HF). renter m_BaseNode_from_dict.
  rewrite block_cons. rs. rewrite block_cons. rs. rewrite block_cons. rs. fold attrs_stmt. fold content_body. fold content_stmt. fold marks_body. fold marks_stmt.
  assert (HX : deepcopy (RV v) = Val (RV v)) by (destruct v; try contradiction; reflexivity). rewrite HX. rs.
  pose proof (distinct_node K) as HD. assert (HN : all_fields repo2 (node_q K) <> []) by (rewrite node_fields_of; discriminate).
  rewrite block_cons.
  destruct (node_attrs_bad W (Datatypes.S (Datatypes.S k)) (node_q K) _ v w HC (attrs_ok_node K) HD HN HV HG) as (w1 & f & a & G1 & L1 & sg & E1 & HSG).
  unfold nenv in E1 at 1. unfold node_env in E1 at 1. rewrite E1. clear E1. destruct HSG as [->| ->]; [|exists w1; rewrite L1, app_nil_r; auto].
  rewrite block_cons. destruct (content_bad (CL (S4 k)) (node_q K) v f a w1 HV) as (sg & E2 & HSG). rewrite E2. destruct HSG as [->| ->]; [|exists w1; rewrite L1, app_nil_r; auto].
  rewrite block_cons. destruct (marks_bad (CL (S4 k)) (node_q K) v f a w1 HV) as (sg & E3 & HSG). rewrite E3. destruct HSG as [->| ->]; [|exists w1; rewrite L1, app_nil_r; auto].
  rewrite block_cons. unfold nenv, node_env. rs. rewrite a_super_node. rs.
  destruct (base_from_dict_bad W (Datatypes.S (Datatypes.S k)) _ _ v super_from HC HD HN HV w1 G1) as (w2 & EE & G2 & L2). rewrite EE.
  exists w2. rewrite L2, L1, !app_nil_r. auto.
Qed.
(** parse_node, once from_dict of the class is settled. *)
Lemma parse_node_from j v : (forall K d, v = VDict d -> does (CL j (RBound (node_q K) (RClass (node_q K)) "from_dict") [RV v]) (fst (from_dict W K v)) (out_of rv_node (snd (from_dict W K v)))) ->
  parses (CL (Datatypes.S j)) "nodes.parse_node.parse_node" rv_node (parse_node W) v.
Proof.
  intros HK w HG. rewrite (call_fun _ _ "nodes.parse_node.parse_node" f_parse_node _ eq_refl).
  renter f_parse_node. rewrite block_cons. rs.
  assert (HT : match v with VDict _ => False | _ => True end -> match v with VDict d => match lookup (s "type") d with Some v => Val (RV v) | None => Exc KeyError end | _ => Exc TypeError end = Exc TypeError /\ parse_node W v = raise TypeError) by (now destruct v).
  destruct v as [| | | | |l|d|]; try (destruct (HT I) as [HT1 HT2]; rewrite HT2; exists w; rewrite app_nil_r; auto; fail). clear HT.
  rewrite parse_node_dict. destruct (lookup (s "type") d) as [ty|] eqn:LT; [|exists w; rewrite app_nil_r; auto]. rs.
  rewrite block_cons, exec_try1, block_cons. rs.
  fold (table_get node_registry ty). rewrite node_table, (table_of nk_name node_q). fold (node_class_of ty).
  destruct (node_class_of ty) as [K| |].
  - rs. rewrite block_nil, block_cons. rs. rewrite (a_class W _ "from_dict" _ (nc_from _ (node_class_q K)) eq_refl). rs.
    destruct (HK K d eq_refl w HG) as (w1 & E1 & G1 & L1). rewrite E1. exists w1. split; [|auto]. cbn [from_dict].
    destruct (node_from_entry W K d (content_entry W d)) as [lg [n|e]]; [|reflexivity]. destruct n; reflexivity.
  - rs. rewrite block_cons. rs. exists w. cbn [raise fst]. rewrite app_nil_r. split; [|auto]. reflexivity.
  - rs. exists w. cbn [raise fst]. rewrite app_nil_r. auto.
Qed.
(** How deeply lists and dictionaries are nested. *)
Fixpoint nesting (v : value) : nat :=
  match v with
  | VList l => Datatypes.S (list_max (map nesting l))
  | VDict d => Datatypes.S (list_max (map (fun e => nesting (snd e)) d))
  | _ => 0
  end.
Lemma nesting_item v l : In v l -> (nesting v < nesting (VList l))%nat.
Proof. intros H. cbn [nesting]. apply (proj2 (Nat.lt_succ_r _ _)). pose proof (proj1 (list_max_le (map nesting l) _) (le_n _)) as HM. rewrite Forall_forall in HM. apply HM. now apply in_map. Qed.
Lemma nesting_entry x v d : lookup x d = Some v -> (nesting v < nesting (VDict d))%nat.
Proof.
  intros H. apply lookup_In in H. cbn [nesting]. apply (proj2 (Nat.lt_succ_r _ _)). pose proof (proj1 (list_max_le (map (fun e => nesting (snd e)) d) _) (le_n _)) as HM.
  rewrite Forall_forall in HM. apply HM. apply in_map_iff. eexists. split; [|exact H]. reflexivity.
Qed.
Lemma from_dict_ready k K v : (forall d l x, v = VDict d -> lookup (s "content") d = Some (VList l) -> In x l -> parses (CL (S4 k)) "nodes.parse_node.parse_node" rv_node (parse_node W) x) ->
  does (CL (Datatypes.S (S4 k)) (RBound (node_q K) (RClass (node_q K)) "from_dict") [RV v]) (fst (from_dict W K v)) (out_of rv_node (snd (from_dict W K v))).
Proof.
  intros HP. destruct v as [| | | | |l|d|]; try (apply (node_bad_run k K); exact I).
  apply node_dict_run. destruct (lookup (s "content") d) as [[]|] eqn:L; try exact I. apply Forall_forall. intros x HX. exact (HP _ _ _ eq_refl L HX).
Qed.
Lemma parse_node_run : forall n v k, (nesting v <= n)%nat -> (nesting v + 6 <= k)%nat -> parses (CL k) "nodes.parse_node.parse_node" rv_node (parse_node W) v.
Proof.
  induction n as [|n IH]; intros v k HN HK.
  - destruct k as [|k]; [lia|]. apply parse_node_from. intros K d ->. cbn [nesting] in HN. lia.
  - destruct k as [|[|[|[|[|[|k]]]]]]; try lia. apply parse_node_from. intros K d ->. apply from_dict_ready. intros d' l x [= <-] HL HX.
    pose proof (nesting_item _ _ HX) as N1. pose proof (nesting_entry _ _ _ HL) as N2. apply IH; lia.
Qed.
Lemma from_dict_run K v k : (nesting v + 5 <= k)%nat ->
  does (CL k (RBound (node_q K) (RClass (node_q K)) "from_dict") [RV v]) (fst (from_dict W K v)) (out_of rv_node (snd (from_dict W K v))).
Proof.
  intros HK. destruct k as [|[|[|[|[|k]]]]]; try lia. apply from_dict_ready. intros d l x -> HL HX.
  pose proof (nesting_item _ _ HX) as N1. pose proof (nesting_entry _ _ _ HL) as N2. apply (parse_node_run (nesting x)); lia.
Qed.
End Run8.
