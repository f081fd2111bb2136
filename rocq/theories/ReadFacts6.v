(** Running the source text of the functions that read dictionaries: the steps of BaseNode.from_dict, continued. *)
From Coq Require Import List NArith ZArith Bool String Lia.
From Verif Require Import PyStr Values Schema Parse Serialize Basics PySyntax PySem RepoCode RepoCode2 PySem2 ReadFacts ReadFacts2 ReadFacts3 ReadFacts4 ReadFacts5.
Import ListNotations.
Open Scope string_scope.
Open Scope list_scope.

Section Run7.
Variable W : bool.
Notation CL k := (rcall W repo2 k).
Notation EV := (reval W repo2).
Notation EX := (rexec W repo2).
Notation BL := (rblock W repo2).
Definition lpm (v : value) : M mark := lift (parse_mark v).
Lemma marks_step cl v c dct f a nc co e acc ma w : parses cl "marks.parse_mark.parse_mark" rv_mark lpm v -> good w ->
  exists w' e' ma', good w' /\
  match lpm v with
  | (lg, Ok n) => w_log w' = w_log w ++ lg /\
      BL cl marks_body (node_env c dct f a nc (RV v) co e (RList Own acc) ma) w = (w', Some (node_env c dct f a nc (RV v) co e' (RList Own (acc ++ [rv_mark n])) ma', RNext))
  | (lg, Err (Unimplemented ct ty)) => w_log w' = w_log w ++ lg ++ (if W then [Warn ct ty] else []) /\
      BL cl marks_body (node_env c dct f a nc (RV v) co e (RList Own acc) ma) w = (w', Some (node_env c dct f a nc (RV v) co e' (RList Own acc) ma', RNext))
  | (lg, Err x) => w_log w' = w_log w ++ lg /\
      BL cl marks_body (node_env c dct f a nc (RV v) co e (RList Own acc) ma) w = (w', Some (node_env c dct f a nc (RV v) co e' (RList Own acc) ma', RRais x))
  end.
Proof.
  intros HP HG. destruct (HP w HG) as (w1 & E1 & G1 & L1). destruct (lpm v) as [lg r]. cbn [fst snd] in *. unfold marks_body, node_env.
  rewrite block_cons, exec_try1, block_cons. rs. rewrite E1. destruct r as [n|x]; cbn [out_of].
  - assert (HN : exists q fs, rv_mark n = RInst q fs) by (destruct n; eexists _, _; reflexivity). destruct HN as (q & fs & HN). rewrite HN. rs.
    rewrite block_cons. rs. rewrite !block_nil. eexists w1, _, _. split; [exact G1|]. split; [exact L1|]. reflexivity.
  - destruct x as [| | | | | | | |ct ty]; rs.
    9:{ rewrite (warn_block W cl ct ty _ w1) by reflexivity. rs. rewrite !block_nil. eexists _, _, _. split; [|split; [|reflexivity]].
        - exact G1.
        - cbn [w_log]. rewrite L1, app_assoc. reflexivity. }
    all: eexists w1, _, _; split; [exact G1|]; split; [exact L1|]; reflexivity.
Qed.
Lemma marks_loop cl c dct f a nc co l : Forall (parses cl "marks.parse_mark.parse_mark" rv_mark lpm) l -> forall acc d e ma w, good w ->
  exists w' d' e' nm' ma', good w' /\ w_log w' = w_log w ++ fst (collect W (map lpm l)) /\
  riterate (fun en v => BL cl marks_body (rset "d" v en)) (map RV l) (node_env c dct f a nc d co e (RList Own acc) ma) w =
  match snd (collect W (map lpm l)) with
  | Ok ns => (w', Some (node_env c dct f a nc d' co e' (RList Own (acc ++ map rv_mark ns)) ma', RNext))
  | Err x => (w', Some (node_env c dct f a nc d' co e' nm' ma', RRais x))
  end.
Proof.
  induction 1 as [|v l HP HL IH]; intros acc d e ma w HG.
  - exists w, d, e, RUnbound, ma. cbn. rewrite !app_nil_r. auto.
  - cbn [map riterate]. change (rset "d" (RV v) (node_env c dct f a nc d co e (RList Own acc) ma)) with (node_env c dct f a nc (RV v) co e (RList Own acc) ma).
    destruct (marks_step cl v c dct f a nc co e acc ma w HP HG) as (w1 & e1 & ma1 & G1 & HS). destruct (lpm v) as [lg r].
    destruct r as [n|x].
    + destruct HS as [L1 E1]. rewrite E1. destruct (IH (acc ++ [rv_mark n]) (RV v) e1 ma1 w1 G1) as (w2 & d2 & e2 & nm2 & ma2 & G2 & L2 & E2). rewrite E2.
      cbn [collect]. destruct (collect W (map lpm l)) as [lg2 [ns|x]]; cbn [fst snd bind ret] in *; exists w2, d2, e2, nm2, ma2; rewrite L2, L1, <- ?app_assoc; (split; [exact G2|]);
        cbn [map app]; rewrite ?app_nil_r; split; reflexivity.
    + destruct x as [| | | | | | | |ct ty].
      9:{ destruct HS as [L1 E1]. rewrite E1. destruct (IH acc (RV v) e1 ma1 w1 G1) as (w2 & d2 & e2 & nm2 & ma2 & G2 & L2 & E2). rewrite E2.
          cbn [collect]. destruct (collect W (map lpm l)) as [lg2 [ns|x]]; cbn [fst snd bind ret] in *; exists w2, d2, e2, nm2, ma2; rewrite L2, L1, <- ?app_assoc; (split; [exact G2|]);
          cbn [map app]; rewrite ?app_nil_r; split; reflexivity. }
      all: destruct HS as [L1 E1]; rewrite E1; eexists w1, _, _, _, _; split; [exact G1|]; split; [exact L1|]; reflexivity.
Qed.
Lemma marks_run cl c D o f a nc d co e w : lookup (s "marks") D = option_map RV o ->
  match o with Some (VList l) => Forall (parses cl "marks.parse_mark.parse_mark" rv_mark lpm) l | _ => True end -> good w ->
  exists w' dct d' e' nm' ma', good w' /\
  let r := slot_step rv_mark (s "marks") o (fun l => collect W (map lpm l)) D in w_log w' = w_log w ++ fst r /\
  EX cl marks_stmt (node_env c (RDict Own D) f a nc d co e RUnbound RUnbound) w =
  match snd r with
  | Ok D' => (w', Some (node_env c (RDict Own D') f a nc d' co e' nm' ma', RNext))
  | Err x => (w', Some (node_env c dct f a nc d' co e' nm' ma', RRais x))
  end.
Proof.
  intros HL HP HG. cbv zeta. unfold marks_stmt, node_env. rewrite exec_if. rs. cbn [rin]. unfold has. rewrite HL. destruct o as [v|]; cbn [option_map]; rs.
  2:{ rewrite block_nil. exists w, RUnbound, d, e, RUnbound, RUnbound. cbn. rewrite app_nil_r. auto. }
  rewrite block_cons, exec_if. rs. rewrite HL. rs.
  assert (HO : match v with VList _ => False | _ => True end -> exists w' dct d' e' nm' ma', good w' /\
    w_log w' = w_log w ++ fst (slot_step rv_mark (s "marks") (Some v) (fun l => collect W (map lpm l)) D) /\
    (w, Some ([("cls", RClass c); ("dct", RDict Own D); ("parse_mark", RFun "marks.parse_mark.parse_mark"); ("parse_node", RFun "nodes.parse_node.parse_node");
      ("fields", f); ("attrs_field", a); ("new_content", nc); ("d", d); ("content", co); ("e", e); ("new_marks", RUnbound); ("mark", RUnbound)], RNext)) =
    match snd (slot_step rv_mark (s "marks") (Some v) (fun l => collect W (map lpm l)) D) with
    | Ok D' => (w', Some (node_env c (RDict Own D') f a nc d' co e' nm' ma', RNext))
    | Err x => (w', Some (node_env c dct f a nc d' co e' nm' ma', RRais x)) end).
  { intros HV. exists w, RUnbound, d, e, RUnbound, RUnbound. split; [exact HG|]. destruct v; try contradiction; cbn; rewrite app_nil_r; auto. }
  destruct v as [| | | | |l|dd|]; try (rs; rewrite !block_nil; exact (HO I)). clear HO. cbn [ris negb]. rs. cbn [ris obind negb]. rs. rewrite block_cons. rs. rewrite block_cons, exec_for. rs. rewrite HL. rs.
  cbn [elements].
  assert (HE : all_some (fun p => match p with PV y => Some (RV y) | _ => None end) (map PV l) = Some (map RV l)).
  { clear. induction l as [|x l IH]; [reflexivity|]. cbn [map all_some]. fold (@all_some pv rv (fun p => match p with PV y => Some (RV y) | _ => None end)). now rewrite IH. }
  rewrite HE. rs. fold marks_body.
  destruct (marks_loop cl c (RDict Own D) f a nc co l HP [] d e RUnbound w HG) as (w2 & d2 & e2 & nm2 & ma2 & G2 & L2 & E2).
  unfold node_env in E2 at 1. rewrite E2. clear E2. cbn [slot_step]. destruct (collect W (map lpm l)) as [lg [ns|x]]; cbn [fst snd bind ret] in *.
  - unfold node_env at 1. rewrite block_cons. rs. rewrite !block_nil. eexists w2, RUnbound, _, _, _, _. split; [exact G2|]. split; [now rewrite app_nil_r|]. reflexivity.
  - eexists w2, _, _, _, _, _. split; [exact G2|]. split; [exact L2|]. reflexivity.
Qed.
Definition nenv c dct f a : renv := node_env c dct f a RUnbound RUnbound RUnbound RUnbound RUnbound RUnbound.
Lemma node_attrs_step k c ao d w : find repo2 8 c "get_fields" = Some (true, m_Base_get_fields) -> attrs_ok c ao ->
  distinct (map fst (all_fields repo2 c)) = true -> all_fields repo2 c <> [] -> good w ->
  exists w' f a dct, good w' /\ w_log w' = w_log w /\
  EX (CL (Datatypes.S (Datatypes.S k))) attrs_stmt (nenv c (RDict Own (data_fields d)) RUnbound RUnbound) w =
  match attrs_step c ao d with
  | Val d' => (w', Some (nenv c (RDict Own d') f a, RNext))
  | Exc e => (w', Some (nenv c dct f a, RRais e))
  | Wrong => (w', None)
  end.
Proof.
  intros HC HO HD HN HG. unfold attrs_stmt, attrs_step, nenv, node_env. rewrite exec_if. rs. cbn [rin]. rewrite has_data. unfold has at 1.
  destruct (lookup (s "attrs") d) as [a|] eqn:LA; rs.
  2:{ exists w, RUnbound, RUnbound, RUnbound. split; [exact HG|]. split; reflexivity. }
  rewrite block_cons. rs. rewrite (a_class W c "get_fields" _ HC eq_refl). rs.
  destruct (get_fields_run W (Datatypes.S k) c c HC HD HN w HG) as (w1 & E1 & G1 & L1). rewrite E1. rs. rewrite app_nil_r in L1.
  rewrite block_cons, exec_if. rs. cbn [rin]. unfold has at 1. rewrite lookup_field_dict.
  destruct ao as [fs|].
  2:{ cbn [attrs_ok] in HO. rewrite HO. rs. exists w1, (RDict Done (field_dict c)), RUnbound, RUnbound. split; [exact G1|]. split; [exact L1|]. reflexivity. }
  pose proof HO as ((df & HF) & [HA _ _ _ _] & _). rewrite HF. rs. rewrite block_cons. rs. rewrite lookup_field_dict, HF. rs. rewrite block_cons, exec_if. rs.
  rewrite (has_class W _ _ HA). rs. rewrite block_cons. rs. rewrite (a_class W _ "from_dict" _ HA eq_refl). rs. rewrite lookup_data, LA. rs.
  destruct (attrs_run W k c fs a HO w1 G1) as (w2 & E2 & G2 & L2). rewrite E2. rewrite app_nil_r in L2.
  destruct (attrs_rv c fs a) as [v|e|] eqn:A; rs.
  - pose proof (attrs_rv_kept _ _ _ _ A) as HV. unfold kept in HV. unfold attrs_rv in A. rs. rewrite HV. rs.
    eexists w2, _, _, RUnbound. split; [exact G2|]. split; [congruence|]. reflexivity.
  - eexists w2, _, _, _. split; [exact G2|]. split; [congruence|]. reflexivity.
  - exists w2, RUnbound, RUnbound, RUnbound. split; [exact G2|]. split; [congruence|]. reflexivity.
Qed.
Lemma node_attrs_bad k c ao v w : find repo2 8 c "get_fields" = Some (true, m_Base_get_fields) -> attrs_ok c ao ->
  distinct (map fst (all_fields repo2 c)) = true -> all_fields repo2 c <> [] -> match v with VDict _ => False | _ => True end -> good w ->
  exists w' f a, good w' /\ w_log w' = w_log w /\
  exists sg, EX (CL (Datatypes.S (Datatypes.S k))) attrs_stmt (nenv c (RV v) RUnbound RUnbound) w = (w', Some (nenv c (RV v) f a, sg)) /\ (sg = RNext \/ sg = RRais TypeError).
Proof.
  intros HC HO HD HN HV HG. unfold attrs_stmt, nenv, node_env. rewrite exec_if. rs.
  destruct (rin_data (s "attrs") v HV) as [HI|[b HI]]; rewrite HI; rs.
  { exists w, RUnbound, RUnbound. split; [exact HG|]. split; [reflexivity|]. eexists. split; [reflexivity|now right]. }
  destruct b. 2:{ exists w, RUnbound, RUnbound. split; [exact HG|]. split; [reflexivity|]. eexists. split; [reflexivity|now left]. }
  rewrite block_cons. rs. rewrite (a_class W c "get_fields" _ HC eq_refl). rs.
  destruct (get_fields_run W (Datatypes.S k) c c HC HD HN w HG) as (w1 & E1 & G1 & L1). rewrite E1. rs. rewrite app_nil_r in L1.
  rewrite block_cons, exec_if. rs. cbn [rin]. unfold has at 1. rewrite lookup_field_dict.
  destruct ao as [fs|].
  2:{ cbn [attrs_ok] in HO. rewrite HO. rs. exists w1, (RDict Done (field_dict c)), RUnbound. split; [exact G1|]. split; [exact L1|]. eexists. split; [reflexivity|now left]. }
  pose proof HO as ((df & HF) & [HA _ _ _ _] & _). rewrite HF. rs. rewrite block_cons. rs. rewrite lookup_field_dict, HF. rs. rewrite block_cons, exec_if. rs.
  rewrite (has_class W _ _ HA). rs. rewrite block_cons. rs. rewrite (a_class W _ "from_dict" _ HA eq_refl). rs.
  eexists w1, _, _. split; [exact G1|]. split; [exact L1|]. exists (RRais TypeError). split; [|now right]. destruct v; try contradiction; reflexivity.
Qed.
End Run7.
