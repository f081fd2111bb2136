(** Running the source text of the functions that read dictionaries: the steps of BaseNode.from_dict. *)
From Coq Require Import List NArith ZArith Bool String Lia.
From Verif Require Import PyStr Values Schema Parse Serialize Basics PySyntax PySem RepoCode RepoCode2 PySem2 ReadFacts ReadFacts2 ReadFacts3 ReadFacts4.
Import ListNotations.
Open Scope string_scope.
Open Scope list_scope.

Definition node_env (c : string) (dct f a nc d co e nm ma : rv) : renv :=
  [("cls", RClass c); ("dct", dct); ("parse_mark", RFun "marks.parse_mark.parse_mark"); ("parse_node", RFun "nodes.parse_node.parse_node");
   ("fields", f); ("attrs_field", a); ("new_content", nc); ("d", d); ("content", co); ("e", e); ("new_marks", nm); ("mark", ma)].
Definition content_body : list stmt :=
  [Try [Assign "content" (Call (Name "parse_node") [(Name "d")] []);
        Expr (Call (Attr (Name "new_content") "append") [(Name "content")] [])]
       [("exc.UnimplementedTypeError", Some "e", [If (Attr (Glob "settings") "WARN_UNIMPLEMENTED_TYPE") [Expr (Call (Attr (Glob "logger.logger") "warning") [(Call (Glob "builtins.str") [(Name "e")] [])] [])] []])]].
Definition content_stmt : stmt :=
  If (Cmp CIn (Const (VStr (s "content"))) (Name "dct")) [If (And (Call (Glob "builtins.isinstance") [(Subscript (Name "dct") (Const (VStr (s "content")))); (Glob "builtins.list")] []) (Cmp CIsNot (Name "parse_node") (Const VNone))) [Assign "new_content" (ListOf []);
          For "d" (Subscript (Name "dct") (Const (VStr (s "content")))) content_body;
          SetItem "dct" (Const (VStr (s "content"))) (Name "new_content")] []] [].
Definition marks_body : list stmt :=
  [Try [Assign "mark" (Call (Name "parse_mark") [(Name "d")] []);
        Expr (Call (Attr (Name "new_marks") "append") [(Name "mark")] [])]
       [("exc.UnimplementedTypeError", Some "e", [If (Attr (Glob "settings") "WARN_UNIMPLEMENTED_TYPE") [Expr (Call (Attr (Glob "logger.logger") "warning") [(Call (Glob "builtins.str") [(Name "e")] [])] [])] []])]].
Definition marks_stmt : stmt :=
  If (Cmp CIn (Const (VStr (s "marks"))) (Name "dct")) [If (And (Call (Glob "builtins.isinstance") [(Subscript (Name "dct") (Const (VStr (s "marks")))); (Glob "builtins.list")] []) (Cmp CIsNot (Name "parse_mark") (Const VNone))) [Assign "new_marks" (ListOf []);
          For "d" (Subscript (Name "dct") (Const (VStr (s "marks")))) marks_body;
          SetItem "dct" (Const (VStr (s "marks"))) (Name "new_marks")] []] [].

Section Run6.
Variable W : bool.
Notation CL k := (rcall W repo2 k).
Notation EV := (reval W repo2).
Notation EX := (rexec W repo2).
Notation BL := (rblock W repo2).
(** One warning, if warnings are on. *)
Lemma warn_block cl c ty en w : assoc "e" en = Some (RExc (Unimplemented c ty)) ->
  BL cl [If (Attr (Glob "settings") "WARN_UNIMPLEMENTED_TYPE") [Expr (Call (Attr (Glob "logger.logger") "warning") [(Call (Glob "builtins.str") [(Name "e")] [])] [])] []] en w
  = (World (w_log w ++ if W then [Warn c ty] else []) (w_cache w), Some (en, RNext)).
Proof.
  intros HE. rewrite block_cons, exec_if. rs. destruct W.
  - rewrite block_cons. rs. rewrite HE. rs. rewrite block_nil, block_nil. reflexivity.
  - rewrite !block_nil, app_nil_r. now destruct w.
Qed.
Definition parses {A} (cl : rcaller) (f : string) (rva : A -> rv) (p : value -> M A) (v : value) : Prop :=
  does (cl (RFun f) [RV v]) (fst (p v)) (out_of rva (snd (p v))).
Lemma content_step cl v c dct f a acc co e nm ma w : parses cl "nodes.parse_node.parse_node" rv_node (parse_node W) v -> good w ->
  exists w' co' e', good w' /\
  match parse_node W v with
  | (lg, Ok n) => w_log w' = w_log w ++ lg /\
      BL cl content_body (node_env c dct f a (RList Own acc) (RV v) co e nm ma) w = (w', Some (node_env c dct f a (RList Own (acc ++ [rv_node n])) (RV v) co' e' nm ma, RNext))
  | (lg, Err (Unimplemented ct ty)) => w_log w' = w_log w ++ lg ++ (if W then [Warn ct ty] else []) /\
      BL cl content_body (node_env c dct f a (RList Own acc) (RV v) co e nm ma) w = (w', Some (node_env c dct f a (RList Own acc) (RV v) co' e' nm ma, RNext))
  | (lg, Err x) => w_log w' = w_log w ++ lg /\
      BL cl content_body (node_env c dct f a (RList Own acc) (RV v) co e nm ma) w = (w', Some (node_env c dct f a (RList Own acc) (RV v) co' e' nm ma, RRais x))
  end.
Proof.
  intros HP HG. destruct (HP w HG) as (w1 & E1 & G1 & L1). destruct (parse_node W v) as [lg r]. cbn [fst snd] in *. unfold content_body, node_env.
  rewrite block_cons, exec_try1, block_cons. rs. rewrite E1. destruct r as [n|x]; cbn [out_of].
  - assert (HN : exists q fs, rv_node n = RInst q fs) by (destruct n; eexists _, _; reflexivity). destruct HN as (q & fs & HN). rewrite HN. rs.
    rewrite block_cons. rs. rewrite !block_nil. eexists w1, _, _. split; [exact G1|]. split; [exact L1|]. reflexivity.
  - destruct x as [| | | | | | | |ct ty]; rs.
    9:{ rewrite (warn_block cl ct ty _ w1) by reflexivity. rs. rewrite !block_nil. eexists _, _, _. split; [|split; [|reflexivity]].
        - exact G1.
        - cbn [w_log]. rewrite L1, app_assoc. reflexivity. }
    all: eexists w1, _, _; split; [exact G1|]; split; [exact L1|]; reflexivity.
Qed.
Lemma content_loop cl c dct f a nm ma l : Forall (parses cl "nodes.parse_node.parse_node" rv_node (parse_node W)) l -> forall acc d co e w, good w ->
  exists w' nc' d' co' e', good w' /\ w_log w' = w_log w ++ fst (collect W (map (parse_node W) l)) /\
  riterate (fun en v => BL cl content_body (rset "d" v en)) (map RV l) (node_env c dct f a (RList Own acc) d co e nm ma) w =
  match snd (collect W (map (parse_node W) l)) with
  | Ok ns => (w', Some (node_env c dct f a (RList Own (acc ++ map rv_node ns)) d' co' e' nm ma, RNext))
  | Err x => (w', Some (node_env c dct f a nc' d' co' e' nm ma, RRais x))
  end.
Proof.
  induction 1 as [|v l HP HL IH]; intros acc d co e w HG.
  - exists w, RUnbound, d, co, e. cbn. rewrite !app_nil_r. auto.
  - cbn [map riterate]. change (rset "d" (RV v) (node_env c dct f a (RList Own acc) d co e nm ma)) with (node_env c dct f a (RList Own acc) (RV v) co e nm ma).
    destruct (content_step cl v c dct f a acc co e nm ma w HP HG) as (w1 & co1 & e1 & G1 & HS). destruct (parse_node W v) as [lg r].
    destruct r as [n|x].
    + destruct HS as [L1 E1]. rewrite E1. destruct (IH (acc ++ [rv_node n]) (RV v) co1 e1 w1 G1) as (w2 & nc2 & d2 & co2 & e2 & G2 & L2 & E2). rewrite E2.
      cbn [collect]. destruct (collect W (map (parse_node W) l)) as [lg2 [ns|x]]; cbn [fst snd bind ret] in *; exists w2, nc2, d2, co2, e2; rewrite L2, L1, <- ?app_assoc; (split; [exact G2|]);
        cbn [map app]; rewrite ?app_nil_r; split; reflexivity.
    + destruct x as [| | | | | | | |ct ty].
      9:{ destruct HS as [L1 E1]. rewrite E1. destruct (IH acc (RV v) co1 e1 w1 G1) as (w2 & nc2 & d2 & co2 & e2 & G2 & L2 & E2). rewrite E2.
          cbn [collect]. destruct (collect W (map (parse_node W) l)) as [lg2 [ns|x]]; cbn [fst snd bind ret] in *; exists w2, nc2, d2, co2, e2; rewrite L2, L1, <- ?app_assoc; (split; [exact G2|]);
          cbn [map app]; rewrite ?app_nil_r; split; reflexivity. }
      all: destruct HS as [L1 E1]; rewrite E1; eexists w1, _, _, _, _; split; [exact G1|]; split; [exact L1|]; reflexivity.
Qed.
(** What the content step makes of the dictionary. *)
Definition slot_step {A} (rva : A -> rv) (name : str) (o : option value) (m : list value -> M (list A)) (D : list (str * rv)) : M (list (str * rv)) :=
  match o with
  | Some (VList l) => bind (m l) (fun ns => ret (dput name (RList Done (map rva ns)) D))
  | _ => ret D
  end.
Lemma content_run cl c D o f a nm ma w : lookup (s "content") D = option_map RV o ->
  match o with Some (VList l) => Forall (parses cl "nodes.parse_node.parse_node" rv_node (parse_node W)) l | _ => True end -> good w ->
  exists w' dct nc' d' co' e', good w' /\
  let r := slot_step rv_node (s "content") o (fun l => collect W (map (parse_node W) l)) D in w_log w' = w_log w ++ fst r /\
  EX cl content_stmt (node_env c (RDict Own D) f a RUnbound RUnbound RUnbound RUnbound nm ma) w =
  match snd r with
  | Ok D' => (w', Some (node_env c (RDict Own D') f a nc' d' co' e' nm ma, RNext))
  | Err x => (w', Some (node_env c dct f a nc' d' co' e' nm ma, RRais x))
  end.
Proof.
  intros HL HP HG. cbv zeta. unfold content_stmt, node_env. rewrite exec_if. rs. cbn [rin]. unfold has. rewrite HL. destruct o as [v|]; cbn [option_map]; rs.
  2:{ rewrite block_nil. exists w, RUnbound, RUnbound, RUnbound, RUnbound, RUnbound. cbn. rewrite app_nil_r. auto. }
  rewrite block_cons, exec_if. rs. rewrite HL. rs.
  assert (HO : match v with VList _ => False | _ => True end -> exists w' dct nc' d' co' e', good w' /\
    w_log w' = w_log w ++ fst (slot_step rv_node (s "content") (Some v) (fun l => collect W (map (parse_node W) l)) D) /\
    (w, Some ([("cls", RClass c); ("dct", RDict Own D); ("parse_mark", RFun "marks.parse_mark.parse_mark"); ("parse_node", RFun "nodes.parse_node.parse_node");
      ("fields", f); ("attrs_field", a); ("new_content", RUnbound); ("d", RUnbound); ("content", RUnbound); ("e", RUnbound); ("new_marks", nm); ("mark", ma)], RNext)) =
    match snd (slot_step rv_node (s "content") (Some v) (fun l => collect W (map (parse_node W) l)) D) with
    | Ok D' => (w', Some (node_env c (RDict Own D') f a nc' d' co' e' nm ma, RNext))
    | Err x => (w', Some (node_env c dct f a nc' d' co' e' nm ma, RRais x)) end).
  { intros HV. exists w, RUnbound, RUnbound, RUnbound, RUnbound, RUnbound. split; [exact HG|]. destruct v; try contradiction; cbn; rewrite app_nil_r; auto. }
  destruct v as [| | | | |l|d|]; try (rs; rewrite !block_nil; exact (HO I)). clear HO. cbn [ris negb]. rs. cbn [ris obind negb]. rs. rewrite block_cons. rs. rewrite block_cons, exec_for. rs. rewrite HL. rs.
  cbn [elements].
  assert (HE : all_some (fun p => match p with PV y => Some (RV y) | _ => None end) (map PV l) = Some (map RV l)).
  { clear. induction l as [|x l IH]; [reflexivity|]. cbn [map all_some]. fold (@all_some pv rv (fun p => match p with PV y => Some (RV y) | _ => None end)). now rewrite IH. }
  rewrite HE. rs. fold content_body.
  destruct (content_loop cl c (RDict Own D) f a nm ma l HP [] RUnbound RUnbound RUnbound w HG) as (w2 & nc2 & d2 & co2 & e2 & G2 & L2 & E2).
  unfold node_env in E2 at 1. rewrite E2. clear E2. cbn [slot_step]. destruct (collect W (map (parse_node W) l)) as [lg [ns|x]]; cbn [fst snd bind ret] in *.
  - unfold node_env at 1. rewrite block_cons. rs. rewrite !block_nil. eexists w2, RUnbound, _, _, _, _. split; [exact G2|]. split; [now rewrite app_nil_r|]. reflexivity.
  - eexists w2, _, _, _, _, _. split; [exact G2|]. split; [exact L2|]. reflexivity.
Qed.
End Run6.
