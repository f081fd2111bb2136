(** Running the source text of the functions that write dictionaries: BaseNode.to_dict. *)
From Coq Require Import List NArith ZArith Bool String Lia.
From Verif Require Import PyStr Values Schema Parse Serialize Basics PySyntax PySem RepoCode RepoCode2 PySem2 ReadFacts ReadFacts2 ReadFacts3 ReadFacts4 WriteFacts.
Import ListNotations.
Open Scope string_scope.
Open Scope list_scope.

(** Objects as from_dict makes them: attributes only where the class has them, and no list left unparsed. *)
Definition settled {A} (c : slot A) : Prop := match c with Raw (VList _) | Raw VOpt => False | _ => True end.
Inductive writable : node -> Prop :=
| writable_intro k ty ve tx a co ma :
    (match a with AObj l => nc_attrs (nk_class k) <> None /\ lookup (s "to_dict") l = None | _ => True end) -> settled co -> settled ma ->
    (forall l, co = Items l -> Forall writable l) -> writable (Node k ty ve tx a co ma).

Definition put_stmt (x : string) (c : string) : stmt :=
  If (And (Cmp CIn (Const (VStr (s x))) (Name "data")) (Cmp CIsNot (Subscript (Name "data") (Const (VStr (s x)))) (Glob "func_args.api.OPT")))
     [SetItem "data" (Const (VStr (s x))) (ListComp (Call (Attr (Name c) "to_dict") [] []) c (Attr (Name "self") x))] [].
Definition attrs_put : stmt :=
  If (And (Cmp CIn (Const (VStr (s "attrs"))) (Name "data")) (Cmp CIsNot (Subscript (Name "data") (Const (VStr (s "attrs")))) (Glob "func_args.api.OPT")))
     [If (Call (Glob "builtins.hasattr") [(Attr (Name "self") "attrs"); (Const (VStr (s "to_dict")))] []) [SetItem "data" (Const (VStr (s "attrs"))) (Call (Attr (Attr (Name "self") "attrs") "to_dict") [] [])] []] [].
Lemma to_dict_body : f_body m_BaseNode_to_dict =
  [Assign "data" (Call (Attr (Glob "dataclasses") "asdict") [(Name "self")] []); attrs_put; put_stmt "content" "c"; put_stmt "marks" "m";
   Return (CallKw (Glob "func_args.api.remove_optional") (Name "data"))].
Proof. reflexivity. Qed.

Definition out_attrs (a : attrs) : list (str * rv) :=
  match a with NoAttrs => [] | AOpt => [(s "attrs", RV VOpt)] | AObj l => [(s "attrs", RV (attrs_to_dict l))] end.
(** The result of [[c.to_dict() for c in slot]]. *)
Definition slot_out {A} (td : A -> res value) (co : slot A) : res (option (list value)) :=
  match co with
  | NoField | SOpt => Ok None
  | Items l => do xs <- mapM td l; Ok (Some xs)
  | Raw v => do xs <- raw_to_dicts v; Ok (Some xs)
  end.
Definition out_slot {A} (x : str) (co : slot A) (o : option (list value)) : list (str * rv) :=
  match co, o with
  | NoField, _ => []
  | SOpt, _ => [(x, RV VOpt)]
  | _, Some l => [(x, RList Done (map RV l))]
  | _, None => []
  end.

Section Run.
Variable W : bool.
Notation CL k := (rcall W repo2 k).
Notation EV := (reval W repo2).
Notation EX := (rexec W repo2).
Notation BL := (rblock W repo2).
Definition tenv (o d : rv) : renv := [("self", o); ("data", d)].
Lemma has_lookup {A} x (d : list (str * A)) : has x d = match lookup x d with Some _ => true | None => false end.
Proof. reflexivity. Qed.
Lemma hasattr_attrs c fs : find repo2 8 c "to_dict" = Some (false, m_Base_to_dict) -> lookup (s "to_dict") fs = None -> hasattr W repo2 (RInst c fs) (s "to_dict") = Val true.
Proof. intros HF HL. unfold hasattr. change (string_of_list_ascii (map Ascii.ascii_of_N (s "to_dict"))) with "to_dict". now rewrite (a_meth W _ _ "to_dict" _ HL HF eq_refl). Qed.
Lemma attrs_put_run k c fs P R a w : lookup (s "attrs") P = None -> lookup (s "attrs") R = None -> lookup (s "attrs") fs = lookup (s "attrs") (rv_attrs c a) ->
  (match a with AObj l => attrs_class (attrs_q c) /\ lookup (s "to_dict") l = None | _ => True end) -> good w ->
  exists w', good w' /\ w_log w' = w_log w /\
  EX (CL (Datatypes.S k)) attrs_put (tenv (RInst c fs) (RDict Own (P ++ data_fields (data_attrs a) ++ R))) w = (w', Some (tenv (RInst c fs) (RDict Own (P ++ out_attrs a ++ R)), RNext)).
Proof.
  intros HP HR HF HA HG. unfold attrs_put, tenv. rewrite exec_if. rs. cbn [rin]. rewrite has_lookup, !lookup_app, HP. 
  destruct a as [| |l]; cbn [data_attrs data_fields map fst snd app lookup out_attrs rv_attrs] in *.
  - rewrite HR. rs. rewrite block_nil. exists w. auto.
  - change (str_eqb (s "attrs") (s "attrs")) with true. cbn iota. rs. rewrite !lookup_app, HP. cbn [lookup]. change (str_eqb (s "attrs") (s "attrs")) with true. cbn iota. rs. cbn [ris obind negb]. rs. rewrite block_nil. exists w. auto.
  - change (str_eqb (s "attrs") (s "attrs")) with true in *. cbn iota in *. rs. rewrite !lookup_app, HP. cbn [lookup]. change (str_eqb (s "attrs") (s "attrs")) with true. cbn iota. rs. cbn [ris obind negb]. rs.
    rewrite block_cons, exec_if. rs. rewrite (a_inst W _ _ "attrs" _ HF eq_refl). rs. destruct HA as [[_ _ HT _ _] HL].
    assert (HL' : lookup (s "to_dict") (data_fields l) = None) by (now rewrite lookup_data, HL).
    rewrite (hasattr_attrs _ _ HT HL'). rs. rewrite block_cons. rs. rewrite (a_inst W _ _ "attrs" _ HF eq_refl). rs. rewrite (a_meth W _ _ "to_dict" _ HL' HT eq_refl). rs.
    destruct (base_to_dict W k (attrs_q c) (attrs_q c) (data_fields l) l HT (all_snd_data _ _) w HG) as (w1 & E1 & G1 & L1). rewrite E1. rs. rewrite !block_nil.
    exists w1. rewrite app_nil_r in L1. split; [exact G1|]. split; [exact L1|]. do 6 f_equal. unfold tenv. rewrite dput_app by exact HP. cbn [dput]. change (str_eqb (s "attrs") (s "attrs")) with true. reflexivity.
Qed.
(** [[c.to_dict() for c in v]] *)
Definition writes {A} (cl : rcaller) (q : A -> string) (rva : A -> rv) (td : A -> res value) (a : A) : Prop :=
  (exists fs, rva a = RInst (q a) fs /\ rattr W repo2 (rva a) "to_dict" = Val (RBound (q a) (rva a) "to_dict")) /\
  does (cl (RBound (q a) (rva a) "to_dict") []) [] (out_of RV (td a)).
Lemma comp_items {A} cl x en (q : A -> string) rva td (l : list A) : Forall (writes cl q rva td) l -> forall w, good w ->
  exists w', good w' /\ w_log w' = w_log w /\
  smap (fun v => EV cl ((x, v) :: en) (Call (Attr (Name x) "to_dict") [] [])) (map rva l) w =
  match mapM td l with Ok vs => (w', Val (map RV vs)) | Err e => (w', Exc e) end.
Proof.
  induction 1 as [|a l [(fs & HI & HA) HD] HL IH]; intros w HG; [exists w; auto|]. cbn [map smap]. rs.
  assert (HE : assoc x ((x, rva a) :: en) = Some (rva a)) by (cbn [assoc]; now rewrite String.eqb_refl). cbn [assoc] in HE. rewrite HE.
  assert (HX : match rva a with RUnbound => Wrong | _ => Val (lend (rva a)) end = Val (rva a)) by (now rewrite HI). rewrite HX, HA. rs.
  destruct (HD w HG) as (w1 & E1 & G1 & L1). rewrite E1. rewrite app_nil_r in L1. cbn [mapM]. destruct (td a) as [v|e]; cbn [out_of Values.rbind].
  - destruct (IH w1 G1) as (w2 & G2 & L2 & E2). exists w2. split; [exact G2|]. split; [congruence|].
    match goal with |- context [smap ?f (map rva l) w1] => change (smap f (map rva l) w1) with (smap (fun v => EV cl ((x, v) :: en) (Call (Attr (Name x) "to_dict") [] [])) (map rva l) w1) end.
    rewrite E2. destruct (mapM td l); reflexivity.
  - exists w1. auto.
Qed.
Lemma kept_values l : all_some keep (map RV l) = Some (map RV l).
Proof. induction l as [|v l IH]; [reflexivity|]. cbn [map all_some keep]. fold (@all_some rv rv keep). now rewrite IH. Qed.
Lemma comp_raw cl x en v w : match v with VList _ | VOpt => False | _ => True end ->
  match relements (RV v) with
  | Val vs => smap (fun v => EV cl ((x, v) :: en) (Call (Attr (Name x) "to_dict") [] [])) vs w
  | Exc e => (w, Exc e)
  | Wrong => (w, Wrong)
  end = (w, match raw_to_dicts v with Ok vs => Val (map RV vs) | Err e => Exc e end).
Proof.
  intros HV.
  assert (HS : forall y l, smap (fun v => EV cl ((x, v) :: en) (Call (Attr (Name x) "to_dict") [] [])) (RV y :: l) w = (w, Exc AttributeError)).
  { intros y l. cbn [smap]. rs. cbn [assoc]. rewrite String.eqb_refl. cbn [lend]. rewrite a_data. reflexivity. }
  destruct v as [| | | |[|c y]|l|[|e d]|]; try contradiction; try reflexivity.
  - cbn [relements elements map all_some]. fold (@all_some pv rv (fun p => match p with PV y => Some (RV y) | _ => None end)).
    assert (HE : exists l, all_some (fun p => match p with PV y => Some (RV y) | _ => None end) (map (fun c => PV (VStr [c])) y) = Some l).
    { clear. induction y as [|z y [l IH]]; [eexists; reflexivity|]. cbn [map all_some]. fold (@all_some pv rv (fun p => match p with PV y => Some (RV y) | _ => None end)). rewrite IH. eexists. reflexivity. }
    destruct HE as [l HE]. rewrite HE. apply HS.
  - cbn [relements elements map all_some]. fold (@all_some pv rv (fun p => match p with PV y => Some (RV y) | _ => None end)).
    assert (HE : exists l, all_some (fun p => match p with PV y => Some (RV y) | _ => None end) (map (fun e => PV (VStr (fst e))) d) = Some l).
    { clear. induction d as [|z y [l IH]]; [eexists; reflexivity|]. cbn [map all_some]. fold (@all_some pv rv (fun p => match p with PV y => Some (RV y) | _ => None end)). rewrite IH. eexists. reflexivity. }
    destruct HE as [l HE]. rewrite HE. apply HS.
Qed.
Lemma put_run {A} cl (x cv : string) c fs P R (q : A -> string) rva td (co : slot A) cc w :
  (forall i, (RV (VStr (s x))) = RV (VStr i) -> i = s x) -> String.prefix "__" x = false -> String.eqb "self" cv = false ->
  lookup (s x) P = None -> lookup (s x) R = None -> lookup (s x) fs = lookup (s x) (rv_slot rva (s x) co) -> settled co ->
  on_items (writes cl q rva td) co -> good w ->
  exists w', good w' /\ w_log w' = w_log w /\
  EX cl (put_stmt x cv) (tenv (RInst c fs) (RDict Own (P ++ data_fields (data_slot (s x) cc co) ++ R))) w =
  match slot_out td co with
  | Ok o => (w', Some (tenv (RInst c fs) (RDict Own (P ++ out_slot (s x) co o ++ R)), RNext))
  | Err e => (w', Some (tenv (RInst c fs) (RDict Own (P ++ data_fields (data_slot (s x) cc co) ++ R)), RRais e))
  end.
Proof.
  intros _ HX HC HP HR HF HS HI HG. unfold put_stmt, tenv. rewrite exec_if. rs. cbn [rin]. rewrite has_lookup, !lookup_app, HP. 
  assert (HT : forall (y : rv) rest, lookup (s x) ((s x, y) :: rest) = Some y) by (intros; cbn [lookup]; now rewrite str_eqb_refl).
  destruct co as [| |l|v]; cbn [data_slot data_fields map fst snd app slot_out rv_slot out_slot] in *.
  - cbn [lookup]. rewrite HR. rs. rewrite block_nil. exists w. auto.
  - rewrite HT. rs. rewrite !lookup_app, HP, HT. rs. cbn [ris obind negb]. rs. rewrite block_nil. exists w. auto.
  - rewrite HT in *. rs. rewrite !lookup_app, HP, HT. rs. cbn [ris obind negb]. rs. rewrite block_cons. rs. rewrite (a_inst W _ _ x _ HF HX). rs.
    destruct (comp_items cl cv [("self", RInst c fs); ("data", RDict Own (P ++ (s x, RV (VList cc)) :: R))] q rva td l HI w HG) as (w1 & G1 & L1 & E1).
    match type of E1 with smap ?g _ _ = _ => match goal with |- context [smap ?f (map rva l) w] => change (smap f (map rva l) w) with (smap g (map rva l) w) end end. rewrite E1.
    exists w1. split; [exact G1|]. split; [exact L1|]. destruct (mapM td l) as [vs|e]; cbn [Values.rbind]; [|reflexivity]. rs. rewrite kept_values. rs. rewrite !block_nil.
    do 6 f_equal. rewrite dput_app by exact HP. cbn [dput]. now rewrite str_eqb_refl.
  - rewrite HT in *. rs. rewrite !lookup_app, HP, HT. rs.
    assert (HO : ris (RV v) (RV VOpt) = Val false) by (destruct v; try contradiction; reflexivity). rewrite HO. cbn [obind negb]. rs. rewrite block_cons. rs. rewrite (a_inst W _ _ x _ HF HX). rs.
    pose proof (comp_raw cl cv [("self", RInst c fs); ("data", RDict Own (P ++ (s x, RV v) :: R))] v w) as HW. cbn [relements] in HW.
    assert (HV : match v with VList _ | VOpt => False | _ => True end) by (destruct v; try contradiction; exact I). specialize (HW HV).
    exists w. split; [exact HG|]. split; [reflexivity|]. revert HW.
    match goal with |- match ?m with Val vs => smap _ vs w | _ => _ end = _ -> _ => destruct m as [vs|e|] end.
    + intros HW. match type of HW with smap ?g _ _ = _ => match goal with |- context [smap ?f vs w] => change (smap f vs w) with (smap g vs w) end end. rewrite HW. clear HW. destruct (raw_to_dicts v) as [xs|e]; cbn [Values.rbind]; [|reflexivity]. rs. rewrite kept_values. rs. rewrite !block_nil.
      do 6 f_equal. rewrite dput_app by exact HP. cbn [dput]. now rewrite str_eqb_refl.
    + destruct (raw_to_dicts v) as [xs|e']; intros HW; [discriminate|]. injection HW as ->. reflexivity.
    + destruct (raw_to_dicts v); discriminate.
Qed.
End Run.
