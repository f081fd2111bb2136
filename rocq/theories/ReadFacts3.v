(** Running the source text of the functions that read dictionaries: attributes and marks. *)
From Coq Require Import List NArith ZArith Bool String Lia.
From Verif Require Import PyStr Values Schema Parse Serialize Basics PySyntax PySem RepoCode RepoCode2 PySem2 ReadFacts ReadFacts2.
Import ListNotations.
Open Scope string_scope.
Open Scope list_scope.

Definition out_of {A} (f : A -> rv) (r : res A) : out rv := match r with Ok a => Val (f a) | Err e => Exc e end.

(** ---------------------------------------------------------------- dictionaries *)
Lemma lookup_data x d : lookup x (data_fields d) = option_map RV (lookup x d).
Proof. induction d as [|[k v] d IH]; [reflexivity|]. cbn [data_fields map fst snd lookup]. destruct (str_eqb k x); [reflexivity|exact IH]. Qed.
Lemma has_data x d : has x (data_fields d) = has x d.
Proof. unfold has. rewrite lookup_data. now destruct (lookup x d). Qed.
Lemma kept_data d : Forall (fun e => kept (snd e)) (data_fields d).
Proof. induction d as [|e d IH]; constructor; [reflexivity|exact IH]. Qed.
Lemma lookup_dput_same {A} k (v : A) d : lookup k (dput k v d) = Some v.
Proof. induction d as [|[k' v'] d IH]; cbn [dput lookup]; [now rewrite str_eqb_refl|]. destruct (str_eqb k' k) eqn:E; cbn [lookup]; rewrite E; [reflexivity|exact IH]. Qed.
Lemma lookup_dput_other {A} k x (v : A) d : str_eqb k x = false -> lookup x (dput k v d) = lookup x d.
Proof.
  intros H. induction d as [|[k' v'] d IH]; cbn [dput lookup]; [now rewrite H|]. destruct (str_eqb k' k) eqn:E; cbn [lookup].
  - apply str_eqb_eq in E. subst k'. now rewrite H.
  - now rewrite IH.
Qed.
Lemma kept_dput k v d : kept v -> Forall (fun e => kept (snd e)) d -> Forall (fun e : str * rv => kept (snd e)) (dput k v d).
Proof.
  intros HV HD. induction HD as [|[k' v'] d H HD IH]; cbn [dput]; [constructor; [exact HV|constructor]|].
  destruct (str_eqb k' k); constructor; auto.
Qed.
Lemma dict_data d : dict_like (RV (VDict d)) (data_fields d).
Proof.
  split; [reflexivity|]. split; [discriminate|]. split; [apply kept_data|]. intros x w. cbn [rsubscript]. unfold sout. rewrite lookup_data. now destruct (lookup x d).
Qed.
Lemma dict_lent d : Forall (fun e => kept (snd e)) d -> dict_like (RDict Lent d) d.
Proof. intros H. split; [reflexivity|]. split; [discriminate|]. split; [exact H|]. intros x w. reflexivity. Qed.

(** ---------------------------------------------------------------- the constructor on the entries picked *)
Lemma lookup_picked fs d f : In f fs -> lookup (fst f) (picked fs d) = lookup (fst f) d.
Proof.
  induction fs as [|g fs IH]; [contradiction|]. intros H. cbn [picked flat_map]. fold (picked fs d).
  assert (HR : lookup (fst f) (picked fs d) = lookup (fst f) d \/ (g = f)) by (destruct H as [->|H]; [now right|left; exact (IH H)]).
  destruct (lookup (fst g) d) as [v|] eqn:L; cbn [app lookup].
  - destruct (str_eqb (fst g) (fst f)) eqn:E.
    + apply str_eqb_eq in E. now rewrite <- E, L.
    + destruct HR as [HR|HR]; [exact HR|]. subst g. rewrite str_eqb_refl in E. discriminate.
  - destruct (str_eqb (fst g) (fst f)) eqn:E.
    + apply str_eqb_eq in E. rewrite <- E, L. clear - L. induction fs as [|h fs IH]; [reflexivity|]. cbn [picked flat_map]. fold (picked fs d).
      destruct (lookup (fst h) d) as [v|] eqn:M; cbn [app lookup]; [|exact IH]. destruct (str_eqb (fst h) (fst g)) eqn:E; [|exact IH].
      apply str_eqb_eq in E. congruence.
    + destruct HR as [HR|HR]; [exact HR|]. subst g. rewrite str_eqb_refl in E. discriminate.
Qed.
Lemma picked_known fs d : existsb (fun e => negb (has (fst e) fs)) (picked fs d) = false.
Proof.
  assert (H : forall l, (forall f, In f l -> In f fs) -> existsb (fun e => negb (has (fst e) fs)) (picked l d) = false).
  { induction l as [|f l IH]; intros HI; [reflexivity|]. cbn [picked flat_map]. fold (picked l d). rewrite existsb_app, (IH (fun g H => HI g (or_intror H))), orb_false_r.
    destruct (lookup (fst f) d); [|reflexivity]. cbn [existsb fst]. rewrite orb_false_r. apply negb_false_iff. unfold has.
    assert (HF : In f fs) by (apply HI; now left). clear - HF. induction fs as [|g fs IH]; [contradiction|]. cbn [lookup]. destruct g as [n x]. cbn [lookup].
    destruct (str_eqb n (fst f)) eqn:E; [reflexivity|]. destruct HF as [<-|HF]; [cbn in E; rewrite str_eqb_refl in E; discriminate|exact (IH HF)]. }
  apply H. auto.
Qed.
Lemma existsb_ext_in {A} (f g : A -> bool) l : (forall a, In a l -> f a = g a) -> existsb f l = existsb g l.
Proof. intros H. induction l as [|a l IH]; [reflexivity|]. cbn. rewrite (H a (or_introl eq_refl)), IH; [reflexivity|]. intros b HB. apply H. now right. Qed.
Definition absent (p : default -> bool) (fs : list (str * (default * option string))) (d : list (str * rv)) : bool :=
  existsb (fun f => p (fst (snd f)) && negb (has (fst f) d)) fs.
Definition is_none x := match x with DNone => true | _ => false end.
Definition is_req x := match x with DReq => true | _ => false end.
Definition filled (d : list (str * rv)) (f : str * (default * option string)) : str * rv :=
  (fst f, match lookup (fst f) d with Some v => v | None => match fst (snd f) with DVal v => RV v | _ => RV VOpt end end).
Lemma all_kept l : Forall (fun e : str * rv => kept (snd e)) l -> all_snd keep l = Some l.
Proof. induction 1 as [|[k v] l H HL IH]; [reflexivity|]. cbn [all_snd]. fold (@all_snd str rv rv keep). cbn in H. unfold kept in H. now rewrite H, IH. Qed.
Lemma construct_picked q d : Forall (fun e => kept (snd e)) d ->
  PySem2.construct repo2 q (picked (all_fields repo2 q) d) =
  if absent is_none (all_fields repo2 q) d then Exc TypeError
  else if absent is_req (all_fields repo2 q) d then Exc ParamError
  else Val (RInst q (map (filled d) (all_fields repo2 q))).
Proof.
  intros HK. unfold PySem2.construct. cbv zeta. rewrite picked_known. generalize (all_fields repo2 q) as fs. intros fs.
  assert (HH : forall f, In f fs -> has (fst f) (picked fs d) = has (fst f) d) by (intros f HF; unfold has; now rewrite lookup_picked).
  rewrite (existsb_ext_in _ (fun f => is_none (fst (snd f)) && negb (has (fst f) d))) by (intros f HF; rewrite <- (HH f HF); now destruct (fst (snd f))).
  fold (absent is_none fs d). destruct (absent is_none fs d); [reflexivity|].
  rewrite (existsb_ext_in _ (fun f => is_req (fst (snd f)) && negb (has (fst f) d))) by (intros f HF; rewrite <- (HH f HF); now destruct (fst (snd f))).
  fold (absent is_req fs d). destruct (absent is_req fs d); [reflexivity|].
  assert (HM : map (fun f => (fst f, match lookup (fst f) (picked fs d) with Some v => v | None => match fst (snd f) with DVal v => RV v | _ => RV VOpt end end)) fs
    = map (filled d) fs) by (apply map_ext_in; intros f HF; unfold filled; now rewrite lookup_picked).
  rewrite HM, all_kept; [reflexivity|]. apply Forall_forall. intros e HE. apply in_map_iff in HE as (f & <- & HF). unfold filled. cbn [snd].
  destruct (lookup (fst f) d) as [v|] eqn:L; [|now destruct (fst (snd f))]. apply lookup_In in L. rewrite Forall_forall in HK. exact (HK _ L).
Qed.

(** ---------------------------------------------------------------- attributes *)
Lemma attrs_construct q fs d : map field_decl (all_fields repo2 q) = map model_decl fs ->
  PySem2.construct repo2 q (picked (all_fields repo2 q) (data_fields d)) = out_of (fun l => RInst q (data_fields l)) (attrs_from_dict fs (VDict d)).
Proof.
  intros HF. rewrite construct_picked by apply kept_data. cbn [attrs_from_dict].
  assert (HA : forall p r, (forall k, p (decl k) = r k) -> absent p (all_fields repo2 q) (data_fields d) = missing r fs d).
  { intros p r HP. unfold absent, missing. revert fs HF. generalize (all_fields repo2 q) as l. induction l as [|f l IH]; intros [|g fs] HF; try discriminate; [reflexivity|].
    cbn [map existsb] in *. injection HF as H1 H2 H3. rewrite H1, H2, HP, has_data. f_equal. exact (IH fs H3). }
  rewrite (HA is_none is_Pos) by (now intros []). rewrite (HA is_req is_Req) by (now intros []).
  destruct (missing is_Pos fs d); [reflexivity|]. destruct (missing is_Req fs d); [reflexivity|]. cbn [out_of]. do 2 f_equal.
  clear HA. revert fs HF. generalize (all_fields repo2 q) as l. induction l as [|f l IH]; intros [|g fs] HF; try discriminate; [reflexivity|].
  cbn [map data_fields] in *. injection HF as H1 H2 H3. rewrite (IH fs H3). f_equal. unfold filled. rewrite H1, H2, lookup_data. cbn [fst snd]. f_equal.
  destruct (lookup (fst g) d); [reflexivity|]. now destruct (snd g).
Qed.

(** What the source text says about the attributes of class [c]. *)
Definition attrs_ok (c : string) (ao : option (list (str * fkind))) : Prop :=
  match ao with
  | None => lookup (s "attrs") (all_fields repo2 c) = None
  | Some fs => (exists df, lookup (s "attrs") (all_fields repo2 c) = Some (df, Some (attrs_q c))) /\ attrs_class (attrs_q c) /\
               distinct (map fst (all_fields repo2 (attrs_q c))) = true /\ all_fields repo2 (attrs_q c) <> [] /\
               map field_decl (all_fields repo2 (attrs_q c)) = map model_decl fs
  end.
Lemma attrs_ok_node k : attrs_ok (node_q k) (option_map snd (nc_attrs (nk_class k))).
Proof.
  unfold attrs_ok. destruct (nc_attrs (nk_class k)) as [[fk fs]|] eqn:A; cbn [option_map snd].
  - split; [exists (decl fk); destruct k; try discriminate A; injection A as <- <-; vm_compute; reflexivity|].
    split; [exact (node_attrs_class _ _ A)|]. split; [exact (distinct_node_attrs _ _ A)|]. split; [|exact (node_attrs_fields_of _ _ _ A)].
    destruct k; try discriminate A; vm_compute; discriminate.
  - destruct k; try discriminate A; vm_compute; reflexivity.
Qed.
Lemma attrs_ok_mark k : attrs_ok (mark_q k) (mk_attrs k).
Proof.
  unfold attrs_ok. destruct (mk_attrs k) as [fs|] eqn:A.
  - split; [exists DReq; destruct k; try discriminate A; vm_compute; reflexivity|].
    split; [exact (mark_attrs_class _ _ A)|]. split; [exact (distinct_mark_attrs _ _ A)|]. split; [|exact (mark_attrs_fields_of _ _ A)].
    destruct k; try discriminate A; vm_compute; discriminate.
  - destruct k; try discriminate A; vm_compute; reflexivity.
Qed.

Section Run3.
Variable W : bool.
Notation CL k := (rcall W repo2 k).
Notation EV := (reval W repo2).
Notation EX := (rexec W repo2).
Notation BL := (rblock W repo2).
Definition attrs_rv (c : string) (fs : list (str * fkind)) (a : value) : out rv := out_of (fun l => RInst (attrs_q c) (data_fields l)) (attrs_from_dict fs a).
Lemma attrs_run k c fs a : attrs_ok c (Some fs) ->
  does (CL (Datatypes.S (Datatypes.S k)) (RBound (attrs_q c) (RClass (attrs_q c)) "from_dict") [RV a]) [] (attrs_rv c fs a).
Proof.
  intros (_ & [HF HG _ _ _] & HD & HN & HM). unfold attrs_rv.
  assert (HB : match a with VDict _ => False | _ => True end -> does (CL (Datatypes.S (Datatypes.S k)) (RBound (attrs_q c) (RClass (attrs_q c)) "from_dict") [RV a]) [] (Exc TypeError))
    by (intros HB; exact (base_from_dict_bad W k _ _ _ HF HG HD HN HB)).
  destruct a; try exact (HB I). clear HB. rewrite <- (attrs_construct _ _ _ HM). exact (base_from_dict W k _ _ _ _ HF HG HD HN (dict_data d)).
Qed.
(** The statement both from_dict methods begin with. *)
Definition attrs_stmt : stmt :=
  If (Cmp CIn (Const (VStr (s "attrs"))) (Name "dct")) [Assign "fields" (Call (Attr (Name "cls") "get_fields") [] []);
       If (Cmp CIn (Const (VStr (s "attrs"))) (Name "fields")) [Assign "attrs_field" (Subscript (Name "fields") (Const (VStr (s "attrs"))));
          If (Call (Glob "builtins.hasattr") [(Attr (Name "attrs_field") "type"); (Const (VStr (s "from_dict")))] []) [SetItem "dct" (Const (VStr (s "attrs"))) (Call (Attr (Attr (Name "attrs_field") "type") "from_dict") [(Subscript (Name "dct") (Const (VStr (s "attrs"))))] [])] []] []] [].
Definition attrs_step (c : string) (ao : option (list (str * fkind))) (d : list (str * value)) : out (list (str * rv)) :=
  match lookup (s "attrs") d, ao with
  | Some a, Some fs => let* v := attrs_rv c fs a in Val (dput (s "attrs") v (data_fields d))
  | _, _ => Val (data_fields d)
  end.
Lemma lookup_field_dict c : lookup (s "attrs") (field_dict c) = match lookup (s "attrs") (all_fields repo2 c) with Some x => Some (RField (s "attrs") (snd x)) | None => None end.
Proof.
  unfold field_dict. induction (all_fields repo2 c) as [|[n x] l IH]; [reflexivity|]. cbn [map lookup fst snd]. destruct (str_eqb n (s "attrs")) eqn:E; [|exact IH].
  apply str_eqb_eq in E. now subst n.
Qed.
Lemma attrs_q_name : string_of_list_ascii (map Ascii.ascii_of_N (s "from_dict")) = "from_dict".
Proof. vm_compute. reflexivity. Qed.
Lemma attrs_rv_kept c fs a v : attrs_rv c fs a = Val v -> kept v.
Proof. unfold attrs_rv. destruct (attrs_from_dict fs a); cbn; [intros [= <-]; reflexivity|discriminate]. Qed.
Lemma has_class ac f : find repo2 8 ac "from_dict" = Some (true, f) -> hasattr W repo2 (RClass ac) (s "from_dict") = Val true.
Proof. intros H. unfold hasattr. rewrite attrs_q_name, (a_class W ac "from_dict" _ H eq_refl). reflexivity. Qed.
End Run3.
#[global] Arguments hasattr : simpl never.

Section Run4.
Variable W : bool.
Notation CL k := (rcall W repo2 k).
Notation EV := (reval W repo2).
Notation EX := (rexec W repo2).
Notation BL := (rblock W repo2).
Definition mark_env c (dct f a : rv) : renv := [("cls", RClass c); ("dct", dct); ("fields", f); ("attrs_field", a)].
Lemma mark_attrs_step k c ao d w : find repo2 8 c "get_fields" = Some (true, m_Base_get_fields) -> attrs_ok c ao ->
  distinct (map fst (all_fields repo2 c)) = true -> all_fields repo2 c <> [] -> good w ->
  exists w' f a dct, good w' /\ w_log w' = w_log w /\
  EX (CL (Datatypes.S (Datatypes.S k))) attrs_stmt (mark_env c (RDict Own (data_fields d)) RUnbound RUnbound) w =
  match attrs_step c ao d with
  | Val d' => (w', Some (mark_env c (RDict Own d') f a, RNext))
  | Exc e => (w', Some (mark_env c dct f a, RRais e))
  | Wrong => (w', None)
  end.
Proof.
  intros HC HO HD HN HG. unfold attrs_stmt, attrs_step, mark_env. rewrite exec_if. rs. cbn [rin]. rewrite has_data. unfold has at 1.
  destruct (lookup (s "attrs") d) as [a|] eqn:LA; rs.
  2:{ exists w, RUnbound, RUnbound, RUnbound. split; [exact HG|]. split; reflexivity. }
  rewrite block_cons. rs. rewrite (a_class W c "get_fields" _ HC eq_refl). rs.
  destruct (get_fields_run W (Datatypes.S k) c c HC HD HN w HG) as (w1 & E1 & G1 & L1). rewrite E1. rs. rewrite app_nil_r in L1.
  rewrite block_cons, exec_if. rs. cbn [rin]. unfold has at 1. rewrite lookup_field_dict.
  destruct ao as [fs|].
  2:{ cbn [attrs_ok] in HO. rewrite HO. rs. exists w1, (RDict Done (field_dict c)), RUnbound, RUnbound. split; [exact G1|]. split; [exact L1|]. reflexivity. }
  pose proof HO as ((df & HF) & [HA _ _ _ _] & _). rewrite HF. rs. rewrite block_cons. rs. rewrite lookup_field_dict, HF. rs. rewrite block_cons, exec_if. rs.
  rewrite (has_class W _ _ HA). rs. rewrite block_cons. rs. rewrite (a_class W _ "from_dict" _ HA eq_refl). rs. rewrite lookup_data, LA. rs.
  destruct (attrs_run W k c fs a HO w1 G1) as (w2 & E2 & G2 & L2). rewrite E2. rewrite app_nil_r in L2.
  destruct (attrs_rv c fs a) as [v|e|] eqn:A; rs.
  - pose proof (attrs_rv_kept _ _ _ _ A) as HV. unfold kept in HV. unfold attrs_rv in A. rs. rewrite HV. rs.
    eexists w2, _, _, RUnbound. split; [exact G2|]. split; [congruence|]. reflexivity.
  - eexists w2, _, _, _. split; [exact G2|]. split; [congruence|]. reflexivity.
  - exists w2, RUnbound, RUnbound, RUnbound. split; [exact G2|]. split; [congruence|]. reflexivity.
Qed.
End Run4.
