(** Running the source text of the functions that write dictionaries: to_dict. *)
From Coq Require Import List NArith ZArith Bool String Lia.
From Verif Require Import PyStr Values Schema Parse Serialize Basics PySyntax PySem RepoCode RepoCode2 PySem2 ReadFacts ReadFacts2 ReadFacts3 ReadFacts4.
Import ListNotations.
Open Scope string_scope.
Open Scope list_scope.

(** ---------------------------------------------------------------- data *)
Lemma all_snd_app {A B} (f : A -> option B) (a b : list (str * A)) :
  all_snd f (a ++ b) = match all_snd f a, all_snd f b with Some x, Some y => Some (x ++ y) | _, _ => None end.
Proof.
  induction a as [|[k v] a IH]; cbn [app all_snd]; [now destruct (all_snd f b)|]. fold (@all_snd str A B f). rewrite IH.
  destruct (f v); [|reflexivity]. destruct (all_snd f a); [|reflexivity]. now destruct (all_snd f b).
Qed.
Lemma all_snd_data b d : all_snd (data_of b) (data_fields d) = Some d.
Proof. induction d as [|[k v] d IH]; [reflexivity|]. cbn [data_fields map fst snd all_snd data_of]. fold (data_fields d). fold (@all_snd str rv value (data_of b)). now rewrite IH. Qed.
Lemma settle_data o d : settle (RDict o (data_fields d)) = RV (VDict d).
Proof. unfold settle. cbn [data_of]. now rewrite all_snd_data. Qed.
Lemma dput_app {A} k (v : A) a b : lookup k a = None -> dput k v (a ++ b) = a ++ dput k v b.
Proof. induction a as [|[k' v'] a IH]; [reflexivity|]. cbn [lookup app dput]. destruct (str_eqb k' k); [discriminate|]. intros H. now rewrite IH. Qed.
Definition data_attrs (a : attrs) : list (str * value) :=
  match a with NoAttrs => [] | AOpt => [(s "attrs", VOpt)] | AObj l => [(s "attrs", VDict l)] end.
Lemma attrs_data q a : all_snd (data_of true) (rv_attrs q a) = Some (data_attrs a).
Proof. destruct a; try reflexivity. cbn [rv_attrs all_snd data_of]. fold (@all_snd str rv value (data_of true)). now rewrite all_snd_data. Qed.
Lemma opt_data x o : all_snd (data_of true) (rv_opt x o) = Some (match o with Some v => [(x, v)] | None => [] end).
Proof. now destruct o. Qed.
Lemma mark_data m : data_of true (rv_mark m) = Some (VDict ((s "type", m_type m) :: data_attrs (m_attrs m))).
Proof.
  unfold rv_mark. cbn [data_of]. fold (@all_snd str rv value (data_of true)). cbn [all_snd data_of]. fold (@all_snd str rv value (data_of true)). now rewrite attrs_data.
Qed.
Definition data_slot (x : str) (c : list value) {A} (co : slot A) : list (str * value) :=
  match co with NoField => [] | SOpt => [(x, VOpt)] | Items _ => [(x, VList c)] | Raw v => [(x, v)] end.
Lemma slot_data {A} (rva : A -> rv) x co : on_items (fun a => exists v, data_of true (rva a) = Some v) co -> exists c, all_snd (data_of true) (rv_slot rva x co) = Some (data_slot x c co).
Proof.
  destruct co as [| |l|v]; cbn [on_items]; intros H; try (exists []; reflexivity).
  assert (HL : exists c, all_some (data_of true) (map rva l) = Some c).
  { induction H as [|a l [v HV] HL [c IH]]; [exists []; reflexivity|]. exists (v :: c). cbn [map all_some]. fold (@all_some rv value (data_of true)). now rewrite HV, IH. }
  destruct HL as [c HL]. exists c. cbn [rv_slot all_snd data_of]. fold (@all_some rv value (data_of true)). now rewrite HL.
Qed.
Lemma rv_node_eq k ty ve tx a co ma : rv_node (Node k ty ve tx a co ma) =
  RInst (node_q k) ((s "type", RV ty) :: rv_opt (s "version") ve ++ rv_opt (s "text") tx ++ rv_attrs (node_q k) a ++ rv_slot rv_node (s "content") co ++ rv_slot rv_mark (s "marks") ma).
Proof. destruct co; reflexivity. Qed.
Definition base_data (ty : value) (ve tx : option value) : list (str * value) :=
  (s "type", ty) :: match ve with Some v => [(s "version", v)] | None => [] end ++ match tx with Some v => [(s "text", v)] | None => [] end.
Lemma node_data n : exists v, data_of true (rv_node n) = Some v.
Proof.
  induction n as [k ty ve tx a co ma IH] using node_ind'. rewrite rv_node_eq. cbn [data_of]. fold (@all_snd str rv value (data_of true)). cbn [all_snd data_of]. fold (@all_snd str rv value (data_of true)).
  rewrite !all_snd_app, !opt_data, attrs_data. destruct (slot_data rv_node (s "content") co IH) as [c HC]. rewrite HC.
  destruct (slot_data rv_mark (s "marks") ma) as [c' HM]; [destruct ma; try exact I; cbn; apply Forall_forall; intros; eexists; apply mark_data|]. rewrite HM.
  eexists. reflexivity.
Qed.
Lemma fields_data k ty ve tx a co ma : exists cc cm,
  all_snd (data_of true) ((s "type", RV ty) :: rv_opt (s "version") ve ++ rv_opt (s "text") tx ++ rv_attrs (node_q k) a ++ rv_slot rv_node (s "content") co ++ rv_slot rv_mark (s "marks") ma) =
  Some (base_data ty ve tx ++ data_attrs a ++ data_slot (s "content") cc co ++ data_slot (s "marks") cm ma).
Proof.
  destruct (slot_data rv_node (s "content") co) as [cc HC]; [destruct co; try exact I; cbn; apply Forall_forall; intros; apply node_data|].
  destruct (slot_data rv_mark (s "marks") ma) as [cm HM]; [destruct ma; try exact I; cbn; apply Forall_forall; intros; eexists; apply mark_data|].
  exists cc, cm. cbn [all_snd data_of]. fold (@all_snd str rv value (data_of true)). rewrite !all_snd_app, !opt_data, attrs_data, HC, HM.
  unfold base_data. cbn [app]. now rewrite <- !app_assoc.
Qed.

(** ---------------------------------------------------------------- looking things up in a node and in its data *)
Definition other (x : str) : bool := negb (str_eqb (s "type") x || str_eqb (s "version") x || str_eqb (s "text") x).
Lemma lookup_base x ty ve tx : other x = true -> lookup x (base_data ty ve tx) = None.
Proof.
  unfold other, base_data. intros H. apply negb_true_iff in H. apply orb_false_iff in H as [H H3]. apply orb_false_iff in H as [H1 H2].
  cbn [lookup]. rewrite H1. destruct ve as [v|], tx as [t|]; cbn [app lookup]; rewrite ?H2, ?H3; reflexivity.
Qed.
Lemma lookup_inst x k ty ve tx a co ma : other x = true ->
  lookup x ((s "type", RV ty) :: rv_opt (s "version") ve ++ rv_opt (s "text") tx ++ rv_attrs (node_q k) a ++ rv_slot rv_node (s "content") co ++ rv_slot rv_mark (s "marks") ma) =
  lookup x (rv_attrs (node_q k) a ++ rv_slot rv_node (s "content") co ++ rv_slot rv_mark (s "marks") ma).
Proof.
  unfold other. intros H. apply negb_true_iff in H. apply orb_false_iff in H as [H H3]. apply orb_false_iff in H as [H1 H2].
  cbn [lookup]. rewrite H1. destruct ve as [v|], tx as [t|]; cbn [rv_opt app lookup]; rewrite ?H2, ?H3; reflexivity.
Qed.
Lemma lookup_slot_other {A} (rva : A -> rv) x y co : str_eqb x y = false -> lookup y (rv_slot rva x co) = None.
Proof. intros H. destruct co; cbn [rv_slot lookup]; rewrite ?H; reflexivity. Qed.
Lemma lookup_attrs_other q y a : str_eqb (s "attrs") y = false -> lookup y (rv_attrs q a) = None.
Proof. intros H. destruct a; cbn [rv_attrs lookup]; rewrite ?H; reflexivity. Qed.

Section Run.
Variable W : bool.
Notation CL k := (rcall W repo2 k).
Notation EV := (reval W repo2).
Notation EX := (rexec W repo2).
Notation BL := (rblock W repo2).
Lemma a_inst c fs f v : lookup (s f) fs = Some v -> String.prefix "__" f = false -> rattr W repo2 (RInst c fs) f = Val v.
Proof. intros H HP. with_strategy transparent [rattr] (unfold rattr). now rewrite HP, H. Qed.
Lemma a_meth c fs m f : lookup (s m) fs = None -> find repo2 8 c m = Some (false, f) -> String.prefix "__" m = false -> rattr W repo2 (RInst c fs) m = Val (RBound c (RInst c fs) m).
Proof. intros H HF HP. with_strategy transparent [rattr] (unfold rattr). rewrite HP, H. unfold method_of. now rewrite HF. Qed.
Lemma a_super_to q fs : rattr W repo2 (RSuper "mark_or_node.BaseMark" (RInst q fs)) "to_dict" = Val (RBound "mark_or_node.BaseMarkOrNode" (RInst q fs) "to_dict").
Proof. vm_compute. reflexivity. Qed.
Lemma a_data v : rattr W repo2 (RV v) "to_dict" = Exc AttributeError.
Proof. with_strategy transparent [rattr] (destruct v; reflexivity). Qed.
Lemma filter_data d : filter (fun e : str * rv => match snd e with RV VOpt => false | _ => true end) (data_fields d) = data_fields (remove_optional d).
Proof. induction d as [|[k v] d IH]; [reflexivity|]. cbn [data_fields map filter fst snd remove_optional]. fold (data_fields d). rewrite IH. destruct v; reflexivity. Qed.
(** Base.to_dict *)
Lemma base_to_dict k q c fs d : find repo2 8 q "to_dict" = Some (false, m_Base_to_dict) -> all_snd (data_of true) fs = Some d ->
  does (CL (Datatypes.S k) (RBound q (RInst c fs) "to_dict") []) [] (Val (RV (VDict (remove_optional d)))).
Proof.
  intros HQ HD w HG. rewrite (call_bound _ _ _ _ _ _ _ _ HQ). renter m_Base_to_dict. rewrite block_cons. rs. rewrite HD. rs.
  fold (data_fields d). rewrite filter_data. exists w. rewrite settle_data, app_nil_r. auto.
Qed.
(** BaseMark.to_dict *)
Lemma hasattr_to v : hasattr W repo2 (RV v) (s "to_dict") = Val false.
Proof. unfold hasattr. change (string_of_list_ascii (map Ascii.ascii_of_N (s "to_dict"))) with "to_dict". now rewrite a_data. Qed.
Lemma super_to : find repo2 8 "mark_or_node.BaseMarkOrNode" "to_dict" = Some (false, m_Base_to_dict).
Proof. vm_compute. reflexivity. Qed.
Lemma in_data x d : rin (RV (VStr x)) (RV (VDict d)) = Val (has x d).
Proof.
  cbn [rin py_in]. unfold has. induction d as [|[k v] d IH]; [reflexivity|]. cbn [map any_eq pv_eq py_eq obind fst lookup]. rewrite (str_eqb_sym x k).
  destruct (str_eqb k x); [reflexivity|exact IH].
Qed.
Lemma mark_to_dict_run k m : does (CL (Datatypes.S (Datatypes.S k)) (RBound (mark_q (m_kind m)) (rv_mark m) "to_dict") []) [] (Val (RV (mark_to_dict m))).
Proof.
  intros w HG. rewrite (call_bound _ _ _ _ _ _ _ _ (mc_to _ (mark_class_q (m_kind m)))). renter m_BaseMark_to_dict. unfold rv_mark at 1. rewrite block_cons. rs. rewrite a_super_to. rs.
  pose proof (mark_data m) as HM. unfold rv_mark in HM. cbn [data_of] in HM.
  destruct (all_snd (data_of true) ((s "type", RV (m_type m)) :: rv_attrs (mark_q (m_kind m)) (m_attrs m))) as [d|] eqn:HD; [|discriminate]. cbn [option_map] in HM. assert (d = (s "type", m_type m) :: data_attrs (m_attrs m)) by congruence. subst d.
  destruct (base_to_dict k "mark_or_node.BaseMarkOrNode" (mark_q (m_kind m)) _ _ super_to HD w HG) as (w1 & E1 & G1 & L1). rewrite E1. rs.
  rewrite app_nil_r in L1. rewrite block_cons, exec_if. rs. rewrite in_data. rs.
  unfold mark_to_dict. fold (data_attrs (m_attrs m)). set (d := remove_optional _).
  exists w1. rewrite L1, app_nil_r. split; [|auto]. unfold has. destruct (lookup (s "attrs") d) as [x|] eqn:LX; rs.
  - rewrite LX. rs. rewrite hasattr_to. rs. rewrite block_nil, block_cons. rs. reflexivity.
  - rewrite block_nil, block_cons. rs. reflexivity.
Qed.
End Run.
