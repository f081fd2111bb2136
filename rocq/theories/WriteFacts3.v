(** Running the source text of the functions that write dictionaries: to_dict of nodes, put together; to_kwargs and is_opt. *)
From Coq Require Import List NArith ZArith Bool String Lia.
From Verif Require Import PyStr Values Schema Parse Serialize Basics SpecSize PySyntax PySem RepoCode RepoCode2 PySem2 ReadFacts ReadFacts2 ReadFacts3 ReadFacts4 WriteFacts WriteFacts2.
Import ListNotations.
Open Scope string_scope.
Open Scope list_scope.

Definition write_mark (m : mark) : res value := Ok (mark_to_dict m).
Definition written (a : attrs) (x : str) (o : option (list value)) : list (str * value) := match o with Some l => [(x, VList l)] | None => [] end.
Lemma node_to_dict_eq k ty ve tx a co ma : node_to_dict (Node k ty ve tx a co ma) =
  do cs <- slot_out node_to_dict co; do ms <- slot_out write_mark ma;
  Ok (VDict (remove_optional (base_data ty ve tx ++ match a with NoAttrs | AOpt => [] | AObj l => [(s "attrs", attrs_to_dict l)] end
    ++ match cs with Some l => [(s "content", VList l)] | None => [] end ++ match ms with Some l => [(s "marks", VList l)] | None => [] end))).
Proof.
  cbn [node_to_dict].
  assert (HM : match ma with NoField | SOpt => Ok None | Items l => Ok (Some (map mark_to_dict l)) | Raw v => do xs <- raw_to_dicts v; Ok (Some xs) end = slot_out write_mark ma).
  { destruct ma as [| |l|]; try reflexivity. cbn [slot_out].
    assert (HL : mapM write_mark l = Ok (map mark_to_dict l)) by (induction l as [|m l IH]; [reflexivity|]; cbn [mapM write_mark Values.rbind map]; fold (@mapM mark value write_mark); now rewrite IH).
    now rewrite HL. }
  rewrite HM. unfold base_data. cbn [app]. 
  destruct co as [| |l|v]; cbn [slot_out];
    repeat match goal with |- Values.rbind ?m _ = Values.rbind ?m _ => destruct m; cbn [Values.rbind]; [|reflexivity] end; now rewrite <- app_assoc.
Qed.
Lemma values_data l : all_some (data_of false) (map RV l) = Some l.
Proof. induction l as [|v l IH]; [reflexivity|]. cbn [map all_some data_of]. fold (@all_some rv value (data_of false)). now rewrite IH. Qed.
Lemma remove_app a b : remove_optional (a ++ b) = remove_optional a ++ remove_optional b.
Proof. apply filter_app. Qed.
Definition unopt (d : list (str * rv)) := filter (fun e => match snd e with RV VOpt => false | _ => true end) d.
Lemma unopt_attrs a : all_snd (data_of false) (unopt (out_attrs a)) = Some (remove_optional (match a with NoAttrs | AOpt => [] | AObj l => [(s "attrs", attrs_to_dict l)] end)).
Proof. now destruct a. Qed.
Lemma unopt_slot {A} (td : A -> res value) x (co : slot A) o : slot_out td co = Ok o ->
  all_snd (data_of false) (unopt (out_slot x co o)) = Some (remove_optional (match o with Some l => [(x, VList l)] | None => [] end)).
Proof.
  destruct co as [| |l|v]; cbn [slot_out].
  - intros [= <-]. reflexivity.
  - intros [= <-]. reflexivity.
  - destruct (mapM td l) as [xs|e]; [|discriminate]. intros [= <-]. cbn [out_slot unopt filter snd all_snd data_of]. fold (@all_some rv value (data_of false)). now rewrite values_data.
  - destruct (raw_to_dicts v) as [xs|e]; [|discriminate]. intros [= <-]. cbn [out_slot unopt filter snd all_snd data_of]. fold (@all_some rv value (data_of false)). now rewrite values_data.
Qed.
Lemma lookup_base_data x ty ve tx : other x = true -> lookup x (data_fields (base_data ty ve tx)) = None.
Proof. intros H. now rewrite lookup_data, lookup_base. Qed.
Lemma lookup_out_attrs x a : str_eqb (s "attrs") x = false -> lookup x (out_attrs a) = None.
Proof. intros H. destruct a; cbn [out_attrs lookup]; rewrite ?H; reflexivity. Qed.
Lemma lookup_out_slot {A} x y (co : slot A) o : str_eqb x y = false -> lookup y (out_slot x co o) = None.
Proof. intros H. destruct co, o; cbn [out_slot lookup]; rewrite ?H; reflexivity. Qed.
Lemma lookup_data_slot {A} x y c (co : slot A) : str_eqb x y = false -> lookup y (data_fields (data_slot x c co)) = None.
Proof. intros H. rewrite lookup_data. destruct co; cbn [data_slot lookup]; rewrite ?H; reflexivity. Qed.
Lemma data_fields_app a b : data_fields (a ++ b) = data_fields a ++ data_fields b.
Proof. apply map_app. Qed.
Definition node_class_name (n : node) : string := node_q (n_kind n).
Definition mark_class_name (m : mark) : string := mark_q (m_kind m).
Lemma node_inst n : exists fs, rv_node n = RInst (node_class_name n) fs /\ lookup (s "to_dict") fs = None /\ lookup (s "to_kwargs") fs = None /\ lookup (s "is_opt") fs = None.
Proof.
  destruct n as [k ty ve tx a co ma]. rewrite rv_node_eq. eexists. split; [reflexivity|].
  assert (H : forall x, other x = true -> str_eqb (s "attrs") x = false -> str_eqb (s "content") x = false -> str_eqb (s "marks") x = false ->
    lookup x ((s "type", RV ty) :: rv_opt (s "version") ve ++ rv_opt (s "text") tx ++ rv_attrs (node_q k) a ++ rv_slot rv_node (s "content") co ++ rv_slot rv_mark (s "marks") ma) = None).
  { intros x H H1 H2 H3. rewrite lookup_inst by exact H. rewrite !lookup_app, lookup_attrs_other by exact H1. now rewrite !lookup_slot_other. }
  repeat split; apply H; reflexivity.
Qed.
Lemma mark_inst m : exists fs, rv_mark m = RInst (mark_class_name m) fs /\ lookup (s "to_dict") fs = None /\ lookup (s "to_kwargs") fs = None /\ lookup (s "is_opt") fs = None.
Proof. unfold rv_mark. eexists. split; [reflexivity|]. destruct (m_attrs m); repeat split. Qed.

Section Run.
Variable W : bool.
Notation CL k := (rcall W repo2 k).
Notation EV := (reval W repo2).
Notation EX := (rexec W repo2).
Notation BL := (rblock W repo2).
Lemma node_method n m f : find repo2 8 (node_class_name n) m = Some (false, f) -> (m = "to_dict" \/ m = "to_kwargs" \/ m = "is_opt") ->
  rattr W repo2 (rv_node n) m = Val (RBound (node_class_name n) (rv_node n) m).
Proof.
  intros HF HM. destruct (node_inst n) as (fs & HE & H1 & H2 & H3). rewrite HE. destruct HM as [->|[->| ->]]; eapply a_meth; eauto.
Qed.
Lemma mark_method r m f : find repo2 8 (mark_class_name r) m = Some (false, f) -> (m = "to_dict" \/ m = "to_kwargs" \/ m = "is_opt") ->
  rattr W repo2 (rv_mark r) m = Val (RBound (mark_class_name r) (rv_mark r) m).
Proof.
  intros HF HM. destruct (mark_inst r) as (fs & HE & H1 & H2 & H3). rewrite HE. destruct HM as [->|[->| ->]]; eapply a_meth; eauto.
Qed.
Lemma node_to_dict_run n : writable n -> forall k, (depth n + 2 <= k)%nat ->
  does (CL k (RBound (node_class_name n) (rv_node n) "to_dict") []) [] (out_of RV (node_to_dict n)).
Proof.
  induction n as [k0 ty ve tx a co ma IH] using node_ind'. intros HW k HK w HG.
  inversion HW as [? ? ? ? ? ? ? HA HSC HSM HCW EQ]. subst. cbn [depth] in HK.
  destruct k as [|[|[|k]]]; try lia.
  unfold node_class_name. cbn [n_kind]. rewrite (call_bound _ _ _ _ _ _ _ _ (nc_to _ (node_class_q k0))). unfold rrun. rewrite to_dict_body.
  change (f_params m_BaseNode_to_dict) with [("self", @None value)]. change (f_locals m_BaseNode_to_dict) with ["data"]. cbn [rbind option_map map app].
  rewrite rv_node_eq. set (fs := (s "type", RV ty) :: _) at 1. destruct (fields_data k0 ty ve tx a co ma) as (cc & cm & HF). fold fs in HF.
  rewrite block_cons. rs. rewrite HF. rs. fold (data_fields (base_data ty ve tx ++ data_attrs a ++ data_slot (s "content") cc co ++ data_slot (s "marks") cm ma)).
  rewrite !data_fields_app.
  rewrite block_cons.
  destruct (attrs_put_run W (Datatypes.S k) (node_q k0) fs (data_fields (base_data ty ve tx)) (data_fields (data_slot (s "content") cc co) ++ data_fields (data_slot (s "marks") cm ma)) a w) as (w1 & G1 & L1 & E1).
  { now apply lookup_base_data. }
  { rewrite lookup_app, lookup_data_slot by reflexivity. now apply lookup_data_slot. }
  { unfold fs. rewrite lookup_inst by reflexivity. rewrite !lookup_app, !lookup_slot_other by reflexivity. now destruct (lookup (s "attrs") (rv_attrs (node_q k0) a)). }
  { destruct a as [| |l]; try exact I. destruct HA as [HA1 HA2]. split; [|exact HA2]. destruct (nc_attrs (nk_class k0)) as [x|] eqn:E; [|congruence]. exact (node_attrs_class _ _ E). }
  { exact HG. }
  unfold tenv in E1 at 1. rewrite E1. clear E1.
  rewrite block_cons. rewrite app_assoc.
  destruct (put_run W (CL (Datatypes.S (Datatypes.S k))) "content" "c" (node_q k0) fs (data_fields (base_data ty ve tx) ++ out_attrs a) (data_fields (data_slot (s "marks") cm ma))
    node_class_name rv_node node_to_dict co cc w1) as (w2 & G2 & L2 & E2).
  { intros i [= ->]. reflexivity. }
  { reflexivity. }
  { reflexivity. }
  { rewrite lookup_app, lookup_base_data by reflexivity. now apply lookup_out_attrs. }
  { now apply lookup_data_slot. }
  { unfold fs. rewrite lookup_inst by reflexivity. rewrite !lookup_app, lookup_attrs_other, (lookup_slot_other rv_mark) by reflexivity. now destruct (lookup (s "content") (rv_slot rv_node (s "content") co)). }
  { exact HSC. }
  { destruct co as [| |l|]; try exact I. cbn [on_items] in *. specialize (HCW l eq_refl). rewrite Forall_forall in *. intros c HC. split.
    - destruct (node_inst c) as (fs' & HE & _). exists fs'. split; [exact HE|]. exact (node_method c "to_dict" _ (nc_to _ (node_class_q (n_kind c))) (or_introl eq_refl)).
    - apply IH; [exact HC|exact (HCW c HC)|]. assert (HD : (depth c <= list_max (map depth l))%nat).
      { pose proof (proj1 (list_max_le (map depth l) _) (le_n _)) as HM. rewrite Forall_forall in HM. apply HM. now apply in_map. } lia. }
  { exact G1. }
  rewrite E2. clear E2. rewrite node_to_dict_eq. destruct (slot_out node_to_dict co) as [oc|e] eqn:SC; cbn [Values.rbind out_of].
  2:{ exists w2. rewrite L2, L1, app_nil_r. auto. }
  rewrite block_cons. rewrite app_assoc. rewrite <- (app_nil_r (data_fields (data_slot (s "marks") cm ma))).
  destruct (put_run W (CL (Datatypes.S (Datatypes.S k))) "marks" "m" (node_q k0) fs ((data_fields (base_data ty ve tx) ++ out_attrs a) ++ out_slot (s "content") co oc) []
    mark_class_name rv_mark write_mark ma cm w2) as (w3 & G3 & L3 & E3).
  { intros i [= ->]. reflexivity. }
  { reflexivity. }
  { reflexivity. }
  { rewrite !lookup_app, lookup_base_data by reflexivity. rewrite lookup_out_attrs by reflexivity. now apply lookup_out_slot. }
  { reflexivity. }
  { unfold fs. rewrite lookup_inst by reflexivity. rewrite !lookup_app, lookup_attrs_other, (lookup_slot_other rv_node) by reflexivity. reflexivity. }
  { exact HSM. }
  { destruct ma as [| |l|]; try exact I. cbn [on_items]. apply Forall_forall. intros c HC. split.
    - destruct (mark_inst c) as (fs' & HE & _). exists fs'. split; [exact HE|]. exact (mark_method c "to_dict" _ (mc_to _ (mark_class_q (m_kind c))) (or_introl eq_refl)).
    - apply mark_to_dict_run. }
  { exact G2. }
  rewrite E3. clear E3. destruct (slot_out write_mark ma) as [om|e] eqn:SM; cbn [Values.rbind out_of].
  2:{ exists w3. rewrite L3, L2, L1, app_nil_r. auto. }
  rewrite app_nil_r. rewrite block_cons. unfold tenv. rs. exists w3. rewrite L3, L2, L1, app_nil_r. split; [|auto].
  match goal with |- context [settle (RDict Own ?D)] => change D with (unopt (((data_fields (base_data ty ve tx) ++ out_attrs a) ++ out_slot (s "content") co oc) ++ out_slot (s "marks") ma om)) end.
  unfold settle. cbn [data_of]. fold (@all_snd str rv value (data_of false)).
  assert (HU : forall x y, unopt (x ++ y) = unopt x ++ unopt y) by (intros; apply filter_app). rewrite !HU. clear HU. rewrite !all_snd_app.
  unfold unopt at 1. rewrite filter_data, all_snd_data, unopt_attrs, (unopt_slot _ _ _ _ SC), (unopt_slot _ _ _ _ SM). cbn [option_map]. rewrite !remove_app, !app_assoc. reflexivity.
Qed.
(** to_kwargs is to_dict. *)
Lemma node_to_kwargs_run n : writable n -> forall k, (depth n + 3 <= k)%nat ->
  does (CL k (RBound (node_class_name n) (rv_node n) "to_kwargs") []) [] (out_of RV (node_to_dict n)).
Proof.
  intros HW k HK w HG. destruct k as [|k]; [lia|]. rewrite (call_bound _ _ _ _ _ _ _ _ (nc_kw _ (node_class_q (n_kind n)))). renter m_Base_to_kwargs.
  destruct (node_inst n) as (fs & HE & _). rewrite block_cons. rs.
  assert (HX : match rv_node n with RUnbound => Wrong | _ => Val (lend (rv_node n)) end = Val (rv_node n)) by (now rewrite HE). rewrite HX.
  rewrite (node_method n "to_dict" _ (nc_to _ (node_class_q (n_kind n))) (or_introl eq_refl)). rs.
  destruct (node_to_dict_run n HW k) with (w := w) as (w1 & E1 & G1 & L1); [lia|exact HG|]. rewrite E1. exists w1. split; [|auto]. destruct (node_to_dict n); reflexivity.
Qed.
Lemma mark_to_kwargs_run m k : does (CL (Datatypes.S (Datatypes.S (Datatypes.S k))) (RBound (mark_class_name m) (rv_mark m) "to_kwargs") []) [] (Val (RV (mark_to_dict m))).
Proof.
  intros w HG. rewrite (call_bound _ _ _ _ _ _ _ _ (mc_kw _ (mark_class_q (m_kind m)))). renter m_Base_to_kwargs.
  destruct (mark_inst m) as (fs & HE & _). rewrite block_cons. rs.
  assert (HX : match rv_mark m with RUnbound => Wrong | _ => Val (lend (rv_mark m)) end = Val (rv_mark m)) by (now rewrite HE). rewrite HX.
  rewrite (mark_method m "to_dict" _ (mc_to _ (mark_class_q (m_kind m))) (or_introl eq_refl)). rs.
  destruct (mark_to_dict_run W k m w HG) as (w1 & E1 & G1 & L1). unfold mark_class_name. rewrite E1. exists w1. split; [|auto]. reflexivity.
Qed.
(** is_opt is the identity test with OPT. *)
Lemma is_opt_run n v k : does (CL (Datatypes.S k) (RBound (node_class_name n) (rv_node n) "is_opt") [RV v]) [] (Val (RV (VBool (Values.is_opt v)))).
Proof.
  intros w HG. rewrite (call_bound _ _ _ _ _ _ _ _ (nc_is _ (node_class_q (n_kind n)))). renter m_Base_is_opt. rewrite block_cons. rs.
  exists w. rewrite app_nil_r. split; [|auto]. destruct v; reflexivity.
Qed.
End Run.
