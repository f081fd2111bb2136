(** Parsing and serialisation respect every equality of data that distinguishes strings and the sentinel. *)
From Coq Require Import List NArith ZArith QArith Bool String Lia.
From Verif Require Import PyStr Values Schema Parse Serialize Basics SpecParse ParseFacts SerFacts2 Equal SpecEqual.
Import ListNotations.
Open Scope list_scope.
Open Scope string_scope.

Fixpoint distinctb (l : list str) : bool := match l with [] => true | k :: r => negb (existsb (str_eqb k) r) && distinctb r end.
Lemma distinctb_ok l : distinctb l = true -> NoDup l.
Proof.
  induction l as [|k r IH]; [constructor|]. cbn [distinctb]. intros H. apply andb_true_iff in H as [H1 H2]. constructor; [|auto].
  intros HI. apply negb_true_iff in H1. assert (existsb (str_eqb k) r = true); [|congruence]. apply existsb_exists. exists k. split; [exact HI|apply str_eqb_refl].
Qed.
Lemma mk_attrs_nodup k fs : mk_attrs k = Some fs -> NoDup (map fst fs).
Proof. intros H. apply distinctb_ok. destruct k; cbn in H; try discriminate H; injection H as <-; vm_compute; reflexivity. Qed.
Lemma nc_attrs_nodup k fk fs : nc_attrs (nk_class k) = Some (fk, fs) -> NoDup (map fst fs).
Proof. intros H. apply distinctb_ok. destruct k; cbn in H; try discriminate H; injection H as <- <-; vm_compute; reflexivity. Qed.

Section Rel.
Context (A : value -> value -> Prop).
Hypothesis A_str : forall x b, A (VStr x) b -> b = VStr x.
Hypothesis A_str' : forall x a, A a (VStr x) -> a = VStr x.
Hypothesis A_opt : forall b, A VOpt b -> b = VOpt.
Hypothesis A_opt' : forall a, A a VOpt -> a = VOpt.
Hypothesis A_refl_str : forall x, A (VStr x) (VStr x).
Hypothesis A_refl_opt : A VOpt VOpt.
Hypothesis A_refl_one : A (VInt 1) (VInt 1).

Notation sd := (same_data A).

(** ---------------------------------------------------------------- lookups *)
Inductive same_opt : option value -> option value -> Prop :=
| sopt_none : same_opt None None
| sopt_some x y : sd x y -> same_opt (Some x) (Some y).
Lemma lookup_in {B} k (d : list (str * B)) x : lookup k d = Some x -> In (k, x) d.
Proof.
  induction d as [|[k' y] d IH]; [discriminate|]. cbn [lookup]. destruct (str_eqb k' k) eqn:E.
  - apply str_eqb_eq in E. subst. intros [= ->]. now left.
  - intros H. right. auto.
Qed.
Lemma lookup_none {B} k (d : list (str * B)) : lookup k d = None <-> ~ In k (map fst d).
Proof.
  induction d as [|[k' y] d IH]; [split; [intros _ []|reflexivity]|]. cbn [lookup map fst In]. destruct (str_eqb k' k) eqn:E.
  - apply str_eqb_eq in E. subst. split; [discriminate|]. intros H. destruct H. now left.
  - apply str_eqb_neq in E. rewrite IH. tauto.
Qed.
Lemma in_lookup {B} k (d : list (str * B)) x : NoDup (map fst d) -> In (k, x) d -> lookup k d = Some x.
Proof.
  induction d as [|[k' y] d IH]; [intros _ []|]. cbn [map fst lookup]. intros HN. inversion HN as [|? ? H1 H2]; subst. intros [[= -> ->]|H].
  - now rewrite str_eqb_refl.
  - destruct (str_eqb k' k) eqn:E; [|auto]. apply str_eqb_eq in E. subst. destruct H1. apply in_map_iff. now exists (k, x).
Qed.
Lemma sd_lookup d d' k : sd (VDict d) (VDict d') -> same_opt (lookup k d) (lookup k d').
Proof.
  intros H. inversion H as [? ? HA|? ? |? ? N1 N2 HK HV]; subst; [discriminate|].
  destruct (lookup k d) as [x|] eqn:E1, (lookup k d') as [y|] eqn:E2; try constructor.
  - apply (HV k); now apply lookup_in.
  - apply lookup_in in E1. apply lookup_none in E2. destruct E2. apply HK. apply in_map_iff. now exists (k, x).
  - apply lookup_in in E2. apply lookup_none in E1. destruct E1. apply HK. apply in_map_iff. now exists (k, y).
Qed.
Lemma sd_has d d' k : sd (VDict d) (VDict d') -> has k d = has k d'.
Proof. intros H. unfold has. now destruct (sd_lookup d d' k H). Qed.

(** ---------------------------------------------------------------- objects *)
Inductive same_attrs : attrs -> attrs -> Prop :=
| sa_no : same_attrs NoAttrs NoAttrs
| sa_opt : same_attrs AOpt AOpt
| sa_obj l l' : map fst l = map fst l' -> NoDup (map fst l) -> Forall2 (fun x y => sd (snd x) (snd y)) l l' -> same_attrs (AObj l) (AObj l').
Inductive same_mark : mark -> mark -> Prop :=
| smk k t t' a a' : sd t t' -> same_attrs a a' -> same_mark (Mark k t a) (Mark k t' a').
Inductive same_slot {B} (R : B -> B -> Prop) : slot B -> slot B -> Prop :=
| ss_no : same_slot R NoField NoField
| ss_opt : same_slot R SOpt SOpt
| ss_items l l' : Forall2 R l l' -> same_slot R (Items l) (Items l')
| ss_raw v v' : sd v v' -> same_slot R (Raw v) (Raw v').
Inductive same_node : node -> node -> Prop :=
| snd_ k t t' ve ve' tx tx' a a' co co' ma ma' :
    sd t t' -> same_opt ve ve' -> same_opt tx tx' -> same_attrs a a' ->
    same_slot same_node co co' -> same_slot same_mark ma ma' ->
    same_node (Node k t ve tx a co ma) (Node k t' ve' tx' a' co' ma').

Notation so := (same_outcome A).
Definition same_run {B C} (R : B -> C -> Prop) (m : M B) (m' : M C) : Prop :=
  Forall2 (same_warning A) (fst m) (fst m') /\ so R (snd m) (snd m').

Lemma so_bind {B B' C C'} (R : B -> B' -> Prop) (S : C -> C' -> Prop) m m' f f' :
  so R m m' -> (forall x y, R x y -> so S (f x) (f' y)) -> so S (rbind m f) (rbind m' f').
Proof. intros [x y H|e e' H] HF; cbn [rbind]; [auto|now constructor]. Qed.
Lemma run_bind {B B' C C'} (R : B -> B' -> Prop) (S : C -> C' -> Prop) (m : M B) (m' : M B') (f : B -> M C) (f' : B' -> M C') :
  same_run R m m' -> (forall x y, R x y -> same_run S (f x) (f' y)) -> same_run S (bind m f) (bind m' f').
Proof.
  destruct m as [w r], m' as [w' r']. intros [HW HR] HF. cbn [fst snd] in *. inversion HR as [x y H|e e' H]; subst; cbn [bind].
  - specialize (HF x y H). destruct (f x) as [v q], (f' y) as [v' q']. destruct HF as [H1 H2]. cbn [fst snd] in *.
    split; [now apply Forall2_app|exact H2].
  - split; [exact HW|now constructor].
Qed.
Lemma run_lift {B C} (R : B -> C -> Prop) r r' : so R r r' -> same_run R (lift r) (lift r').
Proof. intros H. split; [constructor|exact H]. Qed.
Lemma run_ret {B C} (R : B -> C -> Prop) x y : R x y -> same_run R (ret x) (ret y).
Proof. intros H. split; [constructor|now constructor]. Qed.
Lemma so_same_err {B C} (R : B -> C -> Prop) e : (forall c t, e <> Unimplemented c t) -> so R (Err e) (Err e).
Proof. intros H. constructor. now constructor. Qed.
Ltac err := apply so_same_err; discriminate.

(** ---------------------------------------------------------------- parsing *)
Lemma sd_str x b : sd (VStr x) b -> b = VStr x.
Proof. intros H. inversion H; subst. auto. Qed.
Lemma sd_str' x a : sd a (VStr x) -> a = VStr x.
Proof. intros H. inversion H; subst. auto. Qed.
Lemma sd_opt b : sd VOpt b -> b = VOpt.
Proof. intros H. inversion H; subst. auto. Qed.
Lemma sd_opt' a : sd a VOpt -> a = VOpt.
Proof. intros H. inversion H; subst. auto. Qed.

Lemma attrs_from_dict_rel fs v v' : NoDup (map fst fs) -> sd v v' ->
  so (fun l l' => map fst l = map fst l' /\ NoDup (map fst l) /\ Forall2 (fun x y => sd (snd x) (snd y)) l l') (attrs_from_dict fs v) (attrs_from_dict fs v').
Proof.
  intros HND H. destruct v as [| | | | | |d|]; inversion H as [a0 b0 HA HB HR|l0 l' HL|d0 d' N1 N2 HK HV]; subst; try discriminate HA;
    try (destruct v'; try discriminate HB; err); try err.
  cbn [attrs_from_dict].
  assert (HM : forall q, missing q fs d = missing q fs d').
  { intros q. unfold missing. clear HND. induction fs as [|f fs IH]; [reflexivity|]. cbn [existsb]. now rewrite IH, (sd_has d d' (fst f) H). }
  rewrite !HM. destruct (missing is_Pos fs d'); [err|]. destruct (missing is_Req fs d'); [err|].
  constructor. split; [rewrite !map_map; reflexivity|]. split; [rewrite map_map; exact HND|]. clear HM HND. induction fs as [|f fs IH]; [constructor|]. cbn [map]. constructor; [|exact IH].
  cbn [snd]. destruct (sd_lookup d d' (fst f) H); [apply sd_atom; auto|assumption].
Qed.

Lemma type_field_rel name d d' : sd (VDict d) (VDict d') -> sd (type_field name d) (type_field name d').
Proof. intros H. unfold type_field. destruct (sd_lookup d d' (s "type") H); [apply sd_atom; auto|assumption]. Qed.

Lemma mark_from_dict_rel k v v' : sd v v' -> so same_mark (mark_from_dict k v) (mark_from_dict k v').
Proof.
  intros H. destruct v as [| | | | | |d|]; inversion H as [a0 b0 HA HB HR|l0 l' HL|d0 d' N1 N2 HK HV]; subst; try discriminate HA;
    try (destruct v'; try discriminate HB; err); try err.
  cbn [mark_from_dict]. destruct (mk_attrs k) as [fs|] eqn:EA.
  - destruct (sd_lookup d d' (s "attrs") H) as [|x y HX]; [err|].
    eapply so_bind; [apply attrs_from_dict_rel; [eapply mk_attrs_nodup; exact EA|exact HX]|]. intros l l' (H1 & H2 & H3). constructor. constructor; [now apply type_field_rel|now constructor].
  - constructor. constructor; [now apply type_field_rel|constructor].
Qed.

Lemma mark_class_rel t t' : sd t t' -> mark_class_of t = mark_class_of t'.
Proof.
  intros H. destruct t; inversion H as [a0 b0 HA HB HR|l0 l' HL|d0 d' N1 N2 HK HV]; subst; try discriminate HA; try reflexivity;
    try (now apply A_str in HR; subst); destruct t'; try discriminate HB; try reflexivity; now apply A_str' in HR.
Qed.
Lemma node_class_rel t t' : sd t t' -> node_class_of t = node_class_of t'.
Proof.
  intros H. destruct t; inversion H as [a0 b0 HA HB HR|l0 l' HL|d0 d' N1 N2 HK HV]; subst; try discriminate HA; try reflexivity;
    try (now apply A_str in HR; subst); destruct t'; try discriminate HB; try reflexivity; now apply A_str' in HR.
Qed.

Lemma parse_mark_rel v v' : sd v v' -> so same_mark (parse_mark v) (parse_mark v').
Proof.
  intros H. pose proof (mark_from_dict_rel) as HM. destruct v as [| | | | | |d|]; inversion H as [a0 b0 HA HB HR|l0 l' HL|d0 d' N1 N2 HK HV]; subst; try discriminate HA;
    try (destruct v'; try discriminate HB; err); try err.
  cbn [parse_mark]. destruct (sd_lookup d d' (s "type") H) as [|x y HX]; [err|]. rewrite (mark_class_rel x y HX).
  destruct (mark_class_of y) eqn:EC; [now apply HM| |err]. constructor. constructor.
  inversion HX; subst; [assumption|discriminate EC|discriminate EC].
Qed.

Lemma collect_rel {B} (R : B -> B -> Prop) w ms ms' : Forall2 (same_run R) ms ms' -> same_run (Forall2 R) (collect w ms) (collect w ms').
Proof.
  induction 1 as [|[lg r] [lg' r'] ms ms' [HW HR] HF IH]; [apply run_ret; constructor|]. cbn [fst snd] in *.
  inversion HR as [x y H|e e' H]; subst.
  - cbn [collect]. apply (run_bind R); [split; [exact HW|now constructor]|]. intros x' y' H'. eapply run_bind; [exact IH|].
    intros l l' HL. apply run_ret. now constructor.
  - destruct H as [e HE|c t t' HT].
    + destruct e as [| | | | | | | |c t]; try (cbn [collect]; split; [exact HW|err]). now destruct (HE c t).
    + cbn [collect]. apply (run_bind (fun _ _ => True)); [|intros; exact IH]. split; [|now constructor]. cbn [fst].
      apply Forall2_app; [exact HW|]. destruct w; constructor; [|constructor]. now constructor.
Qed.

Inductive same_entry {B} (R : B -> B -> Prop) : entry B -> entry B -> Prop :=
| sen_no : same_entry R EAbsent EAbsent
| sen_list ms ms' : Forall2 (same_run R) ms ms' -> same_entry R (EList ms) (EList ms')
| sen_other v v' : sd v v' -> same_entry R (EOther v) (EOther v').
Definition same_oslot {B} (R : B -> B -> Prop) (a b : option (slot B)) : Prop :=
  match a, b with None, None => True | Some x, Some y => same_slot R x y | _, _ => False end.
Lemma run_entry_rel {B} (R : B -> B -> Prop) w e e' : same_entry R e e' -> same_run (same_oslot R) (run_entry w e) (run_entry w e').
Proof.
  intros [|ms ms' H|v v' H]; cbn [run_entry].
  - apply run_ret. exact I.
  - eapply run_bind; [apply collect_rel; exact H|]. intros l l' HL. apply run_ret. now constructor.
  - destruct v; try (assert (HV : v' <> VOpt) by (intros ->; apply sd_opt' in H; discriminate H);
      destruct v'; try congruence; apply run_ret; now constructor).
    apply sd_opt in H. subst. apply run_ret. constructor.
Qed.
Lemma marks_entry_rel d d' : sd (VDict d) (VDict d') -> same_entry same_mark (marks_entry d) (marks_entry d').
Proof.
  intros H. unfold marks_entry. destruct (sd_lookup d d' (s "marks") H) as [|x y HX]; [constructor|].
  destruct x; inversion HX as [a0 b0 HA HB HR|l0 l' HL|dd0 dd1 N1 N2 HK HV]; subst; try discriminate HA; try (destruct y; try discriminate HB; now constructor); try (now constructor).
  constructor. clear HX. induction HL as [|a b l l' HAB HL IH]; [constructor|]. cbn [map]. constructor; [|exact IH]. apply run_lift. now apply parse_mark_rel.
Qed.
Lemma node_from_entry_rel w k d d' ce ce' : sd (VDict d) (VDict d') -> same_entry same_node ce ce' ->
  same_run same_node (node_from_entry w k d ce) (node_from_entry w k d' ce').
Proof.
  intros H HC. unfold node_from_entry.
  apply (run_bind (fun a b => match a, b with None, None => True | Some x, Some y => same_attrs x y | _, _ => False end)).
  { apply run_lift. unfold attrs_entry. destruct (nc_attrs (nk_class k)) as [[fk fs]|] eqn:EA; [|constructor; exact I].
    destruct (sd_lookup d d' (s "attrs") H) as [|x y HX]; [constructor; exact I|].
    eapply so_bind; [apply attrs_from_dict_rel; [eapply nc_attrs_nodup; exact EA|exact HX]|]. intros l l' (H1 & H2 & H3). constructor. now constructor. }
  intros oa oa' HA. eapply run_bind; [apply run_entry_rel; exact HC|]. intros oc oc' HOC.
  eapply run_bind; [apply run_entry_rel; apply marks_entry_rel; exact H|]. intros om om' HOM. apply run_lift.
  unfold construct.
  apply (so_bind same_opt).
  { destruct (nc_text (nk_class k)); [|constructor; constructor]. destruct (sd_lookup d d' (s "text") H) as [|x y HX]; [err|]. constructor. now constructor. }
  intros tx tx' HTX. apply (so_bind same_attrs).
  { unfold attrs_field. destruct (nc_attrs (nk_class k)) as [[fk fs]|]; [|constructor; constructor].
    destruct oa, oa'; try contradiction HA; try (now constructor). destruct fk; try err; constructor; constructor. }
  intros a a' HAA.
  assert (HS : forall B (R : B -> B -> Prop) fk o o', same_oslot R o o' -> so (same_slot R) (slot_field fk o) (slot_field fk o')).
  { intros B R fk o o' HO. unfold slot_field. destruct fk as [fk|]; [|constructor; constructor].
    destruct o, o'; try contradiction HO; try (now constructor). destruct fk; try err; constructor; constructor. }
  eapply so_bind; [apply HS; exact HOC|]. intros co co' HCO. eapply so_bind; [apply HS; exact HOM|]. intros ma ma' HMA.
  constructor. constructor; auto; [now apply type_field_rel|].
  destruct (nc_version (nk_class k)); [|constructor]. destruct (sd_lookup d d' (s "version") H); constructor; [apply sd_atom; auto|assumption].
Qed.
Lemma parse_node_rel w v : forall v', sd v v' -> same_run same_node (parse_node w v) (parse_node w v').
Proof.
  induction v as [v HX|d IH] using doc_ind; intros v' H.
  - assert (HX' : forall d, v' <> VDict d).
    { intros d ->. inversion H as [a0 b0 HA HB HR| |d0 d1]; subst; [discriminate HB|]. eapply HX. reflexivity. }
    rewrite !parse_node_nondict by assumption. apply run_lift. err.
  - inversion H as [a0 b0 HA HB HR| |d0 d' N1 N2 HK HV]; subst; [discriminate HA|].
    rewrite !parse_node_dict. destruct (sd_lookup d d' (s "type") H) as [|x y HX]; [apply run_lift; err|].
    rewrite (node_class_rel x y HX). destruct (node_class_of y) as [k| |] eqn:EC; [| |apply run_lift; err].
    + cbn [from_dict]. apply node_from_entry_rel; [exact H|]. unfold content_entry.
      pose proof (sd_lookup d d' (s "content") H) as HC. destruct (lookup (s "content") d) as [x0|] eqn:EL.
      2: { inversion HC. constructor. }
      inversion HC as [|x1 y0 HX0 HE1 HE2]; subst x1. clear HC.
      destruct x0; inversion HX0 as [a0 b0 HA HB HR|l0 l' HL|dd0 dd1 M1 M2 HK' HV']; subst; try discriminate HA;
        try (destruct y0; try discriminate HB; now constructor); try (now constructor).
      constructor. specialize (IH _ _ EL). clear - IH HL. induction HL as [|a b l l' HAB HL IHL]; [constructor|].
      apply Forall_cons_iff in IH as [I1 I2]. cbn [map]. constructor; auto.
    + apply run_lift. constructor. constructor. inversion HX; subst; [assumption|discriminate EC|discriminate EC].
Qed.
Lemma from_dict_rel w k v v' : sd v v' -> same_run same_node (from_dict w k v) (from_dict w k v').
Proof.
  intros H. destruct v as [| | | | | |d|]; inversion H as [a0 b0 HA HB HR|l0 l' HL|d0 d' N1 N2 HK HV]; subst; try discriminate HA;
    try (destruct v'; try discriminate HB; apply run_lift; err); try (apply run_lift; err).
  cbn [from_dict]. apply node_from_entry_rel; [exact H|]. unfold content_entry.
  destruct (sd_lookup d d' (s "content") H) as [|x0 y0 HX0]; [constructor|].
  destruct x0; inversion HX0 as [a0 b0 HA HB HR|l0 l' HL|dd0 dd1 M1 M2 HK' HV']; subst; try discriminate HA;
    try (destruct y0; try discriminate HB; now constructor); try (now constructor).
  constructor. clear - HL A_str A_str' A_opt A_opt' A_refl_str A_refl_opt A_refl_one. induction HL as [|a b l l' HAB HL IHL]; [constructor|]. cbn [map]. constructor; [|exact IHL].
  now apply parse_node_rel.
Qed.

(** ---------------------------------------------------------------- to_dict *)
Definition distinct (l : list str) : Prop := NoDup l.
Lemma sd_fields l l' : map fst l = map fst l' -> NoDup (map fst l) -> Forall2 (fun x y : str * value => sd (snd x) (snd y)) l l' ->
  sd (VDict l) (VDict l').
Proof.
  intros HF HN H2. apply sd_dict; [exact HN|now rewrite <- HF|intros k; now rewrite HF|].
  intros k x y HX HY. revert HF HN HX HY. induction H2 as [|[k1 v1] [k2 v2] l l' HV H2 IH]; intros HF HN HX HY; [destruct HX|].
  cbn [map fst snd] in *. injection HF as -> HF. inversion HN as [|? ? N1 N2]; subst.
  destruct HX as [EX|HX], HY as [EY|HY]; auto.
  - now assert (v1 = x /\ v2 = y) as [-> ->] by (split; congruence).
  - destruct N1. rewrite HF. apply in_map_iff. exists (k, y). split; [cbn; congruence|exact HY].
  - destruct N1. apply in_map_iff. exists (k, x). split; [cbn; congruence|exact HX].
Qed.
Lemma sd_is_opt x y : sd x y -> is_opt x = is_opt y.
Proof.
  intros H. destruct x; destruct y; try reflexivity; first [apply sd_opt in H|apply sd_opt' in H]; discriminate H.
Qed.
Lemma remove_optional_rel l l' : map fst l = map fst l' -> NoDup (map fst l) -> Forall2 (fun x y : str * value => sd (snd x) (snd y)) l l' ->
  sd (VDict (remove_optional l)) (VDict (remove_optional l')).
Proof.
  intros HF HN H2. apply sd_fields.
  - revert HF. clear HN. unfold remove_optional. induction H2 as [|x y l l' HV H2 IH]; [reflexivity|]. cbn [map filter]. intros [= H1 HF].
    rewrite <- (sd_is_opt _ _ HV). destruct (is_opt (snd x)); cbn [negb]; [auto|]. cbn [map]. f_equal; auto.
  - unfold remove_optional. clear - HN. induction l as [|x l IH]; [constructor|]. cbn [map] in HN. inversion HN as [|? ? H1 H2]; subst. cbn [filter].
    destruct (negb (is_opt (snd x))); [|auto]. cbn [map]. constructor; [|auto]. intros HI. apply H1. apply in_map_iff in HI as (e & HE & HI).
    apply filter_In in HI as [HI _]. rewrite <- HE. now apply in_map.
  - clear HF HN. unfold remove_optional. induction H2 as [|x y l l' HV H2 IH]; [constructor|]. cbn [filter]. rewrite <- (sd_is_opt _ _ HV).
    destruct (is_opt (snd x)); cbn [negb]; [exact IH|]. now constructor.
Qed.
Lemma mark_to_dict_rel m m' : same_mark m m' -> sd (mark_to_dict m) (mark_to_dict m').
Proof.
  intros [k t t' a a' HT HA]. unfold mark_to_dict. cbn [m_type m_attrs] in *. apply remove_optional_rel.
  - now destruct HA.
  - apply distinctb_ok. destruct HA; reflexivity.
  - constructor; [exact HT|]. destruct HA as [| |l l' H1 H2 H3]; constructor; try (constructor; fail); cbn [snd]; [apply sd_atom; auto|].
    apply sd_fields; auto.
Qed.
Definition raw_rel v v' : sd v v' -> raw_to_dicts v = raw_to_dicts v'.
Proof.
  intros H. destruct v; inversion H as [a0 b0 HA HB HR|l0 l' HL|d0 d' N1 N2 HK HV]; subst; try discriminate HA; try reflexivity;
    try (apply A_str in HR; now subst); try (destruct v'; try discriminate HB; try reflexivity; apply A_str' in HR; discriminate HR).
  cbn [raw_to_dicts]. destruct d as [|[k1 v1] d], d' as [|[k2 v2] d']; try reflexivity; exfalso.
  - now apply (proj2 (HK k2)); left.
  - now apply (proj1 (HK k1)); left.
Qed.

Lemma mapM_rel {B} (R : B -> B -> Prop) (f : B -> res value) l l' : Forall2 R l l' -> (forall x y, R x y -> In x l -> so sd (f x) (f y)) ->
  so (Forall2 sd) (mapM f l) (mapM f l').
Proof.
  induction 1 as [|x y l l' H H2 IH]; intros HF; [constructor; constructor|]. cbn [mapM].
  eapply so_bind; [apply HF; [exact H|now left]|]. intros a b HAB. eapply so_bind; [apply IH; intros; apply HF; [assumption|now right]|].
  intros a' b' HAB'. constructor. now constructor.
Qed.
Lemma node_to_dict_rel n : forall n', same_node n n' -> so sd (node_to_dict n) (node_to_dict n').
Proof.
  induction n as [k ty ve tx a co ma IH] using node_ind'. intros n' H. inversion H as [k' t t' ve0 ve' tx0 tx' a0 a' co0 co' ma0 ma' HT HV HX HA HC HM]; subst.
  cbn [node_to_dict].
  set (R := fun a b : option (list value) => match a, b with None, None => True | Some x, Some y => Forall2 sd x y | _, _ => False end).
  assert (HRAW : forall v v', sd v v' -> so R (do xs <- raw_to_dicts v; Ok (Some xs)) (do xs <- raw_to_dicts v'; Ok (Some xs))).
  { intros v v' Hv. rewrite (raw_rel v v' Hv). destruct v'; try err; cbn [raw_to_dicts].
    - destruct x; [constructor; constructor|err].
    - destruct d; [constructor; constructor|err]. }
  apply (so_bind R).
  { inversion HC as [| |l l' HL|v v' Hv]; subst; try (constructor; exact I); [|auto].
    eapply so_bind; [|intros x y Hxy; constructor; exact Hxy]. cbn [on_items] in IH.
    eapply mapM_rel; [exact HL|]. intros x y Hxy HI. rewrite Forall_forall in IH. auto. }
  intros cs cs' HCS. apply (so_bind R).
  { inversion HM as [| |l l' HL|v v' Hv]; subst; try (constructor; exact I); [|auto].
    constructor. cbn [R]. clear - HL A_str A_str' A_opt A_opt' A_refl_str A_refl_opt A_refl_one. induction HL as [|x y l l' Hxy HL IHL]; [constructor|].
    cbn [map]. constructor; [now apply mark_to_dict_rel|exact IHL]. }
  intros ms ms' HMS. constructor.
  assert (HAA : sd (VDict (remove_optional (match a with AObj l => l | _ => [] end))) (VDict (remove_optional (match a' with AObj l => l | _ => [] end)))).
  { inversion HA; subst; try (apply sd_dict; [constructor|constructor|tauto|intros ? ? ? []]). apply remove_optional_rel; auto. }
  destruct HV as [|v1 v2 HV], HX as [|x1 x2 HX], HA as [| |l l' H1 H2 H3], cs as [c|], cs' as [c'|]; try contradiction HCS;
    destruct ms as [m|], ms' as [m'|]; try contradiction HMS; cbn [R app] in *;
    (apply remove_optional_rel; [reflexivity|apply distinctb_ok; reflexivity|]);
    repeat (apply Forall2_cons; [first [exact HT|exact HV|exact HX|exact HAA|now apply sd_list]|]); apply Forall2_nil.
Qed.

(** ---------------------------------------------------------------- the relations are equivalences *)
Lemma sd_refl : (forall a, is_atom a = true -> A a a) -> forall v, distinct_keys v -> sd v v.
Proof.
  intros HA v. induction v as [| | | |x| |l IH|d IH] using value_ind'; intros HD; try (apply sd_atom; [reflexivity|reflexivity|apply HA; reflexivity]).
  - inversion HD as [|l0 HL|]; subst; [discriminate|]. apply sd_list. clear HD. induction IH as [|x l Hx IH IHL]; [constructor|].
    apply Forall_cons_iff in HL as [H1 H2]. constructor; auto.
  - inversion HD as [|l0 HL|d0 HN HF]; subst; [discriminate|]. apply sd_dict; [exact HN|exact HN|tauto|].
    intros k x y HX HY. assert (x = y); [|subst y].
    { apply (in_lookup k d x HN) in HX. apply (in_lookup k d y HN) in HY. congruence. }
    rewrite Forall_forall in IH, HF. apply (IH (k, x) HX). apply (HF (k, x) HX).
Qed.
Lemma sd_sym : (forall a b, A a b -> A b a) -> forall v v', sd v v' -> sd v' v.
Proof.
  intros HA v. induction v as [| | | |x| |l IH|d IH] using value_ind'; intros v' H;
    inversion H as [a0 b0 HB HB' HR|l0 l' HL|d0 d' N1 N2 HK HV]; subst; try discriminate HB; try (now apply sd_atom; auto).
  - apply sd_list. clear H. induction HL as [|x y l l' Hxy HL IHL]; [constructor|]. apply Forall_cons_iff in IH as [I1 I2]. constructor; auto.
  - apply sd_dict; [exact N2|exact N1|intros k; now rewrite HK|]. intros k x y HX HY. rewrite Forall_forall in IH.
    apply (IH (k, y) HY). eapply HV; eassumption.
Qed.
Lemma sd_trans : (forall a b c, A a b -> A b c -> A a c) -> forall v v' v'', sd v v' -> sd v' v'' -> sd v v''.
Proof.
  intros HA v. induction v as [| | | |x| |l IH|d IH] using value_ind'; intros v' v'' H H';
    inversion H as [a0 b0 HB HB' HR|l0 l' HL|d0 d' N1 N2 HK HV]; subst; try discriminate HB;
    try (inversion H' as [a1 b1 HC HC' HR'|l1 l1' HL'|d1 d1' M1 M2 HK' HV']; subst; try discriminate HC; try discriminate HB'; apply sd_atom; eauto; fail).
  - inversion H' as [a1 b1 HC HC' HR'|l1 l1' HL'|d1 d1' M1 M2 HK' HV']; subst; [discriminate HC|]. apply sd_list. clear H H'.
    revert l1' HL'. induction HL as [|x y l l' Hxy HL IHL]; intros l2 HL'; inversion HL' as [|y0 z ? l2' Hyz HL2]; subst; [constructor|].
    apply Forall_cons_iff in IH as [I1 I2]. constructor; eauto.
  - inversion H' as [a1 b1 HC HC' HR'|l1 l1' HL'|d1 d1' M1 M2 HK' HV']; subst; [discriminate HC|].
    apply sd_dict; [exact N1|exact M2|intros k; now rewrite HK, HK'|]. intros k x z HX HZ.
    assert (HY : In k (map fst d')) by (apply HK'; apply in_map_iff; now exists (k, z)). apply in_map_iff in HY as ([k' y] & HE & HY). cbn in HE. subst k'.
    rewrite Forall_forall in IH. apply (IH (k, x) HX y z); eauto.
Qed.
Lemma sd_distinct v : forall v', sd v v' -> distinct_keys v.
Proof.
  induction v as [| | | |x| |l IH|d IH] using value_ind'; intros v' H; try (now apply dk_atom);
    inversion H as [a0 b0 HB HB' HR|l0 l' HL|d0 d' N1 N2 HK HV]; subst; try discriminate HB.
  - apply dk_list. clear H. induction HL as [|x y l l' Hxy HL IHL]; [constructor|]. apply Forall_cons_iff in IH as [I1 I2]. constructor; eauto.
  - apply dk_dict; [exact N1|]. rewrite Forall_forall in *. intros [k x] HX. cbn [snd].
    assert (HY : In k (map fst d')) by (apply HK; apply in_map_iff; now exists (k, x)). apply in_map_iff in HY as ([k' y] & HE & HY). cbn in HE. subst k'.
    apply (IH (k, x) HX y). eauto.
Qed.
End Rel.
