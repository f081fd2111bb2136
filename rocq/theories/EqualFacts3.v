(** Objects related by an equality of data: equivalence, identity, presentation, hash. *)
From Coq Require Import List NArith ZArith QArith Qreduction Bool String Lia.
From Verif Require Import PyStr Values Schema Parse Serialize Basics SpecParse ParseFacts ParseFacts4 SerFacts2 SpecMd Equal SpecEqual EqualFacts EqualFacts2.
Import ListNotations.
Open Scope list_scope.
Open Scope string_scope.

(** ---------------------------------------------------------------- parsed objects hold Python values *)
Lemma lookup_distinct d k x : distinct_keys (VDict d) -> lookup k d = Some x -> distinct_keys x.
Proof.
  intros H HL. inversion H as [| |? _ HF]; subst; [discriminate|]. apply lookup_in in HL. rewrite Forall_forall in HF. exact (HF _ HL).
Qed.
Lemma holds_ok fs d l : NoDup (map fst fs) -> distinct_keys (VDict d) -> holds_attrs fs d l ->
  map fst l = map fst fs /\ NoDup (map fst l) /\ Forall (fun e => distinct_keys (snd e)) l.
Proof.
  intros HN HD [HF HL]. split; [exact HF|]. split; [now rewrite HF|]. apply Forall_forall. intros [k x] HX. cbn [snd].
  assert (HK : In k (map fst fs)) by (rewrite <- HF; apply in_map_iff; now exists (k, x)).
  specialize (HL k HK). rewrite (in_lookup k l x) in HL; [|now rewrite HF|exact HX]. injection HL as ->.
  destruct (lookup k d) as [y|] eqn:E; [eapply lookup_distinct; eauto|now apply dk_atom].
Qed.
Lemma represents_mark_ok v m : distinct_keys v -> represents_mark v m -> ok_mark m.
Proof.
  intros HD H. inversion H as [d k HT HA|d k fs a HT HA HF HNO]; subst; split; cbn [m_type m_attrs m_kind]; try (now apply dk_atom).
  - intros l HL. discriminate HL.
  - intros l ->. rewrite HA. cbn [option_map]. inversion HF as [|dd l0 HH HE HE2]; subst. symmetry in HE.
    destruct (holds_ok fs dd l (mk_attrs_nodup _ _ HA) (lookup_distinct _ _ _ HD HE) HH) as (H1 & H2 & H3). split; [now rewrite H1|now split].
Qed.
Lemma slot_distinct {B} skip (R : value -> B -> Prop) b d key sl : distinct_keys (VDict d) -> slot_from skip R b (lookup key d) sl ->
  (forall l, sl = Items l -> exists vs, Forall distinct_keys vs /\ Forall2 R vs l) /\ (forall v, sl = Raw v -> distinct_keys v).
Proof.
  intros HD H. inversion H as [o HE|HE HE2|HE HE2|l xs HE HF HE2|v HE HN HL HE2]; subst; (split; [intros l' HE'|intros v' HE']); try discriminate.
  - injection HE' as <-. eexists. split; [|exact HF]. symmetry in HE2. pose proof (lookup_distinct _ _ _ HD HE2) as HX.
    inversion HX as [|? HL|]; subst; [discriminate|]. rewrite Forall_forall in *. intros x Hx. apply filter_In in Hx as [Hx _]. auto.
  - injection HE' as <-. eapply lookup_distinct; eauto.
Qed.
Lemma represents_ok v : forall n, distinct_keys v -> represents v n -> ok_node n.
Proof.
  induction v as [v HX|d IH] using doc_ind; intros n HD HR.
  - inversion HR; subst. exfalso. eapply HX. reflexivity.
  - inversion HR as [d' k ty ve tx a co ma HTy HCl HRF HE1 HE2]; subst n d'.
    inversion HRF as [k' d' ve' tx' a' co' ma' HVE HTX HA HCO HMA]; subst k' d' ve' tx' a' co' ma'.
    pose proof (slot_distinct _ _ _ _ _ _ HD HMA) as [HM1 HM2].
    constructor.
    + subst ty. destruct (lookup (s "type") d) eqn:E; [eapply lookup_distinct; eauto|now apply dk_atom].
    + subst ve. destruct (nc_version _); [|exact I]. cbn [ok_opt]. destruct (lookup (s "version") d) eqn:E; [eapply lookup_distinct; eauto|now apply dk_atom].
    + subst tx. destruct (nc_text _); [|exact I]. destruct (lookup (s "text") d) eqn:E; [eapply lookup_distinct; eauto|exact I].
    + intros l ->. destruct (nc_attrs (nk_class k)) as [[fk fs]|] eqn:EA; [|discriminate]. inversion HA as [|dd l0 HH HE HEE]; subst. symmetry in HE.
      destruct (holds_ok fs dd l (nc_attrs_nodup _ _ _ EA) (lookup_distinct _ _ _ HD HE) HH) as (H1 & H2 & H3). cbn. split; [now rewrite H1|now split].
    + intros l ->. inversion HCO as [| | |l0 xs HE HF HE2|]; subst. symmetry in HE2. specialize (IH _ _ HE2).
      pose proof (lookup_distinct _ _ _ HD HE2) as HX. inversion HX as [|? HL|]; subst; [discriminate|].
      clear - IH HF HL. set (q := fun y => negb (unregistered node_names y)) in *. clearbody q.
      assert (HB : Forall (fun y => forall n, represents y n -> ok_node n) (filter q l0)).
      { apply Forall_forall. intros y Hy. apply filter_In in Hy as [Hy _]. rewrite Forall_forall in IH, HL. intros n Hn. apply (IH y Hy n (HL y Hy) Hn). }
      clear IH HL. revert HB. induction HF as [|y x l l' H HF IHF]; intros HB; [constructor|]. apply Forall_cons_iff in HB as [B1 B2]. constructor; auto.
    + intros v ->. pose proof (slot_distinct _ _ _ _ _ _ HD HCO) as [_ H]. auto.
    + unfold ok_slot. destruct ma as [| |l|v]; try exact I; [|auto]. destruct (HM1 l eq_refl) as (vs & H1 & H2). clear - H1 H2.
      induction H2 as [|y x vs l H HF IHF]; [constructor|]. apply Forall_cons_iff in H1 as [B1 B2]. constructor; [eapply represents_mark_ok; eauto|auto].
Qed.
Lemma parse_ok w v n : distinct_keys v -> snd (parse_node w v) = Ok n -> ok_node n.
Proof. intros HD HP. eapply represents_ok; [exact HD|eapply parse_represents; exact HP]. Qed.

(** ---------------------------------------------------------------- equivalence *)
Section Eqv.
Context (A : value -> value -> Prop).
Notation sd := (same_data A).
Lemma f2_sym {B} (R : B -> B -> Prop) l l' : Forall2 R l l' -> (forall x y, In x l -> R x y -> R y x) -> Forall2 R l' l.
Proof. induction 1 as [|x y l l' H HF IH]; intros HS; constructor; [apply HS; [now left|exact H]|apply IH; intros; apply HS; [now right|assumption]]. Qed.
Lemma f2_trans {B} (R : B -> B -> Prop) l l' : Forall2 R l l' -> forall l'', Forall2 R l' l'' -> (forall x y z, In x l -> R x y -> R y z -> R x z) -> Forall2 R l l''.
Proof.
  induction 1 as [|x y l l' H HF IH]; intros l2 H2 HT; inversion H2 as [|y0 z ? l2' Hyz HL2]; subst; constructor.
  - eapply HT; [now left|exact H|exact Hyz].
  - apply IH; [exact HL2|]. intros; eapply HT; [right; eassumption|eassumption|eassumption].
Qed.
Lemma attrs_sym a b : (forall x y, A x y -> A y x) -> same_attrs A a b -> same_attrs A b a.
Proof.
  intros HA [| |l l' H1 H2 H3]; constructor; auto; [now rewrite <- H1|]. clear H1 H2. induction H3; constructor; auto. now apply sd_sym.
Qed.
Lemma attrs_trans a b c : (forall x y z, A x y -> A y z -> A x z) -> same_attrs A a b -> same_attrs A b c -> same_attrs A a c.
Proof.
  intros HA [| |l l' H1 H2 H3] H; inversion H as [| |l0 l'' G1 G2 G3]; subst; constructor; auto; [congruence|].
  clear - HA H3 G3. revert l'' G3. induction H3; intros l2 G3; inversion G3; subst; constructor; auto. eapply sd_trans; eauto.
Qed.
Lemma mark_sym a b : (forall x y, A x y -> A y x) -> same_mark A a b -> same_mark A b a.
Proof. intros HA [k t t' x x' H1 H2]. constructor; [now apply sd_sym|now apply attrs_sym]. Qed.
Lemma mark_trans a b c : (forall x y z, A x y -> A y z -> A x z) -> same_mark A a b -> same_mark A b c -> same_mark A a c.
Proof. intros HA [k t t' x x' H1 H2] H. inversion H; subst. constructor; [eapply sd_trans; eauto|eapply attrs_trans; eauto]. Qed.
Lemma opt_sym a b : (forall x y, A x y -> A y x) -> same_opt A a b -> same_opt A b a.
Proof. intros HA [|x y H]; constructor. now apply sd_sym. Qed.
Lemma opt_trans a b c : (forall x y z, A x y -> A y z -> A x z) -> same_opt A a b -> same_opt A b c -> same_opt A a c.
Proof. intros HA [|x y H] H'; inversion H'; subst; constructor. eapply sd_trans; eauto. Qed.
Lemma node_sym a : (forall x y, A x y -> A y x) -> forall b, same_node A a b -> same_node A b a.
Proof.
  intros HA. induction a as [k ty ve tx at_ co ma IH] using node_ind'. intros b H.
  inversion H as [k' t t' ve0 ve' tx0 tx' a0 a' co0 co' ma0 ma' HT HV HX HAT HC HM]; subst.
  constructor; [now apply sd_sym|now apply opt_sym|now apply opt_sym|now apply attrs_sym| |].
  - inversion HC as [| |l l' HL|v v' Hv]; subst; constructor; [|now apply sd_sym]. cbn [on_items] in IH. rewrite Forall_forall in IH.
    apply f2_sym; auto.
  - inversion HM as [| |l l' HL|v v' Hv]; subst; constructor; [|now apply sd_sym]. apply f2_sym; [exact HL|]. intros; now apply mark_sym.
Qed.
Lemma node_trans a : (forall x y z, A x y -> A y z -> A x z) -> forall b c, same_node A a b -> same_node A b c -> same_node A a c.
Proof.
  intros HA. induction a as [k ty ve tx at_ co ma IH] using node_ind'. intros b c H H'.
  inversion H as [k' t t' ve0 ve' tx0 tx' a0 a' co0 co' ma0 ma' HT HV HX HAT HC HM]; subst.
  inversion H' as [k' t2 t2' ve2 ve2' tx2 tx2' a2 a2' co2 co2' ma2 ma2' HT2 HV2 HX2 HAT2 HC2 HM2]; subst.
  constructor; [eapply sd_trans; eauto|eapply opt_trans; eauto|eapply opt_trans; eauto|eapply attrs_trans; eauto| |].
  - inversion HC as [| |l l' HL|v v' Hv]; subst; inversion HC2 as [| |l2 l2' HL2|v2 v2' Hv2]; subst; constructor; [|eapply sd_trans; eauto].
    cbn [on_items] in IH. rewrite Forall_forall in IH. eapply f2_trans; eauto.
  - inversion HM as [| |l l' HL|v v' Hv]; subst; inversion HM2 as [| |l2 l2' HL2|v2 v2' Hv2]; subst; constructor; [|eapply sd_trans; eauto].
    eapply f2_trans; eauto. intros; eapply mark_trans; eauto.
Qed.

Lemma attrs_refl fs a : (forall l e, a = AObj l -> In e l -> sd (snd e) (snd e)) -> ok_attrs fs a -> same_attrs A a a.
Proof.
  intros HR HO. destruct a as [| |l]; try constructor; [reflexivity|apply (HO l eq_refl)|].
  specialize (fun e => HR l e eq_refl). clear HO. induction l as [|e l IH]; constructor; [apply HR; now left|apply IH; intros; apply HR; now right].
Qed.
Lemma node_refl (q : value -> bool) n : (forall v, distinct_keys v -> q v = true -> sd v v) -> ok_node n -> fields_hold q n -> same_node A n n.
Proof.
  intros HQ. induction n as [k ty ve tx a co ma IH] using node_ind'. intros HO HF.
  inversion HO as [? ? ? ? ? ? ? T1 V1 X1 A1 C1 R1 M1]; subst. inversion HF as [? ? ? ? ? ? ? P1 P2 P3 P4 P5 P6]; subst.
  assert (HS : forall o, ok_opt o -> (forall v, o = Some v -> q v = true) -> same_opt A o o) by (intros [v|] Ho Hq; constructor; auto).
  assert (HAT : forall fs b, ok_attrs fs b -> attrs_hold q b -> same_attrs A b b).
  { intros fs b Hb Hq. eapply attrs_refl; [|exact Hb]. intros l e -> He. destruct (Hb l eq_refl) as (_ & _ & HD). rewrite Forall_forall in HD.
    apply HQ; [auto|eapply Hq; [reflexivity|exact He]]. }
  constructor; auto 10; [eapply HAT; eassumption| |].
  - destruct co as [| |l|v]; constructor; auto. cbn [on_items] in IH. specialize (C1 l eq_refl). specialize (fun c => P5 l c eq_refl). clear - IH C1 P5.
    induction l as [|x l IHL]; [constructor|]. apply Forall_cons_iff in IH as [I1 I2]. apply Forall_cons_iff in C1 as [G1 G2].
    constructor; [apply I1; [exact G1|apply P5; now left]|apply IHL; auto; intros; apply P5; now right].
  - destruct ma as [| |l|v]; constructor; auto. cbn [ok_slot] in M1. specialize (fun c => P6 l c eq_refl). clear - HQ HAT M1 P6.
    induction l as [|[mk mt mat] l IHL]; [constructor|]. apply Forall_cons_iff in M1 as [[G1 G1'] G2].
    constructor; [|apply IHL; auto; intros; apply P6; now right]. destruct (P6 _ (or_introl eq_refl)) as [H1 H2]. cbn [m_type m_attrs] in *.
    constructor; [now apply HQ|eapply HAT; eassumption].
Qed.

(** Identity of objects all of whose values satisfy p, when related values satisfying p are identical. *)
Context (p : value -> bool).
Hypothesis HP : forall x y, sd x y -> p x = true -> p y = true -> x = y.
Lemma attrs_same_eq a b : same_attrs A a b -> attrs_hold p a -> attrs_hold p b -> a = b.
Proof.
  intros [| |l l' H1 H2 H3] Ha Hb; try reflexivity. f_equal. specialize (fun e => Ha l e eq_refl). specialize (fun e => Hb l' e eq_refl).
  revert H1 Ha Hb. clear H2. induction H3 as [|[k x] [k' y] l l' H HF IH]; intros H1 Ha Hb; [reflexivity|]. cbn [map fst] in H1. injection H1 as -> H1.
  cbn [snd] in H. f_equal; [|apply IH; auto; intros; [apply Ha|apply Hb]; now right].
  f_equal. apply HP; [exact H|apply (Ha (k', x)); now left|apply (Hb (k', y)); now left].
Qed.
Lemma node_same_eq a : forall b, same_node A a b -> fields_hold p a -> fields_hold p b -> a = b.
Proof.
  induction a as [k ty ve tx at_ co ma IH] using node_ind'. intros b H Ha Hb.
  inversion H as [k' t t' ve0 ve' tx0 tx' a0 a' co0 co' ma0 ma' HT HV HX HAT HC HM]; subst.
  inversion Ha as [? ? ? ? ? ? ? P1 P2 P3 P4 P5 P6]; subst. inversion Hb as [? ? ? ? ? ? ? Q1 Q2 Q3 Q4 Q5 Q6]; subst.
  assert (HO : forall o o', same_opt A o o' -> (forall v, o = Some v -> p v = true) -> (forall v, o' = Some v -> p v = true) -> o = o').
  { intros o o' [|x y Hxy] H1 H2; [reflexivity|]. f_equal. apply HP; auto. }
  f_equal; auto 10.
  - now apply attrs_same_eq.
  - inversion HC as [| |l l' HL|v v' Hv]; subst; try reflexivity; f_equal; [|apply HP; auto].
    cbn [on_items] in IH. specialize (fun c => P5 l c eq_refl). specialize (fun c => Q5 l' c eq_refl). clear - IH HL P5 Q5.
    induction HL as [|x y l l' Hxy HL IHL]; [reflexivity|]. apply Forall_cons_iff in IH as [I1 I2].
    f_equal; [apply I1; [exact Hxy|apply P5; now left|apply Q5; now left]|apply IHL; auto; intros; [apply P5|apply Q5]; now right].
  - inversion HM as [| |l l' HL|v v' Hv]; subst; try reflexivity; f_equal; [|apply HP; auto].
    specialize (fun c => P6 l c eq_refl). specialize (fun c => Q6 l' c eq_refl). clear - HP HL P6 Q6.
    induction HL as [|x y l l' Hxy HL IHL]; [reflexivity|].
    f_equal; [|apply IHL; auto; intros; [apply P6|apply Q6]; now right].
    destruct (P6 x (or_introl eq_refl)) as [X1 X2], (Q6 y (or_introl eq_refl)) as [Y1 Y2].
    inversion Hxy as [k t t' a a' HT HA]; subst. cbn [m_type m_attrs] in *. f_equal; [now apply HP|now apply attrs_same_eq].
Qed.
End Eqv.

(** ---------------------------------------------------------------- the presentation attributes *)
Section Pres.
Context (A : value -> value -> Prop).
Hypothesis HN : A VNone VNone.
Lemma keep_attrs_rel names a b : same_attrs A a b -> same_attrs A (keep_attrs names a) (keep_attrs names b).
Proof.
  intros [| |l l' H1 H2 H3]; try constructor.
  - revert H1. clear H2. induction H3 as [|x y l l' H HF IH]; [reflexivity|]. cbn [map filter]. intros [= E HE]. rewrite E.
    destruct (existsb _ names); [|auto]. cbn [map]. f_equal; auto.
  - clear H1 H3. induction l as [|x l IH]; [constructor|]. cbn [map] in H2. inversion H2 as [|? ? N1 N2]; subst. cbn [filter].
    destruct (existsb _ names); [|auto]. cbn [map]. constructor; [|auto]. intros HI. apply N1. apply in_map_iff in HI as (e & HE & HI).
    apply filter_In in HI as [HI _]. rewrite <- HE. now apply in_map.
  - revert H1. clear H2. induction H3 as [|x y l l' H HF IH]; [constructor|]. cbn [map filter]. intros [= E HE]. rewrite E.
    destruct (existsb _ names); [constructor|]; auto.
Qed.
Lemma drop_rel n : forall n', same_node A n n' -> same_node A (drop_presentation n) (drop_presentation n').
Proof.
  induction n as [k ty ve tx at_ co ma IH] using node_ind'. intros b H.
  inversion H as [k' t t' ve0 ve' tx0 tx' a0 a' co0 co' ma0 ma' HT HV HX HAT HC HM]; subst. cbn [drop_presentation].
  constructor; auto; [constructor|now apply keep_attrs_rel| |].
  - inversion HC as [| |l l' HL|v v' Hv]; subst; constructor; auto. cbn [on_items] in IH. clear - IH HL.
    induction HL as [|x y l l' Hxy HL IHL]; [constructor|]. apply Forall_cons_iff in IH as [I1 I2]. cbn [map]. constructor; auto.
  - inversion HM as [| |l l' HL|v v' Hv]; subst; constructor; auto. clear - HN HL. induction HL as [|x y l l' Hxy HL IHL]; [constructor|].
    cbn [map]. constructor; auto. destruct Hxy as [k t t' a a' H1 H2]. cbn [m_kind m_attrs]. constructor; [now apply sd_atom|now apply keep_attrs_rel].
Qed.
End Pres.

(** ---------------------------------------------------------------- values determined by their equality *)
Lemma f2_eq {B} (R : B -> B -> Prop) l l' : Forall2 R l l' -> (forall x y, In x l -> In y l' -> R x y -> x = y) -> l = l'.
Proof.
  induction 1 as [|x y l l' H HF IH]; intros HE; [reflexivity|]. f_equal; [apply HE; [now left|now left|exact H]|].
  apply IH. intros; apply HE; [now right|now right|assumption].
Qed.
Lemma reordered_flat_eq x : forall y, reordered x y -> dict_free x = true -> dict_free y = true -> x = y.
Proof.
  induction x as [| | | |x| |l IH|d IH] using value_ind'; intros y H H1 H2; inversion H as [a0 b0 HB HB' HR|l0 l' HL|d0 d' N1 N2 HK HV]; subst; try reflexivity;
    try discriminate HB; try discriminate H1.
  f_equal. cbn [dict_free] in *. rewrite forallb_forall in *. rewrite Forall_forall in IH. eapply f2_eq; [exact HL|]. intros x y Hx Hy Hxy. apply IH; auto.
Qed.
Lemma plain_equal_eq same x : forall y, python_equal same x y -> plain x = true -> plain y = true -> x = y.
Proof.
  induction x as [| | | |x| |l IH|d IH] using value_ind'; intros y H H1 H2; inversion H as [a0 b0 HB HB' HR|l0 l' HL|d0 d' N1 N2 HK HV]; subst; try discriminate HB; try discriminate H1.
  5: { f_equal. cbn [plain] in *. rewrite forallb_forall in *. rewrite Forall_forall in IH. eapply f2_eq; [exact HL|]. intros x y Hx Hy Hxy. apply IH; auto. }
  all: inversion HR as [? ? p q NA NB HQ| |]; subst; try reflexivity; try (inversion NA; fail).
  inversion NA; subst. inversion NB; subst; try discriminate H2. f_equal. now apply inject_Z_injective.
Qed.

Lemma fields_any n : fields_hold (fun _ => true) n.
Proof.
  induction n as [k ty ve tx a co ma IH] using node_ind'. constructor; try (unfold attrs_hold, raw_holds; intros; reflexivity).
  - intros l c -> HC. cbn [on_items] in IH. rewrite Forall_forall in IH. auto.
  - intros l m -> HM. split; [reflexivity|]. unfold attrs_hold. reflexivity.
Qed.
Lemma nan_free_refl v : distinct_keys v -> nan_free v = true -> forall same, python_equal same v v.
Proof.
  intros HD HN same. revert HD HN. induction v as [| | | |x| |l IH|d IH] using value_ind'; intros HD HN;
    try (apply sd_atom; [reflexivity|reflexivity|apply pa_refl; intros HE; try discriminate HE; rewrite HE in HN; discriminate HN]).
  - inversion HD as [|? HL|]; subst; [discriminate|]. apply sd_list. cbn [nan_free] in HN. rewrite forallb_forall in HN. clear HD.
    induction l as [|x l IHL]; [constructor|]. apply Forall_cons_iff in IH as [I1 I2]. apply Forall_cons_iff in HL as [G1 G2].
    constructor; [apply I1; [exact G1|apply HN; now left]|apply IHL; auto; intros; apply HN; now right].
  - inversion HD as [| |? ND HF]; subst; [discriminate|]. apply sd_dict; [exact ND|exact ND|tauto|]. intros k x y HX HY.
    assert (x = y) by (apply (in_lookup k d x ND) in HX; apply (in_lookup k d y ND) in HY; congruence). subst y.
    cbn [nan_free] in HN. rewrite forallb_forall in HN. rewrite Forall_forall in IH, HF. exact (IH _ HX (HF _ HX) (HN _ HX)).
Qed.
Lemma node_refl_same n : ok_node n -> same_node (python_atom true) n n.
Proof.
  intros HO. apply (node_refl _ (fun _ => true)); [|exact HO|apply fields_any]. intros v HD _. apply sd_refl; [|exact HD].
  intros a _. apply pa_refl_any. now left.
Qed.
Lemma node_refl_nan same n : ok_node n -> fields_hold nan_free n -> same_node (python_atom same) n n.
Proof. intros HO HF. apply (node_refl _ nan_free); [|exact HO|exact HF]. intros v HD HN. now apply nan_free_refl. Qed.

(** ---------------------------------------------------------------- hash *)
Section Hash.
Context (H : hasher) (same : bool).
Let P := python_atom same.
Lemma value_hash_eq x y : python_equal same x y -> value_hash H x = value_hash H y.
Proof.
  intros HE. inversion HE as [a0 b0 HB HB' HR|l0 l' HL|d0 d' N1 N2 HK HV]; subst; [|reflexivity|reflexivity].
  inversion HR as [? ? p q NA NB HQ| |]; subst; try reflexivity.
  apply num_is_number in NA as (p' & E1 & Q1). apply num_is_number in NB as (q' & E2 & Q2). unfold value_hash. rewrite E1, E2.
  do 2 f_equal. apply Qred_complete. now rewrite Q1, Q2.
Qed.
Lemma attrs_hash_eq a b : same_attrs P a b -> attrs_hash H a = attrs_hash H b.
Proof.
  intros [| |l l' H1 H2 H3]; try reflexivity. cbn [attrs_hash]. do 2 f_equal. clear H1 H2.
  induction H3 as [|x y l l' HX HF IH]; [reflexivity|]. cbn [map]. f_equal; [now apply value_hash_eq|exact IH].
Qed.
Lemma slot_hash_eq {B} (R : B -> B -> Prop) a b : same_slot P R a b -> slot_hash H a = slot_hash H b.
Proof. intros [| |l l' HL|v v' Hv]; try reflexivity. cbn [slot_hash]. f_equal. now apply value_hash_eq. Qed.
Lemma opt_hash_eq a b : same_opt P a b -> opt_hash H a = opt_hash H b.
Proof. intros [|x y Hxy]; [reflexivity|]. cbn [opt_hash]. f_equal. now apply value_hash_eq. Qed.
Lemma node_hash_eq a b : same_node P a b -> node_hash H a = node_hash H b.
Proof.
  intros [k t t' ve ve' tx tx' x x' co co' ma ma' HT HV HX HA HC HM]. unfold node_hash. cbn [n_type n_version n_text n_attrs n_content n_marks].
  now rewrite (value_hash_eq _ _ HT), (opt_hash_eq _ _ HV), (opt_hash_eq _ _ HX), (attrs_hash_eq _ _ HA), (slot_hash_eq _ _ _ HC), (slot_hash_eq _ _ _ HM).
Qed.
Lemma mark_hash_eq a b : same_mark P a b -> mark_hash H a = mark_hash H b.
Proof. intros [k t t' x x' HT HA]. unfold mark_hash. cbn [m_type m_attrs]. now rewrite (value_hash_eq _ _ HT), (attrs_hash_eq _ _ HA). Qed.

Definition fails (r : res Z) : bool := match r with Err _ => true | Ok _ => false end.
Lemma mapM_id_ok (l : list (res Z)) : existsb fails l = false -> exists hs, mapM (fun r => r) l = Ok hs.
Proof.
  induction l as [|[x|e] l IH]; cbn [existsb fails mapM rbind]; intros HF; [eauto| |discriminate].
  destruct (IH HF) as [hs ->]. cbn. eauto.
Qed.
Lemma mapM_id_err (l : list (res Z)) : Forall (fun r => forall e, r = Err e -> e = TypeError) l -> existsb fails l = true -> mapM (fun r => r) l = Err TypeError.
Proof.
  induction 1 as [|[x|e] l HX HF IH]; cbn [existsb fails mapM rbind]; intros HE; [discriminate| |now rewrite (HX e eq_refl)].
  now rewrite (IH HE).
Qed.
Lemma tuple_hash_cases l : Forall (fun r => forall e, r = Err e -> e = TypeError) l ->
  if existsb fails l then tuple_hash H l = Err TypeError else exists h, tuple_hash H l = Ok h.
Proof.
  intros HF. unfold tuple_hash. destruct (existsb fails l) eqn:E; [now rewrite (mapM_id_err l HF E)|]. destruct (mapM_id_ok l E) as [hs ->]. cbn. eauto.
Qed.
Lemma value_hash_fails v : fails (value_hash H v) = negb (is_atom v).
Proof. destruct v as [|[]|z|[m e|b|]|x|l|d|]; reflexivity. Qed.
Lemma value_hash_err v e : value_hash H v = Err e -> e = TypeError.
Proof. destruct v as [|[]|z|[m e'|b|]|x|l|d|]; cbn; congruence. Qed.
End Hash.
