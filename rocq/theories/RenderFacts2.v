(** Documented input parses to well-formed objects. *)
From Coq Require Import List NArith ZArith Bool String Lia.
From Verif Require Import PyStr Values Schema Parse Date Markdown Basics StrFacts MarkFacts SpecParse ParseFacts ParseFacts2 ParseFacts3 ParseFacts4
  MdFacts SpecMd MdFacts2 LeafFacts SpecErr ErrFacts Properties_Date SpecRender RenderFacts.
Import ListNotations.
Open Scope string_scope.
Open Scope list_scope.

Lemma documented_acceptable v : documented v -> acceptable v = true.
Proof.
  induction 1 as [d k HT HA HC HF HK IH]. rewrite acceptable_dict, HT, node_class_of_name. cbn [acceptable_for].
  rewrite HA. cbn [andb]. apply forallb_forall. intros y Hy. destruct (unregistered node_names y) eqn:EU; [reflexivity|].
  cbn [orb]. apply IH. unfold own_children. apply filter_In. split; [exact Hy|]. now rewrite EU.
Qed.

Lemma attrs_obj fs d l f : holds_attrs fs d l -> In (s f) (map fst fs) -> lookup (s f) l = Some (input d f).
Proof. intros [_ H] HI. exact (H _ HI). Qed.
Lemma attr_here k d ty ve tx a co ma fk fs : represents_fields k d ve tx a co ma -> nc_attrs (nk_class k) = Some (fk, fs) ->
  own_fields_acceptable k d = true -> (fk <> Opt \/ has (s "attrs") d = true) ->
  forall f, In (s f) (map fst fs) -> has_attr (Node k ty ve tx a co ma) f (input (the_attrs d) f).
Proof.
  intros HR HN HO HP f Hf. inversion HR as [k' d' ve' tx' a' co' ma' _ _ HA _ _]; subst. rewrite HN in HA.
  assert (HX : exists x, lookup (s "attrs") d = Some x).
  { unfold own_fields_acceptable in HO. rewrite HN in HO. rewrite !andb_true_iff in HO. destruct HO as ((((_ & HO) & _) & _) & _).
    unfold has in HP. destruct (lookup (s "attrs") d) as [x|]; [eauto|]. destruct HP as [HP|HP]; [destruct fk; congruence|discriminate]. }
  destruct HX as [x HX]. rewrite HX in HA. inversion HA as [|dd l HL HE1 HE2]; subst. exists l. split; [reflexivity|].
  unfold the_attrs. rewrite HX. now apply (attrs_obj fs).
Qed.

Lemma mark_rep m x : represents_mark m x ->
  mark_type m = mk_name (m_kind x) /\
  forall fs f, mk_attrs (m_kind x) = Some fs -> In (s f) (map fst fs) -> mark_has_attr x f (mark_attr m f).
Proof.
  intros H. inversion H as [d k HT HA|d k fs a HT HA HF HN]; subst; unfold mark_type; cbn [elem_type m_kind]; rewrite HT.
  - split; [reflexivity|]. intros fs f H1 _. congruence.
  - split; [reflexivity|]. intros fs' f H1 H2. assert (fs' = fs) by congruence. subst fs'.
    inversion HF as [HE1 HE2|dd l HL HE1 HE2]; subst; [congruence|]. exists l. split; [reflexivity|]. unfold mark_attr, the_attrs. rewrite <- HE1.
    now apply (attrs_obj fs).
Qed.
Lemma marks_rep k d ve tx a co ma : represents_fields k d ve tx a co ma -> forall ms, ma = Items ms ->
  Forall2 represents_mark (own_marks d) ms.
Proof.
  intros HR ms ->. inversion HR as [k' d' ve' tx' a' co' ma' _ _ _ _ HM]; subst. unfold own_marks, list_at.
  inversion HM as [| | |l xs _ HF HE HE2|]; subst. exact HF.
Qed.
Lemma forall_marks k d ve tx a co ma (P : value -> Prop) (Q : mark -> Prop) ty : represents_fields k d ve tx a co ma ->
  (forall m x, represents_mark m x -> P m -> Q x) -> Forall P (own_marks d) -> Forall Q (marks_of (Node k ty ve tx a co ma)).
Proof.
  intros HR HPQ HF. unfold marks_of. cbn [n_marks]. destruct ma as [| |ms|]; try constructor. pose proof (marks_rep _ _ _ _ _ _ _ HR ms eq_refl) as H2.
  clear HR. induction H2 as [|m x l l' H H2 IH]; [constructor|]. apply Forall_cons_iff in HF as [HF1 HF2]. constructor; eauto.
Qed.
Lemma indentation_rep m x : represents_mark m x -> indentation_ok m -> indentation_fine x.
Proof.
  intros HR HO HK. destruct (mark_rep m x HR) as [HT HA]. destruct HO as [z HZ]; [now rewrite HT, HK|].
  exists z. rewrite <- HZ. eapply HA; [now rewrite HK|left; reflexivity].
Qed.
Lemma link_rep m x : represents_mark m x -> link_ok m -> link_one_line x.
Proof.
  intros HR HO HK. destruct (mark_rep m x HR) as [HT HA]. destruct HO as [(h & HH & HO) HTi]; [now rewrite HT, HK|].
  exists h, (mark_attr m "title"). split; [rewrite <- HH; eapply HA; [now rewrite HK|left; reflexivity]|]. split; [exact HO|].
  split; [eapply HA; [now rewrite HK|right; left; reflexivity]|]. exact HTi.
Qed.
Lemma code_rep m x : represents_mark m x -> (m_kind x = Mcode <-> mark_type m = s "code").
Proof.
  intros HR. destruct (mark_rep m x HR) as [HT _]. rewrite HT. split; [intros ->; reflexivity|].
  intros H. apply mk_name_inj. exact H.
Qed.

Lemma documented_well_formed v : documented v -> forall n, represents v n -> well_formed n.
Proof.
  induction 1 as [d k HT HA HC HF HK IH]. intros n HR.
  inversion HR as [d' k' ty ve tx a co ma HTy HCl HRF HE1 HE2]; subst n d'. rewrite HT in HTy. subst ty. rewrite node_class_of_name in HCl.
  injection HCl as <-. clear HR. set (n := Node k (VStr (nk_name k)) ve tx a co ma).
  assert (HSL : slot_from (unregistered node_names) represents (declares (nc_content (nk_class k))) (lookup (s "content") d) co)
    by (inversion HRF; subst; assumption).
  assert (HKIDS : forall cs, co = Items cs -> Forall2 represents (own_children d) cs).
  { intros cs ->. inversion HSL as [| | |l xs _ HF2 HE HEE|]; subst. unfold own_children, list_at. now rewrite <- HE. }
  assert (HW : forall cs c, co = Items cs -> In c cs -> well_formed c).
  { intros cs c H HIn. specialize (HKIDS cs H). clear - HKIDS HIn IH. set (ch := own_children d) in *. clearbody ch. induction HKIDS as [|y x l l' HR HF IHF]; [destruct HIn|].
    destruct HIn as [->|HIn]; [apply (IH y); [now left|exact HR]|apply IHF; [intros; eapply IH; [right; eassumption|eassumption]|exact HIn]]. }
  assert (HMAY : declares (nc_content (nk_class k)) = true -> may_hold_children n).
  { intros HD. unfold may_hold_children, holds_children, children. cbn [n_content n].
    inversion HSL as [o HE|HE HE2|HE HE2|l xs HE HF2 HE2|v HE HN HL HE2]; subst; try congruence; auto; [right; eauto|].
    destruct (HC v) as [l ->]; [congruence|]. now destruct (HL l). }
  assert (HHOLD : declares (nc_content (nk_class k)) = true -> (nc_content (nk_class k) <> Some Opt \/ has (s "content") d = true) -> holds_children n).
  { intros HD HQ. assert (HX : exists x, lookup (s "content") d = Some x).
    { unfold own_fields_acceptable in HA. rewrite !andb_true_iff in HA. destruct HA as (((_ & HP) & _) & _). unfold present_if_required, has in *.
      destruct (lookup (s "content") d) as [x|]; [eauto|]. destruct (nc_content (nk_class k)) as [[]|]; try discriminate HP; try discriminate HD. destruct HQ; congruence. }
    destruct HX as [x HX]. destruct (HC x HX) as [l ->]. rewrite HX in HSL. unfold holds_children, children. cbn [n_content n].
    inversion HSL as [o HE|HE HE2|HE HE2|l' xs HE HF2 HE2|v HE HN HL HE2]; subst; try congruence; try (now destruct (HL l)); eauto. }
  assert (HATT : forall fk fs, nc_attrs (nk_class k) = Some (fk, fs) -> (fk <> Opt \/ has (s "attrs") d = true) ->
                 forall f, In (s f) (map fst fs) -> has_attr n f (input (the_attrs d) f)).
  { intros fk fs HN HP f Hf. eapply attr_here; eauto. }
  assert (HBM : marks_ok_on_block (own_marks d) -> block_marks_fine n).
  { intros [H1 H2]. split; [eapply forall_marks; [exact HRF|exact indentation_rep|exact H1]|].
    eapply forall_marks; [exact HRF| |exact H2]. intros m x Hx HN HX. apply HN. now apply (code_rep m x Hx). }
  assert (HNM : declares (nc_marks (nk_class k)) = false -> block_marks_fine n).
  { intros HD. inversion HRF as [k' d' ve' tx' a' co' ma' _ _ _ _ HM]; subst. rewrite HD in HM.
    unfold block_marks_fine, marks_of. cbn [n_marks n]. inversion HM; subst; try discriminate. split; constructor. }
  constructor; [|intros cs c HCh HIn _; exact (HW cs c HCh HIn)].
  unfold values_fine. change (n_kind n) with k.
  destruct k; cbn [nk_class mk_nclass nc_content nc_attrs nc_marks declares] in *; try exact I;
    try (apply HMAY; reflexivity);
    try (apply HHOLD; [reflexivity|left; discriminate]).
  - (* text *) destruct HF as (t & HTx & HI & HCode). inversion HRF as [k' d' ve' tx' a' co' ma' _ HTX _ _ _]; subst.
    exists t. split; [exact HTx|]. split; [eapply forall_marks; [exact HRF|exact indentation_rep|exact HI]|].
    intros HE. assert (HM : exists m, In m (own_marks d) /\ mark_type m = s "code").
    { unfold marks_of in HE. cbn [n_marks n] in HE. destruct ma as [| |ms|]; try (inversion HE; fail).
      pose proof (marks_rep _ _ _ _ _ _ _ HRF ms eq_refl) as H2. clear - HE H2. induction H2 as [|m x l l' H H2 IH2]; [inversion HE|].
      inversion HE as [? ? HX|? ? HX]; subst.
      - exists m. split; [now left|]. now apply (code_rep m x H).
      - destruct (IH2 HX) as (m' & Hm & Ht). exists m'. split; [now right|exact Ht]. }
    destruct (HCode HM) as [H1 H2]. split; [exact H1|]. eapply forall_marks; [exact HRF|exact link_rep|exact H2].
  - (* orderedList *) split; [apply HHOLD; [reflexivity|left; discriminate]|]. eexists. eapply (HATT _ _ eq_refl); [right; exact HF|left; reflexivity].
  - (* paragraph *) split; [apply HMAY; reflexivity|]. now apply HBM.
  - (* taskItem *) split; [apply HHOLD; [reflexivity|right; exact HF]|]. eexists. eapply (HATT _ _ eq_refl); [left; discriminate|right; left; reflexivity].
  - (* emoji *) destruct HF as [[t HF]|[t HF]].
    + left. exists t. rewrite <- HF. eapply (HATT _ _ eq_refl); [left; discriminate|cbn; tauto].
    + right. exists (input (the_attrs d) "text"), t. split; [|rewrite <- HF]; (eapply (HATT _ _ eq_refl); [left; discriminate|cbn; tauto]).
  - (* date *) destruct HF as (ts & HM & HRg). exists (input (the_attrs d) "timestamp"), ts. split; [|split; assumption].
    eapply (HATT _ _ eq_refl); [left; discriminate|cbn; tauto].
  - eexists. eapply (HATT _ _ eq_refl); [left; discriminate|cbn; tauto].
  - eexists. eapply (HATT _ _ eq_refl); [left; discriminate|cbn; tauto].
  - (* heading *) split; [apply HMAY; reflexivity|]. destruct HF as [z HF]. exists z. rewrite <- HF. eapply (HATT _ _ eq_refl); [left; discriminate|cbn; tauto].
  - (* codeBlock *) split; [apply HMAY; reflexivity|]. destruct (has (s "attrs") d) eqn:EH.
    + right. eexists. eapply (HATT _ _ eq_refl); [right; reflexivity|left; reflexivity].
    + left. inversion HRF as [k' d' ve' tx' a' co' ma' _ _ HAt _ _]; subst. cbn in HAt. unfold has in EH.
      destruct (lookup (s "attrs") d); [discriminate|]. inversion HAt. cbn [n_attrs n]. congruence.
  - destruct HF as [u HF]. exists u. rewrite <- HF. eapply (HATT _ _ eq_refl); [left; discriminate|cbn; tauto].
  - destruct HF as [u HF]. exists u. rewrite <- HF. eapply (HATT _ _ eq_refl); [left; discriminate|cbn; tauto].
  - (* media *) destruct HF as [HM HF]. split; [now apply HBM|].
    assert (HTY : exists t, input (the_attrs d) "type" = VStr t /\ (t = s "file" \/ t = s "link" \/ t = s "external" /\ exists x, input (the_attrs d) "url" = VStr x)).
    { destruct HF as [HF|[HF|[HF HU]]]; rewrite HF; eexists; (split; [reflexivity|]); auto. }
    destruct HTY as (t & HTy & HTT). exists t, (input (the_attrs d) "url"), (input (the_attrs d) "id"), (input (the_attrs d) "alt").
    rewrite <- HTy. repeat split; try (eapply (HATT _ _ eq_refl); [left; discriminate|cbn; tauto]). exact HTT.
  - eexists. eapply (HATT _ _ eq_refl); [left; discriminate|cbn; tauto].
  - do 3 eexists. repeat split; (eapply (HATT _ _ eq_refl); [left; discriminate|cbn; tauto]).
  - (* panel *) split; [apply HMAY; reflexivity|]. destruct HF as [z HF]. exists z. rewrite <- HF. eapply (HATT _ _ eq_refl); [left; discriminate|cbn; tauto].
  - (* expand *) split; [apply HMAY; reflexivity|]. now apply HNM.
  - (* table *) destruct HHOLD as [rows HRows]; [reflexivity|left; discriminate|]. exists rows. split; [exact HRows|]. intros r Hr.
    specialize (HKIDS rows HRows). clear - HKIDS HF Hr HK. cbn [input_fine] in HF. set (ch := own_children d) in *. clearbody ch. induction HKIDS as [|y x l l' HR HF2 IHF]; [destruct Hr|].
    destruct Hr as [->|Hr]; [|apply IHF; [intros; apply HF; now right|intros; apply HK; now right|exact Hr]].
    destruct (HF y (or_introl eq_refl)) as (rd & -> & HTy & HNE). cbn [elem_type] in HTy.
    inversion HR as [d' k' ty ve tx a co ma HT' HCl HRF HE1 HE2]; subst. rewrite HTy in HCl. change (s "tableRow") with (nk_name KtableRow) in HCl.
    rewrite node_class_of_name in HCl. injection HCl as <-. inversion HRF as [k' d' ve' tx' a' co' ma' _ _ _ HSL _]; subst. cbn in HSL.
    unfold children. cbn [n_content]. unfold own_children, list_at in HNE.
    inversion HSL as [o HE|HE HE2|HE HE2|l0 xs HE HF3 HE2|v HE HN HL HE2]; subst; try discriminate.
    + rewrite <- HE2 in HNE. now destruct HNE.
    + rewrite <- HE2 in HNE. now destruct HNE.
    + rewrite <- HE2 in HNE. destruct xs as [|x0 xs']; [|eauto]. exfalso. apply HNE. now inversion HF3.
    + rewrite <- HE2 in HNE. destruct v; try (now destruct HNE); exfalso; eapply HL; reflexivity.
Qed.
