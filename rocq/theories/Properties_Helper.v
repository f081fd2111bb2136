(** C63: the test helper check_seder (see properties.jsonl). *)
From Coq Require Import List NArith ZArith Bool String.
From Verif Require Import PyStr Values Schema Parse Serialize Basics SpecParse ParseFacts ParseFacts4 SerFacts SerFacts2 SpecMd Equal SpecEqual EqualFacts EqualFacts2 EqualFacts3 Helper.
From Verif Require Properties_Parse Properties_Equal Properties_Analyze.
Import ListNotations.
Open Scope list_scope.
Open Scope string_scope.

Lemma fields_ok k d ty ve tx a co ma : distinct_keys (VDict d) -> distinct_keys ty -> represents_fields k d ve tx a co ma -> ok_node (Node k ty ve tx a co ma).
Proof.
  intros HD HTY HRF. inversion HRF as [k' d' ve' tx' a' co' ma' HVE HTX HA HCO HMA]; subst k' d' ve' tx' a' co' ma'.
  pose proof (slot_distinct _ _ _ _ _ _ HD HMA) as [HM1 HM2]. pose proof (slot_distinct _ _ _ _ _ _ HD HCO) as [HC1 HC2]. constructor.
  - exact HTY.
  - subst ve. destruct (nc_version _); [|exact I]. cbn [ok_opt]. destruct (lookup (s "version") d) eqn:E; [eapply lookup_distinct; eauto|now apply dk_atom].
  - subst tx. destruct (nc_text _); [|exact I]. destruct (lookup (s "text") d) eqn:E; [eapply lookup_distinct; eauto|exact I].
  - intros l ->. destruct (nc_attrs (nk_class k)) as [[fk fs]|] eqn:EA; [|discriminate]. inversion HA as [|dd l0 HH HE HEE]; subst. symmetry in HE.
    destruct (holds_ok fs dd l (nc_attrs_nodup _ _ _ EA) (lookup_distinct _ _ _ HD HE) HH) as (H1 & H2 & H3). cbn. split; [now rewrite H1|now split].
  - intros l ->. destruct (HC1 l eq_refl) as (vs & H1 & H2). clear - H1 H2. induction H2 as [|y x vs l H HF IHF]; [constructor|].
    apply Forall_cons_iff in H1 as [B1 B2]. constructor; [eapply represents_ok; eauto|auto].
  - exact HC2.
  - unfold ok_slot. destruct ma as [| |l|v]; try exact I; [|auto]. destruct (HM1 l eq_refl) as (vs & H1 & H2). clear - H1 H2.
    induction H2 as [|y x vs l H HF IHF]; [constructor|]. apply Forall_cons_iff in H1 as [B1 B2]. constructor; [eapply represents_mark_ok; eauto|auto].
Qed.
Lemma from_dict_ok_node w k v n : distinct_keys v -> snd (from_dict w k v) = Ok n -> ok_node n /\ n_kind n = k.
Proof.
  intros HD HP. destruct v as [| | | |?|?|d|]; try discriminate HP. apply from_dict_represents in HP as (ve & tx & a & co & ma & -> & HF). split; [|reflexivity].
  eapply fields_ok; [exact HD| |exact HF]. unfold type_field. destruct (lookup (s "type") d) eqn:E; [eapply lookup_distinct; eauto|now apply dk_atom].
Qed.
Lemma node_eqb_refl same n : ok_node n -> same = true \/ fields_hold nan_free n -> node_eqb same n n = true.
Proof. intros HO HS. apply node_eqb_iff; [assumption|assumption|]. destruct HS as [->|HS]; [now apply node_refl_same|now apply node_refl_nan]. Qed.
Lemma dict_refl same n d : ok_node n -> same = true \/ fields_hold nan_free n -> node_to_dict n = Ok d -> distinct_keys d /\ value_eqb same d d = true.
Proof.
  intros HO HS HD. assert (HN : same_node (python_atom same) n n) by (apply node_eqb_iff; [assumption|assumption|now apply node_eqb_refl]).
  pose proof (Properties_Equal.py_to_dict same n n HN) as HR. rewrite HD in HR. inversion HR as [x y HX HE1 HE2|]; subst.
  destruct (Properties_Equal.py_distinct same d d HX) as [P1 P2]. split; [assumption|]. now apply value_eqb_iff.
Qed.

(** Every object parsed from JSON whose content and marks are lists passes, whatever class parsed it: the check tests nothing
    about the input.  ([same]: the NaN object is compared with itself, as in CPython.) *)
Theorem C63_check_seder_passes : forall same w w' k v n, distinct_keys v -> opt_free v = true -> snd (from_dict w k v) = Ok n -> listy n ->
  same = true \/ fields_hold nan_free n -> check_seder same w' (Some n) = Passes.
Proof.
  intros same w w' k v n HD HO HP HL HS. destruct (from_dict_ok_node w k v n HD HP) as [OK HK]. destruct (from_dict_roundtrip w k v n HP HO HL) as (d & T1 & T2).
  unfold check_seder. rewrite T1, HK, T2. cbn [snd]. rewrite (node_eqb_refl same n OK HS), T1. destruct (dict_refl same n d OK HS T1) as [_ ->]. reflexivity.
Qed.
Lemma mark_ok v m : distinct_keys v -> parse_mark v = Ok m -> ok_mark m.
Proof. intros HD HP. eapply represents_mark_ok; [exact HD|now apply parse_mark_represents]. Qed.
Theorem C63_check_seder_passes_mark : forall v m, distinct_keys v -> parse_mark v = Ok m -> check_seder_mark true m = Passes.
Proof.
  intros v m HD HP. pose proof (mark_ok v m HD HP) as OK. pose proof (mark_roundtrip v m HP) as HR.
  assert (HF : mark_from_dict (m_kind m) (mark_to_dict m) = Ok m).
  { pose proof (parse_mark_represents v m HP) as HM. assert (HT : m_type m = VStr (mk_name (m_kind m))) by (destruct HM; reflexivity).
    destruct (mark_to_dict m) as [| | | |?|?|d|] eqn:KD; try discriminate HR. unfold parse_mark in HR. destruct (lookup (s "type") d) as [ty|] eqn:KT; [|discriminate HR].
    destruct (mark_class_of ty) as [k| |] eqn:KC; try discriminate HR.
    assert (HK : m_kind m = k) by (cbn [mark_from_dict] in HR; destruct (mk_attrs k); [destruct (lookup (s "attrs") d); [|discriminate HR];
      destruct (attrs_from_dict _ _); [|discriminate HR]|]; cbn in HR; injection HR as <-; reflexivity). now rewrite HK. }
  assert (HS : same_mark (python_atom true) m m).
  { destruct m as [k ty a]. destruct OK as [O1 O2]. cbn [m_type m_attrs m_kind] in *.
    assert (HV : forall x, distinct_keys x -> same_data (python_atom true) x x) by (intros x HX; apply sd_refl; [intros b _; apply pa_refl_any; now left|exact HX]).
    constructor; [now apply HV|]. eapply attrs_refl; [|exact O2]. intros l e -> HI. destruct (O2 l eq_refl) as (_ & _ & HL). rewrite Forall_forall in HL. apply HV. auto. }
  assert (HE : mark_eqb true m m = true) by now apply mark_eqb_iff.
  unfold check_seder_mark. rewrite HF, HE.
  assert (HX : same_data (python_atom true) (mark_to_dict m) (mark_to_dict m)).
  { apply mark_to_dict_rel; eauto using pa_str, pa_str', pa_opt, pa_opt'; intros; apply pa_refl; discriminate. }
  assert (HV : value_eqb true (mark_to_dict m) (mark_to_dict m) = true) by (apply value_eqb_iff; try (eapply sd_distinct; exact HX); exact HX).
  now rewrite HV.
Qed.
(** Its second assertion tests nothing: the check passes exactly when the first one holds. *)
Theorem C63_second_assertion_vacuous : forall w w' k v n, distinct_keys v -> snd (from_dict w k v) = Ok n ->
  check_seder true w' (Some n) = Passes <->
  exists data n1, node_to_dict n = Ok data /\ snd (from_dict w' (n_kind n) data) = Ok n1 /\ node_eqb true n1 n = true.
Proof.
  intros w w' k v n HD HP. destruct (from_dict_ok_node w k v n HD HP) as [OK HK]. unfold check_seder. split.
  - destruct (node_to_dict n) as [data|] eqn:T; [|discriminate]. destruct (snd (from_dict w' (n_kind n) data)) as [n1|] eqn:F; [|discriminate].
    destruct (node_eqb true n1 n) eqn:Q; [|discriminate]. intros _. exists data, n1. auto.
  - intros (data & n1 & T & F & Q). rewrite T, F, Q. destruct (dict_refl true n data OK (or_introl eq_refl) T) as [DD _].
    destruct (from_dict_ok_node w' (n_kind n) data n1 DD F) as [OK1 _]. apply (node_eqb_iff true n1 n OK1 OK) in Q. apply node_sym in Q; [|apply pa_sym].
    pose proof (Properties_Equal.py_to_dict true n n1 Q) as HR. rewrite T in HR. inversion HR as [x y HX HE1 HE2|]; subst.
    destruct (dict_refl true n1 y OK1 (or_introl eq_refl) (eq_sym HE2)) as [_ ->]. reflexivity.
Qed.
(** It says nothing about the input: the objects of two inputs, one of them with keys that are lost, pass alike. *)
Definition lossy : value := VDict [(s "type", VStr (s "paragraph")); (s "content", VList [VDict [(s "type", VStr (s "text")); (s "text", VStr (s "A")); (s "lost", VInt 1)]])].
Example C63_data_loss_unnoticed : exists n, distinct_keys lossy /\ opt_free lossy = true /\ snd (from_dict true Kparagraph lossy) = Ok n /\ listy n /\
  check_seder true true (Some n) = Passes /\ exists d, node_to_dict n = Ok d /\ value_eqb true d lossy = false.
Proof.
  eexists. split; [apply Properties_Analyze.distinct_deep_ok; vm_compute; reflexivity|]. split; [reflexivity|]. split; [vm_compute; reflexivity|].
  split; [constructor; try discriminate; intros l [= <-]; constructor; [|constructor]; constructor; discriminate|]. split; [vm_compute; reflexivity|]. eexists. split; vm_compute; reflexivity.
Qed.
(** The proviso is needed: content that is no list makes the check raise. *)
Theorem C63_without_list_content_refuted : exists v n, distinct_keys v /\ opt_free v = true /\ snd (from_dict true Kparagraph v) = Ok n /\ check_seder true true (Some n) = Raises TypeError.
Proof.
  exists (VDict [(s "type", VStr (s "paragraph")); (s "content", VInt 5)]). eexists. split; [apply Properties_Analyze.distinct_deep_ok; vm_compute; reflexivity|].
  split; [reflexivity|]. split; vm_compute; reflexivity.
Qed.
