(** Different objects are different instances. *)
From Coq Require Import List NArith ZArith Bool String Lia.
From Verif Require Import PyStr Values Schema Parse Serialize Basics PySyntax PySem RepoCode RepoCode2 PySem2 ReadFacts ReadFacts2 ReadFacts3 ReadFacts4 WriteFacts WriteFacts2.
Import ListNotations.
Open Scope string_scope.
Open Scope list_scope.

Definition node_key (q : string) : option nkind := List.find (fun k => String.eqb (node_q k) q) all_nkinds.
Definition mark_key (q : string) : option mkind := List.find (fun k => String.eqb (mark_q k) q) all_mkinds.
Lemma node_key_q k : node_key (node_q k) = Some k.
Proof. destruct k; vm_compute; reflexivity. Qed.
Lemma mark_key_q k : mark_key (mark_q k) = Some k.
Proof. destruct k; vm_compute; reflexivity. Qed.
Lemma node_q_inj a b : node_q a = node_q b -> a = b.
Proof. intros H. pose proof (node_key_q a) as HA. rewrite H, node_key_q in HA. congruence. Qed.
Lemma mark_q_inj a b : mark_q a = mark_q b -> a = b.
Proof. intros H. pose proof (mark_key_q a) as HA. rewrite H, mark_key_q in HA. congruence. Qed.
Lemma data_fields_inj a b : data_fields a = data_fields b -> a = b.
Proof. intros H. pose proof (all_snd_data true a) as HA. rewrite H, all_snd_data in HA. congruence. Qed.
Lemma rv_attrs_inj q a b : lookup (s "attrs") (rv_attrs q a) = lookup (s "attrs") (rv_attrs q b) -> a = b.
Proof.
  destruct a as [| |l], b as [| |l']; cbn [rv_attrs lookup]; change (str_eqb (s "attrs") (s "attrs")) with true; cbn iota; intros H; try discriminate; try reflexivity.
  f_equal. apply data_fields_inj. congruence.
Qed.
Lemma rv_mark_inj a b : rv_mark a = rv_mark b -> a = b.
Proof.
  destruct a as [k ty a], b as [k' ty' a']. unfold rv_mark. cbn [m_kind m_type m_attrs]. intros H.
  assert (HK : k = k') by (apply mark_q_inj; congruence). subst k'. injection H as HT HA. subst ty'. f_equal. apply (rv_attrs_inj (mark_q k)). now rewrite HA.
Qed.
Lemma rv_slot_inj {A} (rva : A -> rv) x (P : A -> Prop) (a b : slot A) : on_items (fun u => P u -> forall v, P v -> rva u = rva v -> u = v) a -> on_items P a -> on_items P b ->
  settled a -> settled b -> lookup x (rv_slot rva x a) = lookup x (rv_slot rva x b) -> a = b.
Proof.
  intros HI HA HB SA SB. destruct a as [| |l|v], b as [| |l'|v']; cbn [rv_slot lookup]; rewrite ?str_eqb_refl; intros H; try discriminate; try reflexivity.
  - injection H as <-. contradiction.
  - f_equal. injection H as H. clear SA SB. cbn [on_items] in *. revert l' HB H. induction HI as [|u l HU HL IH]; intros [|u' l'] HB H; try discriminate; [reflexivity|]. cbn [map] in H. injection H as H1 H2.
    inversion HA; subst. inversion HB; subst. f_equal; [now apply HU|now apply IH].
  - injection H as ->. contradiction.
  - congruence.
Qed.
Lemma writable_items k ty ve tx a co ma : writable (Node k ty ve tx a co ma) -> on_items writable co /\ settled co /\ settled ma.
Proof. inversion 1; subst. split; [|auto]. destruct co; try exact I. cbn. eauto. Qed.
Lemma on_items_true {A} (c : slot A) : on_items (fun _ => True) c.
Proof. destruct c; try exact I. cbn. now apply Forall_forall. Qed.
Lemma rv_node_inj a : writable a -> forall b, writable b -> rv_node a = rv_node b -> a = b.
Proof.
  induction a as [k ty ve tx a co ma IH] using node_ind'. intros HA [k' ty' ve' tx' a' co' ma'] HB H.
  apply writable_items in HA as (A1 & A2 & A3). apply writable_items in HB as (B1 & B2 & B3). rewrite !rv_node_eq in H.
  assert (HK : k = k') by (apply node_q_inj; congruence). subst k'.
  set (fa := (s "type", RV ty) :: _) in H. set (fb := (s "type", RV ty') :: _) in H. assert (HF : fa = fb) by congruence.
  assert (HL : forall x, lookup x fa = lookup x fb) by (intros; now rewrite HF). clear H HF.
  assert (HT : ty = ty') by (specialize (HL (s "type")); unfold fa, fb in HL; cbn [lookup] in HL; change (str_eqb (s "type") (s "type")) with true in HL; cbn iota in HL; congruence).
  assert (HV : ve = ve').
  { specialize (HL (s "version")). unfold fa, fb in HL. cbn [lookup] in HL. change (str_eqb (s "type") (s "version")) with false in HL. cbn iota in HL.
    rewrite !lookup_app, !lookup_attrs_other, !lookup_slot_other in HL by reflexivity.
    destruct ve, ve', tx, tx'; cbn [rv_opt lookup] in HL; repeat (change (str_eqb (s "version") (s "version")) with true in HL; change (str_eqb (s "text") (s "version")) with false in HL; cbn iota in HL); congruence. }
  assert (HX : tx = tx').
  { specialize (HL (s "text")). unfold fa, fb in HL. cbn [lookup] in HL. change (str_eqb (s "type") (s "text")) with false in HL. cbn iota in HL.
    rewrite !lookup_app, !lookup_attrs_other, !lookup_slot_other in HL by reflexivity.
    destruct ve, ve', tx, tx'; cbn [rv_opt lookup] in HL; repeat (change (str_eqb (s "version") (s "text")) with false in HL; change (str_eqb (s "text") (s "text")) with true in HL; cbn iota in HL); congruence. }
  assert (HAT : a = a').
  { specialize (HL (s "attrs")). unfold fa, fb in HL. rewrite !lookup_inst in HL by reflexivity. rewrite !lookup_app, !lookup_slot_other in HL by reflexivity. apply (rv_attrs_inj (node_q k)).
    destruct (lookup (s "attrs") (rv_attrs (node_q k) a)), (lookup (s "attrs") (rv_attrs (node_q k) a')); congruence. }
  assert (HC : co = co').
  { specialize (HL (s "content")). unfold fa, fb in HL. rewrite !lookup_inst in HL by reflexivity. rewrite !lookup_app, !lookup_attrs_other, !(lookup_slot_other rv_mark) in HL by reflexivity.
    apply (rv_slot_inj rv_node (s "content") writable); try assumption.
    destruct (lookup (s "content") (rv_slot rv_node (s "content") co)), (lookup (s "content") (rv_slot rv_node (s "content") co')); congruence. }
  assert (HM : ma = ma').
  { specialize (HL (s "marks")). unfold fa, fb in HL. rewrite !lookup_inst in HL by reflexivity. rewrite !lookup_app, !lookup_attrs_other, !(lookup_slot_other rv_node) in HL by reflexivity.
    apply (rv_slot_inj rv_mark (s "marks") (fun _ => True)); try assumption; try apply on_items_true.
    destruct ma; try exact I. cbn. apply Forall_forall. intros u _ _ v _. apply rv_mark_inj. }
  congruence.
Qed.
