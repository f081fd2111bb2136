(** Reading related dictionaries gives related objects (C74). *)
From Coq Require Import List NArith ZArith Bool String Lia.
From Verif Require Import PyStr Values Schema Parse Markdown Basics SpecChars CharFacts CharFacts2.
Import ListNotations.
Open Scope string_scope.
Open Scope list_scope.

Section Facts.
  Variable E : runtime.
  Variable R : N -> N -> Prop.
  Hypothesis HR : respects R.
  Hypothesis HO : forallb is_ascii (rt_repr E VOpt) = true.
  Notation lv_ := (like_value E R).
  (** The same warnings, and related results. *)
  Definition rel_run {B} (P : B -> B -> Prop) (m m' : M B) : Prop := fst m = fst m' /\ rel_res P (snd m) (snd m').
  Lemma run_bind {B C} (P : B -> B -> Prop) (Q : C -> C -> Prop) (m m' : M B) (f f' : B -> M C) :
    rel_run P m m' -> (forall x y, P x y -> rel_run Q (f x) (f' y)) -> rel_run Q (bind m f) (bind m' f').
  Proof.
    destruct m as [w r], m' as [w' r']. intros [HW H] HF. cbn [fst snd] in *. subst w'. destruct r as [x|e], r' as [y|e']; try contradiction; cbn [bind].
    - specialize (HF x y H). destruct (f x) as [v q], (f' y) as [v' q']. destruct HF as [H1 H2]. cbn [fst snd] in *. subst. split; [reflexivity|exact H2].
    - split; [reflexivity|exact H].
  Qed.
  Lemma run_lift {B} (P : B -> B -> Prop) r r' : rel_res P r r' -> rel_run P (lift r) (lift r').
  Proof. intros H. split; [reflexivity|exact H]. Qed.
  Lemma run_ret {B} (P : B -> B -> Prop) x y : P x y -> rel_run P (ret x) (ret y).
  Proof. intros H. split; [reflexivity|exact H]. Qed.
  Lemma opt_self : lv_ VOpt VOpt.
  Proof. split; [reflexivity|]. apply (lit_self R HR). exact HO. Qed.
  Lemma opt_attr f : like_attr E R (f, VOpt) (f, VOpt).
  Proof. split; [reflexivity|]. cbn [fst snd]. destruct (str_eqb f (s "timestamp")); [reflexivity|]. destruct (str_eqb f (s "panelType")); [split; [reflexivity|exact I]|exact opt_self]. Qed.
  Lemma attrs_rel fs v w : like_fields E R v w -> rel_res (Forall2 (like_attr E R)) (attrs_from_dict fs v) (attrs_from_dict fs w).
  Proof.
    intros H. destruct v, w; try (discriminate H); try (injection H as <-); try reflexivity. cbn [like_fields] in H. cbn [attrs_from_dict].
    assert (HL : forall f, match lookup f d, lookup f d0 with Some v, Some w => like_attr E R (f, v) (f, w) | None, None => True | _, _ => False end) by (intros f; exact (like_lookup E R f d d0 H)).
    assert (HM : forall q, missing q fs d = missing q fs d0).
    { intros q. unfold missing, has. clear H. induction fs as [|f fs IH]; [reflexivity|]. cbn [existsb]. rewrite IH. specialize (HL (fst f)). destruct (lookup (fst f) d), (lookup (fst f) d0); try contradiction; reflexivity. }
    rewrite !HM. destruct (missing is_Pos fs d0); [reflexivity|]. destruct (missing is_Req fs d0); [reflexivity|]. cbn [rel_res]. clear HM.
    induction fs as [|f fs IH]; [constructor|]. cbn [map]. constructor; [|exact IH]. specialize (HL (fst f)). destruct (lookup (fst f) d), (lookup (fst f) d0); try contradiction; [exact HL|apply opt_attr].
  Qed.
  Lemma mark_lookup d d' k : Forall2 (fun e e' => fst e = fst e' /\ if str_eqb (fst e) (s "attrs") then like_fields E R (snd e) (snd e') else snd e = snd e') d d' ->
    match lookup k d, lookup k d' with Some v, Some w => if str_eqb k (s "attrs") then like_fields E R v w else v = w | None, None => True | _, _ => False end.
  Proof.
    induction 1 as [|[a x] [b y] d d' [H1 H2] _ IH]; [exact I|]. cbn [lookup fst snd] in *. subst b. destruct (str_eqb a k) eqn:EK; [|exact IH]. apply str_eqb_eq in EK. subst a. exact H2.
  Qed.
  Lemma mark_rel v w : like_mark_dict E R v w -> rel_res (like_mark E R) (parse_mark v) (parse_mark w).
  Proof.
    intros [v0 H|d d' H]; [destruct v0; try reflexivity; now destruct (H d)|]. cbn [parse_mark].
    pose proof (mark_lookup d d' (s "type") H) as HT. change (str_eqb (s "type") (s "attrs")) with false in HT. cbn iota in HT.
    destruct (lookup (s "type") d) as [t|] eqn:ET, (lookup (s "type") d') as [t'|] eqn:ET'; try contradiction; [|reflexivity]. subst t'.
    destruct (mark_class_of t) as [k| |]; try reflexivity. cbn [mark_from_dict].
    assert (HTF : type_field (mk_name k) d = type_field (mk_name k) d') by (unfold type_field; now rewrite ET, ET').
    destruct (mk_attrs k) as [fs|]; [|split; [reflexivity|split; [exact HTF|constructor]]].
    pose proof (mark_lookup d d' (s "attrs") H) as HA. change (str_eqb (s "attrs") (s "attrs")) with true in HA. cbn iota in HA.
    destruct (lookup (s "attrs") d) as [a|], (lookup (s "attrs") d') as [a'|]; try contradiction; [|reflexivity].
    eapply rel_bind; [exact (attrs_rel fs a a' HA)|]. intros l l' HL. split; [reflexivity|]. split; [exact HTF|]. now constructor.
  Qed.
  Lemma collect_rel {B} (P : B -> B -> Prop) w ms ms' : Forall2 (rel_run P) ms ms' -> rel_run (Forall2 P) (collect w ms) (collect w ms').
  Proof.
    induction 1 as [|[lg r] [lg' r'] ms ms' [HW H] HF IH]; [apply run_ret; constructor|]. cbn [fst snd] in *. subst lg'.
    destruct r as [x|e], r' as [y|e']; try contradiction.
    - cbn [collect]. apply (run_bind P); [split; [reflexivity|exact H]|]. intros x' y' H'. eapply run_bind; [exact IH|]. intros l l' HL. apply run_ret. now constructor.
    - cbn in H. subst e'. destruct e; try (split; reflexivity). cbn [collect]. apply (run_bind (fun _ _ => True)); [split; [reflexivity|exact I]|]. intros _ _ _. exact IH.
  Qed.
  Inductive rel_entry {B} (P : B -> B -> Prop) : entry B -> entry B -> Prop :=
  | re_no : rel_entry P EAbsent EAbsent
  | re_list ms ms' : Forall2 (rel_run P) ms ms' -> rel_entry P (EList ms) (EList ms')
  | re_other v : rel_entry P (EOther v) (EOther v).
  Definition rel_oslot {B} (P : B -> B -> Prop) (a b : option (slot B)) : Prop :=
    match a, b with None, None => True | Some x, Some y => like_slot P x y | _, _ => False end.
  Lemma entry_rel {B} (P : B -> B -> Prop) w e e' : rel_entry P e e' -> rel_run (rel_oslot P) (run_entry w e) (run_entry w e').
  Proof.
    intros [|ms ms' H|v]; cbn [run_entry].
    - apply run_ret. exact I.
    - eapply run_bind; [apply collect_rel; exact H|]. intros l l' HL. apply run_ret. now constructor.
    - destruct v; apply run_ret; constructor.
  Qed.
  (** What two related dictionaries hold under a key. *)
  Inductive held : str -> option value -> option value -> Prop :=
  | held_none k : held k None None
  | held_some k v w : like_entry E R (k, v) (k, w) -> held k (Some v) (Some w).
  Lemma entry_lookup d d' k : Forall2 (like_entry E R) d d' -> held k (lookup k d) (lookup k d').
  Proof.
    induction 1 as [|[a x] [b y] d d' H _ IH]; [constructor|]. assert (a = b) by (inversion H; reflexivity). subst b. cbn [lookup].
    destruct (str_eqb a k) eqn:EK; [|exact IH]. apply str_eqb_eq in EK. subst a. now constructor.
  Qed.
  (** Keys other than the four hold equal values. *)
  Lemma held_same k o o' : str_eqb k (s "text") = false -> str_eqb k (s "attrs") = false -> str_eqb k (s "content") = false -> str_eqb k (s "marks") = false ->
    held k o o' -> o = o'.
  Proof. intros H1 H2 H3 H4 HH. inversion HH as [k0|k0 v w H]; subst; [reflexivity|]. inversion H; subst; try reflexivity; solve [discriminate H1|discriminate H2|discriminate H3|discriminate H4]. Qed.
  Lemma entry_text v w : like_entry E R (s "text", v) (s "text", w) -> lv_ v w.
  Proof. intros H. inversion H as [v0 w0 HV|v0 w0 HV|l l' HL|l l' HL|k0 v0 H1 H2 H3]; [exact HV|]. now destruct H1. Qed.
  Lemma entry_attrs v w : like_entry E R (s "attrs", v) (s "attrs", w) -> like_fields E R v w.
  Proof. intros H. inversion H as [v0 w0 HV|v0 w0 HV|l l' HL|l l' HL|k0 v0 H1 H2 H3]; [exact HV|]. now destruct H2. Qed.
  Lemma entry_marks v w : like_entry E R (s "marks", v) (s "marks", w) -> (exists l l', v = VList l /\ w = VList l' /\ Forall2 (like_mark_dict E R) l l') \/ (v = w /\ forall l, v <> VList l).
  Proof. intros H. inversion H as [v0 w0 HV|v0 w0 HV|l l' HL|l l' HL|k0 v0 H1 H2 H3]; subst; [left; eauto|]. right. split; [reflexivity|]. apply H3. now right. Qed.
  Lemma entry_content v w : like_entry E R (s "content", v) (s "content", w) -> (exists l l', v = VList l /\ w = VList l' /\ Forall2 (like_dict E R) l l') \/ (v = w /\ forall l, v <> VList l).
  Proof. intros H. inversion H as [v0 w0 HV|v0 w0 HV|l l' HL|l l' HL|k0 v0 H1 H2 H3]; subst; [left; eauto|]. right. split; [reflexivity|]. apply H3. now left. Qed.
  Lemma marks_rel d d' : Forall2 (like_entry E R) d d' -> rel_entry (like_mark E R) (marks_entry d) (marks_entry d').
  Proof.
    intros H. unfold marks_entry. pose proof (entry_lookup d d' (s "marks") H) as HM. inversion HM as [k EV EW|k v w HE EK EV EW]; [constructor|].
    destruct (entry_marks v w HE) as [(l & l' & -> & -> & HL)|(-> & HN)].
    - constructor. clear - HL HR HO. induction HL as [|x y l l' HX _ IH]; [constructor|]. cbn [map]. constructor; [|exact IH]. apply run_lift. now apply mark_rel.
    - destruct w; try constructor. now destruct (HN l).
  Qed.
  Lemma from_entry_rel w k d d' ce ce' : Forall2 (like_entry E R) d d' -> rel_entry (like_node E R) ce ce' ->
    rel_run (like_node E R) (node_from_entry w k d ce) (node_from_entry w k d' ce').
  Proof.
    intros H HC. unfold node_from_entry.
    apply (run_bind (fun a b => match a, b with None, None => True | Some x, Some y => like_attrs E R x y | _, _ => False end)).
    { apply run_lift. unfold attrs_entry. destruct (nc_attrs (nk_class k)) as [[fk fs]|] eqn:EA; [|exact I].
      pose proof (entry_lookup d d' (s "attrs") H) as HM. inversion HM as [k0 EV EW|k0 x y HE EK EV EW]; [exact I|].
      eapply rel_bind; [exact (attrs_rel fs x y (entry_attrs x y HE))|]. intros l l' HL. cbn [rel_res]. now constructor. }
    intros oa oa' HA. eapply run_bind; [apply entry_rel; exact HC|]. intros oc oc' HOC.
    eapply run_bind; [apply entry_rel; apply marks_rel; exact H|]. intros om om' HOM. apply run_lift.
    unfold construct. apply (rel_bind (like_option E R)).
    { destruct (nc_text (nk_class k)); [|constructor]. pose proof (entry_lookup d d' (s "text") H) as HM. inversion HM as [k0 EV EW|k0 x y HE EK EV EW]; [reflexivity|].
      constructor. now apply entry_text. }
    intros tx tx' HTX. apply (rel_bind (like_attrs E R)).
    { unfold attrs_field. destruct (nc_attrs (nk_class k)) as [[fk fs]|]; [|constructor].
      destruct oa, oa'; try contradiction HA; [exact HA|]. destruct fk; try reflexivity; constructor. }
    intros a a' HAA.
    assert (HS : forall B (P : B -> B -> Prop) fk o o', rel_oslot P o o' -> rel_res (like_slot P) (slot_field fk o) (slot_field fk o')).
    { intros B P fk o o' HOO. unfold slot_field. destruct fk as [fk|]; [|constructor].
      destruct o, o'; try contradiction HOO; [exact HOO|]. destruct fk; try reflexivity; constructor. }
    eapply rel_bind; [apply HS; exact HOC|]. intros co co' HCO. eapply rel_bind; [apply HS; exact HOM|]. intros ma ma' HMA.
    cbn [rel_res]. unfold type_field. rewrite (held_same (s "type") _ _ eq_refl eq_refl eq_refl eq_refl (entry_lookup d d' (s "type") H)).
    rewrite (held_same (s "version") _ _ eq_refl eq_refl eq_refl eq_refl (entry_lookup d d' (s "version") H)). now constructor.
  Qed.
  Lemma content_rel w d d' : Forall2 (like_entry E R) d d' ->
    (forall l l', lookup (s "content") d = Some (VList l) -> Forall2 (like_dict E R) l l' -> Forall2 (rel_run (like_node E R)) (map (parse_node w) l) (map (parse_node w) l')) ->
    rel_entry (like_node E R) (content_entry w d) (content_entry w d').
  Proof.
    intros H HK. unfold content_entry. pose proof (entry_lookup d d' (s "content") H) as HM. inversion HM as [k0 EV EW|k0 x y HE EK EV EW]; [constructor|].
    destruct (entry_content x y HE) as [(l & l' & -> & -> & HL)|(-> & HN)].
    - constructor. apply HK; [now symmetry|exact HL].
    - destruct y; try constructor. now destruct (HN l).
  Qed.
  Theorem parse_rel w v : forall v', like_dict E R v v' -> rel_run (like_node E R) (parse_node w v) (parse_node w v').
  Proof.
    induction v as [v HX|d IH] using doc_ind; intros v' H.
    - destruct H as [v HV|d d' H]; [|now destruct (HX d)]. rewrite !parse_node_nondict by assumption. apply run_lift. reflexivity.
    - inversion H as [v0 HV|d0 d' HD]; subst; [now destruct (HV d)|]. rewrite !parse_node_dict.
      pose proof (held_same (s "type") _ _ eq_refl eq_refl eq_refl eq_refl (entry_lookup d d' (s "type") HD)) as HT. rewrite <- HT.
      destruct (lookup (s "type") d) as [ty|]; [|apply run_lift; reflexivity]. destruct (node_class_of ty) as [k| |]; try (apply run_lift; reflexivity).
      cbn [from_dict]. apply from_entry_rel; [exact HD|]. apply content_rel; [exact HD|]. intros l l' EL HL. specialize (IH _ _ EL). clear - IH HL.
      induction HL as [|a b l l' HAB HL IHL]; [constructor|]. apply Forall_cons_iff in IH as [I1 I2]. cbn [map]. constructor; auto.
  Qed.
  Theorem from_dict_rel w k v v' : like_dict E R v v' -> rel_run (like_node E R) (from_dict w k v) (from_dict w k v').
  Proof.
    intros [v0 H|d d' H]; [destruct v0; try (apply run_lift; reflexivity); now destruct (H d)|]. cbn [from_dict]. apply from_entry_rel; [exact H|]. apply content_rel; [exact H|].
    intros l l' _ HL. clear H. induction HL as [|a b l l' HAB HL IHL]; [constructor|]. cbn [map]. constructor; [now apply parse_rel|exact IHL].
  Qed.
End Facts.
