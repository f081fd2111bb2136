(** What is written for text nodes, and the inline reader on texts without special characters (C80). *)
From Coq Require Import List Arith NArith Bool String Lia.
From Verif Require Import PyStr Values Schema Parse Date Markdown Basics StrFacts MarkFacts SpecMd SpecReader SpecInline SpecLook InlineFacts1 InlineFacts2 InlineFacts3 InlineFacts4 InlineFacts5 InlineFacts6 InlineFacts7.
Import ListNotations.
Open Scope string_scope.
Open Scope list_scope.
Open Scope nat_scope.

(** ---------------------------------------------------------------- texts *)
Lemma tame_cons c t : tame (c :: t) -> ~ special c /\ tame t.
Proof. intros H. split; [apply H; left; reflexivity|intros d X; apply H; right; exact X]. Qed.
Lemma tame_before up u after : tame u -> hd NL after <> SP -> hd NL after <> NL -> forall p, ordinary up p u after = true.
Proof.
  intros HT H1 H2. induction u as [|c u IH]; intros p; [reflexivity|]. cbn [ordinary]. apply tame_cons in HT as [HC HT].
  rewrite (IH HT c), andb_true_r. unfold literal. cbv zeta.
  assert (HN : forall x, In x ["\"; "`"; "*"; "_"; "~"; "!"; "["; "]"; "<"; "&"] -> is_ch x c = false).
  { intros x Hx. destruct (is_ch x c) eqn:X; [|reflexivity]. exfalso. apply HC. now apply (special_char x c). }
  rewrite !HN by (cbn [In]; tauto). cbn [orb]. clear IH.
  destruct (N.eqb_spec c SP) as [->|NS].
  - assert (HX : exists d q, skipn (leading SP (u ++ after)) (u ++ after) = d :: q /\ d <> NL).
    { clear HC HN. induction u as [|d u IH].
      - cbn [app]. destruct after as [|d r]; [contradiction|]. cbn [hd] in *. cbn [leading]. destruct (N.eqb_spec d SP) as [->|_]; [contradiction|]. exists d, r. split; [reflexivity|exact H2].
      - apply tame_cons in HT as [HD HT]. cbn [app leading]. destruct (N.eqb_spec d SP) as [->|ND]; [cbn [skipn]; now apply IH|].
        exists d, (u ++ after). split; [reflexivity|]. intros ->. apply HD. left. reflexivity. }
    destruct HX as (d & q & -> & HD). apply negb_true_iff. now apply N.eqb_neq.
  - apply negb_true_iff. apply N.eqb_neq. intros ->. apply HC. left. reflexivity.
Qed.
Lemma harmless_tame t : harmless t -> tame t.
Proof. intros [H _]. exact H. Qed.
Lemma harmless_ordinary up t p after : harmless t -> ordinary up p t after = true.
Proof. intros H. now apply harmless_text. Qed.
Lemma tame_ticks t : tame t -> ~ In 96%N t.
Proof. intros H X. apply (H _ X). unfold special. vm_compute. tauto. Qed.
Lemma tame_NL t : tame t -> ~ In NL t.
Proof. intros H X. apply (H _ X). left. reflexivity. Qed.
Lemma tame_app a b : tame a -> tame b -> tame (a ++ b).
Proof. intros HA HB c X. apply in_app_iff in X as [X|X]; [now apply HA|now apply HB]. Qed.
Lemma not_special_sign t e : tame t -> t <> [] -> hd NL t <> sign_char e.
Proof. intros H N X. destruct t as [|c t]; [contradiction|]. cbn in X. subst c. apply (H (sign_char e)); [left; reflexivity|apply special_signs]. Qed.
Lemma hd_v t e : tame t -> hd NL t <> sign_char e.
Proof. intros H. destruct t as [|c t]; [destruct e; discriminate|]. now apply not_special_sign. Qed.

Lemma ordinary_app up a b after : forall p, ordinary up p (a ++ b) after = ordinary up p a (b ++ after) && ordinary up (last a p) b after.
Proof.
  induction a as [|c a IH]; intros p; [reflexivity|]. cbn [app ordinary]. rewrite IH, last_cons. rewrite <- app_assoc. now rewrite andb_assoc.
Qed.

(** ---------------------------------------------------------------- nodes *)
Lemma written_same E ns x y : written E ns x -> written E ns y -> x = y.
Proof.
  intros (xs & HX & <-) (ys & HY & <-). f_equal. revert ys HY. induction HX as [|n x ns xs HR HF IH]; intros ys HY; inversion HY as [|? y ? ys' HR' HF']; subst; [reflexivity|].
  f_equal; [|now apply IH]. unfold renders in *. rewrite HR in HR'. now apply okstr_inj in HR'.
Qed.
Lemma written_app E a b x : written E (a ++ b) x -> exists y z, written E a y /\ written E b z /\ x = y ++ z.
Proof.
  intros (xs & HX & <-). apply Forall2_app_inv_l in HX as (ys & zs & HY & HZ & ->). exists (List.concat ys), (List.concat zs).
  split; [now exists ys|]. split; [now exists zs|]. apply concat_app.
Qed.
Lemma written_cons E n b x : written E (n :: b) x -> exists y z, renders E n y /\ written E b z /\ x = y ++ z.
Proof.
  intros (xs & HX & <-). inversion HX as [|? y ? zs HR HF]; subst. exists y, (List.concat zs). split; [exact HR|]. split; [now exists zs|reflexivity].
Qed.
Lemma written_one E n x : written E [n] x -> renders E n x.
Proof. intros H. apply written_cons in H as (y & z & HR & (zs & HZ & <-) & ->). inversion HZ; subst. cbn. now rewrite app_nil_r. Qed.
(** ---------------------------------------------------------------- for examples *)
Lemma tame_check t : forallb (fun c => negb (existsb (N.eqb c) (NL :: s "\`*_~![]<&"))) t = true -> tame t.
Proof.
  intros H c X Y. rewrite forallb_forall in H. apply H in X. apply negb_true_iff in X. unfold special in Y.
  assert (Z : existsb (N.eqb c) (NL :: s "\`*_~![]<&") = true) by (apply existsb_exists; exists c; split; [exact Y|apply N.eqb_refl]). congruence.
Qed.
