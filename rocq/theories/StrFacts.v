(** Facts about the string functions of PyStr.v. *)
From Coq Require Import List NArith ZArith Bool String Lia.
From Verif Require Import PyStr Values Basics.
Import ListNotations.
Open Scope string_scope.
Open Scope list_scope.

(** ---------------------------------------------------------------- strip *)
Lemma rstrip_by_nil p x : rstrip_by p x = [] <-> forallb p x = true.
Proof.
  induction x as [|c x IH]; cbn; [tauto|].
  destruct (rstrip_by p x) as [|a r] eqn:E.
  - destruct IH as [IH _]. rewrite (IH eq_refl), andb_true_r.
    destruct (p c); split; congruence.
  - split; [discriminate|]. intros H. apply andb_true_iff in H as [_ H]. apply IH in H. discriminate.
Qed.
Lemma lstrip_by_nil p x : lstrip_by p x = [] <-> forallb p x = true.
Proof.
  induction x as [|c x IH]; cbn; [tauto|].
  destruct (p c); cbn; [exact IH|]. split; discriminate.
Qed.
Lemma rstrip_by_app p x : exists y, x = rstrip_by p x ++ y /\ forallb p y = true.
Proof.
  induction x as [|c x (y & E & H)]; [now exists []|]. cbn.
  destruct (rstrip_by p x) as [|a r] eqn:F.
  - destruct (p c) eqn:P; [exists (c :: x)|exists x]; cbn; split; auto.
    + apply andb_true_iff. split; [exact P|]. now apply rstrip_by_nil.
    + now apply rstrip_by_nil.
  - exists y. split; [cbn; now rewrite E at 1|exact H].
Qed.
Lemma rstrip_by_last p x : match rev (rstrip_by p x) with [] => True | c :: _ => p c = false end.
Proof.
  induction x as [|c x IH]; cbn; [exact I|].
  destruct (rstrip_by p x) as [|a r] eqn:F.
  - destruct (p c) eqn:P; cbn; auto.
  - cbn [rev]. rewrite <- app_assoc. cbn [rev] in IH.
    destruct (rev r) as [|z l]; cbn [app] in *; exact IH.
Qed.
Lemma rstrip_by_forallb p q x : forallb q x = true -> forallb q (rstrip_by p x) = true.
Proof.
  intros H. destruct (rstrip_by_app p x) as (y & E & _). rewrite E, forallb_app in H.
  now apply andb_true_iff in H.
Qed.
Lemma rstrip_by_unique p a b :
  match rev a with [] => True | c :: _ => p c = false end -> forallb p b = true -> rstrip_by p (a ++ b) = a.
Proof.
  intros HA HB. induction a as [|c a IH]; cbn; [now apply rstrip_by_nil|].
  cbn [rev] in HA. destruct (rev a) as [|z l] eqn:R.
  - assert (a = []) as -> by (rewrite <- (rev_involutive a), R; reflexivity).
    cbn in *. destruct (rstrip_by p b) as [|x r] eqn:F; [now rewrite HA|].
    assert (rstrip_by p b = []) by (now apply rstrip_by_nil). congruence.
  - rewrite IH by exact HA. destruct a; [discriminate|reflexivity].
Qed.
Lemma strip_nil x : strip x = [] <-> forallb is_ws x = true.
Proof.
  unfold strip. rewrite lstrip_by_nil. destruct (rstrip_by_app is_ws x) as (y & E & H).
  split; intros K.
  - rewrite E, forallb_app, K, H. reflexivity.
  - now apply rstrip_by_forallb.
Qed.
Lemma rstrip_idem x : rstrip (rstrip x) = rstrip x.
Proof.
  unfold rstrip. rewrite <- (app_nil_r (rstrip_by is_ws x)) at 1. apply rstrip_by_unique; [apply rstrip_by_last|reflexivity].
Qed.

(** ---------------------------------------------------------------- split and join *)
Lemma split_on_nonnil c x : split_on c x <> [].
Proof.
  induction x as [|a x IH]; cbn; [discriminate|].
  destruct (N.eqb a c); [discriminate|]. destruct (split_on c x); discriminate.
Qed.
Lemma join_cons sep x l : l <> [] -> join sep (x :: l) = x ++ sep ++ join sep l.
Proof. destruct l; [congruence|reflexivity]. Qed.
Lemma join_split c x : join [c] (split_on c x) = x.
Proof.
  induction x as [|a x IH]; [reflexivity|]. cbn [split_on].
  destruct (N.eqb a c) eqn:E.
  - apply N.eqb_eq in E. subst. rewrite join_cons by apply split_on_nonnil. cbn. now rewrite IH.
  - destruct (split_on c x) as [|l ls] eqn:S; [now apply split_on_nonnil in S|].
    destruct ls as [|l' ls].
    + cbn in *. now rewrite IH.
    + cbn [join app] in *. now rewrite IH.
Qed.
Lemma split_on_free c x : Forall (fun l => ~ In c l) (split_on c x).
Proof.
  induction x as [|a x IH]; cbn; [repeat constructor; auto|].
  destruct (N.eqb a c) eqn:E; [constructor; auto|].
  destruct (split_on c x) as [|l ls]; inversion IH; subst.
  - constructor; [|constructor]. intros [->|[]]. now rewrite N.eqb_refl in E.
  - constructor; auto. intros [->|H]; [now rewrite N.eqb_refl in E|auto].
Qed.
Lemma split_on_notin c x : ~ In c x -> split_on c x = [x].
Proof.
  induction x as [|a x IH]; cbn; [reflexivity|]. intros H.
  destruct (N.eqb a c) eqn:E; [apply N.eqb_eq in E; tauto|]. rewrite IH by tauto. reflexivity.
Qed.
Lemma split_on_app_sep c x y : split_on c (x ++ c :: y) = split_on c x ++ split_on c y.
Proof.
  induction x as [|a x IH]; cbn.
  - now rewrite N.eqb_refl.
  - destruct (N.eqb a c); [now rewrite IH|]. rewrite IH.
    destruct (split_on c x) as [|l ls] eqn:S; [now apply split_on_nonnil in S|reflexivity].
Qed.
Lemma split_join c ls : ls <> [] -> split_on c (join [c] ls) = List.concat (map (split_on c) ls).
Proof.
  induction ls as [|l ls IH]; [congruence|]. intros _. destruct ls as [|l' ls].
  - cbn. now rewrite app_nil_r.
  - rewrite join_cons by discriminate. cbn [app map List.concat]. rewrite split_on_app_sep, IH by discriminate.
    reflexivity.
Qed.
Lemma split_join_free c ls : ls <> [] -> Forall (fun l => ~ In c l) ls -> split_on c (join [c] ls) = ls.
Proof.
  intros HN HF. rewrite split_join by exact HN. clear HN.
  induction HF as [|l ls H HF IH]; [reflexivity|]. cbn. rewrite split_on_notin by exact H. cbn. now rewrite IH.
Qed.
Lemma join_app sep a b : a <> [] -> b <> [] -> join sep (a ++ b) = join sep a ++ sep ++ join sep b.
Proof.
  intros HA HB. induction a as [|x a IH]; [congruence|]. destruct a as [|y a].
  - cbn [app]. now rewrite join_cons by exact HB.
  - cbn [app] in *. rewrite (join_cons sep x (y :: a ++ b)), (join_cons sep x (y :: a)) by discriminate.
    rewrite IH by discriminate. now rewrite !app_assoc.
Qed.
Lemma in_join sep l c : In c (join sep l) -> In c sep \/ exists x, In x l /\ In c x.
Proof.
  induction l as [|x l IH]; [intros []|]. destruct l as [|y l].
  - cbn. intros H. right. exists x. auto.
  - rewrite join_cons by discriminate. rewrite !in_app_iff. intros [H|[H|H]].
    + right. exists x. split; [now left|exact H].
    + now left.
    + destruct (IH H) as [K|(z & K1 & K2)]; [now left|right]. exists z. split; [now right|exact K2].
Qed.
Lemma forallb_join p sep l : forallb p sep = true -> forallb (forallb p) l = true -> forallb p (join sep l) = true.
Proof.
  intros HS HL. apply forallb_forall. intros c HC. apply in_join in HC as [H|(x & H1 & H2)].
  - rewrite forallb_forall in HS. auto.
  - rewrite forallb_forall in HL. specialize (HL x H1). rewrite forallb_forall in HL. auto.
Qed.

(** ---------------------------------------------------------------- replace *)
Lemma replace_go_skip old new x k : replace_go old new x k = replace_go old new (skipn k x) 0.
Proof.
  revert k. induction x as [|c x IH]; intros [|k]; try reflexivity. cbn [replace_go skipn]. apply IH.
Qed.
(** One-character pattern: character-wise. *)
Lemma replace_char c new x : replace [c] new x = flat_map (fun a => if N.eqb c a then new else [a]) x.
Proof.
  unfold replace. induction x as [|a x IH]; [reflexivity|].
  cbn [replace_go prefixb flat_map List.length Nat.sub]. rewrite andb_true_r.
  destruct (N.eqb c a); cbn [app]; now rewrite IH.
Qed.
Lemma replace_char_notin c new x : ~ In c x -> replace [c] new x = x.
Proof.
  intros H. rewrite replace_char. induction x as [|a x IH]; [reflexivity|]. cbn.
  destruct (N.eqb c a) eqn:E; [apply N.eqb_eq in E; cbn in H; intuition congruence|].
  cbn. rewrite IH; [reflexivity|]. cbn in H. tauto.
Qed.

(** ---------------------------------------------------------------- containment *)
(** [sub] occurs in [x]. *)
Definition contains (sub x : str) : Prop := exists a b, x = a ++ sub ++ b.
Lemma contains_refl x : contains x x.
Proof. exists [], []. now rewrite app_nil_r. Qed.
Lemma contains_trans a b c : contains a b -> contains b c -> contains a c.
Proof. intros (x & y & ->) (z & w & ->). exists (z ++ x), (y ++ w). now rewrite !app_assoc. Qed.
Lemma contains_mid a x b : contains x (a ++ x ++ b).
Proof. now exists a, b. Qed.
Lemma contains_nil x : contains [] x.
Proof. exists [], x. reflexivity. Qed.
