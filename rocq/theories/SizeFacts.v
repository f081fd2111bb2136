(** Additive measures of strings. *)
From Coq Require Import List NArith ZArith Bool String Lia.
From Verif Require Import PyStr Values Schema Parse Date Markdown StrFacts Collapse SpecSize.
Import ListNotations.
Open Scope string_scope.
Open Scope list_scope.
Open Scope nat_scope.

Definition sum {A} (f : A -> nat) (l : list A) : nat := list_sum (map f l).
Lemma sum_nil {A} (f : A -> nat) : sum f [] = 0. Proof. reflexivity. Qed.
Lemma sum_cons {A} (f : A -> nat) a l : sum f (a :: l) = f a + sum f l. Proof. reflexivity. Qed.
Lemma sum_app {A} (f : A -> nat) a b : sum f (a ++ b) = sum f a + sum f b.
Proof. unfold sum. now rewrite map_app, list_sum_app. Qed.
Lemma sum_le {A} (f g : A -> nat) l : (forall a, In a l -> f a <= g a) -> sum f l <= sum g l.
Proof. induction l as [|a l IH]; intros H; [reflexivity|]. rewrite !sum_cons. pose proof (H a (or_introl eq_refl)). specialize (IH (fun x Hx => H x (or_intror Hx))). lia. Qed.
Lemma sum_plus {A} (f g : A -> nat) l : sum (fun a => f a + g a) l = sum f l + sum g l.
Proof. induction l as [|a l IH]; [reflexivity|]. rewrite !sum_cons, IH. lia. Qed.
Lemma sum_const {A} k (l : list A) : sum (fun _ => k) l = k * List.length l.
Proof. induction l as [|a l IH]; [cbn; lia|]. rewrite !sum_cons, IH. cbn. lia. Qed.
Lemma sum_mul {A} k (f : A -> nat) l : sum (fun a => k * f a) l = k * sum f l.
Proof. induction l as [|a l IH]; [cbn; lia|]. rewrite !sum_cons, IH. lia. Qed.
Lemma sum_in {A} (f : A -> nat) l a : In a l -> f a <= sum f l.
Proof. induction l as [|b l IH]; [easy|]. rewrite sum_cons. intros [-> |H]; [lia|]. specialize (IH H). lia. Qed.
Lemma sum_concat {A} (f : A -> nat) (ll : list (list A)) : sum f (List.concat ll) = sum (sum f) ll.
Proof. induction ll as [|l ll IH]; [reflexivity|]. cbn [List.concat]. now rewrite sum_app, sum_cons, IH. Qed.
Lemma sum_map {A B} (g : A -> B) f l : sum f (map g l) = sum (fun a => f (g a)) l.
Proof. unfold sum. now rewrite map_map. Qed.

Lemma sum_lines (f : N -> nat) (ls : list str) : sum (fun l : str => sum f l) ls = sum f (List.concat ls).
Proof. symmetry. exact (sum_concat f ls). Qed.

(** A measure: [sum f], for [f] a weight of characters. *)
Section Measure.
  Variable f : N -> nat.
  Notation ms := (sum f).
  Lemma ms_join sep l : ms (join sep l) <= sum (fun x : str => ms x + ms sep) l.
  Proof.
    induction l as [|x l IH]; [reflexivity|]. rewrite sum_cons. destruct l as [|y l]; [cbn [join]; rewrite sum_nil; lia|].
    rewrite join_cons by discriminate. rewrite !sum_app. lia.
  Qed.
  Lemma ms_join_eq sep l : l <> [] -> ms (join sep l) + ms sep = sum (fun x : str => ms x + ms sep) l.
  Proof.
    induction l as [|x l IH]; [congruence|]. intros _. rewrite sum_cons. destruct l as [|y l]; [cbn [join]; rewrite sum_nil; lia|].
    rewrite join_cons by discriminate. rewrite !sum_app. specialize (IH ltac:(discriminate)). lia.
  Qed.
  Lemma ms_split c x : sum (fun l : str => ms l + f c) (split_on c x) = ms x + f c.
  Proof.
    rewrite <- (join_split c x) at 2. pose proof (ms_join_eq [c] (split_on c x) (split_on_nonnil c x)) as H.
    rewrite sum_cons, sum_nil in H. rewrite Nat.add_0_r in H. rewrite H.
    unfold sum at 1 3. f_equal.
  Qed.
  Lemma ms_subseq a b : subseq a b -> ms a <= ms b.
  Proof. induction 1; rewrite ?sum_cons; [reflexivity|lia|lia]. Qed.
  Lemma ms_strip x : ms (strip_double_empty_line x) <= ms x.
  Proof. apply ms_subseq, strip_subseq. Qed.
  Lemma ms_rstrip x : ms (rstrip x) <= ms x.
  Proof. unfold rstrip. destruct (rstrip_by_app is_ws x) as (y & H & _). rewrite H at 2. rewrite sum_app. lia. Qed.
  Lemma ms_repeat x n : ms (repeat_nat x n) = n * ms x.
  Proof. induction n; cbn [repeat_nat]; [reflexivity|]. rewrite sum_app, IHn. lia. Qed.
  Lemma ms_len k x : (forall c, f c <= k) -> ms x <= k * List.length x.
  Proof. intros H. rewrite <- sum_const. apply sum_le. auto. Qed.
End Measure.

Definition lbc (c : N) : nat := if is_lb c then 1 else 0.
Definition pipec (c : N) : nat := if N.eqb c PIPE then 1 else 0.
Definition wc (c : N) : nat := if N.eqb c SP then 6 else if N.eqb c NL then 4 else 1.
Lemma lbc_max c : lbc c <= 1. Proof. unfold lbc. destruct (is_lb c); lia. Qed.
Lemma pipec_max c : pipec c <= 1. Proof. unfold pipec. destruct (N.eqb c PIPE); lia. Qed.
Lemma wc_max c : wc c <= 6. Proof. unfold wc. repeat destruct (N.eqb _ _); lia. Qed.
Lemma wc_min c : 1 <= wc c. Proof. unfold wc. repeat destruct (N.eqb _ _); lia. Qed.
Lemma wc_len x : List.length x <= sum wc x.
Proof. rewrite <- (Nat.mul_1_l (List.length x)), <- sum_const. apply sum_le. intros; apply wc_min. Qed.
Lemma lbc_count x : sum lbc x = line_breaks x.
Proof. unfold line_breaks. induction x as [|c x IH]; [reflexivity|]. rewrite sum_cons, IH. unfold lbc. cbn. destruct (is_lb c); reflexivity. Qed.

(** ---------------------------------------------------------------- quoting *)
Section Indent.
  Variable f : N -> nat.
  Variable p : str.
  Lemma splitlines_len x : List.length (splitlines_keep x) <= sum lbc x + 1.
  Proof.
    induction x as [|c x IH]; [cbn; lia|]. rewrite sum_cons. cbn [splitlines_keep]. unfold lbc at 1.
    destruct (is_lb c) eqn:B; cbn [andb].
    - destruct (negb _); [cbn; lia|]. destruct (splitlines_keep x); cbn in *; lia.
    - destruct (splitlines_keep x) as [|l ls]; cbn in *; lia.
  Qed.
  Lemma splitlines_concat x : List.concat (splitlines_keep x) = x.
  Proof.
    induction x as [|c x IH]; [reflexivity|]. cbn [splitlines_keep].
    destruct (_ && _)%bool; [cbn; now rewrite IH|].
    destruct (splitlines_keep x) as [|l ls]; cbn in *; now rewrite <- IH.
  Qed.
  Lemma ms_indent x : sum f (indent_all p x) <= sum f x + sum f p * (sum lbc x + 1).
  Proof.
    unfold indent_all. rewrite sum_concat, sum_map.
    transitivity (sum (fun l : str => sum f p + sum f l) (splitlines_keep x)); [apply sum_le; intros a _; cbn beta; now rewrite sum_app|].
    rewrite sum_plus, sum_const. pose proof (splitlines_len x) as H. apply (Nat.mul_le_mono_l _ _ (sum f p)) in H.
    rewrite sum_lines, splitlines_concat.
    rewrite Nat.add_comm. apply Nat.add_le_mono_l. exact H.
  Qed.
End Indent.

(** ---------------------------------------------------------------- decision items *)
Section Quote.
  Variable f : N -> nat.
  Lemma quote_len : forall ls n e, List.length (quote_lines n e ls) <= List.length ls.
  Proof.
    induction ls as [|l ls IH]; intros n e; cbn [quote_lines]; [lia|].
    destruct (rstrip l); [destruct (_ || _)%bool|]; cbn [List.length]; [specialize (IH n e); lia|specialize (IH n true); lia|specialize (IH (S n) false); lia].
  Qed.
  Lemma quote_ms k : (forall ls n e, sum (fun l : str => sum f l + k) (quote_lines n e ls) <=
    sum (fun l : str => sum f l + k) ls + sum f (s "> ") * List.length ls).
  Proof.
    induction ls as [|l ls IH]; intros n e; cbn [quote_lines]; [cbn; lia|]. rewrite (sum_cons _ l ls). cbn [List.length].
    pose proof (ms_rstrip f l) as HR. destruct (rstrip l) as [|c x] eqn:R; [destruct (_ || _)%bool|].
    - specialize (IH n e). lia.
    - rewrite sum_cons. specialize (IH n true). assert (sum f (s ">") <= sum f (s "> ")) by (change (s "> ") with (s ">" ++ s " "); rewrite sum_app; lia). lia.
    - rewrite sum_cons. rewrite sum_app. specialize (IH (S n) false). lia.
  Qed.
End Quote.
Lemma split_len_lb x : List.length (split_on NL x) <= sum lbc x + 1.
Proof.
  pose proof (ms_split lbc NL x) as H. change (lbc NL) with 1 in H. rewrite <- H. clear H.
  transitivity (sum (fun _ : str => 1) (split_on NL x)); [rewrite sum_const; lia|]. apply sum_le. intros; lia.
Qed.
Lemma ms_quote f x :
  sum f (join nl (quote_lines 0 false (split_on NL x))) <= sum f x + f NL + sum f (s "> ") * (sum lbc x + 1).
Proof.
  pose proof (ms_join f nl (quote_lines 0 false (split_on NL x))) as H1. unfold nl in H1 at 2.
  rewrite (sum_cons f NL []) in H1. rewrite sum_nil, Nat.add_0_r in H1.
  pose proof (quote_ms f (f NL) (split_on NL x) 0 false) as H2. rewrite (ms_split f NL x) in H2.
  pose proof (split_len_lb x) as H3. nia.
Qed.

(** ---------------------------------------------------------------- table cells *)
Lemma lstrip_sp_split x : exists n, x = repeat_nat [SP] n ++ lstrip_sp x /\ List.length x - List.length (lstrip_sp x) = n.
Proof.
  unfold lstrip_sp. induction x as [|c x (n & H1 & H2)]; [exists 0; split; reflexivity|]. cbn [lstrip_by].
  destruct (N.eqb SP c) eqn:C.
  - apply N.eqb_eq in C. subst c. exists (S n). split; [cbn; now rewrite H1 at 1|].
    assert (List.length (lstrip_by (N.eqb SP) x) <= List.length x) by (rewrite H1 at 2; rewrite app_length; lia). cbn [List.length]. lia.
  - exists 0. split; [reflexivity|lia].
Qed.
Lemma ms_cell_line f l : sum f (s "&nbsp;") <= f SP -> sum f (cell_line l) <= sum f l.
Proof.
  intros H. unfold cell_line. destruct (lstrip_sp_split l) as (n & H1 & H2). rewrite H2.
  destruct (Nat.ltb 0 n); [|lia]. rewrite H1 at 2. rewrite !sum_app, !ms_repeat, (sum_cons f SP []), sum_nil. nia.
Qed.
Lemma ms_pipes f x : sum f (replace (s "|") (s "\|") x) = sum f x + f 92%N * sum pipec x.
Proof.
  change (s "|") with [PIPE]. rewrite replace_char. induction x as [|c x IH]; [cbn; lia|]. cbn [flat_map].
  rewrite sum_app, IH, !sum_cons. assert (HP : pipec c = if N.eqb PIPE c then 1 else 0) by (unfold pipec; now rewrite N.eqb_sym).
  rewrite HP. destruct (N.eqb PIPE c) eqn:C.
  - apply N.eqb_eq in C. subst c. change (s "\|") with [92%N; PIPE]. rewrite !sum_cons, sum_nil. lia.
  - rewrite !sum_cons, sum_nil. lia.
Qed.
Lemma ms_cell f x : sum f (s "&nbsp;") <= f SP -> sum f (s "<br>") <= f NL -> 
  sum f (cell_text x) <= sum f x + f 92%N * sum pipec x.
Proof.
  intros H1 H2. unfold cell_text. set (y := replace (s "|") (s "\|") x).
  assert (HN : map cell_line (split_on NL y) <> []).
  { destruct (split_on NL y) eqn:S; [now destruct (split_on_nonnil NL y)|discriminate]. }
  pose proof (ms_join_eq f (s "<br>") _ HN) as HJ. rewrite sum_map in HJ.
  pose proof (ms_split f NL y) as HS.
  assert (HL : sum (fun a : str => sum f (cell_line a) + sum f (s "<br>")) (split_on NL y) + (f NL - sum f (s "<br>")) * List.length (split_on NL y)
               <= sum (fun l : str => sum f l + f NL) (split_on NL y)).
  { rewrite <- sum_const, <- sum_plus. apply sum_le. intros a _. pose proof (ms_cell_line f a H1). lia. }
  pose proof (ms_pipes f x) as HP. fold y in HP.
  assert (1 <= List.length (split_on NL y)) by (destruct (split_on NL y) eqn:S; [now destruct (split_on_nonnil NL y)|cbn; lia]).
  nia.
Qed.
