(** strip_double_empty_line on newline runs. *)
From Coq Require Import List NArith ZArith Bool String Lia Arith.
From Verif Require Import PyStr Values Markdown Basics StrFacts.
Import ListNotations.
Open Scope string_scope.
Open Scope list_scope.
Open Scope nat_scope.

Definition nls (k : nat) : str := repeat NL k.

(** ---------------------------------------------------------------- one pass *)
(** What one pass leaves of a run of [k] newlines. *)
Definition pass (k : nat) : nat := 2 * (k / 3) + k mod 3.
(** Does [b] not begin / [a] not end with a newline. *)
Definition starts_clean (b : str) : Prop := match b with c :: _ => c <> NL | [] => True end.
Definition ends_clean (a : str) : Prop := starts_clean (rev a).

Lemma pass_step k : pass (3 + k) = 2 + pass k.
Proof.
  unfold pass. replace (3 + k) with (k + 1 * 3) by lia. rewrite Nat.div_add, Nat.mod_add by lia. lia.
Qed.
Lemma pass_small k : k < 3 -> pass k = k.
Proof. intros H. unfold pass. rewrite Nat.div_small, Nat.mod_small by lia. lia. Qed.

Lemma collapse1_char c x : c <> NL -> collapse1 (c :: x) = c :: collapse1 x.
Proof.
  intros H. unfold collapse1, replace. cbn [replace_go prefixb].
  destruct (N.eqb NL c) eqn:E; [apply N.eqb_eq in E; congruence|reflexivity].
Qed.
Lemma collapse1_three x : collapse1 (NL :: NL :: NL :: x) = NL :: NL :: collapse1 x.
Proof. reflexivity. Qed.
Lemma collapse1_one b : starts_clean b -> collapse1 (NL :: b) = NL :: collapse1 b.
Proof.
  intros H. unfold collapse1, replace. destruct b as [|c b]; [reflexivity|].
  cbn [replace_go prefixb]. cbn in H. destruct (N.eqb NL c) eqn:E; [apply N.eqb_eq in E; congruence|].
  rewrite andb_false_r. reflexivity.
Qed.
Lemma collapse1_two b : starts_clean b -> collapse1 (NL :: NL :: b) = NL :: NL :: collapse1 b.
Proof.
  intros H. unfold collapse1, replace. destruct b as [|c b]; [reflexivity|].
  cbn [replace_go prefixb]. cbn in H. destruct (N.eqb NL c) eqn:E; [apply N.eqb_eq in E; congruence|].
  rewrite !andb_false_r. reflexivity.
Qed.
Lemma collapse1_run k : forall b, starts_clean b -> collapse1 (nls k ++ b) = nls (pass k) ++ collapse1 b.
Proof.
  induction k as [k IH] using lt_wf_ind. intros b HB.
  destruct k as [|[|[|k]]]; [reflexivity|now apply collapse1_one|now apply collapse1_two|].
  change (pass (S (S (S k)))) with (pass (3 + k)). rewrite pass_step.
  change (nls (S (S (S k))) ++ b) with (NL :: NL :: NL :: (nls k ++ b)). rewrite collapse1_three, IH by (lia || auto).
  reflexivity.
Qed.

(** ---------------------------------------------------------------- arbitrary context *)
(** Append [b] after a run of exactly [k] newlines that follows [a]. *)
Lemma collapse1_context a : ends_clean a -> forall k b, starts_clean b ->
  collapse1 (a ++ nls k ++ b) = collapse1 a ++ nls (pass k) ++ collapse1 b.
Proof.
  (* by well-founded induction on the length: peel a character or a whole run *)
  induction a as [a IH] using (well_founded_induction (Wf_nat.well_founded_ltof _ (@List.length N))).
  intros HA k b HB. destruct a as [|c a]; [now apply collapse1_run|].
  destruct (N.eq_dec c NL) as [->|HC].
  - (* leading run of a *)
    assert (HR : exists j a', NL :: a = nls (S j) ++ a' /\ starts_clean a').
    { clear. induction a as [|c a IH]; [now exists 0, []|].
      destruct (N.eq_dec c NL) as [->|H]; [|exists 0, (c :: a); split; [reflexivity|exact H]].
      destruct IH as (j & a' & E & H). exists (S j), a'. split; [cbn in *; now rewrite E|exact H]. }
    destruct HR as (j & a' & E & HS). rewrite E in *. clear E.
    assert (HN : a' <> []).
    { intros ->. unfold ends_clean in HA. rewrite app_nil_r in HA. unfold nls in HA.
      assert (rev (repeat NL (S j)) = repeat NL (S j)).
      { clear. induction (S j) as [|n IH]; [reflexivity|]. cbn [repeat rev]. rewrite IH.
        clear. induction n; cbn; congruence. }
      rewrite H in HA. cbn in HA. congruence. }
    rewrite <- app_assoc, collapse1_run.
    + rewrite (collapse1_run (S j) a' HS), IH; auto.
      * now rewrite <- app_assoc.
      * unfold ltof. rewrite app_length. unfold nls. rewrite repeat_length. lia.
      * unfold ends_clean in *. rewrite rev_app_distr in HA. destruct (rev a') as [|z r] eqn:R; [exact I|exact HA].
    + destruct a'; [congruence|exact HS].
  - cbn [app]. rewrite !collapse1_char by exact HC. cbn [app]. f_equal. apply IH; auto.
    + unfold ltof. cbn. lia.
    + unfold ends_clean in *. cbn [rev] in HA. destruct (rev a) as [|z r]; [exact I|exact HA].
Qed.

Lemma starts_clean_collapse1 b : starts_clean b -> starts_clean (collapse1 b).
Proof. destruct b as [|c b]; [auto|]. intros H. rewrite collapse1_char by exact H. exact H. Qed.
(** Every string splits at its last newline run. *)
Lemma ends_clean_collapse1 a : ends_clean a -> ends_clean (collapse1 a).
Proof.
  (* the last character is not a newline, so it is copied after whatever precedes *)
  intros H. destruct a as [|c0 a0] using rev_ind; [exact I|]. clear IHa0.
  unfold ends_clean in H. rewrite rev_app_distr in H. cbn in H.
  assert (HR : exists a1 k, a0 = a1 ++ nls k /\ ends_clean a1).
  { clear. induction a0 as [|c a IH] using rev_ind; [now exists [], 0|].
    destruct (N.eq_dec c NL) as [->|HC].
    - destruct IH as (a1 & k & -> & HE). exists a1, (S k). split; [|exact HE].
      rewrite <- app_assoc. f_equal. unfold nls. cbn [repeat]. symmetry. apply repeat_cons.
    - exists (a ++ [c]), 0. split; [now rewrite app_nil_r|]. unfold ends_clean. now rewrite rev_app_distr. }
  destruct HR as (a1 & k & -> & HE). rewrite <- app_assoc, collapse1_context by (auto || exact H).
  rewrite collapse1_char by exact H. unfold ends_clean. rewrite !rev_app_distr.
  change (collapse1 []) with (@nil N). cbn. exact H.
Qed.

(** ---------------------------------------------------------------- three passes *)
Definition squeeze (k : nat) : nat := pass (pass (pass k)).
Lemma strip_context a k b : ends_clean a -> starts_clean b ->
  strip_double_empty_line (a ++ nls k ++ b)
  = strip_double_empty_line a ++ nls (squeeze k) ++ strip_double_empty_line b.
Proof.
  intros HA HB. unfold strip_double_empty_line, squeeze.
  rewrite !collapse1_context; auto using starts_clean_collapse1, ends_clean_collapse1.
Qed.
Lemma collapse1_free x : ~ In NL x -> collapse1 x = x.
Proof.
  induction x as [|c x IH]; [reflexivity|]. intros H.
  rewrite collapse1_char by (intros E; apply H; left; exact E). rewrite IH; [reflexivity|]. intros HI. apply H. now right.
Qed.
Lemma strip_free x : ~ In NL x -> strip_double_empty_line x = x.
Proof. intros H. unfold strip_double_empty_line. now rewrite !(collapse1_free x H). Qed.

Lemma pass_le k : pass k <= k.
Proof. unfold pass. pose proof (Nat.div_mod k 3). lia. Qed.
Lemma pass_pos k : 0 < k -> 0 < pass k.
Proof. intros H. unfold pass. pose proof (Nat.div_mod k 3). pose proof (Nat.mod_upper_bound k 3). lia. Qed.
Lemma pass_mono j k : j <= k -> pass j <= pass k.
Proof.
  intros H. unfold pass. pose proof (Nat.div_mod j 3). pose proof (Nat.div_mod k 3).
  pose proof (Nat.mod_upper_bound j 3). pose proof (Nat.mod_upper_bound k 3).
  pose proof (Nat.div_le_mono j k 3). lia.
Qed.
Lemma squeeze_mono j k : j <= k -> squeeze j <= squeeze k.
Proof. intros H. unfold squeeze. auto using pass_mono. Qed.
Lemma squeeze_le k : squeeze k <= k.
Proof. unfold squeeze. pose proof (pass_le k). pose proof (pass_le (pass k)). pose proof (pass_le (pass (pass k))). lia. Qed.
Lemma squeeze_small k : k <= 2 -> squeeze k = k.
Proof. destruct k as [|[|[|k]]]; try reflexivity. lia. Qed.
Lemma squeeze_two k : 2 <= k <= 6 -> squeeze k = 2.
Proof. intros H. destruct k as [|[|[|[|[|[|[|k]]]]]]]; try reflexivity; lia. Qed.
Lemma squeeze_many k : 7 <= k -> 3 <= squeeze k.
Proof. intros H. change 3 with (squeeze 7). now apply squeeze_mono. Qed.

(** ---------------------------------------------------------------- decomposition *)
(** Induction: a string is newline-free, or [a ++ run ++ b] with [b] newline-free and
    non-empty or empty... built from the left one character or one run at a time. *)
Lemma run_ind (P : str -> Prop) :
  P [] ->
  (forall k b, 0 < k -> starts_clean b -> P b -> P (nls k ++ b)) ->
  (forall c b, c <> NL -> P b -> P (c :: b)) ->
  forall x, P x.
Proof.
  intros H0 HR HC x.
  induction x as [x IH] using (well_founded_induction (Wf_nat.well_founded_ltof _ (@List.length N))).
  destruct x as [|c x]; [exact H0|]. destruct (N.eq_dec c NL) as [->|HN].
  - assert (HS : exists j b, NL :: x = nls (S j) ++ b /\ starts_clean b).
    { clear. induction x as [|c a IH]; [now exists 0, []|].
      destruct (N.eq_dec c NL) as [->|H]; [|exists 0, (c :: a); split; [reflexivity|exact H]].
      destruct IH as (j & a' & E & H). exists (S j), a'. split; [cbn in *; now rewrite E|exact H]. }
    destruct HS as (j & b & E & HS). rewrite E. apply HR; [lia|exact HS|]. apply IH.
    rewrite E. unfold ltof. rewrite app_length. unfold nls. rewrite repeat_length. lia.
  - apply HC; [exact HN|]. apply IH. unfold ltof. cbn. lia.
Qed.
Lemma strip_run k b : starts_clean b ->
  strip_double_empty_line (nls k ++ b) = nls (squeeze k) ++ strip_double_empty_line b.
Proof. intros H. exact (strip_context [] k b I H). Qed.
Lemma strip_char c b : c <> NL -> strip_double_empty_line (c :: b) = c :: strip_double_empty_line b.
Proof. intros H. unfold strip_double_empty_line. rewrite !collapse1_char; auto. Qed.

(** The visible characters are untouched. *)
Definition visible_chars (x : str) : str := filter (fun c => negb (N.eqb c NL)) x.
Lemma visible_app a b : visible_chars (a ++ b) = visible_chars a ++ visible_chars b.
Proof. apply filter_app. Qed.
Lemma visible_nls k : visible_chars (nls k) = [].
Proof. induction k; cbn; auto. Qed.
Lemma strip_visible x : visible_chars (strip_double_empty_line x) = visible_chars x.
Proof.
  induction x as [|k b Hk HB IH|c b HC IH] using run_ind; [reflexivity| |].
  - rewrite strip_run by exact HB. now rewrite !visible_app, !visible_nls, IH.
  - rewrite strip_char by exact HC. unfold visible_chars in *. cbn [filter]. now rewrite IH.
Qed.

(** Three newlines in the output iff seven in the input. *)
Lemma contains_nls_run m k b : starts_clean b -> contains (nls m) (nls k ++ b) <-> m <= k \/ contains (nls m) b.
Proof.
  intros HB. split.
  - intros (u & v & E). revert k E. induction u as [|c u IH]; intros k E.
    + left. cbn in E. clear -E HB. revert k E. induction m as [|m IH]; intros k E; [lia|].
      destruct k as [|k]; cbn in E.
      * destruct b as [|c b]; [discriminate|]. cbn in HB. congruence.
      * injection E as E. apply IH in E. lia.
    + destruct k as [|k].
      * right. exists (c :: u), v. exact E.
      * assert (E' : nls k ++ b = u ++ nls m ++ v) by exact (f_equal (@tl N) E). apply IH in E' as [E'|E']; [left; lia|now right].
  - intros [H|(u & v & ->)].
    + exists [], (nls (k - m) ++ b). cbn. rewrite app_assoc. f_equal. unfold nls. rewrite <- repeat_app. f_equal. lia.
    + exists (nls k ++ u), v. now rewrite <- app_assoc.
Qed.
Lemma contains_nls_char m c b : 0 < m -> c <> NL -> contains (nls m) (c :: b) <-> contains (nls m) b.
Proof.
  intros Hm HC. split.
  - intros (u & v & E). destruct u as [|c' u].
    + destruct m; [lia|]. cbn in E. congruence.
    + cbn in E. injection E as _ ->. now exists u, v.
  - intros (u & v & ->). now exists (c :: u), v.
Qed.
Lemma starts_clean_strip b : starts_clean b -> starts_clean (strip_double_empty_line b).
Proof. intros H. unfold strip_double_empty_line. auto using starts_clean_collapse1. Qed.
Lemma strip_three_iff x : contains (nls 3) (strip_double_empty_line x) <-> contains (nls 7) x.
Proof.
  induction x as [|k b Hk HB IH|c b HC IH] using run_ind.
  - split; intros (u & v & E); destruct u; discriminate.
  - rewrite strip_run by exact HB. rewrite !contains_nls_run by auto using starts_clean_strip. rewrite IH.
    split; intros [H|H]; auto; left.
    + destruct (le_lt_dec 7 k) as [H7|H7]; [exact H7|]. destruct k as [|[|k]]; [lia|cbn in H; lia|].
      rewrite squeeze_two in H by lia. lia.
    + now apply squeeze_many.
  - rewrite strip_char by exact HC. rewrite !contains_nls_char by (lia || exact HC). exact IH.
Qed.

(** Only newlines are deleted: the output is a subsequence. *)
Inductive subseq : str -> str -> Prop :=
| sub_nil : subseq [] []
| sub_keep c a b : subseq a b -> subseq (c :: a) (c :: b)
| sub_skip c a b : subseq a b -> subseq a (c :: b).
Lemma subseq_nls j k a b : j <= k -> subseq a b -> subseq (nls j ++ a) (nls k ++ b).
Proof.
  intros H HS. revert j H. induction k as [|k IH]; intros j H.
  - now replace j with 0 by lia.
  - destruct j as [|j]; cbn.
    + apply sub_skip. apply (IH 0). lia.
    + apply sub_keep. apply IH. lia.
Qed.
Lemma strip_subseq x : subseq (strip_double_empty_line x) x.
Proof.
  induction x as [|k b Hk HB IH|c b HC IH] using run_ind; [constructor| |].
  - rewrite strip_run by exact HB. apply subseq_nls; [apply squeeze_le|exact IH].
  - rewrite strip_char by exact HC. now constructor.
Qed.
(** The non-empty lines are unchanged. *)
Definition full_lines (x : str) : list str :=
  filter (fun l => match l with [] => false | _ => true end) (split_on NL x).
Lemma full_lines_nl b : full_lines (NL :: b) = full_lines b.
Proof. reflexivity. Qed.
Lemma full_lines_nls k b : full_lines (nls k ++ b) = full_lines b.
Proof. induction k as [|k IH]; [reflexivity|]. exact IH. Qed.
Lemma strip_first_line b : starts_clean b -> hd [] (split_on NL (strip_double_empty_line b)) = hd [] (split_on NL b)
  /\ (strip_double_empty_line b = [] <-> b = []).
Proof.
  induction b as [|k b Hk HB IH|c b HC IH] using run_ind; intros HS.
  - split; [reflexivity|tauto].
  - destruct k; [lia|]. cbn in HS. congruence.
  - rewrite strip_char by exact HC. split; [|split; discriminate].
    cbn [split_on]. destruct (N.eqb c NL) eqn:EC; [apply N.eqb_eq in EC; congruence|].
    assert (E : hd [] (split_on NL (strip_double_empty_line b)) = hd [] (split_on NL b)).
    { destruct b as [|d b]; [reflexivity|]. destruct (N.eq_dec d NL) as [->|HD].
      - (* b starts with a run *)
        assert (HX : exists r, strip_double_empty_line (NL :: b) = NL :: r).
        { clear. assert (HR : exists j b', NL :: b = nls (S j) ++ b' /\ starts_clean b').
          { induction b as [|c a IH]; [now exists 0, []|].
            destruct (N.eq_dec c NL) as [->|H]; [|exists 0, (c :: a); split; [reflexivity|exact H]].
            destruct IH as (j & a' & E & H). exists (S j), a'. split; [cbn in *; now rewrite E|exact H]. }
          destruct HR as (j & b' & -> & HS). rewrite strip_run by exact HS.
          assert (0 < squeeze (S j)) by (unfold squeeze; auto using pass_pos with arith).
          destruct (squeeze (S j)) as [|q]; [lia|]. eexists. reflexivity. }
        destruct HX as [r ->]. reflexivity.
      - apply IH. exact HD. }
    destruct (split_on NL (strip_double_empty_line b)) as [|l ls] eqn:E1; [now apply split_on_nonnil in E1|].
    destruct (split_on NL b) as [|l' ls'] eqn:E2; [now apply split_on_nonnil in E2|]. cbn in *. now subst.
Qed.
Lemma strip_full_lines x : full_lines (strip_double_empty_line x) = full_lines x.
Proof.
  induction x as [|k b Hk HB IH|c b HC IH] using run_ind; [reflexivity| |].
  - rewrite strip_run by exact HB. now rewrite !full_lines_nls.
  - assert (H1 : starts_clean (c :: b)) by exact HC. destruct (strip_first_line _ H1) as [HF _].
    rewrite strip_char in * by exact HC. revert HF IH. unfold full_lines. cbn [split_on].
    destruct (N.eqb c NL) eqn:EC; [apply N.eqb_eq in EC; congruence|].
    destruct (split_on NL (strip_double_empty_line b)) as [|l ls] eqn:E1; [now apply split_on_nonnil in E1|].
    destruct (split_on NL b) as [|l' ls'] eqn:E2; [now apply split_on_nonnil in E2|].
    cbn [hd filter]. intros H IH. injection H as ->. f_equal.
    destruct l' as [|z l']; cbn in IH; [exact IH|]. now injection IH.
Qed.
