(** The inline reader on pieces that are not read as they were meant (C80). *)
From Coq Require Import List Arith NArith Bool String Lia.
From Verif Require Import PyStr Values Schema Parse Date Markdown Basics StrFacts MarkFacts SpecMd SpecReader SpecInline SpecLook InlineFacts1 InlineFacts2 InlineFacts3 InlineFacts4 InlineFacts5.
Import ListNotations.
Open Scope string_scope.
Open Scope list_scope.
Open Scope nat_scope.

Lemma special_char x c : is_ch x c = true -> In x ["\"; "`"; "*"; "_"; "~"; "!"; "["; "]"; "<"; "&"] -> special c.
Proof.
  intros H HX. unfold special. cbn [In] in HX. right.
  repeat (destruct HX as [<-|HX]; [unfold is_ch in H; match type of H with context [s ?y] => let z := eval vm_compute in (s y) in change (s y) with z in H end;
    cbn iota in H; apply N.eqb_eq in H; subst c; vm_compute; tauto|]). contradiction.
Qed.
Lemma harmless_text : forall up t p after, harmless t -> ordinary up p t after = true /\ no_brackets t = true.
Proof.
  intros up t p after [HS HL]. split.
  - revert p HL. induction t as [|c t IH]; intros p HL; [reflexivity|]. cbn [ordinary].
    assert (HC : ~ special c) by (apply HS; left; reflexivity).
    assert (HT : forall d, In d t -> ~ special d) by (intros d Hd; apply HS; right; exact Hd).
    rewrite last_cons in HL.
    rewrite (IH HT c).
    2:{ destruct t as [|d t]; [discriminate|]. rewrite last_cons in *. exact HL. }
    rewrite andb_true_r. unfold literal. cbv zeta.
    assert (HN : forall x, In x ["\"; "`"; "*"; "_"; "~"; "!"; "["; "]"; "<"; "&"] -> is_ch x c = false).
    { intros x Hx. destruct (is_ch x c) eqn:X; [|reflexivity]. exfalso. apply HC. now apply (special_char x c). }
    rewrite !HN by (cbn [In]; tauto). cbn [orb].
    destruct (N.eqb_spec c SP) as [->|NS].
    + assert (HX : forall u, (forall d, In d u -> ~ special d) -> last u SP <> SP -> exists d q, skipn (leading SP (u ++ after)) (u ++ after) = d :: q /\ d <> NL).
      { clear. induction u as [|d u IH]; intros HS HL; [contradiction HL; reflexivity|]. cbn [app leading]. destruct (N.eqb_spec d SP) as [->|ND].
        - cbn [skipn]. apply IH; [intros e He; apply HS; right; exact He|]. rewrite last_cons in HL. exact HL.
        - cbn [skipn]. exists d, (u ++ after). split; [reflexivity|]. intros ->. apply (HS NL); left; reflexivity. }
      destruct (HX t HT HL) as (d & q & -> & HD). apply negb_true_iff. now apply N.eqb_neq.
    + apply negb_true_iff. apply N.eqb_neq. intros ->. apply HC. left. reflexivity.
  - unfold no_brackets. apply forallb_forall. intros c Hc. apply negb_true_iff. apply orb_false_intro;
      (destruct (is_ch _ c) eqn:X; [|reflexivity]); exfalso; apply (HS c Hc); (eapply special_char; [exact X|]); cbn [In]; tauto.
Qed.


Section Facts.
Variable up : N -> bool.
Lemma adds_delims nb c n rest p : delimiter c = true -> hd NL rest <> c -> adds up nb p (repeat c (S n)) rest [norm (run_token up c (S n) p (hd NL rest))].
Proof.
  intros HG HN st _. exists (run_token up c (S n) p (hd NL rest) :: st).
  split.
  - rewrite scan_run; [|exact HG|exact (hd_hd_error _ _ _ HN)]. now rewrite last_repeat.
  - split; [unfold no_bang, run_token; destruct (is_ch "_" c), (is_ch "~" c); discriminate|].
    destruct nb; [|reflexivity]. exists [run_token up c (S n) p (hd NL rest)]. split; [reflexivity|]. split; [|reflexivity].
    constructor; [|constructor]. unfold run_token. destruct (is_ch "_" c), (is_ch "~" c); exact I.
Qed.
Lemma fold_items X : forall os b, fold_left emph_step (map TIn X) (os, b) = put (rev X) (os, b).
Proof.
  induction X as [|x X IH]; intros os b.
  - destruct os as [|[c1 c2 c3 c4 c5] os]; reflexivity.
  - cbn [map fold_left emph_step]. destruct os as [|o os]; cbn [put]; rewrite IH; cbn [put o_in o_char o_len o_left o_both rev]; now rewrite <- app_assoc.
Qed.
Lemma fold_items_open c n l bo X os b Y : fold_left emph_step (map TIn X) (Opener c n l bo Y :: os, b) = (Opener c n l bo (rev X ++ Y) :: os, b).
Proof. apply fold_items. Qed.
Lemma shown_adds x T : adds up false NL x [] T -> shown up x = flat_map (show plain) (emphasis T).
Proof.
  intros HA. destruct (HA [] ltac:(discriminate)) as (st' & HS & _ & HN). rewrite app_nil_r in HS. unfold shown, read_inline. rewrite HS.
  cbn [scan]. f_equal. unfold emphasis. rewrite <- fold_norm. rewrite map_rev, HN. cbn [map]. rewrite app_nil_r, rev_involutive. reflexivity.
Qed.
(** A piece between two texts. *)
Lemma shown_between u w v X : ordinary up NL u (w ++ v) = true -> reads up false (last u NL) w v X -> ordinary up (last w (last u NL)) v [] = true ->
  shown up (u ++ w ++ v) = map (fun c => Glyph c plain) u ++ flat_map (show plain) X ++ map (fun c => Glyph c plain) v.
Proof.
  intros HU HW HV. unfold shown.
  rewrite (reads_all up (u ++ w ++ v) (map IChar u ++ X ++ map IChar v)).
  - rewrite !flat_map_app, !show_chars. reflexivity.
  - apply reads_app; [apply core_reads, core_text; [now rewrite app_nil_r|discriminate]|].
    apply reads_app; [now rewrite app_nil_r|]. apply core_reads, core_text; [exact HV|discriminate].
Qed.
(** ---------------------------------------------------------------- signs *)
Definition sign_char (e : emph) : N := match e with Strike => 126%N | _ => 42%N end.
Definition sign_len (e : emph) : nat := match e with Em => 1 | _ => 2 end.
Lemma sign_run e : sign e = repeat (sign_char e) (S (pred (sign_len e))).
Proof. destruct e; reflexivity. Qed.
Lemma sign_twice e : sign e ++ sign e = repeat (sign_char e) (S (pred (2 * sign_len e))).
Proof. destruct e; reflexivity. Qed.
Lemma sign_delim e : delimiter (sign_char e) = true.
Proof. destruct e; reflexivity. Qed.
Lemma sign_last e p : last (sign e) p = sign_char e.
Proof. destruct e; reflexivity. Qed.
Lemma sign_hd e r : hd NL (sign e ++ r) = sign_char e.
Proof. destruct e; reflexivity. Qed.
Lemma special_signs e : special (sign_char e).
Proof. unfold special. destruct e; vm_compute; tauto. Qed.
Notation word_text := (word_text up).
Lemma word_text_see t : word_text t -> seeable t.
Proof. intros (_ & HN & _ & _ & HW). destruct t as [|c t]; [contradiction|]. exists c. split; [left; reflexivity|exact HW]. Qed.
Lemma harmless_hd t r e : harmless t -> t <> [] -> hd NL (t ++ r) <> sign_char e.
Proof. intros [H _] HN. destruct t as [|c t]; [contradiction|]. cbn [app hd]. intros ->. apply (H (sign_char e)); [left; reflexivity|apply special_signs]. Qed.
Lemma adds_sign nb e rest p : hd NL rest <> sign_char e -> adds up nb p (sign e) rest [norm (run_token up (sign_char e) (sign_len e) p (hd NL rest))].
Proof. intros H. rewrite sign_run. assert (X := adds_delims nb (sign_char e) (pred (sign_len e)) rest p (sign_delim e) H). destruct e; exact X. Qed.
Lemma adds_signs nb e rest p : hd NL rest <> sign_char e -> adds up nb p (sign e ++ sign e) rest [norm (run_token up (sign_char e) (2 * sign_len e) p (hd NL rest))].
Proof. intros H. rewrite sign_twice. assert (X := adds_delims nb (sign_char e) (pred (2 * sign_len e)) rest p (sign_delim e) H). destruct e; exact X. Qed.
Lemma token_sign e p f : run_token up (sign_char e) (sign_len e) p f = TRun (sign_char e) (sign_len e) (left_flanking up p f) (right_flanking up p f).
Proof. destruct e; cbn [sign_char sign_len]; unfold run_token; change (is_ch "_" 42) with false; change (is_ch "~" 42) with false; change (is_ch "_" 126) with false; change (is_ch "~" 126) with true; cbn iota; rewrite ?andb_true_r; reflexivity. Qed.
Lemma token_signs e p f : left_flanking up p f = true -> right_flanking up p f = true ->
  run_token up (sign_char e) (2 * sign_len e) p f = TRun (sign_char e) (2 * sign_len e) (negb (emph_eqb e Strike)) (negb (emph_eqb e Strike)).
Proof. intros HL HR. unfold run_token. rewrite HL, HR. destruct e; reflexivity. Qed.
Lemma chars_sign e : chars (sign_char e) (sign_len e) = map IChar (sign e).
Proof. destruct e; reflexivity. Qed.

(** ---------------------------------------------------------------- two pieces of the same format in a row *)
Lemma emph_adjacent e A B x y b :
  fold_left emph_step ([TRun (sign_char e) (sign_len e) true x] ++ map TIn A ++ [TRun (sign_char e) (2 * sign_len e) (negb (emph_eqb e Strike)) (negb (emph_eqb e Strike))] ++
    map TIn B ++ [TRun (sign_char e) (sign_len e) y true]) ([], b) = ([], IEmph e (A ++ map IChar (sign e ++ sign e) ++ B) :: b).
Proof.
  rewrite !fold_left_app.
  assert (H1 : fold_left emph_step [TRun (sign_char e) (sign_len e) true x] ([], b) = ([Opener (sign_char e) (sign_len e) (sign_len e) x []], b)) by (destruct e, x; reflexivity).
  rewrite H1, fold_items_open, app_nil_r. clear H1. destruct e; cbn [sign_char sign_len emph_eqb negb Nat.mul Nat.add].
  - assert (H2 : fold_left emph_step [TRun 42 4 true true] ([Opener 42 2 2 x (rev A)], b) = ([Opener 42 4 4 true []; Opener 42 2 2 x (rev A)], b)) by (destruct x; reflexivity).
    rewrite H2, fold_items_open, app_nil_r. clear H2.
    assert (H3 : fold_left emph_step [TRun 42 2 y true] ([Opener 42 4 4 true (rev B); Opener 42 2 2 x (rev A)], b) = ([], [IEmph Strong (rev ((rev B ++ chars 42 4) ++ rev A))] ++ b)) by (destruct x, y; reflexivity).
    rewrite H3. rewrite !rev_app_distr, !rev_involutive. reflexivity.
  - assert (H2 : fold_left emph_step [TRun 42 2 true true] ([Opener 42 1 1 x (rev A)], b) = ([Opener 42 2 2 true []; Opener 42 1 1 x (rev A)], b)) by (destruct x; reflexivity).
    rewrite H2, fold_items_open, app_nil_r. clear H2.
    assert (H3 : fold_left emph_step [TRun 42 1 y true] ([Opener 42 2 2 true (rev B); Opener 42 1 1 x (rev A)], b) = ([], [IEmph Em (rev ((rev B ++ chars 42 2) ++ rev A))] ++ b)) by (destruct x, y; reflexivity).
    rewrite H3. rewrite !rev_app_distr, !rev_involutive. reflexivity.
  - assert (H2 : fold_left emph_step [TRun 126 4 false false] ([Opener 126 2 2 x (rev A)], b) = ([Opener 126 2 2 x (chars 126 4 ++ rev A)], b)) by (destruct x; reflexivity).
    rewrite H2, fold_items_open. clear H2.
    assert (H3 : fold_left emph_step [TRun 126 2 y true] ([Opener 126 2 2 x (rev B ++ chars 126 4 ++ rev A)], b) = ([], [IEmph Strike (rev (rev B ++ chars 126 4 ++ rev A))] ++ b)) by (destruct x, y; reflexivity).
    rewrite H3. rewrite !rev_app_distr, !rev_involutive, <- app_assoc. reflexivity.
Qed.
Lemma left_word p f : word up f = true -> left_flanking up p f = true.
Proof. intros H. apply word_class in H as [W P]. apply left_free; [exact W|intros _; exact P]. Qed.
Lemma right_word p f : word up p = true -> right_flanking up p f = true.
Proof. intros H. apply word_class in H as [W P]. apply right_free; [exact W|intros _; exact P]. Qed.
Lemma hd_app (t r : str) : t <> [] -> hd NL (t ++ r) = hd NL t.
Proof. destruct t; [contradiction|reflexivity]. Qed.
Lemma reads_adjacent e p a b rest : word_text a -> word_text b -> hd NL rest <> sign_char e ->
  reads up false p ((sign e ++ a ++ sign e) ++ (sign e ++ b ++ sign e)) rest [IEmph e (map IChar (a ++ (sign e ++ sign e) ++ b))].
Proof.
  intros (HA & NA & FA & LA & _) (HB & NB & FB & LB & _) HR.
  replace ((sign e ++ a ++ sign e) ++ (sign e ++ b ++ sign e)) with (sign e ++ a ++ (sign e ++ sign e) ++ b ++ sign e) by (rewrite <- !app_assoc; reflexivity).
  exists ([norm (run_token up (sign_char e) (sign_len e) p (hd NL a))] ++ map TIn (map IChar a) ++
          [norm (run_token up (sign_char e) (2 * sign_len e) (last a NL) (hd NL b))] ++ map TIn (map IChar b) ++
          [norm (run_token up (sign_char e) (sign_len e) (last b NL) (hd NL rest))]).
  split.
  - apply adds_app.
    { rewrite <- !app_assoc. rewrite <- (hd_app a (sign e ++ sign e ++ b ++ sign e ++ rest) NA). apply adds_sign. now apply harmless_hd. }
    apply adds_app; [apply adds_text; [now apply harmless_text|discriminate]|].
    rewrite (last_nonempty a _ NL NA).
    apply adds_app.
    { rewrite <- !app_assoc. rewrite <- (hd_app b (sign e ++ rest) NB). apply adds_signs. now apply harmless_hd. }
    apply adds_app; [apply adds_text; [now apply harmless_text|discriminate]|].
    rewrite (last_nonempty b _ NL NB). now apply adds_sign.
  - intros b0. rewrite !token_sign. rewrite token_signs by (apply left_word || apply right_word; assumption). rewrite (left_word _ _ FA), (right_word _ _ LB).
    rewrite <- fold_norm. rewrite !map_app. cbn [map].
    assert (HN : forall t, norm (norm t) = norm t) by (intros [|? [|[|?]] [] []| |]; reflexivity). rewrite !HN.
    pose proof (emph_adjacent e (map IChar a) (map IChar b) (right_flanking up p (hd NL a)) (left_flanking up (last b NL) (hd NL rest)) b0) as X.
    rewrite <- fold_norm in X. rewrite !map_app in X. cbn [map] in X. exact X.
Qed.
End Facts.
