(** The inline reader (SpecInline) on the pieces of a paragraph: text, code, links, emphasis. *)
From Coq Require Import List Arith NArith Bool String Lia.
From Verif Require Import PyStr StrFacts SpecReader SpecInline.
Import ListNotations.
Open Scope string_scope.
Open Scope list_scope.
Open Scope nat_scope.

(** ---------------------------------------------------------------- strings *)
Lemma last_snoc {A} (l : list A) (x p : A) : last (l ++ [x]) p = x.
Proof. induction l as [|a l IH]; [reflexivity|]. cbn. destruct (l ++ [x]) eqn:X; [destruct l; discriminate|exact IH]. Qed.
Lemma last_cons {A} (l : list A) (c p : A) : last (c :: l) p = last l c.
Proof. revert c p; induction l as [|a l IH]; intros c p; [reflexivity|]. change (last (c :: a :: l) p) with (last (a :: l) p). rewrite !IH. reflexivity. Qed.
Lemma last_app {A} (a b : list A) (p : A) : last (a ++ b) p = last b (last a p).
Proof. revert p; induction a as [|x a IH]; intros p; [reflexivity|]. change ((x :: a) ++ b) with (x :: (a ++ b)). rewrite !last_cons. apply IH. Qed.
Lemma leading_repeat c n rest : hd_error rest <> Some c -> leading c (repeat c n ++ rest) = n.
Proof.
  intros H. induction n as [|n IH]; cbn.
  - destruct rest as [|d r]; [reflexivity|]. cbn. destruct (N.eqb_spec d c); [subst; now contradiction H|reflexivity].
  - rewrite N.eqb_refl. now rewrite IH.
Qed.
Lemma skipn_exact {A} (a b : list A) : skipn (List.length a) (a ++ b) = b.
Proof. induction a as [|x a IH]; [reflexivity|exact IH]. Qed.
Lemma firstn_exact {A} (a b : list A) : firstn (List.length a) (a ++ b) = a.
Proof. induction a as [|x a IH]; [reflexivity|]. cbn. now rewrite IH. Qed.

Lemma delimiter_is c : delimiter c = true -> c = 42%N \/ c = 95%N \/ c = 126%N.
Proof.
  unfold delimiter, is_ch. change (s "*") with [42%N]. change (s "_") with [95%N]. change (s "~") with [126%N]. cbn iota.
  destruct (N.eqb_spec c 42); [tauto|]. destruct (N.eqb_spec c 95); [tauto|]. destruct (N.eqb_spec c 126); [tauto|discriminate].
Qed.
Section Facts.
Variable up : N -> bool.
Notation scan := (scan up).
(** ---------------------------------------------------------------- the scan *)
Lemma scan_skip a b st : forall p, scan (List.length a) p (a ++ b) st = scan 0 (last a p) b st.
Proof.
  induction a as [|c a IH]; intros p.
  - cbn [List.length app last]. reflexivity.
  - rewrite last_cons. rewrite <- IH. reflexivity.
Qed.
Lemma scan_skip' k a b st p : k = List.length a -> scan k p (a ++ b) st = scan 0 (last a p) b st.
Proof. intros ->. apply scan_skip. Qed.

(** What stays the same however the brackets are treated: a bracket that opens nothing and a delimiter that does nothing are characters. *)
Definition norm (t : tok) : tok :=
  match t with TBracket _ => TIn (IChar 91) | TBang => TIn (IChar 33) | TRun c 1 false false => TIn (IChar c) | _ => t end.
Definition no_bracket (t : tok) : Prop := match t with TBracket _ | TBang => False | _ => True end.
Definition no_bang (st : list tok) : Prop := hd_error st <> Some TBang.
Lemma emph_norm st t : emph_step st (norm t) = emph_step st t.
Proof.
  destruct t as [i|c n op cl|live|]; try reflexivity.
  destruct n as [|[|n]]; try reflexivity. destruct op, cl; reflexivity.
Qed.
Lemma fold_norm l : forall st, fold_left emph_step (map norm l) st = fold_left emph_step l st.
Proof. induction l as [|t l IH]; intros st; [reflexivity|]. cbn. rewrite IH. now rewrite emph_norm. Qed.
Lemma norm_deaden t : norm (deaden t) = norm t.
Proof. destruct t; reflexivity. Qed.
Lemma map_norm_deaden l : map norm (map deaden l) = map norm l.
Proof. rewrite map_map. apply map_ext. exact norm_deaden. Qed.
Lemma bracket_split st inner live before : bracket st = Some (inner, live, before) -> st = inner ++ TBracket live :: before.
Proof.
  revert inner; induction st as [|t st IH]; intros inner H; [discriminate|].
  cbn in H. destruct t as [i|c n op cl|l|].
  - destruct (bracket st) as [[[x y] z]|]; [|discriminate]. cbn in H. injection H as <- <- <-. now rewrite (IH x eq_refl).
  - destruct (bracket st) as [[[x y] z]|]; [|discriminate]. cbn in H. injection H as <- <- <-. now rewrite (IH x eq_refl).
  - injection H as <- <- <-. reflexivity.
  - destruct (bracket st) as [[[x y] z]|]; [|discriminate]. cbn in H. injection H as <- <- <-. now rewrite (IH x eq_refl).
Qed.
Lemma bracket_join w live before : Forall no_bracket w -> bracket (w ++ TBracket live :: before) = Some (w, live, before).
Proof. induction 1 as [|t w Ht Hw IH]; [reflexivity|]. cbn. rewrite IH. destruct t; cbn in Ht; [reflexivity|reflexivity|contradiction|contradiction]. Qed.

(** ---------------------------------------------------------------- delimiter runs *)
Lemma scan_run c n rest p st : delimiter c = true -> hd_error rest <> Some c ->
  scan 0 p (repeat c (S n) ++ rest) st = scan 0 c rest (run_token up c (S n) p (hd NL rest) :: st).
Proof.
  intros HC HN.
  assert (HL : leading c (repeat c (S n) ++ rest) = S n) by (now apply leading_repeat).
  assert (HS : skipn (S n) (repeat c (S n) ++ rest) = rest).
  { rewrite <- (repeat_length c (S n)) at 1. apply skipn_exact. }
  assert (HK : scan n c (repeat c n ++ rest) (run_token up c (S n) p (hd NL rest) :: st) = scan 0 c rest (run_token up c (S n) p (hd NL rest) :: st)).
  { rewrite (scan_skip' n (repeat c n)); [|now rewrite repeat_length]. f_equal.
    clear. induction n as [|n IH]; [reflexivity|]. cbn [repeat]. rewrite last_cons. exact IH. }
  rewrite <- HK. clear HK.
  change (repeat c (S n) ++ rest) with (c :: (repeat c n ++ rest)) in *.
  cbn [SpecInline.scan].
  rewrite HC. cbv zeta. rewrite HL, HS. replace (S n - 1) with n by lia.
  destruct (delimiter_is c HC) as [->|[->| ->]]; reflexivity.
Qed.
End Facts.
