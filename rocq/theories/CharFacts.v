(** String operations on strings related character by character (C74). *)
From Coq Require Import List NArith ZArith Bool String Lia.
From Verif Require Import PyStr Values Schema Parse Date Markdown Basics SpecChars.
Import ListNotations.
Open Scope string_scope.
Open Scope list_scope.

Lemma lb_ws c : is_lb c = true -> is_ws c = true.
Proof.
  unfold is_lb, is_ws. intros H. repeat (apply orb_prop in H as [H|H]); try (apply andb_prop in H as [H1 H2]; apply N.leb_le in H1, H2); try apply N.eqb_eq in H;
  repeat rewrite orb_true_iff; repeat rewrite andb_true_iff; repeat rewrite N.leb_le; repeat rewrite N.eqb_eq; lia.
Qed.
Section Facts.
  Variable R : N -> N -> Prop.
  Hypothesis HR : respects R.
  Notation like := (like R).
  Lemma ascii_self c : (c < 128)%N -> R c c. Proof. exact (proj1 HR c). Qed.
  Lemma lit_self x : forallb is_ascii x = true -> like x x.
  Proof. induction x as [|c x IH]; [constructor|]. cbn [forallb]. intros H. apply andb_prop in H as [H1 H2]. constructor; [apply ascii_self; now apply N.ltb_lt|exact (IH H2)]. Qed.
  Lemma same_eqb c d k : (k < 128)%N -> R c d -> N.eqb c k = N.eqb d k.
  Proof.
    intros HK H. destruct (proj2 HR c d H) as [->|[[H1 _] [H2 _]]]; [reflexivity|].
    rewrite (proj2 (N.eqb_neq c k)), (proj2 (N.eqb_neq d k)); [reflexivity|lia|lia].
  Qed.
  Lemma same_ws c d : R c d -> is_ws c = is_ws d.
  Proof. intros H. destruct (proj2 HR c d H) as [->|[[_ H1] [_ H2]]]; [reflexivity|congruence]. Qed.
  Lemma same_lb c d : R c d -> is_lb c = is_lb d.
  Proof.
    intros H. destruct (proj2 HR c d H) as [->|[[_ H1] [_ H2]]]; [reflexivity|].
    destruct (is_lb c) eqn:A; [apply lb_ws in A; congruence|]. destruct (is_lb d) eqn:B; [apply lb_ws in B; congruence|]. reflexivity.
  Qed.
  Lemma like_app a b x y : like a b -> like x y -> like (a ++ x) (b ++ y). Proof. apply Forall2_app. Qed.
  Lemma like_length a b : like a b -> List.length a = List.length b. Proof. induction 1; cbn; congruence. Qed.
  Lemma like_lstrip p x y : (forall c d, R c d -> p c = p d) -> like x y -> like (lstrip_by p x) (lstrip_by p y).
  Proof. intros HP. induction 1 as [|c d x y H H2 IH]; [constructor|]. cbn [lstrip_by]. rewrite (HP c d H). destruct (p d); [exact IH|now constructor]. Qed.
  Lemma like_rstrip p x y : (forall c d, R c d -> p c = p d) -> like x y -> like (rstrip_by p x) (rstrip_by p y).
  Proof.
    intros HP. induction 1 as [|c d x y H H2 IH]; [constructor|]. cbn [rstrip_by]. rewrite (HP c d H).
    destruct IH as [|c' d' x' y' H' H2']; [destruct (p d); repeat constructor; exact H|]. constructor; [exact H|]. now constructor.
  Qed.
  Lemma like_nonblank x y : like x y -> nonblank x = nonblank y.
  Proof.
    intros H. unfold nonblank, strip. pose proof (like_lstrip is_ws _ _ same_ws (like_rstrip is_ws _ _ same_ws H)) as HL. now destruct HL.
  Qed.
  Lemma like_split c x y : (c < 128)%N -> like x y -> Forall2 like (split_on c x) (split_on c y).
  Proof.
    intros HC. induction 1 as [|a b x y H H2 IH]; [repeat constructor|]. cbn [split_on]. rewrite (same_eqb a b c HC H).
    destruct (N.eqb b c); [constructor; [constructor|exact IH]|]. destruct IH as [|l l' ls ls' HL HLS]; [repeat constructor; exact H|].
    constructor; [now constructor|exact HLS].
  Qed.
  Lemma like_join sep sep' l l' : like sep sep' -> Forall2 like l l' -> like (join sep l) (join sep' l').
  Proof.
    intros HS. induction 1 as [|x y l l' H H2 IH]; [constructor|]. cbn [join]. destruct H2 as [|x2 y2 l l' Hx H2]; [exact H|].
    apply like_app; [exact H|]. apply like_app; [exact HS|exact IH].
  Qed.
  Lemma like_prefixb p x y : forallb is_ascii p = true -> like x y -> prefixb p x = prefixb p y.
  Proof.
    intros HP H. revert x y H. induction p as [|a p IH]; [now destruct 1|]. cbn [forallb] in HP. apply andb_prop in HP as [H1 H2]. apply N.ltb_lt in H1.
    intros x y H. destruct H as [|c d x y H H3]; [reflexivity|]. cbn [prefixb]. rewrite (N.eqb_sym a c), (N.eqb_sym a d), (same_eqb c d a H1 H). f_equal. apply IH; assumption.
  Qed.
  Lemma like_replace_go old new x y : forallb is_ascii old = true -> forallb is_ascii new = true -> like x y -> forall k, like (replace_go old new x k) (replace_go old new y k).
  Proof.
    intros HO HN. induction 1 as [|c d x y H H2 IH]; intros k; [constructor|]. cbn [replace_go]. destruct k as [|k]; [|apply IH].
    assert (HX : like (c :: x) (d :: y)) by now constructor. rewrite (like_prefixb old _ _ HO HX). destruct (prefixb old (d :: y)).
    - apply like_app; [now apply lit_self|apply IH].
    - constructor; [exact H|apply IH].
  Qed.
  Lemma like_replace old new x y : forallb is_ascii old = true -> forallb is_ascii new = true -> like x y -> like (replace old new x) (replace old new y).
  Proof. intros HO HN H. exact (like_replace_go old new x y HO HN H 0). Qed.
  Lemma like_strip_double x y : like x y -> like (strip_double_empty_line x) (strip_double_empty_line y).
  Proof. intros H. unfold strip_double_empty_line, collapse1. repeat (apply like_replace; [reflexivity|reflexivity|]). exact H. Qed.
  Lemma like_splitlines x y : like x y -> Forall2 like (splitlines_keep x) (splitlines_keep y).
  Proof.
    induction 1 as [|c d x y H H2 IH]; [constructor|]. cbn [splitlines_keep].
    assert (HB : (c =? CR)%N && match x with e :: _ => (e =? NL)%N | [] => false end = (d =? CR)%N && match y with e :: _ => (e =? NL)%N | [] => false end).
    { rewrite (same_eqb c d CR eq_refl H). f_equal. destruct H2 as [|e e' x y He H2]; [reflexivity|]. exact (same_eqb e e' NL eq_refl He). }
    rewrite HB, (same_lb c d H). clear HB. match goal with |- context [if ?b then [d] :: _ else _] => destruct b end; [constructor; [now repeat constructor|exact IH]|].
    destruct IH as [|l l' ls ls' HL HLS]; [repeat constructor; exact H|]. constructor; [now constructor|exact HLS].
  Qed.
  Lemma like_concat l l' : Forall2 like l l' -> like (List.concat l) (List.concat l').
  Proof. induction 1 as [|x y l l' H H2 IH]; [constructor|]. cbn [List.concat]. now apply like_app. Qed.
  Lemma like_map (f g : str -> str) l l' : (forall x y, like x y -> like (f x) (g y)) -> Forall2 like l l' -> Forall2 like (map f l) (map g l').
  Proof. intros HF. induction 1; constructor; auto. Qed.
  Lemma like_indent p x y : forallb is_ascii p = true -> like x y -> like (indent_all p x) (indent_all p y).
  Proof.
    intros HP H. unfold indent_all. apply like_concat. apply like_map; [|now apply like_splitlines]. intros a b HA. apply like_app; [now apply lit_self|exact HA].
  Qed.
  Lemma like_repeat x y n : like x y -> like (repeat_nat x n) (repeat_nat y n).
  Proof. intros H. induction n as [|n IH]; [constructor|]. cbn [repeat_nat]. now apply like_app. Qed.
  Lemma str_eqb_like x y z : forallb is_ascii z = true -> like x y -> str_eqb x z = str_eqb y z.
  Proof.
    intros HZ H. revert z HZ. induction H as [|c d x y H H2 IH]; intros z HZ; [reflexivity|]. destruct z as [|e z]; [reflexivity|].
    cbn [forallb] in HZ. apply andb_prop in HZ as [H1 H3]. apply N.ltb_lt in H1. cbn [str_eqb]. rewrite (same_eqb c d e H1 H), (IH z H3). reflexivity.
  Qed.
  Lemma has_nl x y : like x y -> existsb (N.eqb NL) x = existsb (N.eqb NL) y.
  Proof.
    induction 1 as [|c d x y H H2 IH]; [reflexivity|]. cbn [existsb]. rewrite IH, (N.eqb_sym NL c), (N.eqb_sym NL d), (same_eqb c d NL eq_refl H). reflexivity.
  Qed.
  Lemma like_cell_line x y : like x y -> like (cell_line x) (cell_line y).
  Proof.
    intros H. unfold cell_line. assert (HL : like (lstrip_sp x) (lstrip_sp y)).
    { apply like_lstrip; [|exact H]. intros c d HC. rewrite (N.eqb_sym SP c), (N.eqb_sym SP d). exact (same_eqb c d SP eq_refl HC). }
    rewrite (like_length _ _ H), (like_length _ _ HL). destruct (Nat.ltb 0 _); [|exact H]. apply like_app; [|exact HL]. apply like_repeat. now apply lit_self.
  Qed.
  Lemma like_cell_text x y : like x y -> like (cell_text x) (cell_text y).
  Proof.
    intros H. unfold cell_text. apply like_join; [now apply lit_self|]. apply like_map; [exact like_cell_line|]. apply like_split; [reflexivity|]. now apply like_replace.
  Qed.
  Lemma like_quote_lines l l' : Forall2 like l l' -> forall n b, Forall2 like (quote_lines n b l) (quote_lines n b l').
  Proof.
    induction 1 as [|x y l l' H H2 IH]; intros n b; [constructor|]. cbn [quote_lines].
    pose proof (like_rstrip is_ws _ _ same_ws H) as HS. unfold rstrip. destruct HS as [|c d x' y' Hc HS].
    - destruct (Nat.leb n 1 || b)%bool; [apply IH|]. constructor; [now apply lit_self|apply IH].
    - constructor; [|apply IH]. apply like_app; [now apply lit_self|]. now constructor.
  Qed.
  Lemma uint_ascii u : forallb is_ascii (s (DecimalString.NilEmpty.string_of_uint u)) = true.
  Proof. induction u; [reflexivity|..]; exact IHu. Qed.
  Lemma dec_ascii z : forallb is_ascii (dec z) = true.
  Proof. unfold dec. destruct (Z.to_int z) as [u|u]; [exact (uint_ascii u)|]. exact (uint_ascii u). Qed.
  Lemma like_dec z : like (dec z) (dec z). Proof. apply lit_self, dec_ascii. Qed.
  Lemma like_rev x y : like x y -> like (rev x) (rev y). Proof. induction 1; [constructor|]. cbn [rev]. apply like_app; [assumption|repeat constructor; assumption]. Qed.
  Lemma upper_self E p : forallb is_ascii p = true -> like (py_upper E p) (py_upper E p).
  Proof.
    intros H. unfold py_upper. rewrite H. apply lit_self. induction p as [|c p IH]; [reflexivity|]. cbn [forallb map] in *. apply andb_prop in H as [H1 H2]. rewrite (IH H2), andb_true_r.
    unfold is_ascii, upper_ascii in *. apply N.ltb_lt in H1. apply N.ltb_lt. destruct (_ && _); lia.
  Qed.
End Facts.
