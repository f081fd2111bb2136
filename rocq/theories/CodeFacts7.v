(** Running the source text (RepoCode.v): dates and media. *)
From Coq Require Import List NArith ZArith Bool String Lia.
From Verif Require Import PyStr Values Schema Parse Date Markdown Basics StrFacts PySyntax PySem RepoCode CodeFacts CodeFacts2 CodeFacts3 CodeFacts4 CodeFacts5 CodeFacts6.
Import ListNotations.
Open Scope string_scope.
Open Scope list_scope.


Section Media.
Variable E : runtime.
Notation class_ok := (class_ok E).
Notation CL k := (call E repo node_cls mark_cls k).
Notation GA := (get_attr repo node_cls mark_cls).
Lemma whole_zero b e : whole_seconds b 0 e = 0%Z.
Proof.
  unfold whole_seconds. rewrite Z.mul_0_l. destruct (0 <=? e)%Z eqn:L; [now destruct b|]. rewrite Z.leb_gt in L.
  assert (HD : (0 < 2 ^ (- e))%Z) by (apply Z.pow_pos_nonneg; lia). rewrite Z.mod_0_l, Z.div_0_l by lia. change (round53 (0 * 1000000)) with 0%Z.
  unfold rne. rewrite Z.mod_0_l, Z.div_0_l by lia. change (2 * 0)%Z with 0%Z. destruct (0 <? 2 ^ (- e))%Z eqn:D; [now destruct b|]. rewrite Z.ltb_ge in D. lia.
Qed.

Lemma rne_nonneg a b : (0 <= a)%Z -> (0 < b)%Z -> (0 <= rne a b)%Z.
Proof.
  intros HA HB. unfold rne. pose proof (Z.div_pos a b HA HB).
  destruct (2 * (a mod b) <? b)%Z; [lia|]. destruct (b <? 2 * (a mod b))%Z; [lia|]. destruct (Z.even (a / b)); lia.
Qed.
Lemma div1000_nonneg n : (0 < n)%Z -> (0 <= fst (div1000 n))%Z.
Proof.
  intros H. unfold div1000. set (e := (_ - 52)%Z). destruct (0 <=? e)%Z eqn:L; cbn [fst].
  - apply Z.leb_le in L. apply rne_nonneg; [lia|]. pose proof (Z.pow_pos_nonneg 2 e ltac:(lia) L). lia.
  - apply Z.leb_gt in L. apply rne_nonneg; [|lia]. pose proof (Z.pow_pos_nonneg 2 (- e) ltac:(lia) ltac:(lia)). nia.
Qed.
(** The float that [n / 1000] makes, taken apart again by fromtimestamp. *)
Lemma float_seconds n : match float_1000 n with
  | FFin m e => (if (n =? 0)%Z then date_of_seconds 0 else let '(m, e) := div1000 (Z.abs n) in date_of_seconds (whole_seconds (n <? 0)%Z m e))
                = date_of_seconds (whole_seconds (m <? 0)%Z (Z.abs m) e)
  | _ => False
  end.
Proof.
  unfold float_1000. destruct (n =? 0)%Z eqn:Z0; [reflexivity|]. apply Z.eqb_neq in Z0.
  pose proof (div1000_nonneg (Z.abs n) ltac:(lia)) as HM. destruct (div1000 (Z.abs n)) as [m e]. cbn [fst] in HM.
  destruct (Z.eq_dec m 0) as [->|HN].
  - replace (if (n <? 0)%Z then (- 0)%Z else 0%Z) with 0%Z by now destruct (n <? 0)%Z. change (Z.abs 0) with 0%Z. now rewrite !whole_zero.
  - destruct (n <? 0)%Z eqn:L.
    + replace (- m <? 0)%Z with true by (symmetry; apply Z.ltb_lt; lia). replace (Z.abs (- m)) with m by lia. reflexivity.
    + replace (m <? 0)%Z with false by (symmetry; apply Z.ltb_ge; lia). replace (Z.abs m) with m by lia. reflexivity.
Qed.
Lemma time_date t : GA (PTime t) "date" = Val (PMeth (PTime t) "date").
Proof. with_strategy transparent [get_attr] reflexivity. Qed.
Lemma class_date ty ve tx a co ma : class_ok (Node Kdate ty ve tx a co ma).
Proof.
  class_ E m_NodeDate_to_markdown k HF HK HAC ign. take HAC a "timestamp" t HT. unfold date_to_markdown.
  match goal with |- context [builtin E ?c "builtins.int" [PV t] []] =>
    assert (builtin E c "builtins.int" [PV t] [] = of_res (do z <- py_int (rt_digit E) t; Ok (PV (VInt z)))) as -> by reflexivity end.
  destruct (py_int (rt_digit E) t) as [n|e]; cbn [rmap of_res obind withv rbind]; [|reflexivity].
  assert (arith Div (PV (VInt n)) (PV (VInt 1000)) = Val (PV (VFloat (float_1000 n)))) as -> by reflexivity. py.
  pose proof (float_seconds n) as HS. destruct (float_1000 n) as [m e| |]; try contradiction.
  match goal with |- context [builtin E ?c "datetime.datetime.fromtimestamp" ?x ?y] =>
    assert (builtin E c "datetime.datetime.fromtimestamp" x y =
      of_res (do _ <- date_of_seconds (whole_seconds (m <? 0)%Z (Z.abs m) e); Ok (PTime (whole_seconds (m <? 0)%Z (Z.abs m) e)))) as -> by reflexivity end.
  rewrite HS. clear HS. set (sec := whole_seconds _ _ _).
  destruct (date_of_seconds sec) as [x|e'] eqn:HD; cbn [rmap of_res obind withv rbind]; [|reflexivity].
  rewrite time_date. py. rewrite HD. py. reflexivity.
Qed.
End Media.
