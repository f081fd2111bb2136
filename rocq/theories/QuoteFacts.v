(** Proofs about node_decision_item.py's line loop. *)
From Coq Require Import List NArith ZArith Bool String Lia.
From Verif Require Import PyStr Values Schema Parse Date Markdown Basics StrFacts SpecQuote.
Import ListNotations.
Open Scope string_scope.
Open Scope list_scope.
Open Scope nat_scope.

Lemma blank_rstrip l : blank l <-> rstrip l = [].
Proof.
  unfold rstrip. rewrite rstrip_by_nil, forallb_forall. unfold blank. tauto.
Qed.
Lemma trimmed_rstrip t l : trimmed t l <-> rstrip l = t.
Proof.
  split.
  - intros (w & -> & HW & HL). unfold rstrip. apply rstrip_by_unique.
    + destruct t as [|c t] using rev_ind; [exact I|]. rewrite rev_app_distr. cbn. eapply HL. reflexivity.
    + now apply forallb_forall.
  - intros <-. destruct (rstrip_by_app is_ws l) as (w & H1 & H2). exists w. split; [exact H1|]. split; [exact (proj1 (forallb_forall _ _) H2)|].
    intros a c H. pose proof (rstrip_by_last is_ws l) as HL. unfold rstrip in H. rewrite H, rev_app_distr in HL. exact HL.
Qed.
Lemma stretches_quote ls es : stretches ls es -> forall i b,
  quote_lines i b ls = match es with
                       | [] => []
                       | (k, t) :: r => (if Nat.leb 2 i && Nat.ltb 0 k && negb b then [s ">"] else []) ++ (s "> " ++ t) :: quoted_from (S i) r
                       end.
Proof.
  induction 1 as [|bs l t rest es HB HN HT HS IH]; intros i b; [reflexivity|].
  apply trimmed_rstrip in HT.
  assert (HL : forall i b, quote_lines i b (l :: rest) = (s "> " ++ t) :: quoted_from (S i) es).
  { intros i' b'. cbn [quote_lines]. rewrite HT. destruct t as [|c t]; [exfalso; apply HN; now apply blank_rstrip|].
    f_equal. rewrite IH. destruct es as [|[k u] es]; [reflexivity|]. cbn [quoted_from negb]. now rewrite andb_true_r. }
  destruct bs as [|b0 bs]; cbn [app List.length].
  { rewrite HL. now rewrite andb_false_r. }
  assert (HE : forall i b, Nat.leb i 1 || b = true -> forall bs, Forall blank bs ->
             quote_lines i b (bs ++ l :: rest) = (s "> " ++ t) :: quoted_from (S i) es).
  { intros i' b' HI. induction 1 as [|b1 bs1 H1 _ IH1]; [apply HL|]. cbn [app quote_lines].
    apply blank_rstrip in H1. rewrite H1, HI. exact IH1. }
  destruct (Nat.leb i 1 || b) eqn:EI.
  - change (b0 :: bs ++ l :: rest) with ((b0 :: bs) ++ l :: rest). rewrite (HE i b EI (b0 :: bs) HB).
    destruct (Nat.leb_spec 2 i); [|reflexivity]. destruct (Nat.leb_spec i 1); [lia|]. cbn in EI. subst b.
    now rewrite andb_false_r.
  - cbn [quote_lines]. inversion HB; subst. match goal with K : blank b0 |- _ => apply blank_rstrip in K; rewrite K end.
    rewrite EI. apply orb_false_iff in EI as [E1 ->]. apply Nat.leb_gt in E1.
    rewrite (HE i true); [|apply orb_true_r|assumption].
    destruct (Nat.leb_spec 2 i); [reflexivity|lia].
Qed.
Lemma stretches_exists ls : (ls = [] \/ ~ blank (last ls [])) -> exists es, stretches ls es.
Proof.
  induction ls as [|l ls IH]; [exists []; constructor|]. intros [H|H]; [discriminate|].
  destruct ls as [|l' ls].
  - exists [(0, rstrip l)]. apply (st_cons [] l (rstrip l) [] []); [constructor|exact H|now apply trimmed_rstrip|constructor].
  - destruct IH as [es HE]; [right; exact H|].
    destruct (rstrip l) as [|c r] eqn:ER.
    + apply blank_rstrip in ER. inversion HE; subst. eexists. apply (st_cons (l :: bs)); eauto.
    + exists ((0, rstrip l) :: es). apply (st_cons [] l); [constructor| |now apply trimmed_rstrip|exact HE].
      intros HB. apply blank_rstrip in HB. congruence.
Qed.
Lemma stretches_fun ls es es' : stretches ls es -> stretches ls es' -> es = es'.
Proof.
  intros H. revert es'. induction H as [|bs l t rest es HB HN HT HS IH]; intros es' H'.
  - inversion H' as [|bs ? ? ? ? ? ? ? ? K]; [reflexivity|]. destruct bs; discriminate.
  - inversion H' as [K|bs' l' t' rest' es'' HB' HN' HT' HS' K]; subst.
    + destruct bs; discriminate.
    + assert (bs' = bs /\ l' :: rest' = l :: rest) as [-> HX].
      { clear - HB HB' HN HN' K. revert bs' HB' K. induction HB as [|b bs Hb HB IH]; intros bs' HB' K; destruct HB' as [|b' bs' Hb' HB'].
        - auto.
        - cbn [app] in K. exfalso. apply HN. now replace l with b' by congruence.
        - cbn [app] in K. exfalso. apply HN'. now replace l' with b by congruence.
        - cbn [app] in K. destruct (IH bs' HB') as [-> E]; [congruence|]. split; [|exact E]. f_equal. congruence. }
      assert (l' = l) by congruence. assert (rest' = rest) by congruence. subst.
      apply trimmed_rstrip in HT, HT'. rewrite (IH es'' HS'). congruence.
Qed.
(** The last line of text without trailing white space. *)
Lemma last_line_rstrip x : rstrip x <> [] -> ~ blank (last (split_on NL (rstrip x)) []).
Proof.
  intros H. pose proof (rstrip_by_last is_ws x) as HL. fold (rstrip x) in HL. set (y := rstrip x) in *. clearbody y.
  destruct y as [|c y] using rev_ind; [congruence|]. clear IHy. rewrite rev_app_distr in HL. cbn in HL.
  assert (HC : c <> NL) by (intros ->; discriminate).
  assert (HE : exists l, last (split_on NL (y ++ [c])) [] = l ++ [c]).
  { clear H HL x. induction y as [|a y IH].
    - exists []. cbn. destruct (N.eqb_spec c NL); [congruence|reflexivity].
    - cbn [app split_on]. destruct IH as [l IH]. pose proof (split_on_nonnil NL (y ++ [c])) as HN.
      destruct (N.eqb_spec a NL).
      + exists l. destruct (split_on NL (y ++ [c])); [congruence|exact IH].
      + destruct (split_on NL (y ++ [c])) as [|l0 ls]; [congruence|]. destruct ls.
        * exists (a :: l). cbn in *. now rewrite IH.
        * exists l. exact IH. }
  destruct HE as [l ->]. intros HB. rewrite (HB c) in HL; [discriminate|]. apply in_or_app. right. now left.
Qed.
