(** Camel case names of words. *)
From Coq Require Import List NArith ZArith Bool String Arith Lia.
From Verif Require Import PyStr Values Basics StrFacts GenCode SpecApi Analyze SpecAnalyze GenNodes SpecGenNodes GenNodesFacts GenNodesFacts4.
Import ListNotations.
Open Scope string_scope.
Open Scope list_scope.

Definition tail_ok (t : str) : Prop := t <> [] /\ forall a, In a t -> is_low a = true \/ is_digit a = true.
Lemma word_cons w : word w -> exists c r, w = c :: r /\ is_low c = true /\ tail_ok r.
Proof. intros (c & r & -> & HC & HR & HA). exists c, r. split; [reflexivity|]. split; [assumption|]. now split. Qed.
Lemma word_tail w : word w -> tail_ok w.
Proof. intros (c & r & -> & HC & HR & HA). split; [discriminate|]. intros a [<-|HI]; auto. Qed.
Lemma low_upper c : is_low c = true -> is_up (upper_ascii c) = true /\ is_low (upper_ascii c) = false /\ is_digit (upper_ascii c) = false /\ (upper_ascii c < 128)%N /\ ascii_lower (upper_ascii c) = c.
Proof.
  unfold is_low. intros H. apply andb_true_iff in H as [H1 H2]. apply N.leb_le in H1, H2.
  assert (HE : upper_ascii c = (c - 32)%N).
  { unfold upper_ascii. destruct (N.leb_spec 97 c), (N.leb_spec c 122); cbn [andb]; try lia; reflexivity. }
  rewrite HE. unfold ascii_lower, is_up, is_low, is_digit.
  destruct (N.leb_spec 65 (c - 32)), (N.leb_spec (c - 32) 90), (N.leb_spec 97 (c - 32)), (N.leb_spec (c - 32) 122), (N.leb_spec 48 (c - 32)), (N.leb_spec (c - 32) 57);
    cbn [andb]; repeat split; lia.
Qed.
Lemma tail_char a : is_low a = true \/ is_digit a = true ->
  is_up a = false /\ a <> UNDER /\ N.eqb a NL = false /\ (a < 128)%N /\ ascii_lower a = a.
Proof.
  unfold is_low, is_digit, is_up, ascii_lower, UNDER, NL. intros [H|H]; apply andb_true_iff in H as [H1 H2]; apply N.leb_le in H1, H2.
  - assert (K : (N.leb 65 a && N.leb a 90)%bool = false) by (destruct (N.leb_spec a 90); [lia|]; apply andb_false_r).
    unfold is_up. rewrite K. repeat split; try lia. apply N.eqb_neq. lia.
  - assert (K : (N.leb 65 a && N.leb a 90)%bool = false) by (destruct (N.leb_spec 65 a); [lia|reflexivity]).
    unfold is_up. rewrite K. repeat split; try lia. apply N.eqb_neq. lia.
Qed.

Lemma split_words_eq run c r : split_words run (c :: r) =
  if run && is_low c then c :: split_words true r
  else match r with
       | u :: ((l :: _) as y) =>
           if negb (N.eqb c NL) && is_up u && is_low l then c :: UNDER :: u :: split_words true y
           else c :: split_words false r
       | _ => c :: split_words false r
       end.
Proof. destruct r; reflexivity. Qed.
Lemma split_camel_eq c r : split_camel (c :: r) =
  match r with
  | u :: y => if (is_low c || is_digit c) && is_up u then c :: UNDER :: u :: split_camel y else c :: split_camel r
  | [] => [c]
  end.
Proof. destruct r; reflexivity. Qed.
(** Between two words: nothing or an underscore. *)
Inductive loose : list str -> str -> Prop :=
| loose_nil : loose [] []
| loose_cons sep c r ws u : sep = [] \/ sep = [UNDER] -> is_low c = true -> tail_ok r -> loose ws u -> loose ((c :: r) :: ws) (sep ++ upper_ascii c :: r ++ u).

Lemma split_words_loose ws : Forall word ws -> forall t run, tail_ok t -> exists u, loose ws u /\ split_words run (t ++ List.concat (map capital ws)) = t ++ u.
Proof.
  induction 1 as [|w ws HW HF IH].
  - intros t run [_ HT]. exists []. split; [constructor|]. cbn [map List.concat]. rewrite !app_nil_r. revert run. induction t as [|a t IHt]; intros run; [reflexivity|].
    assert (HT' : forall b, In b t -> is_low b = true \/ is_digit b = true) by (intros b HB; apply HT; now right).
    rewrite split_words_eq. destruct (run && is_low a); [now rewrite IHt|]. destruct t as [|b t]; [now rewrite IHt|].
    assert (HB : is_up b = false) by (apply tail_char, HT'; now left). destruct t as [|l t]; [now rewrite IHt|]. rewrite HB, andb_false_r. cbn [andb]. now rewrite IHt.
  - destruct (word_cons w HW) as (c & r & -> & HC & HR). destruct (low_upper c HC) as (U1 & U2 & _ & _ & _).
    assert (HP : forall run, exists u, loose ws u /\ split_words run (upper_ascii c :: r ++ List.concat (map capital ws)) = upper_ascii c :: r ++ u).
    { intros run. destruct (IH r false HR) as (u & HL & HU). exists u. split; [assumption|]. rewrite <- HU. clear HU. destruct HR as [HN HR].
      destruct r as [|b r]; [congruence|]. assert (HB : is_up b = false) by (apply tail_char, HR; now left).
      cbn [app]. rewrite split_words_eq. rewrite U2, andb_false_r. destruct (r ++ List.concat (map capital ws)) as [|l y]; [reflexivity|]. rewrite HB, andb_false_r. reflexivity. }
    intros t run [HN HT]. cbn [map List.concat capital]. revert run. induction t as [|a t IHt]; intros run; [congruence|]. destruct t as [|b t].
    + cbn [app]. rewrite split_words_eq. assert (HA : N.eqb a NL = false) by (apply tail_char, HT; now left).
      destruct (run && is_low a) eqn:K.
      * destruct (HP true) as (u & HL & HU). exists ([] ++ upper_ascii c :: r ++ u). split; [constructor; auto|]. now rewrite HU.
      * destruct HR as [HRN HR]. destruct r as [|b r]; [congruence|]. cbn [app]. rewrite HA, U1. cbn [negb andb]. destruct (is_low b) eqn:KB.
        -- destruct (IH (b :: r) true (conj HRN HR)) as (u & HL & HU). exists ([UNDER] ++ upper_ascii c :: (b :: r) ++ u). split; [constructor; auto; now split|].
           cbn [app] in HU |- *. now rewrite HU.
        -- destruct (HP false) as (u & HL & HU). exists ([] ++ upper_ascii c :: (b :: r) ++ u). split; [constructor; auto; now split|]. cbn [app] in HU |- *. now rewrite HU.
    + assert (HB : is_up b = false) by (apply tail_char, HT; right; now left).
      assert (HG : forall run', exists u, loose ((c :: r) :: ws) u /\ split_words run' ((b :: t) ++ (upper_ascii c :: r) ++ List.concat (map capital ws)) = (b :: t) ++ u).
      { intros run'. apply IHt; [discriminate|]. intros x HX. apply HT. now right. }
      change ((a :: b :: t) ++ (upper_ascii c :: r) ++ List.concat (map capital ws)) with (a :: (b :: t) ++ (upper_ascii c :: r) ++ List.concat (map capital ws)).
      destruct (run && is_low a) eqn:K.
      * destruct (HG true) as (u & HL & HU). exists u. split; [assumption|]. rewrite split_words_eq. rewrite K, HU. reflexivity.
      * destruct (HG false) as (u & HL & HU). exists u. split; [assumption|]. etransitivity; [|change ((a :: b :: t) ++ u) with (a :: (b :: t) ++ u); rewrite <- HU; reflexivity].
        clear HU. cbn [app]. rewrite split_words_eq. rewrite K. destruct (t ++ _) as [|l y]; [reflexivity|]. rewrite HB, andb_false_r. reflexivity.
Qed.
Lemma split_camel_loose ws u : loose ws u -> forall t, tail_ok t -> split_camel (t ++ u) = t ++ List.concat (map (fun w => UNDER :: capital w) ws).
Proof.
  induction 1 as [|sep c r ws u HS HC HR HL IH]; intros t [HN HT].
  - cbn [map List.concat]. rewrite !app_nil_r. induction t as [|a t IHt]; [reflexivity|]. rewrite split_camel_eq. destruct t as [|b t]; [reflexivity|].
    assert (HB : is_up b = false) by (apply tail_char, HT; right; now left). rewrite HB, andb_false_r. f_equal. apply IHt; [discriminate|]. intros x HX. apply HT. now right.
  - destruct (low_upper c HC) as (U1 & U2 & U3 & _ & _). cbn [map List.concat capital]. specialize (IH r HR).
    assert (HP : split_camel (upper_ascii c :: r ++ u) = upper_ascii c :: r ++ List.concat (map (fun w => UNDER :: capital w) ws)).
    { rewrite <- IH. rewrite split_camel_eq. destruct (r ++ u) as [|b y]; [reflexivity|]. rewrite U2, U3. reflexivity. }
    induction t as [|a t IHt]; [congruence|]. destruct t as [|b t].
    + cbn [app]. destruct HS as [-> | ->].
      * cbn [app]. rewrite split_camel_eq. assert (HA : (is_low a || is_digit a) = true) by (apply orb_true_iff, HT; now left). rewrite HA, U1. cbn [andb]. now rewrite IH.
      * cbn [app]. rewrite split_camel_eq. change (is_up UNDER) with false. rewrite andb_false_r. rewrite split_camel_eq. change (is_low UNDER || is_digit UNDER) with false. cbn [andb].
        rewrite HP. reflexivity.
    + assert (HB : is_up b = false) by (apply tail_char, HT; right; now left).
      assert (HG : split_camel ((b :: t) ++ sep ++ upper_ascii c :: r ++ u) = (b :: t) ++ UNDER :: (upper_ascii c :: r) ++ List.concat (map (fun w => UNDER :: capital w) ws)).
      { apply IHt; [discriminate|]. intros x HX. apply HT. now right. }
      change ((a :: b :: t) ++ sep ++ upper_ascii c :: r ++ u) with (a :: (b :: t) ++ sep ++ upper_ascii c :: r ++ u).
      etransitivity; [|match goal with |- _ = (a :: b :: t) ++ ?z => change ((a :: b :: t) ++ z) with (a :: (b :: t) ++ z); apply f_equal; exact HG end].
      cbn [app]. rewrite split_camel_eq. rewrite HB, andb_false_r. reflexivity.
Qed.
Lemma lower_tail t : (forall a, In a t -> is_low a = true \/ is_digit a = true) -> map ascii_lower t = t.
Proof. intros H. induction t as [|a t IH]; [reflexivity|]. cbn [map]. rewrite IH by (intros b HB; apply H; now right). f_equal. apply tail_char, H. now left. Qed.
Lemma lower_words ws : Forall word ws -> map ascii_lower (List.concat (map (fun w => UNDER :: capital w) ws)) = List.concat (map (fun w => UNDER :: w) ws).
Proof.
  induction 1 as [|w ws HW HF IH]; [reflexivity|]. destruct (word_cons w HW) as (c & r & -> & HC & HR). cbn [map List.concat capital].
  rewrite map_app, IH. apply f_equal2; [|reflexivity]. cbn [map]. apply f_equal2; [reflexivity|]. apply f_equal2; [apply low_upper, HC|]. apply lower_tail, HR.
Qed.
Lemma join_under w ws : w ++ List.concat (map (fun x => UNDER :: x) ws) = join [UNDER] (w :: ws).
Proof.
  revert w. induction ws as [|x ws IH]; intros w; [cbn; now rewrite app_nil_r|]. rewrite join_cons by discriminate. rewrite <- IH. reflexivity.
Qed.
Lemma camel_ascii ws : Forall word ws -> all_ascii (List.concat (map (fun w => UNDER :: capital w) ws)).
Proof.
  induction 1 as [|w ws HW HF IH]; intros a HA; [destruct HA|]. destruct (word_cons w HW) as (c & r & -> & HC & HR). cbn [map List.concat capital] in HA.
  destruct HA as [<-|[<-|HA]]; [reflexivity|apply low_upper, HC|]. apply in_app_iff in HA. destruct HA as [HA|HA]; [|now apply IH]. now apply tail_char, HR.
Qed.
Lemma snake_of_camel E w ws : ascii_case E -> Forall word (w :: ws) -> camel_to_snake E (camel_case (w :: ws)) = snake_case (w :: ws).
Proof.
  intros (HE & _ & _) HF. inversion HF as [|? ? HW HWS]; subst. unfold camel_to_snake, camel_case. destruct (split_words_loose ws HWS w false (word_tail w HW)) as (u & HL & ->).
  rewrite (split_camel_loose ws u HL w (word_tail w HW)). rewrite HE.
  - rewrite map_app, lower_words by assumption. rewrite lower_tail by apply (word_tail w HW). apply join_under.
  - intros a HA. apply in_app_iff in HA. destruct HA as [HA|HA]; [|exact (camel_ascii ws HWS a HA)]. destruct (word_tail w HW) as [_ HT]. apply (tail_char a (HT a HA)).
Qed.
Lemma word_free w : word w -> ~ In UNDER w.
Proof. intros HW HI. destruct (word_tail w HW) as [_ HT]. now apply (tail_char UNDER (HT _ HI)). Qed.
Lemma pascal_of_snake E ws : ascii_case E -> ws <> [] -> Forall word ws -> snake_to_pascal E (snake_case ws) = pascal_case ws.
Proof.
  intros (_ & HE & _) HN HF. unfold snake_to_pascal, snake_case, pascal_case. change (s "_") with [UNDER]. rewrite split_join_free; [|assumption|].
  - f_equal. clear HN. induction HF as [|w ws HW HF IH]; [reflexivity|]. cbn [map]. rewrite IH. f_equal. destruct (word_cons w HW) as (c & r & -> & HC & HR).
    cbn [capital]. rewrite HE.
    + f_equal. apply lower_tail, HR.
    + intros a [<-|HA]; [apply (tail_char c); now left|]. now apply tail_char, HR.
  - rewrite Forall_forall in *. intros w HW. apply word_free. auto.
Qed.
Lemma snake_case_inj ws ws' : ws <> [] -> ws' <> [] -> Forall word ws -> Forall word ws' -> snake_case ws = snake_case ws' -> ws = ws'.
Proof.
  unfold snake_case. change (s "_") with [UNDER]. intros HN HN' HF HF' HE.
  rewrite <- (split_join_free UNDER ws HN), <- (split_join_free UNDER ws' HN'), HE; [reflexivity| |]; rewrite Forall_forall in *; intros w HW; apply word_free; auto.
Qed.
