(** Correctness of the date arithmetic. *)
From Coq Require Import List NArith ZArith Bool String Lia.
From Verif Require Import PyStr Values Date SpecDate Basics.
Import ListNotations.
Open Scope Z_scope.

(** ---------------------------------------------------------------- bounded checks *)
Fixpoint all_below (n : nat) (p : Z -> bool) : bool :=
  match n with O => true | S k => p (Z.of_nat k) && all_below k p end.
Lemma all_below_spec n p : all_below n p = true -> forall z, 0 <= z < Z.of_nat n -> p z = true.
Proof.
  induction n as [|n IH]; cbn [all_below]; intros H z Hz; [lia|].
  apply andb_true_iff in H as [H1 H2]. destruct (Z.eq_dec z (Z.of_nat n)) as [->|HN]; [exact H1|]. apply IH; [exact H2|lia].
Qed.

(** ---------------------------------------------------------------- civil_of_days *)
Definition start (y : Z) : Z := 365 * y + y / 4 - y / 100.
Definition len (y : Z) : Z := if leap (y + 1) then 366 else 365.
Definition yoe_of (doe : Z) : Z := (doe - doe / 1460 + doe / 36524 - doe / 146096) / 365.

Lemma leap_400 y e : leap (y + 400 * e) = leap y.
Proof.
  unfold leap. f_equal; [|f_equal]; [f_equal|f_equal; f_equal|f_equal].
  - replace (y + 400 * e) with (y + (100 * e) * 4) by lia. apply Z.mod_add. lia.
  - replace (y + 400 * e) with (y + (4 * e) * 100) by lia. apply Z.mod_add. lia.
  - replace (y + 400 * e) with (y + e * 400) by lia. apply Z.mod_add. lia.
Qed.
Lemma start_step y : 0 <= y < 399 -> start (y + 1) = start y + len y.
Proof.
  intros H. assert (C : all_below 399 (fun y => start (y + 1) =? start y + len y) = true) by (vm_compute; reflexivity).
  apply Z.eqb_eq. apply (all_below_spec 399 _ C). lia.
Qed.
Lemma yoe_mono a b : 0 <= a <= b -> b <= 146096 -> yoe_of a <= yoe_of b.
Proof. intros H1 H2. unfold yoe_of. apply Z.div_le_mono; [lia|]. Z.to_euclidean_division_equations. lia. Qed.
Lemma yoe_bounds y : 0 <= y < 400 -> yoe_of (start y) = y /\ yoe_of (start y + len y - 1) = y.
Proof.
  intros H. assert (C : all_below 400 (fun y => (yoe_of (start y) =? y) && (yoe_of (start y + len y - 1) =? y)) = true)
    by (vm_compute; reflexivity).
  apply (all_below_spec 400 _ C) in H. apply andb_true_iff in H as [H1 H2]. apply Z.eqb_eq in H1, H2. auto.
Qed.
Lemma start_nonneg y : 0 <= y -> 0 <= start y.
Proof. intros H. unfold start. Z.to_euclidean_division_equations. lia. Qed.
Lemma start_top y : 0 <= y < 400 -> start y + len y <= 146097.
Proof.
  intros H. assert (C : all_below 400 (fun y => start y + len y <=? 146097) = true) by (vm_compute; reflexivity).
  apply (all_below_spec 400 _ C) in H. now apply Z.leb_le.
Qed.
Lemma len_pos y : 365 <= len y <= 366.
Proof. unfold len. destruct (leap (y + 1)); lia. Qed.
(** The year of a day of the era. *)
Lemma yoe_unique y doy : 0 <= y < 400 -> 0 <= doy < len y -> yoe_of (start y + doy) = y.
Proof.
  intros HY HD. destruct (yoe_bounds y HY) as [H1 H2]. pose proof (start_top y HY). pose proof (start_nonneg y).
  pose proof (yoe_mono (start y) (start y + doy)). pose proof (yoe_mono (start y + doy) (start y + len y - 1)). lia.
Qed.

(** Month and day of a day of the year that begins on 1 March. *)
Definition md (y doy : Z) : Z * Z * Z :=
  let mp := (5 * doy + 2) / 153 in
  let d := doy - (153 * mp + 2) / 5 + 1 in
  let m := if mp <? 10 then mp + 3 else mp - 9 in
  (y + (if m <=? 2 then 1 else 0), m, d).
Lemma civil_md days era y doy : days + 719468 = era * 146097 + start y + doy -> 0 <= y < 400 -> 0 <= doy < len y ->
  civil_of_days days = md (y + era * 400) doy.
Proof.
  intros E HY HD. pose proof (start_top y HY). pose proof (start_nonneg y).
  assert (E1 : (days + 719468) / 146097 = era).
  { symmetry. apply (Z.div_unique _ _ _ (start y + doy)); lia. }
  assert (E2 : (days + 719468) mod 146097 = start y + doy).
  { symmetry. apply (Z.mod_unique _ _ era); lia. }
  unfold civil_of_days. rewrite E1, E2. change (?a - ?a / 1460 + ?a / 36524 - ?a / 146096) with (a - a / 1460 + a / 36524 - a / 146096).
  pose proof (yoe_unique y doy HY HD) as EY. unfold yoe_of in EY. rewrite EY.
  replace (start y + doy - (365 * y + y / 4 - y / 100)) with doy by (unfold start; lia). reflexivity.
Qed.
Lemma decompose_doe doe : 0 <= doe < 146097 -> exists y doy, doe = start y + doy /\ 0 <= y < 400 /\ 0 <= doy < len y.
Proof.
  intros H. assert (C : forall n, (n <= 400)%nat -> doe < start (Z.of_nat n) \/ n = 400%nat ->
            exists y doy, doe = start y + doy /\ 0 <= y < 400 /\ 0 <= doy < len y).
  { induction n as [|n IH]; intros Hn HL.
    - destruct HL as [HL|HL]; [|lia]. cbn in HL. unfold start in HL. cbn in HL. lia.
    - destruct (Z_lt_le_dec doe (start (Z.of_nat n))) as [HD|HD]; [apply IH; [lia|now left]|].
      exists (Z.of_nat n), (doe - start (Z.of_nat n)). split; [lia|]. split; [lia|]. split; [lia|].
      destruct (Z_lt_le_dec (Z.of_nat n) 399) as [HN|HN].
      + pose proof (start_step (Z.of_nat n)). rewrite Nat2Z.inj_succ in HL. unfold Z.succ in HL. lia.
      + assert (Z.of_nat n = 399) as -> by lia. change (start 399) with 145731. change (len 399) with 366. lia. }
  apply (C 400%nat); [lia|now right].
Qed.
Lemma decompose days : exists era y doy, days + 719468 = era * 146097 + start y + doy /\ 0 <= y < 400 /\ 0 <= doy < len y.
Proof.
  set (z := days + 719468). destruct (decompose_doe (z mod 146097)) as (y & doy & E & H); [apply Z.mod_pos_bound; lia|].
  exists (z / 146097), y, doy. split; [|exact H]. pose proof (Z.div_mod z 146097). lia.
Qed.

(** The month table, for a March-based year whose following February has 29 ([b]) or 28 days. *)
Definition mlen (b : bool) (m : Z) : Z :=
  if m =? 2 then (if b then 29 else 28) else if (m =? 4) || (m =? 6) || (m =? 9) || (m =? 11) then 30 else 31.
Definition md_ok (b : bool) (doy : Z) : bool :=
  let '(c, m, d) := md 0 doy in
  let '(c', m', d') := md 0 (doy + 1) in
  (1 <=? m) && (m <=? 12) && (1 <=? d) && (d <=? mlen b m) &&
  (if d <? mlen b m then (c' =? c) && (m' =? m) && (d' =? d + 1)
   else if m <? 12 then (c' =? c) && (m' =? m + 1) && (d' =? 1) else (c' =? c + 1) && (m' =? 1) && (d' =? 1))
  && (if m =? 2 then c =? 1 else true) && (c =? (if m <=? 2 then 1 else 0)).
Lemma md_shift y doy : md y doy = let '(c, m, d) := md 0 doy in (y + c, m, d).
Proof. reflexivity. Qed.
Lemma month_length_mlen y m : month_length y m = mlen (leap y) m.
Proof. reflexivity. Qed.
Lemma mlen_other b b' m : m <> 2 -> mlen b m = mlen b' m.
Proof. intros H. unfold mlen. destruct (Z.eqb_spec m 2); [congruence|reflexivity]. Qed.
Lemma md_check b doy : 0 <= doy < 364 -> md_ok b doy = true.
Proof.
  intros H. assert (C : all_below 364 (fun z => md_ok true z && md_ok false z) = true) by (vm_compute; reflexivity).
  apply (all_below_spec 364 _ C) in H. apply andb_true_iff in H as [H1 H2]. now destruct b.
Qed.
Lemma md_step y doy : 0 <= doy -> doy + 1 < len y -> md y (doy + 1) = next_day (md y doy) /\ valid_date (md y doy).
Proof.
  intros H0 HL.
  assert (HC : md_ok (leap (y + 1)) doy = true).
  { destruct (Z_lt_le_dec doy 364) as [HD|HD]; [apply md_check; lia|]. unfold len in HL.
    destruct (leap (y + 1)) eqn:L; [|lia]. assert (doy = 364) as -> by lia. vm_compute. reflexivity. }
  rewrite (md_shift y doy), (md_shift y (doy + 1)). unfold md_ok in HC.
  destruct (md 0 doy) as [[c m] d]. destruct (md 0 (doy + 1)) as [[c' m'] d'].
  repeat match goal with H : _ && _ = true |- _ => apply andb_true_iff in H; destruct H end.
  cbn [next_day valid_date]. rewrite month_length_mlen.
  assert (EM : mlen (leap (y + c)) m = mlen (leap (y + 1)) m).
  { destruct (Z.eq_dec m 2) as [->|HN]; [|now apply mlen_other].
    match goal with H : (if 2 =? 2 then _ else _) = true |- _ => cbn in H; apply Z.eqb_eq in H; subst c end. reflexivity. }
  rewrite EM.
  repeat match goal with H : (_ <=? _) = true |- _ => apply Z.leb_le in H end.
  split; [|lia].
  destruct (d <? mlen (leap (y + 1)) m); [|destruct (m <? 12)];
    repeat match goal with H : _ && _ = true |- _ => apply andb_true_iff in H; destruct H end;
    repeat match goal with H : (_ =? _) = true |- _ => apply Z.eqb_eq in H end;
    (apply f_equal2; [apply f_equal2|]; lia).
Qed.
Lemma md_last y : md y (len y - 1) = (y + 1, 2, month_length (y + 1) 2).
Proof. unfold len, month_length. cbn. destruct (leap (y + 1)); reflexivity. Qed.
Lemma md_first y : md y 0 = (y, 3, 1).
Proof. unfold md. cbn. now rewrite Z.add_0_r. Qed.

Lemma civil_step days : civil_of_days (days + 1) = next_day (civil_of_days days) /\ valid_date (civil_of_days days).
Proof.
  destruct (decompose days) as (era & y & doy & E & HY & HD).
  rewrite (civil_md days era y doy) by auto. set (Y := y + era * 400).
  assert (HLY : len Y = len y).
  { unfold len, Y. replace (y + era * 400 + 1) with (y + 1 + 400 * era) by lia. now rewrite leap_400. }
  destruct (Z_lt_le_dec (doy + 1) (len y)) as [HL|HL].
  - rewrite (civil_md (days + 1) era y (doy + 1)) by lia. apply md_step; lia.
  - assert (doy = len y - 1) as -> by lia. rewrite <- HLY, md_last.
    assert (HV : 28 <= month_length (Y + 1) 2 <= 29) by (unfold month_length; cbn; destruct (leap (Y + 1)); lia).
    split; [|cbn [valid_date]; lia]. unfold next_day. rewrite Z.ltb_irrefl. cbn [Z.ltb Z.compare].
    change (2 <? 12) with true. cbn iota.
    destruct (Z_lt_le_dec y 399) as [HY'|HY'].
    + rewrite (civil_md (days + 1) era (y + 1) 0); [|pose proof (start_step y); lia|lia|pose proof (len_pos (y + 1)); lia].
      rewrite md_first. unfold Y. f_equal. f_equal. lia.
    + assert (y = 399) as -> by lia. change (len 399) with 366 in *. change (start 399) with 145731 in *.
      rewrite (civil_md (days + 1) (era + 1) 0 0); [|change (start 0) with 0; lia|lia|change (len 0) with 365; lia].
      rewrite md_first. unfold Y. f_equal. f_equal. lia.
Qed.
Lemma next_day_inj x x' : valid_date x -> valid_date x' -> next_day x = next_day x' -> x = x'.
Proof.
  destruct x as [[y m] d], x' as [[y' m'] d']. cbn [valid_date next_day]. intros [Hm Hd] [Hm' Hd'].
  destruct (Z.ltb_spec d (month_length y m)); destruct (Z.ltb_spec d' (month_length y' m'));
    destruct (Z.ltb_spec m 12); destruct (Z.ltb_spec m' 12); intros E;
    pose proof (f_equal (fun p => fst (fst p)) E) as E1; pose proof (f_equal (fun p => snd (fst p)) E) as E2;
    pose proof (f_equal snd E) as E3; cbn [fst snd] in E1, E2, E3; try lia;
    (assert (y = y') by lia; assert (m = m') by lia; subst; f_equal; lia).
Qed.
Theorem calendar_civil n x : calendar n x <-> civil_of_days n = x.
Proof.
  split.
  - induction 1 as [|n x _ IH|n x HV _ IH].
    + reflexivity.
    + rewrite (proj1 (civil_step n)). now rewrite IH.
    + apply next_day_inj; [apply civil_step|exact HV|]. rewrite <- (proj1 (civil_step (n - 1))).
      replace (n - 1 + 1) with n by lia. exact IH.
  - intros <-. revert n.
    assert (HP : forall k : nat, calendar (Z.of_nat k) (civil_of_days (Z.of_nat k))).
    { induction k as [|k IH]; [constructor|]. rewrite Nat2Z.inj_succ. unfold Z.succ. rewrite (proj1 (civil_step _)).
      now constructor. }
    assert (HN : forall k : nat, calendar (- Z.of_nat k) (civil_of_days (- Z.of_nat k))).
    { induction k as [|k IH]; [constructor|]. rewrite Nat2Z.inj_succ. replace (- Z.succ (Z.of_nat k)) with (- Z.of_nat k - 1) by lia.
      constructor; [apply civil_step|]. rewrite <- (proj1 (civil_step _)).
      replace (- Z.of_nat k - 1 + 1) with (- Z.of_nat k) by lia. exact IH. }
    intros n. destruct (Z_le_gt_dec 0 n) as [H|H].
    + specialize (HP (Z.to_nat n)). now rewrite Z2Nat.id in HP by lia.
    + specialize (HN (Z.to_nat (- n))). rewrite Z2Nat.id in HN by lia. now rewrite Z.opp_involutive in HN.
Qed.
(** Years grow with days. *)
Definition year_of (x : Z * Z * Z) : Z := fst (fst x).
Lemma year_step days : year_of (civil_of_days days) <= year_of (civil_of_days (days + 1)).
Proof.
  rewrite (proj1 (civil_step days)). destruct (civil_of_days days) as [[y m] d]. cbn [next_day].
  destruct (d <? _); [|destruct (m <? 12)]; cbn; lia.
Qed.
Lemma year_mono a b : a <= b -> year_of (civil_of_days a) <= year_of (civil_of_days b).
Proof.
  intros H. replace b with (a + Z.of_nat (Z.to_nat (b - a))) by lia.
  induction (Z.to_nat (b - a)) as [|k IH]; [rewrite Z.add_0_r; lia|].
  rewrite Nat2Z.inj_succ. replace (a + Z.succ (Z.of_nat k)) with (a + Z.of_nat k + 1) by lia.
  pose proof (year_step (a + Z.of_nat k)). lia.
Qed.
Lemma year_range days : 1 <= year_of (civil_of_days days) <= 9999 <-> -719162 <= days <= 2932896.
Proof.
  split.
  - intros [H1 H2]. split.
    + destruct (Z_lt_le_dec days (-719162)) as [H|H]; [|exact H]. pose proof (year_mono days (-719163)).
      change (year_of (civil_of_days (-719163))) with 0 in *. lia.
    + destruct (Z_lt_le_dec 2932896 days) as [H|H]; [|exact H]. pose proof (year_mono 2932897 days).
      change (year_of (civil_of_days 2932897)) with 10000 in *. lia.
  - intros [H1 H2]. pose proof (year_mono (-719162) days H1) as K1. pose proof (year_mono days 2932896 H2) as K2.
    change (year_of (civil_of_days (-719162))) with 1 in K1. change (year_of (civil_of_days 2932896)) with 9999 in K2. lia.
Qed.
