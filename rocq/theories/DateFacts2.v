(** The floating-point part of NodeDate.to_markdown, and int() of decimal strings. *)
From Coq Require Import List NArith ZArith Bool Ascii String Lia DecimalString DecimalZ DecimalFacts.
From Verif Require Import PyStr Values Date SpecDate Basics StrFacts DateFacts.
Import ListNotations.
Open Scope Z_scope.

(** ---------------------------------------------------------------- rounding *)
Lemma rne_bound num den : 0 < den -> - den <= 2 * (num - den * rne num den) <= den.
Proof.
  intros H. unfold rne. pose proof (Z.div_mod num den). pose proof (Z.mod_pos_bound num den).
  destruct (Z.ltb_spec (2 * (num mod den)) den); [lia|].
  destruct (Z.ltb_spec den (2 * (num mod den))); [lia|]. destruct (Z.even (num / den)); lia.
Qed.
Lemma rne_floor num den : 0 < den -> num / den <= rne num den.
Proof. intros H. unfold rne. repeat match goal with |- context [if ?b then _ else _] => destruct b end; lia. Qed.
Lemma round53_bound p : 0 <= p -> - p <= 2 ^ 53 * (p - round53 p) <= p.
Proof.
  intros H. unfold round53. destruct (Z.leb_spec (Z.log2 p) 52) as [HL|HL]; [rewrite Z.sub_diag; lia|].
  assert (HP : 0 < p) by (destruct (Z.eq_dec p 0) as [->|]; [cbn in HL; lia|lia]).
  pose proof (Z.log2_spec p HP) as [HS _]. set (b := Z.log2 p) in *.
  assert (HU : 2 ^ b = 2 ^ (b - 52) * 2 ^ 52) by (rewrite <- Z.pow_add_r by lia; f_equal; lia).
  set (u := 2 ^ (b - 52)) in *. assert (0 < u) by (apply Z.pow_pos_nonneg; lia).
  pose proof (rne_bound p u). set (m := rne p u) in *. nia.
Qed.

(** ---------------------------------------------------------------- whole seconds *)
Lemma div1000_exp n m e : 0 < n -> div1000 n = (m, e) -> e <= Z.log2 n - 61.
Proof.
  intros H. unfold div1000. destruct (1000 * 2 ^ Z.log2 n <=? n * 2 ^ 9);
    match goal with |- context [0 <=? ?e] => destruct (0 <=? e) end; intros [= <- <-]; lia.
Qed.
Lemma div1000_mant n m e : div1000 n = (m, e) ->
  m = if 0 <=? e then rne n (1000 * 2 ^ e) else rne (n * 2 ^ (- e)) 1000.
Proof.
  unfold div1000. set (e0 := _ - 52). intros H.
  assert (HE : e = e0) by (destruct (0 <=? e0); congruence). subst e. destruct (0 <=? e0); congruence.
Qed.
Lemma whole_seconds_exact n : n <> 0 -> Z.abs n < 2 ^ 48 ->
  (let '(m, e) := div1000 (Z.abs n) in whole_seconds (n <? 0) m e) = n / 1000.
Proof.
  intros H0 HB. set (a := Z.abs n) in *. assert (HA : 0 < a) by lia.
  destruct (div1000 a) as [m e] eqn:D. pose proof (div1000_exp a m e HA D) as HE. apply div1000_mant in D.
  assert (HL : Z.log2 a < 48) by (apply Z.log2_lt_pow2; lia).
  assert (He : (0 <=? e) = false) by (apply Z.leb_gt; lia). rewrite He in D. unfold whole_seconds. rewrite He.
  set (d := 2 ^ (- e)) in *.
  assert (Hd : 16384 <= d). { unfold d. change 16384 with (2 ^ 14). apply Z.pow_le_mono_r; lia. }
  pose proof (rne_bound (a * d) 1000 ltac:(lia)) as HM. rewrite <- D in HM. clear D.
  pose proof (Z.div_mod a 1000 ltac:(lia)) as HD. pose proof (Z.mod_pos_bound a 1000 ltac:(lia)) as HR.
  set (q := a / 1000) in *. set (r := a mod 1000) in *.
  assert (E1 : a * d = 1000 * (q * d) + r * d) by nia. rewrite E1 in HM. clear E1.
  destruct (Z.eq_dec r 0) as [Hr|Hr].
  - (* exact *)
    assert (Em : m = q * d) by nia. subst m. rewrite Z.div_mul, Z.mod_mul by lia.
    change (round53 (0 * 1000000)) with 0. assert (rne 0 d = 0) as -> by (unfold rne; cbn; destruct (Z.ltb_spec 0 d); [reflexivity|lia]).
    cbn. assert (n = a \/ n = - a) as [En|En] by lia.
    + destruct (Z.ltb_spec n 0); [lia|]. unfold q. now rewrite En.
    + destruct (Z.ltb_spec n 0); [|lia]. rewrite En, Hr in *.
      apply (Z.div_unique _ _ _ 0); lia.
  - set (f := m - q * d).
    assert (HF : r * d - 500 <= 1000 * f <= r * d + 500) by (unfold f; lia).
    assert (Hf : 0 < f < d) by nia.
    assert (Eq : m / d = q) by (symmetry; apply (Z.div_unique _ _ _ f); unfold f; lia).
    assert (Ef : m mod d = f) by (symmetry; apply (Z.mod_unique _ _ q); unfold f; lia).
    rewrite Eq, Ef.
    assert (HP : 969 * d <= f * 1000000 <= 999031 * d) by nia.
    pose proof (round53_bound (f * 1000000) ltac:(lia)) as HRB. set (R := round53 (f * 1000000)) in *.
    assert (HR1 : 900 * d <= R <= 999900 * d) by nia.
    pose proof (rne_bound R d ltac:(lia)) as HU. set (u := rne R d) in *.
    assert (Hu : 0 < u < 1000000) by nia.
    destruct (Z.ltb_spec 0 u); [|lia]. destruct (Z.leb_spec 1000000 u); [lia|].
    assert (n = a \/ n = - a) as [En|En] by lia.
    + destruct (Z.ltb_spec n 0); [lia|]. unfold q. now rewrite En.
    + destruct (Z.ltb_spec n 0); [|lia]. apply (Z.div_unique _ _ _ (1000 - r)); lia.
Qed.
Lemma whole_seconds_big n : 2 ^ 48 <= Z.abs n ->
  let '(m, e) := div1000 (Z.abs n) in
  if n <? 0 then whole_seconds (n <? 0) m e <= -62135596801 else 253402300800 <= whole_seconds (n <? 0) m e.
Proof.
  intros HB. set (a := Z.abs n) in *. assert (HA : 0 < a) by lia.
  destruct (div1000 a) as [m e] eqn:D. pose proof (div1000_exp a m e HA D) as HE. apply div1000_mant in D.
  unfold whole_seconds. destruct (Z.leb_spec 0 e) as [He|He].
  - assert (HX : 2 ^ 48 <= m * 2 ^ e).
    { subst m. pose proof (Z.log2_spec a HA) as [HS _].
      assert (HU : 2 ^ Z.log2 a = 2 ^ (Z.log2 a - 61 - e) * 2 ^ e * 2 ^ 61) by (rewrite <- !Z.pow_add_r by lia; f_equal; lia).
      assert (0 < 2 ^ (Z.log2 a - 61 - e)) by (apply Z.pow_pos_nonneg; lia).
      assert (0 < 2 ^ e) by (apply Z.pow_pos_nonneg; lia).
      set (p := 2 ^ e) in *. set (k := 2 ^ (Z.log2 a - 61 - e)) in *.
      assert (HK : p * 2 ^ 61 <= a) by nia.
      pose proof (rne_bound a (1000 * p) ltac:(lia)). set (x := rne a (1000 * p)) in *. nia. }
    destruct (n <? 0); lia.
  - set (d := 2 ^ (- e)) in *. assert (0 < d) by (apply Z.pow_pos_nonneg; lia).
    assert (HX : a / 1000 <= m / d).
    { apply Z.div_le_lower_bound; [lia|]. subst m. pose proof (rne_floor (a * d) 1000 ltac:(lia)).
      assert (d * (a / 1000) <= a * d / 1000); [|lia]. apply Z.div_le_lower_bound; [lia|].
      pose proof (Z.mul_div_le a 1000 ltac:(lia)). nia. }
    assert (HY : 281474976710 <= a / 1000) by (change 281474976710 with (2 ^ 48 / 1000); apply Z.div_le_mono; lia).
    destruct (n <? 0);
      repeat match goal with |- context [if ?b then _ else _] => destruct b end; lia.
Qed.

(** ---------------------------------------------------------------- int() of decimal strings *)
Fixpoint uval (u : Decimal.uint) (acc : Z) : Z :=
  match u with
  | Decimal.Nil => acc
  | Decimal.D0 l => uval l (acc * 10 + 0) | Decimal.D1 l => uval l (acc * 10 + 1) | Decimal.D2 l => uval l (acc * 10 + 2)
  | Decimal.D3 l => uval l (acc * 10 + 3) | Decimal.D4 l => uval l (acc * 10 + 4) | Decimal.D5 l => uval l (acc * 10 + 5)
  | Decimal.D6 l => uval l (acc * 10 + 6) | Decimal.D7 l => uval l (acc * 10 + 7) | Decimal.D8 l => uval l (acc * 10 + 8)
  | Decimal.D9 l => uval l (acc * 10 + 9)
  end.
Lemma uval_pos u : forall acc, uval u (Z.pos acc) = Z.pos (Pos.of_uint_acc u acc).
Proof.
  induction u; intros acc; cbn [uval Pos.of_uint_acc]; [reflexivity|..];
    match goal with |- uval u ?x = Z.pos (Pos.of_uint_acc u ?p) => replace x with (Z.pos p) by lia; apply IHu end.
Qed.
Lemma uval_zero u : uval u 0 = Z.of_N (Pos.of_uint u).
Proof.
  induction u; cbn [uval Pos.of_uint]; [reflexivity|exact IHu|..];
    match goal with |- uval u ?x = Z.of_N (N.pos (Pos.of_uint_acc u ?p)) =>
      change x with (Z.pos p); rewrite uval_pos; reflexivity end.
Qed.
(** ---------------------------------------------------------------- ISO format *)
Definition zeros (n : nat) : str := repeat_nat (s "0") n.
Definition ustr (u : Decimal.uint) : str := s (NilEmpty.string_of_uint u).
Lemma ustr_0 u : ustr (Decimal.D0 u) = 48%N :: ustr u.
Proof. reflexivity. Qed.
Lemma nzhead_pad u : (List.length (ustr (Decimal.nzhead u)) <= List.length (ustr u))%nat /\
  zeros (List.length (ustr u) - List.length (ustr (Decimal.nzhead u))) ++ ustr (Decimal.nzhead u) = ustr u.
Proof.
  induction u; cbn [Decimal.nzhead]; try (rewrite Nat.sub_diag; split; [lia|reflexivity]).
  destruct IHu as [H1 H2]. rewrite ustr_0. cbn [List.length]. split; [lia|].
  rewrite Nat.sub_succ_l by exact H1. exact (f_equal (cons 48%N) H2).
Qed.
Lemma zeros_snoc n : zeros n ++ [48%N] = zeros (S n).
Proof. induction n as [|n IH]; [reflexivity|]. unfold zeros in *. cbn [repeat_nat] in *. change (s "0") with [48%N] in *. cbn [app] in *. now rewrite IH. Qed.
Lemma unorm_pad u : u <> Decimal.Nil ->
  zeros (List.length (ustr u) - List.length (ustr (Decimal.unorm u))) ++ ustr (Decimal.unorm u) = ustr u.
Proof.
  intros HN. destruct (nzhead_pad u) as [H1 H2]. unfold Decimal.unorm. destruct (Decimal.nzhead u) eqn:E; auto.
  change (ustr Decimal.Nil) with (@nil N) in *. change (ustr Decimal.zero) with [48%N]. cbn [List.length] in *.
  rewrite List.app_nil_r, Nat.sub_0_r in H2. rewrite zeros_snoc. rewrite <- H2 at 2. f_equal.
  destruct u; try congruence; try discriminate. rewrite ustr_0. cbn. lia.
Qed.
Lemma pad_digits u y : u <> Decimal.Nil -> uval u 0 = y -> pad (List.length (ustr u)) y = ustr u.
Proof.
  intros HN HV. rewrite uval_zero in HV. unfold pad, dec. fold (zeros (List.length (ustr u) - List.length (s (NilEmpty.string_of_int (Z.to_int y))))).
  assert (HZ : Z.to_int y = Decimal.Pos (Decimal.unorm u)).
  { rewrite <- HV. change (Z.of_N (Pos.of_uint u)) with (Z.of_int (Decimal.Pos u)). rewrite DecimalZ.to_of. reflexivity. }
  rewrite HZ. cbn [NilEmpty.string_of_int]. now apply unorm_pad.
Qed.
Definition dig (i : Z) (u : Decimal.uint) : Decimal.uint :=
  match i with
  | 0 => Decimal.D0 u | 1 => Decimal.D1 u | 2 => Decimal.D2 u | 3 => Decimal.D3 u | 4 => Decimal.D4 u
  | 5 => Decimal.D5 u | 6 => Decimal.D6 u | 7 => Decimal.D7 u | 8 => Decimal.D8 u | _ => Decimal.D9 u
  end.
Lemma dig_spec i u : 0 <= i <= 9 -> ustr (dig i u) = digit_char i :: ustr u /\ dig i u <> Decimal.Nil /\
  forall acc, uval (dig i u) acc = uval u (acc * 10 + i).
Proof.
  intros H. assert (i = 0 \/ i = 1 \/ i = 2 \/ i = 3 \/ i = 4 \/ i = 5 \/ i = 6 \/ i = 7 \/ i = 8 \/ i = 9) as HC by lia.
  repeat (destruct HC as [->|HC]; [split; [reflexivity|split; [discriminate|reflexivity]]|]).
  subst. split; [reflexivity|split; [discriminate|reflexivity]].
Qed.
Lemma pad4 y : 0 <= y < 10000 ->
  pad 4 y = [digit_char (y / 1000); digit_char (y / 100 mod 10); digit_char (y / 10 mod 10); digit_char (y mod 10)].
Proof.
  intros H. set (a := y / 1000). set (b := y / 100 mod 10). set (c := y / 10 mod 10). set (d := y mod 10).
  assert (HA : 0 <= a <= 9) by (unfold a; Z.to_euclidean_division_equations; lia).
  assert (HB : 0 <= b <= 9) by (unfold b; Z.to_euclidean_division_equations; lia).
  assert (HC : 0 <= c <= 9) by (unfold c; Z.to_euclidean_division_equations; lia).
  assert (HD : 0 <= d <= 9) by (unfold d; Z.to_euclidean_division_equations; lia).
  assert (HY : y = ((a * 10 + b) * 10 + c) * 10 + d) by (unfold a, b, c, d; clear; Z.to_euclidean_division_equations; lia).
  clearbody a b c d.
  destruct (dig_spec d Decimal.Nil HD) as (S1 & _ & V1). destruct (dig_spec c (dig d Decimal.Nil) HC) as (S2 & _ & V2).
  destruct (dig_spec b (dig c (dig d Decimal.Nil)) HB) as (S3 & _ & V3).
  destruct (dig_spec a (dig b (dig c (dig d Decimal.Nil))) HA) as (S4 & N4 & V4).
  pose proof (pad_digits (dig a (dig b (dig c (dig d Decimal.Nil)))) y N4) as HP.
  rewrite S4, S3, S2, S1 in HP. apply HP. rewrite V4, V3, V2, V1. cbn [uval]. lia.
Qed.
Lemma pad2 y : 0 <= y < 100 -> pad 2 y = [digit_char (y / 10); digit_char (y mod 10)].
Proof.
  intros H. set (c := y / 10). set (d := y mod 10).
  assert (HC : 0 <= c <= 9) by (unfold c; Z.to_euclidean_division_equations; lia).
  assert (HD : 0 <= d <= 9) by (unfold d; Z.to_euclidean_division_equations; lia).
  assert (HY : y = c * 10 + d) by (unfold c, d; clear; Z.to_euclidean_division_equations; lia).
  clearbody c d.
  destruct (dig_spec d Decimal.Nil HD) as (S1 & _ & V1). destruct (dig_spec c (dig d Decimal.Nil) HC) as (S2 & N2 & V2).
  pose proof (pad_digits (dig c (dig d Decimal.Nil)) y N2) as HP.
  rewrite S2, S1 in HP. apply HP. rewrite V2, V1. cbn [uval]. lia.
Qed.
Lemma month_length_le y m : month_length y m <= 31.
Proof. unfold month_length. destruct (m =? 2); [destruct (leap y); lia|]. destruct (_ || _); lia. Qed.
Lemma date_of_seconds_spec sec :
  date_of_seconds sec = (let x := civil_of_days (sec / 86400) in
                         if (1 <=? year_of x) && (year_of x <=? 9999) then Ok (iso_date x) else Err ERange).
Proof.
  unfold date_of_seconds. pose proof (proj2 (civil_step (sec / 86400))) as HV.
  destruct (civil_of_days (sec / 86400)) as [[y m] d]. cbn [year_of fst].
  destruct ((1 <=? y) && (y <=? 9999)) eqn:EY; [|reflexivity].
  apply andb_true_iff in EY as [H1 H2]. apply Z.leb_le in H1, H2. cbn [valid_date] in HV. pose proof (month_length_le y m).
  rewrite pad4, !pad2 by lia. reflexivity.
Qed.

(** ---------------------------------------------------------------- the whole function *)
Lemma date_spec digit v n : py_int digit v = Ok n ->
  date_to_markdown digit v = (let x := civil_of_days (n / 86400000) in
                              if (1 <=? year_of x) && (year_of x <=? 9999) then Ok (iso_date x) else Err ERange).
Proof.
  intros HV. unfold date_to_markdown. rewrite HV. cbn [rbind]. destruct (Z.eqb_spec n 0) as [->|H0]; [reflexivity|].
  destruct (Z_lt_le_dec (Z.abs n) (2 ^ 48)) as [HB|HB].
  - pose proof (whole_seconds_exact n H0 HB) as HW. destruct (div1000 (Z.abs n)) as [m e]. rewrite HW.
    rewrite date_of_seconds_spec. rewrite Z.div_div by lia. reflexivity.
  - pose proof (whole_seconds_big n HB) as HW. destruct (div1000 (Z.abs n)) as [m e].
    set (ws := whole_seconds (n <? 0) m e) in *. rewrite date_of_seconds_spec. cbn zeta.
    assert (HX : forall days, ~ (-719162 <= days <= 2932896) ->
              (1 <=? year_of (civil_of_days days)) && (year_of (civil_of_days days) <=? 9999) = false).
    { intros days HD. apply Bool.not_true_is_false. intros HT. apply HD. apply year_range.
      apply andb_true_iff in HT as [HT1 HT2]. apply Z.leb_le in HT1, HT2. lia. }
    rewrite !HX; [reflexivity| |].
    + change (2 ^ 48) with 281474976710656 in HB. Z.to_euclidean_division_equations. lia.
    + destruct (n <? 0); Z.to_euclidean_division_equations; lia.
Qed.

Lemma uint_digits digit u : forall acc cnt b,
  int_digits digit (s (NilEmpty.string_of_uint u)) acc cnt b =
  match u with Decimal.Nil => if b then Some (acc, cnt) else None
             | _ => Some (uval u acc, (cnt + List.length (s (NilEmpty.string_of_uint u)))%nat) end.
Proof.
  induction u; intros acc cnt b; [destruct b; reflexivity|..];
    (cbn [NilEmpty.string_of_uint];
     match goal with |- context [s (String ?c ?x)] => let v := eval vm_compute in (N_of_ascii c) in
       change (s (String c x)) with (v :: s x) end;
     cbn [int_digits];
     match goal with |- context [(?c =? 95)%N] => change (c =? 95)%N with false end; cbn iota;
     match goal with |- context [digit_val digit ?c] => let v := eval vm_compute in (Z.of_N c - 48) in
        change (digit_val digit c) with (Some v) end; cbn iota beta;
     rewrite IHu; cbn [uval List.length];
     destruct u; cbn [uval NilEmpty.string_of_uint]; rewrite ?Nat.add_succ_r; cbn [Nat.add]; try reflexivity).
  all: cbn; rewrite Nat.add_0_r; reflexivity.
Qed.
Lemma uint_chars u c : In c (s (NilEmpty.string_of_uint u)) -> (48 <= c <= 57)%N.
Proof.
  induction u; cbn [NilEmpty.string_of_uint]; [intros []|..];
    (match goal with |- context [s (String ?c ?x)] => let v := eval vm_compute in (N_of_ascii c) in
       change (s (String c x)) with (v :: s x) end; intros [<-|H]; [lia|auto]).
Qed.
Lemma rstrip_by_none p x : (forall c, In c x -> p c = false) -> rstrip_by p x = x.
Proof.
  induction x as [|c x IH]; [reflexivity|]. intros H. cbn. rewrite IH by (intros d Hd; apply H; now right).
  destruct x; [|reflexivity]. now rewrite (H c) by (now left).
Qed.
Lemma lstrip_by_none p x : (forall c, In c x -> p c = false) -> lstrip_by p x = x.
Proof. destruct x as [|c x]; [reflexivity|]. intros H. cbn. now rewrite (H c) by (now left). Qed.
Lemma not_ws c : (45 <= c <= 57)%N -> int_ws c = false.
Proof.
  intros H. unfold int_ws.
  repeat match goal with |- context [(?x <=? ?y)%N] => destruct (N.leb_spec x y); try lia end;
  repeat match goal with |- context [(?x =? ?y)%N] => destruct (N.eqb_spec x y); try lia end; reflexivity.
Qed.
Lemma to_uint_nonnil p : Pos.to_uint p <> Decimal.Nil.
Proof. apply DecimalPos.Unsigned.to_uint_nonnil. Qed.
(** int() reads back what str() writes (up to CPython's limit on digits). *)
Lemma int_of_dec digit z : (List.length (dec z) <= 4300)%nat -> int_of_str digit (dec z) = Ok z.
Proof.
  intros HL. unfold int_of_str.
  assert (HW : forall c, In c (dec z) -> int_ws c = false).
  { intros c Hc. apply not_ws. unfold dec in Hc. destruct (Z.to_int z) as [u|u]; cbn [NilEmpty.string_of_int] in Hc.
    - apply uint_chars in Hc. lia.
    - change (s (String "-" (NilEmpty.string_of_uint u))) with (45%N :: s (NilEmpty.string_of_uint u)) in Hc.
      destruct Hc as [<-|Hc]; [lia|]. apply uint_chars in Hc. lia. }
  rewrite rstrip_by_none by exact HW. rewrite lstrip_by_none by exact HW. clear HW.
  assert (HZ : Z.of_int (Z.to_int z) = z) by apply DecimalZ.of_to.
  assert (HB : forall u, (List.length (s (NilEmpty.string_of_uint u)) <= 4300)%nat ->
                 (max_str_digits <? N.of_nat (List.length (s (NilEmpty.string_of_uint u))))%N = false).
  { intros u Hu. apply N.ltb_ge. unfold max_str_digits. lia. }
  assert (HN : forall u, u = Decimal.Nil -> Z.to_int z <> Decimal.Pos u /\ Z.to_int z <> Decimal.Neg u).
  { intros u ->. destruct z as [|p|p]; cbn; split; try discriminate; intros H; injection H; apply to_uint_nonnil. }
  unfold dec in *. destruct (Z.to_int z) as [u|u]; cbn [NilEmpty.string_of_int] in *.
  - assert (ED : int_digits digit (s (NilEmpty.string_of_uint u)) 0 0 false =
                 Some (uval u 0, List.length (s (NilEmpty.string_of_uint u)))).
    { rewrite uint_digits. destruct u; try reflexivity. exfalso. now apply (proj1 (HN _ eq_refl)). }
    assert (ES : forall (A : Type) (f : bool * str -> A),
        (let y := s (NilEmpty.string_of_uint u) in
         f (match y with c :: r => if (c =? 45)%N then (true, r) else if (c =? 43)%N then (false, r) else (false, y)
            | [] => (false, y) end)) = f (false, s (NilEmpty.string_of_uint u))).
    { intros A f. cbn zeta. destruct (s (NilEmpty.string_of_uint u)) as [|c r] eqn:EU; [reflexivity|].
      assert (HC : (48 <= c <= 57)%N) by (apply (uint_chars u); rewrite EU; now left).
      destruct (N.eqb_spec c 45); [lia|]. destruct (N.eqb_spec c 43); [lia|]. reflexivity. }
    etransitivity; [exact (ES (res Z) (fun p => let '(neg, z) := p in match int_digits digit z 0 0 false with
       | Some (v, cnt) => if (max_str_digits <? N.of_nat cnt)%N then Err ValueError else Ok (if neg : bool then - v else v)
       | None => Err ValueError end))|].
    cbn beta iota. rewrite ED, HB by exact HL. rewrite uval_zero. f_equal. cbn in HZ. unfold Z.of_uint in HZ.
    rewrite <- HZ. now destruct (Pos.of_uint u).
  - change (s (String "-" (NilEmpty.string_of_uint u))) with (45%N :: s (NilEmpty.string_of_uint u)) in *.
    cbn [N.eqb Pos.eqb]. cbn iota beta.
    assert (ED : int_digits digit (s (NilEmpty.string_of_uint u)) 0 0 false =
                 Some (uval u 0, List.length (s (NilEmpty.string_of_uint u)))).
    { rewrite uint_digits. destruct u; try reflexivity. exfalso. now apply (proj2 (HN _ eq_refl)). }
    rewrite ED, HB by (cbn in HL; lia). rewrite uval_zero. f_equal. cbn in HZ. unfold Z.of_uint in HZ.
    rewrite <- HZ. now destruct (Pos.of_uint u).
Qed.
