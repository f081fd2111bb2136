(** C38: a date node is the UTC calendar date of its timestamp.
    Vocabulary: SpecDate.v ([calendar n x]: day n after 1970-01-01 is x; [iso_date]). *)
From Coq Require Import List NArith ZArith Bool String Lia.
From Verif Require Import PyStr Values Schema Parse Date Markdown Basics StrFacts SpecParse MdFacts SpecMd LeafFacts
  SpecDate DateFacts DateFacts2 Properties_Marks Properties_Nodes.
Import ListNotations.
Open Scope string_scope.
Open Scope list_scope.
Open Scope Z_scope.

(** What a timestamp value denotes in milliseconds: an integer, a boolean (Python's bool is an int), the decimal
    representation of an integer (at most 4300 characters, CPython's conversion limit). *)
Inductive milliseconds : value -> Z -> Prop :=
| ms_int z : milliseconds (VInt z) z
| ms_str z : (List.length (dec z) <= 4300)%nat -> milliseconds (VStr (dec z)) z
| ms_true : milliseconds (VBool true) 1
| ms_false : milliseconds (VBool false) 0.

Lemma milliseconds_int digit v z : milliseconds v z -> py_int digit v = Ok z.
Proof. intros H; destruct H; try reflexivity. cbn. now apply int_of_dec. Qed.

Lemma date_node E a n : parsed "date" a n ->
  forall ign, to_markdown E n ign = (do x <- date_to_markdown (rt_digit E) (input a "timestamp"); Ok (VStr x)).
Proof.
  intros HP ign.
  destruct (parsed_attr_value "date" Kdate a n Req [(s "timestamp", Req); lid] "timestamp" eq_refl HP eq_refl) as [HK HA];
    [cbn; tauto|].
  destruct n as [k ty ve tx a0 co ma]. cbn [n_kind n_attrs] in *. subst k.
  unfold to_markdown. cbn [to_md]. rewrite HA. reflexivity.
Qed.

(** Every timestamp whose UTC day lies in the years 1..9999 renders as exactly that day. *)
Theorem C38_date : forall E a n ts y m d ign,
  parsed "date" a n -> milliseconds (input a "timestamp") ts ->
  calendar (ts / 86400000) (y, m, d) -> 1 <= y <= 9999 ->
  to_markdown E n ign = Ok (VStr (iso_date (y, m, d))).
Proof.
  intros E a n ts y m d ign HP HM HC HY. rewrite (date_node E a n HP).
  rewrite (date_spec _ _ ts) by (now apply milliseconds_int). apply calendar_civil in HC. rewrite HC. cbn [year_of fst].
  assert ((1 <=? y) && (y <=? 9999) = true) as ->; [|reflexivity].
  apply andb_true_iff; split; apply Z.leb_le; lia.
Qed.
(** Every other integer timestamp raises. *)
Theorem C38_out_of_range : forall E a n ts y m d ign,
  parsed "date" a n -> milliseconds (input a "timestamp") ts ->
  calendar (ts / 86400000) (y, m, d) -> ~ 1 <= y <= 9999 ->
  to_markdown E n ign = Err ERange.
Proof.
  intros E a n ts y m d ign HP HM HC HY. rewrite (date_node E a n HP).
  rewrite (date_spec _ _ ts) by (now apply milliseconds_int). apply calendar_civil in HC. rewrite HC. cbn [year_of fst].
  assert ((1 <=? y) && (y <=? 9999) = false) as ->; [|reflexivity].
  apply not_true_is_false. intros H. apply andb_true_iff in H as [H1 H2]. apply Z.leb_le in H1, H2. lia.
Qed.
(** The two cases in numbers: exactly the timestamps of 0001-01-01T00:00:00.000Z to 9999-12-31T23:59:59.999Z render. *)
Theorem C38_range : forall E a n ts ign,
  parsed "date" a n -> milliseconds (input a "timestamp") ts ->
  (exists x, to_markdown E n ign = Ok (VStr x)) <-> -62135596800000 <= ts <= 253402300799999.
Proof.
  intros E a n ts ign HP HM. rewrite (date_node E a n HP).
  rewrite (date_spec _ _ ts) by (now apply milliseconds_int). cbn zeta.
  pose proof (year_range (ts / 86400000)) as HR.
  destruct ((1 <=? year_of (civil_of_days (ts / 86400000))) && (year_of (civil_of_days (ts / 86400000)) <=? 9999)) eqn:EY.
  - apply andb_true_iff in EY as [H1 H2]. apply Z.leb_le in H1, H2.
    split; [intros _|intros _; cbn; eauto]. destruct HR as [HR _]. specialize (HR (conj H1 H2)).
    Z.to_euclidean_division_equations. lia.
  - split; [intros [x H]; cbn in H; discriminate|]. intros H. exfalso.
    assert (HD : -719162 <= ts / 86400000 <= 2932896) by (Z.to_euclidean_division_equations; lia).
    apply HR in HD as [H1 H2]. apply Z.leb_le in H1, H2. rewrite H1, H2 in EY. discriminate.
Qed.
(** [calendar] is a total function of the day number, its values are valid dates, and later days are later dates. *)
Theorem C38_calendar_function : forall n, exists x, calendar n x /\ valid_date x /\ forall x', calendar n x' -> x' = x.
Proof.
  intros n. exists (civil_of_days n). split; [now apply calendar_civil|]. split; [apply civil_step|].
  intros x' H. now apply calendar_civil in H.
Qed.
(** Two timestamps render the same exactly when they are on the same UTC day. *)
Definition date_number (x : Z * Z * Z) : Z := let '(y, m, d) := x in (y * 100 + m) * 100 + d.
Lemma calendar_succ_number n : date_number (civil_of_days n) < date_number (civil_of_days (n + 1)).
Proof.
  destruct (civil_step n) as [-> HV]. destruct (civil_of_days n) as [[y m] d]. cbn in HV.
  pose proof (month_length_le y m). unfold next_day. destruct (Z.ltb_spec d (month_length y m)); [cbn; lia|].
  destruct (Z.ltb_spec m 12); cbn; lia.
Qed.
Lemma calendar_number n m : n < m -> date_number (civil_of_days n) < date_number (civil_of_days m).
Proof.
  intros H. replace m with (n + 1 + Z.of_nat (Z.to_nat (m - n - 1))) by lia.
  induction (Z.to_nat (m - n - 1)) as [|k IH]; [rewrite Z.add_0_r; apply calendar_succ_number|].
  eapply Z.lt_trans; [exact IH|]. replace (n + 1 + Z.of_nat (S k)) with (n + 1 + Z.of_nat k + 1) by lia.
  apply calendar_succ_number.
Qed.
Theorem C38_later_is_later : forall n1 n2 x1 x2, calendar n1 x1 -> calendar n2 x2 -> n1 < n2 ->
  date_number x1 < date_number x2.
Proof. intros n1 n2 x1 x2 H1 H2 H. apply calendar_civil in H1, H2. subst. now apply calendar_number. Qed.
Lemma digit_char_inj a b : 0 <= a -> 0 <= b -> digit_char a = digit_char b -> a = b.
Proof. unfold digit_char. lia. Qed.
Lemma iso_date_inj y m d y' m' d' :
  0 <= y <= 9999 -> 0 <= m <= 99 -> 0 <= d <= 99 -> 0 <= y' <= 9999 -> 0 <= m' <= 99 -> 0 <= d' <= 99 ->
  iso_date (y, m, d) = iso_date (y', m', d') -> (y, m, d) = (y', m', d').
Proof.
  intros H1 H2 H3 H4 H5 H6 H. cbn -[Z.div Z.modulo digit_char] in H. unfold s in H. cbn -[Z.div Z.modulo digit_char] in H.
  repeat match type of H with _ :: _ = _ :: _ =>
    let E := fresh "E" in pose proof (f_equal (hd 0%N) H) as E; cbn [hd] in E;
    let H' := fresh in pose proof (f_equal (@tl N) H) as H'; cbn [tl] in H'; clear H; rename H' into H end.
  apply digit_char_inj in E, E0, E1, E2, E4, E5, E7, E8; try (Z.to_euclidean_division_equations; lia).
  assert (y = y') by (clear - E E0 E1 E2; Z.to_euclidean_division_equations; lia).
  assert (m = m') by (clear - E4 E5; Z.to_euclidean_division_equations; lia).
  assert (d = d') by (clear - E7 E8; Z.to_euclidean_division_equations; lia). congruence.
Qed.
Theorem C38_same_day : forall E a1 n1 ts1 a2 n2 ts2 x1 x2 ign,
  parsed "date" a1 n1 -> milliseconds (input a1 "timestamp") ts1 -> to_markdown E n1 ign = Ok (VStr x1) ->
  parsed "date" a2 n2 -> milliseconds (input a2 "timestamp") ts2 -> to_markdown E n2 ign = Ok (VStr x2) ->
  x1 = x2 <-> ts1 / 86400000 = ts2 / 86400000.
Proof.
  intros E a1 n1 ts1 a2 n2 ts2 x1 x2 ign P1 M1 R1 P2 M2 R2.
  destruct (C38_calendar_function (ts1 / 86400000)) as ([[y1 m1] d1] & C1 & V1 & _).
  destruct (C38_calendar_function (ts2 / 86400000)) as ([[y2 m2] d2] & C2 & V2 & _).
  assert (HY : forall a n ts y m d x, parsed "date" a n -> milliseconds (input a "timestamp") ts ->
     to_markdown E n ign = Ok (VStr x) -> calendar (ts / 86400000) (y, m, d) -> 1 <= y <= 9999 /\ x = iso_date (y, m, d)).
  { intros a n ts y m d x HP HM HR HC. destruct (Z_le_gt_dec 1 y); [destruct (Z_le_gt_dec y 9999)|].
    - split; [lia|]. pose proof (C38_date E a n ts y m d ign HP HM HC). rewrite H in HR by lia. congruence.
    - rewrite (C38_out_of_range E a n ts y m d ign HP HM HC) in HR by lia. discriminate.
    - rewrite (C38_out_of_range E a n ts y m d ign HP HM HC) in HR by lia. discriminate. }
  destruct (HY _ _ _ _ _ _ _ P1 M1 R1 C1) as [Y1 ->]. destruct (HY _ _ _ _ _ _ _ P2 M2 R2 C2) as [Y2 ->].
  cbn [valid_date] in V1, V2. pose proof (month_length_le y1 m1). pose proof (month_length_le y2 m2).
  split.
  - intros HI. apply iso_date_inj in HI; try lia.
    destruct (Z.lt_trichotomy (ts1 / 86400000) (ts2 / 86400000)) as [L|[L|L]]; [|exact L|].
    + pose proof (C38_later_is_later _ _ _ _ C1 C2 L) as K. rewrite HI in K. lia.
    + pose proof (C38_later_is_later _ _ _ _ C2 C1 L) as K. rewrite HI in K. lia.
  - intros HE. rewrite HE in C1. apply calendar_civil in C1, C2. congruence.
Qed.
(** Timestamps that are no numbers raise. *)
Theorem C38_not_a_number : forall E a n ign, parsed "date" a n ->
  (input a "timestamp" = VNone \/ (exists l, input a "timestamp" = VList l) \/ (exists l, input a "timestamp" = VDict l) ->
   to_markdown E n ign = Err TypeError) /\
  (input a "timestamp" = VStr [] -> to_markdown E n ign = Err ValueError).
Proof.
  intros E a n ign HP. rewrite (date_node E a n HP). split.
  - intros [H|[[l H]|[l H]]]; rewrite H; reflexivity.
  - intros H; rewrite H; reflexivity.
Qed.

Definition ex_date (v : value) : value := VDict [tyv "date"; (s "attrs", VDict [(s "timestamp", v)])].
Definition ms_str_small z : (Nat.leb (List.length (dec z)) 4300) = true -> milliseconds (VStr (dec z)) z.
Proof. intros H. constructor. now apply Nat.leb_le. Qed.
Example C38_example :
  parsed "date" [(s "timestamp", VStr (s "1582152559000"))] (get (ex_date (VStr (s "1582152559000")))) /\
  milliseconds (VStr (s "1582152559000")) 1582152559000 /\ calendar (1582152559000 / 86400000) (2020, 2, 19) /\
  to_markdown rt0 (get (ex_date (VStr (s "1582152559000")))) false = Ok (VStr (s "2020-02-19")) /\
  to_markdown rt0 (get (ex_date (VInt (-1)))) false = Ok (VStr (s "1969-12-31")) /\
  to_markdown rt0 (get (ex_date (VInt 253402300800000))) false = Err ERange.
Proof.
  split; [apply parsed_get; vm_compute; reflexivity|]. split; [exact (ms_str_small 1582152559000 eq_refl)|].
  split; [apply calendar_civil; vm_compute; reflexivity|]. repeat split; vm_compute; reflexivity.
Qed.
