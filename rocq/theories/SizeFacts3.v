(** Quotes, cells, numbers and dates; the three measures. *)
From Coq Require Import List NArith ZArith Bool String Lia DecimalString.
From Verif Require Import PyStr Values Schema Parse Date Markdown Basics StrFacts Collapse MdFacts LeafFacts SpecDate DateFacts DateFacts2 ListFacts2
  SpecRaise SpecSize SizeFacts SizeFacts2.
Import ListNotations.
Open Scope string_scope.
Open Scope list_scope.
Open Scope nat_scope.

(** ---------------------------------------------------------------- numbers *)
Lemma digits_of D : forall y, (0 <= y < 10 ^ Z.of_nat D)%Z ->
  exists u, List.length (ustr u) = D /\ (D <> 0 -> u <> Decimal.Nil) /\ forall acc, uval u acc = (acc * 10 ^ Z.of_nat D + y)%Z.
Proof.
  induction D as [|D IH]; intros y Hy.
  - exists Decimal.Nil. split; [reflexivity|]. split; [congruence|]. intros acc. cbn [uval]. change (10 ^ Z.of_nat 0)%Z with 1%Z in *. lia.
  - rewrite Nat2Z.inj_succ, Z.pow_succ_r in * by lia. set (p := (10 ^ Z.of_nat D)%Z) in *.
    assert (HP : (0 < p)%Z) by (apply Z.pow_pos_nonneg; lia).
    set (c := (y / p)%Z). set (r := (y mod p)%Z).
    assert (HC : (0 <= c <= 9)%Z). { unfold c. split; [apply Z.div_pos; lia|]. assert (y / p < 10)%Z by (apply Z.div_lt_upper_bound; lia). lia. }
    assert (HR : (0 <= r < p)%Z) by (apply Z.mod_pos_bound; lia).
    assert (HY : (y = p * c + r)%Z) by (unfold c, r; apply Z.div_mod; lia).
    destruct (IH r HR) as (u & H1 & _ & H3). destruct (dig_spec c u HC) as (S1 & S2 & S3).
    exists (dig c u). split; [rewrite S1; cbn [List.length]; now rewrite H1|]. split; [auto|]. intros acc. rewrite S3, H3. rewrite HY. ring.
Qed.
Lemma dec_len_pos D y : 1 <= D -> (0 <= y < 10 ^ Z.of_nat D)%Z -> List.length (dec y) <= D.
Proof.
  intros HD Hy. destruct (digits_of D y Hy) as (u & H1 & H2 & H3).
  assert (HV : uval u 0 = y) by (rewrite H3; lia).
  pose proof (pad_digits u y (H2 ltac:(lia)) HV) as HP.
  apply (f_equal (@List.length N)) in HP. unfold pad in HP. rewrite app_length, repeat_len in HP. change (List.length (s "0")) with 1 in HP. lia.
Qed.
Lemma dec_neg p : dec (Z.neg p) = 45%N :: dec (Z.pos p).
Proof. reflexivity. Qed.
Lemma dec_len D y : 1 <= D -> (Z.abs y < 10 ^ Z.of_nat D)%Z -> List.length (dec y) <= S D.
Proof.
  intros HD Hy. destruct y as [|p|p]; [|pose proof (dec_len_pos D (Z.pos p) HD); lia|].
  - pose proof (dec_len_pos D 0 HD). lia.
  - rewrite dec_neg. cbn [List.length]. pose proof (dec_len_pos D (Z.pos p) HD ltac:(cbn in Hy; lia)). lia.
Qed.
Lemma dec_free f z : (forall c, (45 <= c <= 57)%N -> f c = 0) -> sum f (dec z) = 0.
Proof.
  intros H. assert (HA : forall x, (forall c, In c x -> (45 <= c <= 57)%N) -> sum f x = 0).
  { induction x as [|c x IH]; [reflexivity|]. intros HX. rewrite sum_cons, (H c), IH; [reflexivity|intros d Hd; apply HX; now right|apply HX; now left]. }
  apply HA. intros c. apply dec_chars.
Qed.
Lemma date_len dg t x : date_to_markdown dg t = Ok x -> List.length x <= 10.
Proof.
  intros H. destruct (py_int dg t) as [n|e] eqn:P.
  - rewrite (date_spec dg t n P) in H. cbn zeta in H. destruct (_ && _)%bool; [|discriminate]. okinj H.
    destruct (civil_of_days _) as [[y m] d]. cbn [iso_date]. rewrite !app_length. vm_compute. lia.
  - unfold date_to_markdown in H. rewrite P in H. discriminate.
Qed.

(** ---------------------------------------------------------------- the special kinds *)
Lemma upper_len E x : upper_bounded E -> List.length (py_upper E x) <= 3 * List.length x.
Proof. intros H. unfold py_upper. destruct (forallb is_ascii x); [rewrite map_length; lia|apply H]. Qed.
Section Special.
  Variable E : runtime.
  Hypothesis HU : upper_bounded E.
  Variable f : N -> nat.
  Variable k : nat.
  Hypothesis Hk : forall c, f c <= k.
  Notation ms := (sum f).
  Variable B : node -> nat -> nat.
  Variable good : node -> Prop.
  Variable X : node -> nat.
  Hypothesis good_kid : forall n c, good n -> In c (kids n) -> good c.
  Hypothesis B1 : forall n, good n ->
    sum (fun c => B c 0) (kids n) + k * (24 * own_size E n) + k * 9 + ms (s "> ") * (X n + 4 * own_size E n) + f 92%N * X n <= B n 0.
  Hypothesis HX : forall n ign x, good n ->
    content_to_markdown (to_md E) (n_content n) ign = Ok x \/ doc_content_to_markdown (to_md E) (n_content n) ign = Ok x ->
    sum lbc x <= X n /\ sum pipec x <= X n.
  Hypothesis Hsp : ms (s "&nbsp;") <= f SP.
  Hypothesis Hbr : ms (s "<br>") <= f NL.
  Lemma B1' n : good n -> sum (fun c => B c 0) (kids n) + k * (24 * own_size E n) + k * 9 <= B n 0.
  Proof. intros H. pose proof (B1 n H). lia. Qed.
  Lemma special_ok n : good n -> (forall c, In c (kids n) -> ok E f k B good c) -> In (n_kind n) special -> claim E f k B n.
  Proof.
    intros HG HO HK. pose proof (B1 n HG) as HB. pose proof (own_pos E n) as HP.
    pose proof (fun ign x => content_sum E f k B good good_kid B1' n ign x HG HO) as HC.
    pose proof (fun ign x => doc_sum E f k Hk B good good_kid B1' n ign x HG HO) as HD.
    pose proof (fun ign x => HX n ign x HG) as HXn. clear HX.
    intros lv ign v H. pose proof (nl_k f k Hk) as HN. unfold slack. pose proof (Hk NL) as HNL.
    pose proof (ms_len f k (s "**") Hk) as K1. change (List.length (s "**")) with 2 in K1.
    destruct n as [k0 ty ve tx a co ma]. set (n := Node k0 ty ve tx a co ma) in *. cbn [n_kind n_content n_attrs] in *.
    cbn in HK. destruct HK as [<-|[<-|[<-|[<-|[<-|[]]]]]]; cbn [to_md] in H; (destruct lv; [discriminate|]); cbn [level].
    - (* blockquote *) apply rbind_ok in H as (x & H1 & H). okinj H. unfold msv. cbn [py_str]. rewrite sum_app.
      destruct (HXn ign x (or_intror H1)) as [HL _]. apply HD in H1.
      pose proof (ms_indent f (s "> ") (strip_double_empty_line x)) as HI. pose proof (ms_strip f x). pose proof (ms_strip lbc x). nia.
    - (* panel *) apply rbind_ok in H as (t & HT & H). apply rbind_ok in H as (p & Hp & H). apply rbind_ok in H as (x & H1 & H). okinj H.
      destruct (HXn ign x (or_intror H1)) as [HL _]. apply HD in H1. destruct t; try discriminate. okinj Hp.
      apply (attr_len E) in HT. cbn [py_str] in HT. pose proof (upper_len E p HU) as HUP. set (up := py_upper E p) in *. clearbody up.
      assert (HA : attrs_size E a + 1 <= own_size E n) by (unfold own_size; cbn [n_attrs n]; lia).
      unfold msv. cbn [py_str]. rewrite sum_app.
      set (body := join nl [s "**" ++ up ++ s "**"; []; x]).
      assert (HBODY : body = (s "**" ++ up ++ s "**") ++ [NL; NL] ++ x) by (unfold body; cbn [join]; unfold nl; now rewrite <- !app_assoc).
      pose proof (ms_indent f (s "> ") (strip_double_empty_line body)) as HI. pose proof (ms_strip f body) as HS1. pose proof (ms_strip lbc body) as HS2.
      pose proof (ms_len f k up Hk) as M1. pose proof (ms_len lbc 1 up lbc_max) as M2.
      assert (E1 : ms body = ms (s "**") + (ms up + ms (s "**")) + (f NL + (f NL + 0) + ms x)) by (rewrite HBODY, !sum_app, !sum_cons, sum_nil; lia).
      assert (E2 : sum lbc body = sum lbc up + 2 + sum lbc x).
      { rewrite HBODY, !sum_app. change (sum lbc (s "**")) with 0. change (sum lbc [NL; NL]) with 2. lia. }
      clearbody body.
      assert (HL2 : sum lbc (strip_double_empty_line body) + 1 <= X n + 4 * own_size E n) by lia.
      apply (Nat.mul_le_mono_l _ _ (ms (s "> "))) in HL2. nia.
    - (* decisionItem *) unfold decision_item_md in H. apply rbind_ok in H as (x & H1 & H). okinj H. unfold msv. cbn [py_str].
      destruct (HXn ign x (or_introl H1)) as [HL _]. apply HC in H1.
      pose proof (ms_quote f (rstrip x)) as HQ. pose proof (ms_rstrip f x). pose proof (ms_rstrip lbc x). nia.
    - (* tableCell *) unfold table_cell_md in H. apply rbind_ok in H as (x & H1 & H). okinj H. unfold msv. cbn [py_str].
      destruct (HXn ign x (or_introl H1)) as [_ HL]. apply HC in H1. pose proof (ms_cell f x Hsp Hbr). nia.
    - (* tableHeader *) unfold table_cell_md in H. apply rbind_ok in H as (x & H1 & H). okinj H. unfold msv. cbn [py_str].
      destruct (HXn ign x (or_introl H1)) as [_ HL]. apply HC in H1. pose proof (ms_cell f x Hsp Hbr). nia.
  Qed.
End Special.
