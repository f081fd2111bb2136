(** C68: how long the Markdown can get. *)
From Coq Require Import List NArith ZArith Bool String Lia DecimalString.
From Verif Require Import PyStr Values Schema Parse Date Markdown Basics StrFacts Collapse MdFacts LeafFacts SpecDate DateFacts DateFacts2 ListFacts2
  SpecRaise SpecSize SizeFacts SizeFacts2 SizeFacts3 SpecMd SpecList Properties_Marks Properties_Nodes Properties_Layout Properties_Lists.
Import ListNotations.
Open Scope string_scope.
Open Scope list_scope.
Open Scope nat_scope.

(** ================================================================ lines and pipes *)
Definition lin (E : runtime) (n : node) (l : nat) : nat := 40 * size E n.
Lemma lin_sum E n l : sum (fun c => lin E c l) (kids n) = 40 * size E n - 40 * own_size E n.
Proof. unfold lin. rewrite sum_mul, (size_eq E n). lia. Qed.
Lemma lin_own E n : own_size E n <= size E n.
Proof. rewrite (size_eq E n). lia. Qed.
Section Linear.
  Variable E : runtime.
  Hypothesis HU : upper_bounded E.
  Variable f : N -> nat.
  Hypothesis Hk : forall c, f c <= 1.
  Hypothesis Hsp : f SP = 0.
  Hypothesis Hq : sum f (s "> ") = 0.
  Hypothesis Hb : f 92%N = 0.
  Hypothesis Hn : sum f (s "&nbsp;") = 0.
  Hypothesis Hbr : sum f (s "<br>") = 0.
  Hypothesis Hd : forall c, (45 <= c <= 57)%N -> f c = 0.
  Hypothesis HT : sum f (s "True") = 0.
  Hypothesis HF : sum f (s "False") = 0.
  Definition found (r : res str) : nat := match r with Ok x => sum lbc x + sum pipec x | Err _ => 0 end.
  Definition found_in (n : node) : nat :=
    found (content_to_markdown (to_md E) (n_content n) true) + found (content_to_markdown (to_md E) (n_content n) false) +
    found (doc_content_to_markdown (to_md E) (n_content n) true) + found (doc_content_to_markdown (to_md E) (n_content n) false).
  Lemma linear_ok n : ok E f 1 (lin E) (fun _ => True) n.
  Proof.
    assert (G1 : forall n, True -> sum (fun c => lin E c 0) (kids n) + 1 * (24 * own_size E n) + 1 * 9 <= lin E n 0).
    { intros m _. rewrite lin_sum. unfold lin. pose proof (lin_own E m). pose proof (own_pos E m). lia. }
    apply (all_ok E f 1 Hk (lin E) (fun _ => True) 0); auto.
    - intros i l _. rewrite lin_sum. unfold lin. pose proof (lin_own E i). pose proof (own_pos E i). lia.
    - intros m l _. rewrite lin_sum. unfold lin. pose proof (lin_own E m). pose proof (own_pos E m). lia.
    - intros m z _ _ _ i _. unfold ol_number. destruct z; rewrite ?(dec_free f _ Hd); try lia.
      destruct i; [destruct b; lia|]. rewrite (dec_free f _ Hd). lia.
    - intros m _ HO HK. apply (special_ok E HU f 1 Hk (lin E) (fun _ => True) found_in); auto.
      + intros m' _. specialize (G1 m' I). rewrite Hq, Hb. lia.
      + intros m' ign x _ HX. unfold found_in.
        assert (HV : sum lbc x + sum pipec x <= found_in m').
        { unfold found_in. destruct HX as [HX|HX]; destruct ign; rewrite HX; cbn [found]; lia. }
        unfold found_in in HV. lia.
      + lia.
      + lia.
    - intros t x. apply date_len.
  Qed.
End Linear.
Lemma line_breaks_ok E n : upper_bounded E -> ok E lbc 1 (lin E) (fun _ => True) n.
Proof.
  intros HU. apply linear_ok; try reflexivity; try exact HU; [exact lbc_max|].
  intros c Hc. unfold lbc, is_lb.
  repeat match goal with |- context [(?x <=? ?y)%N] => destruct (N.leb_spec x y); try lia end;
  repeat match goal with |- context [(?x =? ?y)%N] => destruct (N.eqb_spec x y); try lia end; reflexivity.
Qed.
Lemma pipes_ok E n : upper_bounded E -> ok E pipec 1 (lin E) (fun _ => True) n.
Proof.
  intros HU. apply linear_ok; try reflexivity; try exact HU; [exact pipec_max|].
  intros c Hc. unfold pipec, PIPE. destruct (N.eqb_spec c 124); [lia|reflexivity].
Qed.

(** ================================================================ length *)
Lemma within_kid m n c : In c (kids n) -> within m c -> within m n.
Proof. unfold kids. intros H HW. destruct (n_content n) as [| |l|] eqn:C; try easy. econstructor; eauto. Qed.
Section Length.
  Variable E : runtime.
  Hypothesis HU : upper_bounded E.
  Variable D : nat.
  Definition fits (n : node) : Prop := orders_below D n /\ (Z.of_nat (size E n) < 10 ^ Z.of_nat D)%Z.
  Definition quad (n : node) (l : nat) : nat := 280 * size E n * (2 * depth n + l + D).
  Lemma fits_kid n c : fits n -> In c (kids n) -> fits c.
  Proof.
    intros [H1 H2] HC. split.
    - intros m z HW HA. apply (H1 m z); [eapply within_kid; eauto|exact HA].
    - pose proof (size_kid E n c HC). lia.
  Qed.
  (** The children, as deep as the node allows. *)
  Lemma quad_sum n l : sum (fun c => quad c l) (kids n) + 280 * own_size E n * (2 * depth n + l + D) + 560 * sum (size E) (kids n) <= quad n l.
  Proof.
    assert (H : sum (fun c => quad c l) (kids n) + 560 * sum (size E) (kids n) <= 280 * sum (size E) (kids n) * (2 * depth n + l + D)).
    { rewrite <- sum_mul, <- sum_plus.
      replace (280 * sum (size E) (kids n) * (2 * depth n + l + D)) with ((280 * (2 * depth n + l + D)) * sum (size E) (kids n)) by lia.
      rewrite <- sum_mul. apply sum_le. intros c HC. unfold quad. pose proof (depth_kid n c HC). nia. }
    unfold quad at 2. rewrite (size_eq E n). lia.
  Qed.
  Lemma quad_up n l : quad n (S l) = quad n l + 280 * size E n.
  Proof. unfold quad. lia. Qed.
  Lemma quad_up_sum n l : sum (fun c => quad c (S l)) (kids n) = sum (fun c => quad c l) (kids n) + 280 * sum (size E) (kids n).
  Proof. rewrite <- sum_mul, <- sum_plus. unfold sum. f_equal. apply map_ext. intros c. apply quad_up. Qed.
  Lemma number_len z i : (Z.abs z < 10 ^ Z.of_nat D)%Z -> (Z.of_nat i < 10 ^ Z.of_nat D)%Z -> List.length (dec (z + Z.of_nat i)) <= D + 2.
  Proof.
    intros H1 H2. pose proof (dec_len (S D) (z + Z.of_nat i) ltac:(lia)) as H. rewrite Nat2Z.inj_succ, Z.pow_succ_r in H by lia.
    specialize (H ltac:(lia)). lia.
  Qed.
  Lemma depth_pos n : 1 <= depth n.
  Proof. rewrite depth_eq. lia. Qed.
  Lemma length_ok n : ok E wc 6 quad fits n.
  Proof.
    assert (GX : forall n ign x, fits n ->
      content_to_markdown (to_md E) (n_content n) ign = Ok x \/ doc_content_to_markdown (to_md E) (n_content n) ign = Ok x ->
      sum lbc x <= 40 * sum (size E) (kids n) /\ sum pipec x <= 40 * sum (size E) (kids n)).
    { intros m ign x _ HX.
      assert (GL : forall m, True -> sum (fun c => lin E c 0) (kids m) + 1 * (24 * own_size E m) + 1 * 9 <= lin E m 0).
      { intros m' _. rewrite lin_sum. unfold lin. pose proof (lin_own E m'). pose proof (own_pos E m'). lia. }
      assert (LS : sum (fun c => lin E c 0) (kids m) = 40 * sum (size E) (kids m)) by (unfold lin; apply sum_mul).
      rewrite <- LS.
      assert (TK : forall n c : node, True -> In c (kids n) -> True) by auto.
      destruct HX as [HX|HX].
      - pose proof (content_sum E lbc 1 (lin E) (fun _ => True) TK GL m ign x I (fun c _ => line_breaks_ok E c HU) HX).
        pose proof (content_sum E pipec 1 (lin E) (fun _ => True) TK GL m ign x I (fun c _ => pipes_ok E c HU) HX). lia.
      - pose proof (doc_sum E lbc 1 lbc_max (lin E) (fun _ => True) TK GL m ign x I (fun c _ => line_breaks_ok E c HU) HX).
        pose proof (doc_sum E pipec 1 pipec_max (lin E) (fun _ => True) TK GL m ign x I (fun c _ => pipes_ok E c HU) HX). lia. }
    assert (GB : forall n, fits n -> sum (fun c => quad c 0) (kids n) + 6 * (24 * own_size E n) + 6 * 9 +
       sum wc (s "> ") * (40 * sum (size E) (kids n) + 4 * own_size E n) + wc 92%N * (40 * sum (size E) (kids n)) <= quad n 0).
    { intros m _. pose proof (quad_sum m 0) as HQ. pose proof (own_pos E m) as HP. pose proof (depth_pos m) as HD.
      change (sum wc (s "> ")) with 7. change (wc 92%N) with 1.
      assert (280 * own_size E m * 2 <= 280 * own_size E m * (2 * depth m + 0 + D)) by (apply Nat.mul_le_mono_l; lia). lia. }
    apply (all_ok E wc 6 wc_max quad fits (6 * (D + 5))).
    - exact fits_kid.
    - intros m l. rewrite quad_up. lia.
    - intros m HG. pose proof (GB m HG). lia.
    - intros i l _. pose proof (quad_sum i (S l)) as HQ. pose proof (own_pos E i) as HP. pose proof (depth_pos i) as HD. change (wc SP) with 6.
      assert (280 * (2 * depth i + S l + D) <= 280 * own_size E i * (2 * depth i + S l + D)) by (apply Nat.mul_le_mono_r; lia). lia.
    - intros m l _. pose proof (quad_sum m l) as HQ. rewrite quad_up_sum. pose proof (own_pos E m) as HP. pose proof (depth_pos m) as HD.
      assert (280 * 2 <= 280 * own_size E m * (2 * depth m + l + D)) by nia. lia.
    - intros m z [HO HS] HK HZ i Hi. rewrite (ms_len wc 6 _ wc_max). apply Nat.mul_le_mono_l.
      assert (HI : (Z.of_nat i < 10 ^ Z.of_nat D)%Z).
      { pose proof (kids_len E m). rewrite (size_eq E m) in HS. lia. }
      assert (H1 : List.length (dec (1 + Z.of_nat i)) <= D + 5).
      { pose proof (kids_len E m) as K1. rewrite (size_eq E m) in HS. pose proof (own_pos E m) as K2.
        pose proof (dec_len (S D) (1 + Z.of_nat i) ltac:(lia)) as K3.
        rewrite Nat2Z.inj_succ, Z.pow_succ_r in K3 by lia. specialize (K3 ltac:(lia)). lia. }
      assert (H0 : List.length (dec (0 + Z.of_nat i)) <= D + 5).
      { pose proof (dec_len (S D) (0 + Z.of_nat i) ltac:(lia)) as H2. rewrite Nat2Z.inj_succ, Z.pow_succ_r in H2 by lia. specialize (H2 ltac:(lia)). lia. }
      destruct HZ as [HZ| ->]; [|exact H1]. destruct z as [|b|z| | | | |]; try exact H1.
      + cbn [ol_number]. destruct i as [|i]; [destruct b; (etransitivity; [|apply (Nat.le_add_l 5 D)]); vm_compute; lia|]. destruct b; [exact H1|exact H0].
      + cbn [ol_number]. pose proof (number_len z i (HO m z (within_here m) HZ) HI). lia.
    - intros m HG HO HK. apply (special_ok E HU wc 6 wc_max quad fits (fun n => 40 * sum (size E) (kids n))); try assumption.
      + exact fits_kid.
      + vm_compute. lia.
      + vm_compute. lia.
    - intros t x. apply date_len.
  Qed.
End Length.

(** ================================================================ C68 *)
(** The number of line breaks is linear in the size. *)
Theorem C68_lines : forall E n ign x, upper_bounded E -> to_markdown E n ign = Ok (VStr x) -> line_breaks x <= 40 * size E n.
Proof.
  intros E n ign x HU H. pose proof (line_breaks_ok E n HU I None ign (VStr x) H) as HB. unfold msv, lin in HB. cbn [py_str level] in HB.
  rewrite lbc_count in HB. lia.
Qed.
(** The length is at most the size times the nesting depth (plus the digits of the list numbers), up to a constant. *)
Theorem C68_length : forall E n ign x D, upper_bounded E -> orders_below D n -> (Z.of_nat (size E n) < 10 ^ Z.of_nat D)%Z ->
  to_markdown E n ign = Ok (VStr x) -> List.length x <= 280 * size E n * (2 * depth n + D).
Proof.
  intros E n ign x D HU HO HS H. pose proof (length_ok E HU D n (conj HO HS) None ign (VStr x) H) as HB. unfold msv, quad in HB. cbn [py_str level] in HB.
  pose proof (wc_len x). rewrite Nat.add_0_r in HB. lia.
Qed.


(** ---------------------------------------------------------------- in the size alone *)
Lemma uval_bound u : forall acc, (0 <= acc)%Z -> (0 <= uval u acc < (acc + 1) * 10 ^ Z.of_nat (List.length (ustr u)))%Z.
Proof.
  induction u as [|u IH|u IH|u IH|u IH|u IH|u IH|u IH|u IH|u IH|u IH]; intros acc HA; cbn [uval].
  1: { change (List.length (ustr Decimal.Nil)) with 0. change (10 ^ Z.of_nat 0)%Z with 1%Z. lia. }
  all: match goal with |- context [uval ?u ?a] => match goal with |- context [ustr ?d] =>
         change (List.length (ustr d)) with (S (List.length (ustr u))); rewrite Nat2Z.inj_succ, Z.pow_succ_r by lia; specialize (IH a ltac:(lia));
         assert (0 < 10 ^ Z.of_nat (List.length (ustr u)))%Z by (apply Z.pow_pos_nonneg; lia); nia end end.
Qed.
(** A number is below 10 to the power of its printed length. *)
Lemma dec_bound z : (Z.abs z < 10 ^ Z.of_nat (List.length (dec z)))%Z.
Proof.
  assert (HP : forall p, (Z.pos p < 10 ^ Z.of_nat (List.length (dec (Z.pos p))))%Z).
  { intros p. unfold dec. cbn [Z.to_int]. cbn [NilEmpty.string_of_int]. fold (ustr (Pos.to_uint p)).
    pose proof (uval_bound (Pos.to_uint p) 0 ltac:(lia)) as H. rewrite uval_zero, DecimalPos.Unsigned.of_to in H. lia. }
  destruct z as [|p|p]; [reflexivity|exact (HP p)|]. rewrite dec_neg. cbn [List.length Z.abs]. rewrite Nat2Z.inj_succ, Z.pow_succ_r by lia.
  specialize (HP p). lia.
Qed.
Lemma within_size E m n : within m n -> size E m <= size E n.
Proof.
  induction 1 as [n|m c n l HC HI HW IH]; [lia|]. assert (HK : In c (kids n)) by (unfold kids; now rewrite HC).
  pose proof (size_kid E n c HK). lia.
Qed.
Lemma pow_mono_nat a b : a <= b -> (10 ^ Z.of_nat a <= 10 ^ Z.of_nat b)%Z.
Proof. intros H. apply Z.pow_le_mono_r; lia. Qed.
Lemma orders_by_size E n : orders_below (size E n) n.
Proof.
  intros m z HW HA. apply (attr_len E) in HA. cbn [py_str] in HA. pose proof (dec_bound z) as HD. pose proof (within_size E m n HW) as HS.
  assert (List.length (dec z) <= size E n). { rewrite (size_eq E m) in HS. unfold own_size in HS. lia. }
  pose proof (pow_mono_nat _ _ H). lia.
Qed.
Lemma below_pow k : (Z.of_nat k < 10 ^ Z.of_nat k)%Z.
Proof. induction k as [|k IH]; [reflexivity|]. rewrite Nat2Z.inj_succ, Z.pow_succ_r by lia. lia. Qed.
Lemma list_max_in l : l <> [] -> In (list_max l) l.
Proof.
  induction l as [|a l IH]; [congruence|]. intros _. cbn [list_max fold_right]. fold (list_max l). destruct (Nat.max_spec a (list_max l)) as [[H1 ->]|[H1 ->]]; [|now left].
  right. apply IH. intros ->. cbn in H1. lia.
Qed.
Lemma depth_size E n : depth n <= size E n.
Proof.
  induction n as [k ty ve tx a co ma IH] using node_ind'. rewrite depth_eq, size_eq. unfold kids in *. cbn [n_content] in *.
  pose proof (own_pos E (Node k ty ve tx a co ma)). destruct co as [| |l|r]; cbn [map list_max]; try (cbn; lia). cbn in IH. rewrite Forall_forall in IH.
  assert (list_max (map depth l) <= sum (size E) l); [|lia].
  apply list_max_le. rewrite Forall_map, Forall_forall. intros c HC. pose proof (IH c HC). pose proof (sum_in (size E) l c HC). lia.
Qed.
(** At most quadratic in the size, whatever the document. *)
Theorem C68_quadratic : forall E n ign x, upper_bounded E -> to_markdown E n ign = Ok (VStr x) -> List.length x <= 840 * size E n * size E n.
Proof.
  intros E n ign x HU H. pose proof (C68_length E n ign x (size E n) HU (orders_by_size E n) (below_pow _) H) as HL.
  pose proof (depth_size E n). assert (280 * size E n * (2 * depth n + size E n) <= 280 * size E n * (3 * size E n)) by (apply Nat.mul_le_mono_l; lia).
  lia.
Qed.

(** ---------------------------------------------------------------- quadratic indeed *)
(** [nested m]: a bullet list in a bullet list in ..., m + 1 levels, every item the letter x. *)
Fixpoint nested (m : nat) : value :=
  match m with 0 => ex_ul [ex_li [ex_p "x"]] | S m => ex_ul [ex_li [ex_p "x"; nested m]] end.
Definition xp : node := Eval vm_compute in get (ex_p "x").
Definition ulnode (l : list node) : node := Node KbulletList (VStr (s "bulletList")) None None NoAttrs (Items l) NoField.
Definition linode (l : list node) : node := Node KlistItem (VStr (s "listItem")) None None AOpt (Items l) NoField.
Fixpoint nestedn (m : nat) : node :=
  match m with 0 => ulnode [linode [xp]] | S m => ulnode [linode [xp; nestedn m]] end.
Lemma parse_ul w v a : parse_node w v = ret a -> parse_node w (ex_ul [v]) = ret (ulnode [a]).
Proof.
  intros H. change (parse_node w (ex_ul [v])) with
    (node_from_entry w KbulletList [tyv "bulletList"; (s "content", VList [v])] (EList [parse_node w v])).
  rewrite H. reflexivity.
Qed.
Lemma parse_li w v a : parse_node w v = ret a -> parse_node w (ex_li [ex_p "x"; v]) = ret (linode [xp; a]).
Proof.
  intros H. change (parse_node w (ex_li [ex_p "x"; v])) with
    (node_from_entry w KlistItem [tyv "listItem"; (s "content", VList [ex_p "x"; v])] (EList [parse_node w (ex_p "x"); parse_node w v])).
  rewrite H. reflexivity.
Qed.
Lemma nested_parse w m : parse_node w (nested m) = ret (nestedn m).
Proof. induction m as [|m IH]; [reflexivity|]. cbn [nested nestedn]. apply parse_ul, parse_li, IH. Qed.
Fixpoint nested_lines (d m : nat) : list oline :=
  Item d 0 (s "x") :: match m with 0 => [] | S m => nested_lines (S d) m end.
Lemma nested_outline m : forall d, outline rt0 KbulletList d (nestedn m) (nested_lines d m).
Proof.
  assert (HX : exists x, renders rt0 xp x /\ split_on NL (rstrip x) = [s "x"]) by (eexists; split; vm_compute; reflexivity).
  destruct HX as (x & HR & HS).
  induction m as [|m IH]; intros d; cbn [nestedn nested_lines].
  - apply (o_list rt0 KbulletList d _ [linode [xp]]); [reflexivity|reflexivity|].
    exact (i_cons rt0 KbulletList d 0 (linode [xp]) xp [] x (s "x") [] [] [] [] eq_refl ltac:(discriminate) HR HS (b_nil _ _ d) (i_nil _ _ d 1)).
  - apply (o_list rt0 KbulletList d _ [linode [xp; nestedn m]]); [reflexivity|reflexivity|].
    assert (HB : blocks rt0 KbulletList d [nestedn m] (nested_lines (S d) m ++ [])).
    { apply b_sub; [now destruct m|apply IH|destruct m; discriminate|apply b_nil]. }
    pose proof (i_cons rt0 KbulletList d 0 (linode [xp; nestedn m]) xp [nestedn m] x (s "x") [] _ [] [] eq_refl ltac:(discriminate) HR HS HB (i_nil _ _ d 1)) as H.
    cbn [map app] in H. rewrite !app_nil_r in H. exact H.
Qed.
Lemma nested_size m : size rt0 (nestedn m) = 5 * S m.
Proof.
  induction m as [|m IH]; [reflexivity|].
  assert (HE : size rt0 (nestedn (S m)) = 5 + size rt0 (nestedn m)); [|lia].
  cbn [nestedn]. rewrite !size_eq. change (kids (ulnode [linode [xp; nestedn m]])) with [linode [xp; nestedn m]].
  change (own_size rt0 (ulnode [linode [xp; nestedn m]])) with 1.
  rewrite sum_cons. rewrite (size_eq rt0 (linode [xp; nestedn m])). change (own_size rt0 (linode [xp; nestedn m])) with 1.
  change (kids (linode [xp; nestedn m])) with [xp; nestedn m]. rewrite !sum_cons. change (size rt0 xp) with 3. rewrite <- (size_eq rt0 (nestedn m)).
  unfold sum at 1 2. cbn [map list_sum fold_right]. lia.
Qed.
Lemma join_len (sep : str) l : l <> [] -> List.length (join sep l) + List.length sep = list_sum (map (fun x : str => List.length x + List.length sep) l).
Proof.
  induction l as [|a l IH]; [congruence|]. intros _. destruct l as [|b l].
  - cbn. lia.
  - change (join sep (a :: b :: l)) with (a ++ sep ++ join sep (b :: l)). rewrite !app_length. specialize (IH ltac:(discriminate)).
    change (list_sum (map (fun x : str => List.length x + List.length sep) (a :: b :: l)))
      with (List.length a + List.length sep + list_sum (map (fun x : str => List.length x + List.length sep) (b :: l))). lia.
Qed.
Lemma nested_len m : forall d, list_sum (map (fun x : str => List.length x + 1) (map print_bullet (nested_lines d m))) = S m * (4 * d + 2 * m + 4).
Proof.
  induction m as [|m IH]; intros d.
  - cbn [nested_lines map list_sum fold_right print_bullet]. unfold indentation. rewrite !app_length, repeat_length. change (List.length (s "- ")) with 2.
    change (List.length (s "x")) with 1. lia.
  - change (nested_lines d (S m)) with (Item d 0 (s "x") :: nested_lines (S d) m). cbn [map list_sum fold_right]. fold (list_sum (map (fun x : str => List.length x + 1) (map print_bullet (nested_lines (S d) m)))).
    rewrite IH. cbn [print_bullet]. unfold indentation. rewrite !app_length, repeat_length. change (List.length (s "- ")) with 2.
    change (List.length (s "x")) with 1. lia.
Qed.
(** The family reaches the quadratic bound: [m + 1] nested lists of size [5 (m + 1)] give [2 (m + 1) (m + 2) - 1] characters. *)
Theorem C68_quadratic_reached : forall m, exists n x,
  parse_node true (nested m) = ([], Ok n) /\ size rt0 n = 5 * (m + 1) /\
  to_markdown rt0 n false = Ok (VStr x) /\ List.length x + 1 = 2 * (m + 1) * (m + 2).
Proof.
  intros m. exists (nestedn m), (join nl (map print_bullet (nested_lines 0 m))).
  split; [apply nested_parse|]. split; [rewrite nested_size; lia|]. split.
  - apply (C31_bullet_outline rt0 true (nested m)); [now rewrite nested_parse|apply nested_outline].
  - pose proof (join_len nl (map print_bullet (nested_lines 0 m)) ltac:(destruct m; discriminate)) as H. change (List.length nl) with 1 in H.
    rewrite nested_len in H. lia.
Qed.
(** So no linear bound holds. *)
Theorem C68_linear_refuted : forall K, exists v n x, parse_node true v = ([], Ok n) /\ upper_bounded rt0 /\
  to_markdown rt0 n false = Ok (VStr x) /\ K * size rt0 n < List.length x.
Proof.
  intros K. destruct (C68_quadratic_reached (3 * K + 1)) as (n & x & HP & HS & HM & HL). exists (nested (3 * K + 1)), n, x.
  split; [exact HP|]. split; [intros y; cbn; lia|]. split; [exact HM|]. rewrite HS. nia.
Qed.

(** ---------------------------------------------------------------- the size counts a "level" with its value *)
Definition ex_h (z : Z) : value :=
  VDict [tyv "heading"; (s "attrs", VDict [(s "level", VInt z)]); (s "content", VList [VDict [tyv "text"; (s "text", VStr (s "x"))]])].
Definition ex_hn (z : Z) : node :=
  Node Kheading (VStr (s "heading")) None None (AObj [(s "level", VInt z); (s "localId", VOpt)])
    (Items [Node Ktext (VStr (s "text")) None (Some (VStr (s "x"))) NoAttrs NoField SOpt]) SOpt.
Lemma hashes_len n : List.length (hashes n) = n.
Proof. induction n as [|n IH]; [reflexivity|]. cbn [hashes]. rewrite app_length, IH. reflexivity. Qed.
(** ... because a heading writes that many hash signs, for any integer: a few characters of input can give any length. *)
Theorem C68_heading_level : forall z, (0 <= z)%Z -> exists n x, parse_node true (ex_h z) = ([], Ok n) /\
  to_markdown rt0 n false = Ok (VStr x) /\ List.length x = Z.to_nat z + 6.
Proof.
  intros z Hz. exists (ex_hn z), (nl ++ nl ++ repeat_str (s "#") z ++ s " x" ++ nl ++ nl). split; [reflexivity|].
  split; [reflexivity|]. rewrite !app_length, repeat_hashes, hashes_len. change (List.length nl) with 1. change (List.length (s " x")) with 2. lia.
Qed.
(** The hypotheses are met: a document of depth 7 whose one ordered list starts with 7. *)
Definition ex_big : value :=
  VDict [tyv "doc"; (s "version", VInt 1); (s "content", VList [ex_h 2; ex_ol 7 [ex_li [ex_p "one"]; ex_li [ex_p "two"]];
    VDict [tyv "blockquote"; (s "content", VList [ex_p "quoted"; ex_p "text"])]; nested 1])].
Ltac all_within :=
  repeat match goal with
  | H : within _ (Node _ _ _ _ _ _ _) |- _ => inversion H; clear H; try subst
  | H : n_content (Node _ _ _ _ _ _ _) = _ |- _ => cbn [n_content] in H; first [discriminate H | injection H as H; try subst]
  | H : In _ (_ :: _) |- _ => destruct H as [H|H]; try subst
  | H : In _ [] |- _ => destruct H
  | H : attr (n_attrs (Node _ _ _ _ _ _ _)) _ = _ |- _ => vm_compute in H; first [discriminate H | injection H as H; try subst]
  end.
Example C68_example : upper_bounded rt0 /\ (exists x, to_markdown rt0 (get ex_big) false = Ok (VStr x) /\ List.length x = 55 /\ line_breaks x = 13) /\
  size rt0 (get ex_big) = 46 /\ depth (get ex_big) = 7 /\ orders_below 2 (get ex_big).
Proof.
  split; [intros y; cbn; lia|]. split; [eexists; split; [vm_compute; reflexivity|split; reflexivity]|].
  split; [vm_compute; reflexivity|]. split; [vm_compute; reflexivity|]. evaluated ex_big. intros m z HW HA. all_within. reflexivity.
Qed.
