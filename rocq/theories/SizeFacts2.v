(** Bounds on additive measures of the Markdown, by induction on the tree. *)
From Coq Require Import List NArith ZArith Bool String Lia.
From Verif Require Import PyStr Values Schema Parse Date Markdown Basics StrFacts Collapse MdFacts LeafFacts SpecSize SizeFacts.
Import ListNotations.
Open Scope string_scope.
Open Scope list_scope.
Open Scope nat_scope.

Definition kids (n : node) : list node := match n_content n with Items l => l | _ => [] end.
Lemma size_eq E n : size E n = own_size E n + sum (size E) (kids n).
Proof. destruct n as [k ty ve tx a co ma]. cbn [size]. unfold kids. cbn [n_content]. now destruct co. Qed.
Lemma depth_eq n : depth n = 1 + list_max (map depth (kids n)).
Proof. destruct n as [k ty ve tx a co ma]. cbn [depth]. unfold kids. cbn [n_content]. now destruct co. Qed.
Lemma own_pos E n : 1 <= own_size E n.
Proof. unfold own_size. lia. Qed.
Lemma size_pos E n : 1 <= size E n.
Proof. rewrite size_eq. pose proof (own_pos E n). lia. Qed.
Lemma size_kid E n c : In c (kids n) -> size E c < size E n.
Proof. intros H. rewrite (size_eq E n). pose proof (own_pos E n). pose proof (sum_in (size E) _ _ H). lia. Qed.
Lemma depth_kid n c : In c (kids n) -> depth c < depth n.
Proof.
  intros H. rewrite (depth_eq n). pose proof (proj1 (list_max_le (map depth (kids n)) (list_max (map depth (kids n)))) (le_n _)) as HM.
  rewrite Forall_forall in HM. specialize (HM (depth c) (in_map depth _ _ H)). lia.
Qed.
Lemma kids_len E n : List.length (kids n) <= sum (size E) (kids n).
Proof. rewrite <- (Nat.mul_1_l (List.length _)), <- sum_const. apply sum_le. intros; apply size_pos. Qed.

Lemma attr_len E a g v : attr a g = Ok v -> List.length (py_str E v) <= attrs_size E a.
Proof.
  destruct a as [| |l]; cbn; try discriminate. destruct (lookup g l) eqn:L; [|discriminate]. intros [= ->]. apply lookup_In in L.
  pose proof (sum_in (attr_size E) l _ L) as H. unfold sum in H. unfold attr_size at 1 in H. cbn [snd] in H. lia.
Qed.
Lemma level_len E a v x c : attr a (s "level") = Ok v -> times v [c] = Ok x -> List.length x <= 1 + attrs_size E a.
Proof.
  destruct a as [| |l]; cbn; try discriminate. destruct (lookup (s "level") l) eqn:L; [|discriminate]. intros [= ->]. apply lookup_In in L.
  pose proof (sum_in (attr_size E) l _ L) as H. unfold sum in H. unfold attr_size at 1, level_size in H. cbn [snd fst] in H.
  destruct v; cbn [times]; try discriminate.
  - intros [= <-]. destruct b; cbn; lia.
  - intros [= <-]. unfold repeat_str. change (str_eqb (s "level") (s "level")) with true in H. cbn iota in H.
    assert (HR : forall n, List.length (repeat_nat [c] n) = n) by (induction n; cbn; congruence). rewrite HR. lia.
Qed.
Lemma repeat_len x n : List.length (repeat_nat x n) = n * List.length x.
Proof. induction n; cbn [repeat_nat]; [reflexivity|]. rewrite app_length, IHn. lia. Qed.

Lemma for_each_sum {A B} (g : A -> res (list B)) (h : B -> nat) (b : A -> nat) d l lst :
  (forall a r, In a l -> g a = Ok r -> sum h r + d <= b a) -> for_each g l = Ok lst -> sum h lst + d * List.length l <= sum b l.
Proof.
  revert lst. induction l as [|a l IH]; intros lst H HF.
  - injection HF as <-. cbn. lia.
  - cbn in HF. apply rbind_ok in HF as (r & H1 & HF). apply rbind_ok in HF as (r' & H2 & HF). injection HF as <-.
    rewrite sum_app, sum_cons. pose proof (H a r (or_introl eq_refl) H1). specialize (IH r' (fun x y Hx => H x y (or_intror Hx)) H2).
    cbn [List.length]. lia.
Qed.
Lemma for_each_nil {A B} (raw : res (list B)) (l : list A) lst :
  (forall r, raw = Ok r -> r = []) -> for_each (fun _ => raw) l = Ok lst -> lst = [].
Proof.
  intros H. revert lst. induction l as [|a l IH]; intros lst HF; [now injection HF as <-|].
  cbn in HF. apply rbind_ok in HF as (r & H1 & HF). apply rbind_ok in HF as (r' & H2 & HF). injection HF as <-.
  rewrite (H r H1), (IH r' H2). reflexivity.
Qed.
Lemma loop_sum {B} c (g : node -> res (list B)) raw (h : B -> nat) (b : node -> nat) d lst :
  (forall r, raw = Ok r -> r = []) ->
  (forall a r, In a (match c with Items l => l | _ => [] end) -> g a = Ok r -> sum h r + d <= b a) -> loop c g raw = Ok lst ->
  sum h lst + d * List.length (match c with Items l => l | _ => [] end) <= sum b (match c with Items l => l | _ => [] end).
Proof.
  intros HR H HL. destruct c as [| |l|v]; cbn [loop] in HL; try discriminate.
  - eapply for_each_sum; eauto.
  - assert (lst = []) as -> by (destruct v; try discriminate; eapply for_each_nil; eauto). cbn. lia.
Qed.
Lemma raw_attr B ign (r : list B) : try_ ign (Err (A := B) AttributeError) = Ok r -> r = [].
Proof. unfold try_. destruct ign; [now intros [= <-]|discriminate]. Qed.
Lemma raw_err B e (r : list B) : Err e = Ok r -> r = [].
Proof. discriminate. Qed.

Lemma ok_inj {A} (a b : A) : Ok a = Ok b -> a = b.
Proof. congruence. Qed.
Ltac okinj H := apply ok_inj in H; subst.

Section Bound.
  Variable E : runtime.
  Variable f : N -> nat.
  Variable k : nat.
  Hypothesis Hk : forall c, f c <= k.
  Notation ms := (sum f).
  Definition msv (v : value) : nat := ms (py_str E v).

  Lemma mlen x : ms x <= k * List.length x.
  Proof. now apply ms_len. Qed.
  Lemma join_values_sum sep vs x : join_values sep vs = Ok x -> ms x <= sum (fun v => msv v + ms sep) vs.
  Proof.
    unfold join_values. intros H. apply rbind_ok in H as (xs & H1 & H). okinj H.
    pose proof (ms_join f sep xs) as HJ. enough (sum (fun x : str => ms x + ms sep) xs <= sum (fun v => msv v + ms sep) vs) by lia. clear HJ.
    revert xs H1. induction vs as [|v vs IH]; intros xs H1; [okinj H1; reflexivity|].
    cbn [mapM] in H1. apply rbind_ok in H1 as (y & HY & H1). apply rbind_ok in H1 as (ys & HS & H1). okinj H1.
    rewrite !sum_cons. specialize (IH ys HS). destruct v; try discriminate. okinj HY.
    apply Nat.add_le_mono; [reflexivity|exact IH].
  Qed.

  (** Marks. *)
  Lemma mark_sum m v v' : mark_to_markdown E m v = Ok v' -> msv v' <= msv v + k * (6 * mark_size E m).
  Proof.
    unfold mark_to_markdown, mark_size. intros H.
    assert (HW : forall d, List.length d <= 2 -> wrap_mark d v = Ok v' -> msv v' <= msv v + k * 4).
    { intros d Hd HW. destruct v; try discriminate. okinj HW. destruct (nonblank x); [|unfold msv; cbn [py_str]; lia].
      unfold msv. cbn [py_str]. rewrite !sum_app. pose proof (mlen d). nia. }
    destruct (m_kind m); try (okinj H; nia); try (apply HW in H; [nia|vm_compute; lia]).
    - (* code *) destruct v; cbn [code_mark] in H; try discriminate.
      + destruct (existsb _ _); [discriminate|]. okinj H. unfold msv. cbn [py_str]. destruct (nonblank x); [|nia].
        rewrite !sum_app. pose proof (mlen (s "`` ")) as H1. pose proof (mlen (s " ``")) as H2.
        change (List.length (s "`` ")) with 3 in H1. change (List.length (s " ``")) with 3 in H2. nia.
      + destruct (existsb _ _); discriminate.
      + destruct (existsb _ _); discriminate.
    - (* link *) unfold link_mark in H. apply rbind_ok in H as (t & H1 & H). apply rbind_ok in H as (h & H2 & H). okinj H.
      unfold msv. cbn [py_str]. rewrite !sum_app.
      pose proof (mlen (s "[")) as K1. pose proof (mlen (s "](")) as K2. pose proof (mlen (s ")")) as K3.
      change (List.length (s "[")) with 1 in K1. change (List.length (s "](")) with 2 in K2. change (List.length (s ")")) with 1 in K3.
      pose proof (attr_len E _ _ _ H1) as L1. pose proof (attr_len E _ _ _ H2) as L2.
      pose proof (mlen (py_str E t)) as M1. pose proof (mlen (py_str E h)) as M2.
      assert (HT : ms (py_str E (match t with VStr _ => t | _ => v end)) <= ms (py_str E v) + k * attrs_size E (m_attrs m)).
      { destruct t; try lia. nia. }
      nia.
    - (* indentation *) apply rbind_ok in H as (t & H1 & H). apply rbind_ok in H as (h & H2 & H). okinj H.
      unfold msv. cbn [py_str]. pose proof (mlen h). pose proof (level_len E _ _ _ _ H1 H2). nia.
  Qed.
  Lemma marks_sum ms v v' : apply_marks E ms v = Ok v' -> msv v' <= msv v + k * (6 * sum (mark_size E) ms).
  Proof.
    revert v. induction ms as [|m ms IH]; intros v; cbn [apply_marks]; [let Hq := fresh in (intros Hq; okinj Hq); lia|]. rewrite sum_cons.
    destruct (mark_to_markdown E m v) as [w|e] eqn:M.
    - intros H. apply IH in H. apply mark_sum in M. nia.
    - destruct e; try discriminate. let Hq := fresh in (intros Hq; okinj Hq). nia.
  Qed.
  Lemma style_sum n v v' : add_style E (n_marks n) v = Ok v' -> 
    msv v' + k * 6 * (1 + match n_text n with Some t => List.length (py_str E t) | None => 0 end + attrs_size E (n_attrs n)) <= msv v + k * 6 * own_size E n.
  Proof.
    unfold own_size. destruct (n_marks n) as [| |l|r]; cbn [add_style]; try (let Hq := fresh in (intros Hq; okinj Hq); nia).
    intros H. apply marks_sum in H. unfold sum in H. nia.
  Qed.

  (** ------------------------------------------------------------ nodes *)
  Variable B : node -> nat -> nat.
  Variable good : node -> Prop.
  Variable num : nat.
  Definition slack (n : node) : nat := k * (9 + 6 * List.length (kids n)).
  Definition level (lv : option nat) : nat := match lv with Some l => l | None => 0 end.
  Definition claim (n : node) : Prop := forall lv ign v, to_md E n lv ign = Ok v -> msv v + slack n <= B n (level lv).
  Definition ok (n : node) : Prop := good n -> claim n.
  Hypothesis good_kid : forall n c, good n -> In c (kids n) -> good c.
  Hypothesis Bup : forall n l, B n l <= B n (S l).
  Hypothesis B1 : forall n, good n -> sum (fun c => B c 0) (kids n) + k * (24 * own_size E n) + k * 9 <= B n 0.
  Hypothesis BI : forall i l, good i -> sum (fun c => B c (S l)) (kids i) + k * 13 + 4 * l * f SP + num <= B i (S l).
  Hypothesis BL : forall n l, good n -> sum (fun i => B i (S l)) (kids n) + k * 9 <= B n l.
  Hypothesis Hnum : forall n z, good n -> n_kind n = KorderedList ->
    (attr (n_attrs n) (s "order") = Ok z \/ z = VInt 1) -> forall i, i <= List.length (kids n) -> ms (ol_number z i) <= num.
  Definition special : list nkind := [Kblockquote; Kpanel; KdecisionItem; KtableCell; KtableHeader].
  Hypothesis HS : forall n, good n -> (forall c, In c (kids n) -> ok c) -> In (n_kind n) special -> claim n.

  Lemma slack_ge n : k * 9 <= slack n.
  Proof. unfold slack. nia. Qed.
  Lemma Bmin n : good n -> k * 33 <= B n 0.
  Proof. intros H. pose proof (B1 n H). pose proof (own_pos E n). nia. Qed.
  Lemma Bup0 n l : B n 0 <= B n l.
  Proof. induction l; [lia|]. pose proof (Bup n l). lia. Qed.

  (** The children of a node rendered one after the other. *)
  Lemma content_sum n ign x : good n -> (forall c, In c (kids n) -> ok c) -> content_to_markdown (to_md E) (n_content n) ign = Ok x ->
    ms x + k * 6 * List.length (kids n) <= sum (fun c => B c 0) (kids n).
  Proof.
    intros HG HO. unfold content_to_markdown.
    assert (HL : (do lst <- loop (n_content n) (fun n => try_ ign (to_md E n None false)) (try_ ign (Err AttributeError)); join_values [] lst) = Ok x ->
      ms x + k * 6 * List.length (kids n) <= sum (fun c => B c 0) (kids n)).
    { intros H. apply rbind_ok in H as (lst & H1 & H2). apply join_values_sum in H2.
      unshelve epose proof (loop_sum _ _ _ (fun v => msv v + ms []) (fun c => B c 0) (k * 6) lst (raw_attr _ _) _ H1) as HL.
      { intros c r HC Hr. cbn beta in Hr. pose proof (good_kid n c HG HC) as HGc. pose proof (Bmin c HGc) as HB. unfold try_ in Hr.
        destruct (to_md E c None false) as [v|e] eqn:M.
        - okinj Hr. rewrite sum_cons, !sum_nil. pose proof (HO c HC HGc None false v M) as HV. pose proof (slack_ge c) as HSL. cbn [level] in HV. lia.
        - destruct ign; [|discriminate]. okinj Hr. rewrite sum_nil. lia. }
      fold (kids n) in HL. lia. }
    unfold kids in *. destruct (n_content n); try exact HL. let Hq := fresh in (intros Hq; okinj Hq). cbn. lia.
  Qed.
  Lemma doc_sum n ign x : good n -> (forall c, In c (kids n) -> ok c) -> doc_content_to_markdown (to_md E) (n_content n) ign = Ok x ->
    ms x + k * 6 * List.length (kids n) <= sum (fun c => B c 0) (kids n).
  Proof.
    intros HG HO. unfold doc_content_to_markdown. assert (HN : ms nl <= k) by (unfold nl; rewrite sum_cons, sum_nil; pose proof (Hk NL); lia).
    assert (HL : (do lst <- loop (n_content n) (fun n => try_ ign (block_md (to_md E) n)) (try_ ign (Err AttributeError));
                  do y <- join_values nl lst; Ok (strip_double_empty_line y)) = Ok x ->
      ms x + k * 6 * List.length (kids n) <= sum (fun c => B c 0) (kids n)).
    { intros H. apply rbind_ok in H as (lst & H1 & H). apply rbind_ok in H as (y & H2 & H). okinj H. apply join_values_sum in H2.
      pose proof (ms_strip f y) as HST.
      unshelve epose proof (loop_sum _ _ _ (fun v => msv v + ms nl) (fun c => B c 0) (k * 6) lst (raw_attr _ _) _ H1) as HL.
      { intros c r HC Hr. cbn beta in Hr. pose proof (good_kid n c HG HC) as HGc. pose proof (Bmin c HGc) as HB. unfold try_ in Hr.
        destruct (block_md (to_md E) c) as [v|e] eqn:M.
        - okinj Hr. rewrite sum_cons, sum_nil.
          assert (HV : msv v + k * 7 <= B c 0); [|lia].
          unfold block_md in M. destruct (is_type_of c padded).
          + apply rbind_ok in M as (w & M1 & M). apply rbind_ok in M as (z & M2 & M). okinj M.
            pose proof (HO c HC HGc None false w M1) as HV. pose proof (slack_ge c) as HSL. cbn [level] in HV.
            destruct w; try discriminate. okinj M2. unfold msv in *. cbn [py_str] in *. rewrite !sum_app. lia.
          + pose proof (HO c HC HGc None false v M) as HV. pose proof (slack_ge c) as HSL. cbn [level] in HV. lia.
        - destruct ign; [|discriminate]. okinj Hr. rewrite sum_nil. lia. }
      fold (kids n) in HL. lia. }
    unfold kids in *. destruct (n_content n); try exact HL. let Hq := fresh in (intros Hq; okinj Hq). cbn. lia.
  Qed.
  (** Lists. *)
  Lemma nl_k : ms nl <= k.
  Proof. unfold nl. rewrite sum_cons, sum_nil. pose proof (Hk NL). lia. Qed.
  Lemma item_sum own l ign i ls : good i -> (forall c, In c (kids i) -> ok c) -> item_lines (to_md E) own l ign i = Ok ls ->
    sum (fun x : str => ms x + f NL) ls + k * 12 + 4 * l * f SP + num <= B i (S l).
  Proof.
    intros HG HO H. unfold item_lines in H. apply rbind_ok in H as (lst & H1 & H). apply rbind_ok in H as (x & H2 & H). okinj H.
    rewrite ms_split. apply join_values_sum in H2. pose proof (Hk NL). pose proof nl_k as HN.
    unshelve epose proof (loop_sum _ _ _ (fun v => msv v + ms nl) (fun c => B c (S l)) 0 lst (raw_err _ _) _ H1) as HL.
    { intros c r HC Hr. cbn beta in Hr. pose proof (good_kid i c HG HC) as HGc. pose proof (Bmin c HGc) as HB. pose proof (Bup0 c (S l)) as HB'.
      pose proof (slack_ge c) as HSL. destruct (is_type_of c [own]); unfold try_ in Hr.
      - destruct (to_md E c (Some (S l)) false) as [v|e] eqn:M.
        + okinj Hr. rewrite sum_cons, sum_nil. pose proof (HO c HC HGc (Some (S l)) false v M) as HV. cbn [level] in HV. lia.
        + destruct ign; [|discriminate]. okinj Hr. rewrite sum_nil. lia.
      - destruct (to_md E c None false) as [v|e] eqn:M; cbn [rbind] in Hr.
        + pose proof (HO c HC HGc None false v M) as HV. cbn [level] in HV.
          destruct (rstrip_value v) as [w|e] eqn:R.
          * okinj Hr. rewrite sum_cons, sum_nil. destruct v; try discriminate. cbn [rstrip_value] in R. okinj R.
            unfold msv in *. cbn [py_str] in *. pose proof (ms_rstrip f x0). lia.
          * destruct ign; [|discriminate]. okinj Hr. rewrite sum_nil. lia.
        + destruct ign; [|discriminate]. okinj Hr. rewrite sum_nil. lia. }
    fold (kids i) in HL. pose proof (BI i l HG). lia.
  Qed.
  Lemma items_sum own l ign n items : good n -> (forall c, In c (kids n) -> ok c /\ forall c', In c' (kids c) -> ok c') ->
    list_items (to_md E) own (n_content n) l ign = Ok items ->
    sum (fun ls => sum (fun x : str => ms x + f NL) ls + k * 3 + 4 * l * f SP + num) items + k * 6 * List.length (kids n) + k * 9 <= B n l.
  Proof.
    intros HG HO H. unfold list_items in H.
    unshelve epose proof (loop_sum _ _ _ (fun ls => sum (fun x : str => ms x + f NL) ls + k * 3 + 4 * l * f SP + num) (fun c => B c (S l)) (k * 6) items (raw_err _ _) _ H) as HL.
    { intros c r HC Hr. cbn beta in Hr. pose proof (good_kid n c HG HC) as HGc. destruct (is_type_of c _).
      - apply rbind_ok in Hr as (ls & M & Hr). okinj Hr. rewrite sum_cons, sum_nil.
        pose proof (item_sum own l ign c ls HGc (proj2 (HO c HC)) M). lia.
      - okinj Hr. rewrite sum_nil. pose proof (Bmin c HGc) as HB. pose proof (Bup0 c (S l)) as HB'. lia. }
    fold (kids n) in HL. pose proof (BL n l HG). lia.
  Qed.
  Lemma items_len own l ign n items : list_items (to_md E) own (n_content n) l ign = Ok items -> List.length items <= List.length (kids n).
  Proof.
    intros H. unfold list_items in H.
    unshelve epose proof (loop_sum _ _ _ (fun _ => 1) (fun _ => 1) 0 items (raw_err _ _) _ H) as HL.
    { intros c r HC Hr. cbn beta in Hr. destruct (is_type_of c _); [apply rbind_ok in Hr as (ls & M & Hr)|]; okinj Hr; cbn; lia. }
    fold (kids n) in HL. rewrite !sum_const in HL. lia.
  Qed.
  Lemma hd_tl_sum (g : str -> nat) ls : g [] = 0 + f NL -> ls <> [] -> g (hd [] ls) + sum g (tl ls) = sum g ls.
  Proof. destruct ls; [congruence|reflexivity]. Qed.
  Lemma head_line (p : str) ls : ls <> [] -> sum (fun x : str => ms x + f NL) ((p ++ hd [] ls) :: tl ls) = ms p + sum (fun x : str => ms x + f NL) ls.
  Proof. destruct ls as [|x ls]; [congruence|]. intros _. cbn [hd tl]. rewrite !sum_cons, sum_app. lia. Qed.
  Lemma items_nonnil own l ign n items : list_items (to_md E) own (n_content n) l ign = Ok items -> Forall (fun ls : list str => ls <> []) items.
  Proof.
    intros H. unfold list_items in H. destruct (n_content n) as [| |l'|v]; cbn [loop] in H; try discriminate.
    - revert items H. induction l' as [|i l' IH]; intros items H; [cbn in H; okinj H; constructor|].
      cbn [for_each] in H. apply rbind_ok in H as (r & H1 & H). apply rbind_ok in H as (r' & H2 & H). okinj H.
      apply Forall_app. split; [|now apply IH]. destruct (is_type_of i _); [|okinj H1; constructor].
      apply rbind_ok in H1 as (ls & M & H1). okinj H1. constructor; [|constructor].
      unfold item_lines in M. apply rbind_ok in M as (? & _ & M). apply rbind_ok in M as (? & _ & M). okinj M. apply split_on_nonnil.
    - destruct v; try discriminate; apply for_each_nil in H; try discriminate; subst; constructor.
  Qed.
  Lemma indent_sum l : ms (indent_of l) = 4 * l * f SP.
  Proof. unfold indent_of. rewrite ms_repeat. change (s "    ") with [SP; SP; SP; SP]. rewrite !sum_cons, sum_nil. lia. Qed.
  Lemma const_sum x : ms x <= k * List.length x. Proof. apply mlen. Qed.

  Lemma bullet_sum n l ign v : good n -> (forall c, In c (kids n) -> ok c /\ forall c', In c' (kids c) -> ok c') ->
    bullet_list_md (to_md E) (n_content n) l ign = Ok v -> msv v + slack n <= B n l.
  Proof.
    intros HG HO H. unfold bullet_list_md in H. apply rbind_ok in H as (items & H1 & H). okinj H.
    unfold msv. cbn [py_str]. pose proof (items_sum _ _ _ _ _ HG HO H1) as HI. pose proof (items_nonnil _ _ _ _ _ H1) as HNN.
    pose proof (ms_join f nl (List.concat (map (bullet_item l) items))) as HJ. unfold nl in HJ at 2. rewrite (sum_cons f NL []), sum_nil, Nat.add_0_r in HJ.
    assert (HC : sum (fun x : str => ms x + f NL) (List.concat (map (bullet_item l) items)) <=
                 sum (fun ls => sum (fun x : str => ms x + f NL) ls + k * 3 + 4 * l * f SP + num) items).
    { rewrite sum_concat, sum_map. apply sum_le. intros ls Hls. rewrite Forall_forall in HNN. unfold bullet_item.
      rewrite app_assoc, head_line by (now apply HNN). rewrite sum_app, indent_sum. pose proof (mlen (s "- ")) as K. change (List.length (s "- ")) with 2 in K. lia. }
    unfold slack. lia.
  Qed.
  Lemma ordered_sum n l ign v : good n -> n_kind n = KorderedList -> (forall c, In c (kids n) -> ok c /\ forall c', In c' (kids c) -> ok c') ->
    ordered_list_md (to_md E) (n_attrs n) (n_content n) l ign = Ok v -> msv v + slack n <= B n l.
  Proof.
    intros HG HK HO H. unfold ordered_list_md in H. apply rbind_ok in H as (start & H0 & H). apply rbind_ok in H as (items & H1 & H). okinj H.
    unfold msv. cbn [py_str]. pose proof (items_sum _ _ _ _ _ HG HO H1) as HI. pose proof (items_nonnil _ _ _ _ _ H1) as HNN.
    pose proof (items_len _ _ _ _ _ H1) as HLEN.
    assert (HZ : forall i, i <= List.length (kids n) -> ms (ol_number start i) <= num).
    { destruct l; [|okinj H0; apply (Hnum n (VInt 1) HG HK); now right].
      apply rbind_ok in H0 as (o & HA & H0). okinj H0. destruct o; try (apply (Hnum n (VInt 1) HG HK); now right);
        (apply (Hnum n _ HG HK); now left). }
    pose proof (ms_join f nl (ordered_items l start 0 items)) as HJ. unfold nl in HJ at 2. rewrite (sum_cons f NL []), sum_nil, Nat.add_0_r in HJ.
    assert (HC : forall items i, i + List.length items <= List.length (kids n) -> Forall (fun ls : list str => ls <> []) items ->
                 sum (fun x : str => ms x + f NL) (ordered_items l start i items) <=
                 sum (fun ls => sum (fun x : str => ms x + f NL) ls + k * 3 + 4 * l * f SP + num) items).
    { clear - HZ Hk. induction items as [|ls items IH]; intros i Hi HF; [cbn; lia|]. cbn [ordered_items]. rewrite sum_app, sum_cons.
      inversion_clear HF as [|? ? HN HF']. cbn [List.length] in Hi. specialize (IH (S i) ltac:(lia) HF').
      unfold ordered_item at 1. rewrite !app_assoc, head_line by exact HN. rewrite !sum_app, indent_sum.
      pose proof (mlen (s ". ")) as K. change (List.length (s ". ")) with 2 in K. specialize (HZ i ltac:(lia)). lia. }
    specialize (HC items 0 HLEN HNN). unfold slack. lia.
  Qed.
  Lemma task_sum n l ign v : good n -> (forall c, In c (kids n) -> ok c /\ forall c', In c' (kids c) -> ok c') ->
    task_list_md (to_md E) (n_content n) l ign = Ok v -> msv v + slack n <= B n l.
  Proof.
    intros HG HO H. unfold task_list_md in H. apply rbind_ok in H as (lst & H1 & H). apply rbind_ok in H as (x & H2 & H). okinj H.
    unfold msv. cbn [py_str]. apply join_values_sum in H2. pose proof nl_k as HN.
    unshelve epose proof (loop_sum _ _ _ (fun v => msv v + ms nl) (fun c => B c (S l)) (k * 6) lst (raw_err _ _) _ H1) as HL.
    { intros i r HC Hr. cbn beta in Hr. pose proof (good_kid n i HG HC) as HGi. pose proof (Bmin i HGi) as HB. pose proof (Bup0 i (S l)) as HB'.
      pose proof (slack_ge i) as HSL. destruct (is_type_of i [s "taskItem"]).
      - apply rbind_ok in Hr as (w & M & Hr). okinj Hr. rewrite sum_cons, sum_nil. unfold task_item_line in M.
        apply rbind_ok in M as (parts & M1 & M). apply rbind_ok in M as (y & M2 & M). apply rbind_ok in M as (st & M3 & M). okinj M.
        apply join_values_sum in M2.
        unshelve epose proof (loop_sum _ _ _ (fun v => msv v + ms []) (fun c => B c (S l)) 0 parts (raw_attr _ _) _ M1) as HP.
        { intros c r HCc Hr. cbn beta in Hr. pose proof (good_kid i c HGi HCc) as HGc. pose proof (Bup0 c (S l)) as HBc. pose proof (slack_ge c) as HSc. unfold try_ in Hr.
          destruct (to_md E c None false) as [w|e] eqn:M'.
          - okinj Hr. rewrite sum_cons, !sum_nil. pose proof (proj2 (HO i HC) c HCc HGc None false w M') as HV. cbn [level] in HV. lia.
          - destruct ign; [|discriminate]. okinj Hr. rewrite sum_nil. lia. }
        fold (kids i) in HP. pose proof (BI i l HGi) as HBI. unfold msv at 1. cbn [py_str]. rewrite !sum_app, indent_sum.
        pose proof (mlen (s "- ")) as K1. change (List.length (s "- ")) with 2 in K1.
        pose proof (mlen (s " ")) as K2. change (List.length (s " ")) with 1 in K2.
        match goal with |- context [sum f ?c + (sum f (s " ") + _)] => assert (K3 : sum f c <= k * 3) end.
        { pose proof (mlen (s "[x]")) as KA. change (List.length (s "[x]")) with 3 in KA.
          pose proof (mlen (s "[ ]")) as KB. change (List.length (s "[ ]")) with 3 in KB.
          destruct st; try exact KB. destruct (str_eqb x0 _); [exact KA|exact KB]. }
        pose proof (ms_rstrip f y). lia.
      - destruct (is_type_of i [s "taskList"]); [|okinj Hr; rewrite sum_nil; lia]. unfold try_ in Hr.
        destruct (to_md E i (Some (S l)) ign) as [w|e] eqn:M.
        + okinj Hr. rewrite sum_cons, sum_nil. pose proof (proj1 (HO i HC) HGi (Some (S l)) ign w M) as HV. cbn [level] in HV. lia.
        + destruct ign; [|discriminate]. okinj Hr. rewrite sum_nil. lia. }
    fold (kids n) in HL. pose proof (BL n l HG). unfold slack. lia.
  Qed.
  Lemma decisions_sum n ign v : good n -> (forall c, In c (kids n) -> ok c) ->
    decision_list_md (to_md E) (n_content n) ign = Ok v -> msv v + slack n <= B n 0.
  Proof.
    intros HG HO H. unfold decision_list_md in H. apply rbind_ok in H as (lst & H1 & H). apply rbind_ok in H as (x & H2 & H). okinj H.
    unfold msv. cbn [py_str]. apply join_values_sum in H2. pose proof nl_k as HN. rewrite sum_app in H2.
    unshelve epose proof (loop_sum _ _ _ (fun v => msv v + (ms nl + ms nl)) (fun c => B c 0) (k * 6) lst (raw_err _ _) _ H1) as HL.
    { intros i r HC Hr. cbn beta in Hr. pose proof (good_kid n i HG HC) as HGi. pose proof (Bmin i HGi) as HB.
      pose proof (slack_ge i) as HSL. destruct (is_type_of i _); [|okinj Hr; rewrite sum_nil; lia]. unfold try_ in Hr.
      destruct (to_md E i None ign) as [w|e] eqn:M.
      - okinj Hr. rewrite sum_cons, sum_nil. pose proof (HO i HC HGi None ign w M) as HV. cbn [level] in HV. lia.
      - destruct ign; [|discriminate]. okinj Hr. rewrite sum_nil. lia. }
    fold (kids n) in HL. pose proof (B1 n HG). unfold slack. lia.
  Qed.
  Lemma row_sum n ign v : good n -> (forall c, In c (kids n) -> ok c) ->
    table_row_md (to_md E) (n_content n) ign = Ok v -> msv v + slack n <= B n 0.
  Proof.
    intros HG HO H. unfold table_row_md in H. apply rbind_ok in H as (lst & H1 & H). apply rbind_ok in H as (x & H2 & H). okinj H.
    unfold msv. cbn [py_str]. apply join_values_sum in H2. rewrite !sum_app.
    pose proof (mlen (s " | ")) as K1. change (List.length (s " | ")) with 3 in K1.
    pose proof (mlen (s "| ")) as K2. change (List.length (s "| ")) with 2 in K2.
    pose proof (mlen (s " |")) as K3. change (List.length (s " |")) with 2 in K3.
    unshelve epose proof (loop_sum _ _ _ (fun v => msv v + ms (s " | ")) (fun c => B c 0) (k * 6) lst (raw_err _ _) _ H1) as HL.
    { intros i r HC Hr. cbn beta in Hr. pose proof (good_kid n i HG HC) as HGi. pose proof (slack_ge i) as HSL.
      apply rbind_ok in Hr as (w & M & Hr). okinj Hr. rewrite sum_cons, sum_nil.
      pose proof (HO i HC HGi None ign w M) as HV. cbn [level] in HV. lia. }
    fold (kids n) in HL. pose proof (B1 n HG). pose proof (own_pos E n). unfold slack. nia.
  Qed.
  Lemma delimiter_sum w : ms (delimiter w) <= k * (6 * w + 4).
  Proof.
    unfold delimiter. rewrite !sum_app. pose proof (ms_join f (s " | ") (repeat (s "---") w)) as HJ.
    pose proof (mlen (s " | ")) as K1. change (List.length (s " | ")) with 3 in K1.
    pose proof (mlen (s "| ")) as K2. change (List.length (s "| ")) with 2 in K2.
    pose proof (mlen (s " |")) as K3. change (List.length (s " |")) with 2 in K3.
    pose proof (mlen (s "---")) as K4. change (List.length (s "---")) with 3 in K4.
    assert (HR : sum (fun x : str => ms x + ms (s " | ")) (repeat (s "---") w) <= k * 6 * w).
    { transitivity (sum (fun _ : str => k * 6) (repeat (s "---") w)); [|rewrite sum_const, repeat_length; lia].
      apply sum_le. intros x Hx. apply repeat_spec in Hx. subst x. lia. }
    lia.
  Qed.
  Lemma delimiter_sum1 w : 1 <= w -> ms (delimiter w) + k * 3 <= k * (6 * w + 4).
  Proof.
    intros Hw. unfold delimiter. rewrite !sum_app.
    pose proof (ms_join_eq f (s " | ") (repeat (s "---") w)) as HJ. specialize (HJ ltac:(destruct w; [lia|discriminate])).
    pose proof (mlen (s " | ")) as K1. change (List.length (s " | ")) with 3 in K1.
    pose proof (mlen (s "| ")) as K2. change (List.length (s "| ")) with 2 in K2.
    pose proof (mlen (s " |")) as K3. change (List.length (s " |")) with 2 in K3.
    pose proof (mlen (s "---")) as K4. change (List.length (s "---")) with 3 in K4.
    assert (HR : sum (fun x : str => ms x + ms (s " | ")) (repeat (s "---") w) = (ms (s "---") + ms (s " | ")) * w).
    { clear. induction w as [|w IH]; [cbn; lia|]. cbn [repeat]. rewrite sum_cons, IH. lia. }
    nia.
  Qed.
  Lemma table_sum n ign v : good n -> (forall c, In c (kids n) -> ok c) ->
    table_md (to_md E) (n_content n) ign = Ok v -> msv v + slack n <= B n 0.
  Proof.
    intros HG HO H. unfold table_md in H. apply rbind_ok in H as (lst & H1 & H). apply rbind_ok in H as (x & H2 & H). okinj H.
    unfold msv. cbn [py_str]. apply join_values_sum in H2. pose proof nl_k as HN.
    unshelve epose proof (loop_sum _ _ _ (fun v => msv v + ms nl) (fun c => B c 0) (k * 6) lst (raw_attr _ _) _ H1) as HL.
    { intros i r HC Hr. cbn beta in Hr. pose proof (good_kid n i HG HC) as HGi. pose proof (Bmin i HGi) as HB. pose proof (slack_ge i) as HSL.
      unfold table_row_lines in Hr. destruct (to_md E i None false) as [w|e] eqn:M.
      2:{ destruct ign; [|discriminate]. okinj Hr. rewrite sum_nil. lia. }
      pose proof (HO i HC HGi None false w M) as HV. cbn [level] in HV.
      destruct (header_width i) as [[h|]|e] eqn:HW.
      - okinj Hr. rewrite !sum_cons, sum_nil.
        assert (HH : h = List.length (kids i) /\ 1 <= h).
        { unfold header_width in HW. unfold kids. destruct (n_content i) as [| |[|c cs]|r]; try discriminate.
          - destruct (is_type_of c _); [|discriminate]. injection HW as <-. cbn. lia.
          - destruct r as [| | | |[|]| | |]; discriminate. }
        destruct HH as [-> H1h]. pose proof (delimiter_sum1 _ H1h) as HD. unfold msv at 2. cbn [py_str]. unfold slack in HV. nia.
      - okinj Hr. rewrite sum_cons, sum_nil. lia.
      - destruct ign; [|discriminate]. okinj Hr. rewrite sum_cons, sum_nil. lia. }
    fold (kids n) in HL. pose proof (B1 n HG). unfold slack. lia.
  Qed.
  Hypothesis Hdate : forall t x, date_to_markdown (rt_digit E) t = Ok x -> List.length x <= 10.
  Lemma attr_own n g v : attr (n_attrs n) g = Ok v -> ms (py_str E v) + k <= k * own_size E n.
  Proof. intros H. apply (attr_len E) in H. pose proof (mlen (py_str E v)). unfold own_size. nia. Qed.
  Lemma lit x n : List.length x <= n -> ms x <= k * n.
  Proof. intros H. pose proof (mlen x). nia. Qed.
  Ltac lits :=
    repeat match goal with
    | |- context [sum f (s ?x)] =>
        let n := eval vm_compute in (List.length (s x)) in
        let h := fresh "K" in pose proof (lit (s x) n ltac:(vm_compute; lia)) as h; revert h; generalize (sum f (s x)); intros ? h
    end.
  Theorem all_ok : forall n, ok n.
  Proof.
    intros n. induction n as [k0 ty ve tx a co ma IH] using node_ind2.
    set (n := Node k0 ty ve tx a co ma) in *. intros HG.
    assert (HO : forall c, In c (kids n) -> ok c /\ forall c', In c' (kids c) -> ok c').
    { intros c HC. unfold kids in HC. subst n. cbn [n_content] in HC. destruct co as [| |l|r]; try easy. cbn in IH.
      rewrite Forall_forall in IH. destruct (IH c HC) as [H1 H2]. split; [exact H1|]. intros c' HC'. unfold kids in HC'.
      destruct (n_content c); try easy. cbn in H2. rewrite Forall_forall in H2. now apply H2. }
    assert (HO1 : forall c, In c (kids n) -> ok c) by (intros c HC; exact (proj1 (HO c HC))).
    destruct (in_dec nk_eq_dec (n_kind n) special) as [HSP|HSP]; [exact (HS n HG HO1 HSP)|].
    intros lv ign v H. pose proof (B1 n HG) as HB1. pose proof (own_pos E n) as HP.
    pose proof (fun x => content_sum n ign x HG HO1) as HC. pose proof (fun x => doc_sum n ign x HG HO1) as HD.
    pose proof nl_k as HN. pose proof (style_sum n) as HST.
    assert (HKD : k * 6 * List.length (kids n) <= sum (fun c => B c 0) (kids n)).
    { rewrite <- sum_const. apply sum_le. intros c Hc. pose proof (Bmin c (good_kid n c HG Hc)). lia. }
    pose proof (attr_own n) as HA.
    assert (HOWN : k <= k * own_size E n) by nia.
    unfold n in H. destruct k0; cbn [to_md] in H; try (exfalso; apply HSP; cbn; tauto; fail).
    all: try (destruct lv; [discriminate|]); cbn [level].
    all: try (exact (bullet_sum n _ ign v HG HO H)).
    all: try (exact (task_sum n _ ign v HG HO H)).
    all: try (exact (ordered_sum n _ ign v HG eq_refl HO H)).
    all: try (exact (decisions_sum n ign v HG HO1 H)).
    all: try (exact (row_sum n ign v HG HO1 H)).
    all: try (exact (table_sum n ign v HG HO1 H)).
    all: unfold slack.
    all: try (apply rbind_ok in H as (x & H1 & H); okinj H; unfold msv; cbn [py_str]; first [apply (HC x) in H1|apply (HD x) in H1]; lia).
    all: try (okinj H; unfold msv; cbn [py_str]; rewrite ?sum_app, ?sum_nil; lits; lia).
    - (* text *) destruct tx as [t|]; [|discriminate]. apply (HST t v) in H. change (n_text n) with (Some t) in H.
      pose proof (mlen (py_str E t)). unfold msv in *. nia.
    - (* paragraph *) apply rbind_ok in H as (x & H1 & H). apply rbind_ok in H as (w & H2 & H). apply rbind_ok in H as (y & H3 & H). okinj H.
      apply (HC x) in H1. apply (HST _ _) in H2. destruct w; try discriminate. cbn [as_str] in H3. okinj H3. unfold msv in *. cbn [py_str] in *.
      rewrite sum_app. nia.
    - (* emoji *) apply rbind_ok in H as (t & H1 & H). pose proof (HA _ _ H1) as HV. unfold msv.
      assert (HE : (v = t \/ exists sn, attr a (s "shortName") = Ok sn /\ v = sn)).
      { destruct t; try (okinj H; now left);
        (right; apply rbind_ok in H as (sn & H2 & H); exists sn; split; [exact H2|]; destruct sn; try discriminate; now okinj H). }
      destruct HE as [-> |(sn & H2 & ->)]; [lia|]. pose proof (HA _ _ H2). lia.
    - (* date *) apply rbind_ok in H as (t & H1 & H). apply rbind_ok in H as (x & H2 & H). okinj H. apply Hdate in H2.
      pose proof (lit x 10 H2). unfold msv. cbn [py_str]. lia.
    - (* mention *) apply rbind_ok in H as (t & H1 & H). okinj H. pose proof (HA _ _ H1) as HV. unfold msv.
      destruct t; try lia; cbn [py_str]; lits; lia.
    - (* status *) apply rbind_ok in H as (t & H1 & H). okinj H. pose proof (HA _ _ H1) as HV. unfold msv. cbn [py_str]. rewrite !sum_app. lits. lia.
    - (* heading *) apply rbind_ok in H as (l & H1 & H). apply rbind_ok in H as (h & H2 & H). apply rbind_ok in H as (x & H3 & H). okinj H.
      apply (HC x) in H3. pose proof (level_len E _ _ _ _ H1 H2) as HL. pose proof (lit h _ HL) as HH.
      unfold msv. cbn [py_str]. rewrite !sum_app. lits. assert (1 + attrs_size E a <= own_size E n) by (unfold own_size; cbn [n_attrs n]; lia). nia.
    - (* codeBlock *) apply rbind_ok in H as (x & H1 & H). apply rbind_ok in H as (y & H2 & H). okinj H. apply (HC x) in H1.
      assert (HY : ms y <= k * own_size E n).
      { unfold code_lang in H2. destruct a; try (okinj H2; rewrite sum_nil; lia);
        (apply rbind_ok in H2 as (t & H3 & H2); okinj H2; pose proof (HA _ _ H3) as HV; destruct t; try (rewrite sum_nil; lia);
         destruct (str_eqb x0 _); [rewrite sum_nil; lia|cbn [py_str] in HV; lia]). }
      unfold msv. cbn [py_str]. rewrite !sum_app. lits. lia.
    - (* inlineCard *) apply rbind_ok in H as (t & H1 & H). pose proof (HA _ _ H1) as HV. destruct t; try discriminate. okinj H.
      unfold msv. cbn [py_str] in *. rewrite !sum_app. lits. lia.
    - (* blockCard *) apply rbind_ok in H as (t & H1 & H). pose proof (HA _ _ H1) as HV. destruct t; try discriminate. okinj H.
      unfold msv. cbn [py_str] in *. rewrite !sum_app. lits. lia.
    - (* media *) unfold media_md in H. apply rbind_ok in H as (t & H1 & H). apply rbind_ok in H as (u & H2 & H).
      apply rbind_ok in H as (al & H3 & H). apply rbind_ok in H as (id & H4 & H).
      pose proof (HA _ _ H2) as V2. pose proof (HA _ _ H3) as V3. pose proof (HA _ _ H4) as V4.
      cbv zeta in H. match type of H with context [s "![" ++ ?y ++ _] => assert (HAL : ms y <= k * own_size E n + k * 5); [|set (ya := y) in *; clearbody ya] end.
      { destruct al; cbn [py_str] in V3; lits; lia. }
      match type of H with context [match ?o with Some _ => _ | None => _ end] => destruct o as [uu|] eqn:OU end.
      + assert (HU : u = VStr uu). { destruct (is_media t "external"); [|discriminate]. destruct u; try discriminate. congruence. }
        subst u. apply (HST _ _) in H. cbn [py_str] in V2. unfold msv in H at 2. cbn [py_str] in H. rewrite !sum_app in H. revert H. lits. intros H. lia.
      + destruct (is_media t "file").
        * apply (HST _ _) in H. unfold msv in H at 2. cbn [py_str] in H. rewrite !sum_app in H. revert H. lits. intros H. lia.
        * destruct (is_media t "link"); [|discriminate]. okinj H. unfold msv. cbn [py_str]. lits. lia.
    - (* embedCard *) apply rbind_ok in H as (t & H1 & H). pose proof (HA _ _ H1) as HV. okinj H.
      unfold msv. cbn [py_str] in *. rewrite !sum_app. lits. lia.
    - (* extension *) apply rbind_ok in H as (x & H1 & H). apply rbind_ok in H as (y & H2 & H). apply rbind_ok in H as (t & H3 & H). okinj H.
      pose proof (HA _ _ H1) as V1. pose proof (HA _ _ H2) as V2. pose proof (HA _ _ H3) as V3. unfold msv. cbn [py_str].
      destruct t as [| | | |[|c r]| | |]; rewrite !sum_app; try (lits; lia). cbn [py_str] in V3. lits. lia.
    - (* expand *) apply rbind_ok in H as (x & H1 & H). apply (HD x) in H1. apply (HST _ _) in H. unfold msv in H at 2. cbn [py_str] in H. lia.
  Qed.
End Bound.
