(** The text nodes of a paragraph as the inline reader sees them. *)
From Coq Require Import List Arith NArith Bool String Lia.
From Verif Require Import PyStr Values Schema Parse Date Markdown Basics StrFacts MarkFacts SpecMd SpecReader SpecInline SpecLook InlineFacts1 InlineFacts2 InlineFacts3.
Import ListNotations.
Open Scope string_scope.
Open Scope list_scope.
Open Scope nat_scope.

(** ---------------------------------------------------------------- what is written *)
Definition write1 (x : str) (y : style) : str :=
  match y with
  | SEmph e => sign e ++ x ++ sign e
  | SCode => s "`` " ++ x ++ s " ``"
  | SLink h => s "[" ++ x ++ s "](" ++ h ++ s ")"
  end.
Definition inside (f : format) (t : str) : str := if f_code f then s "`` " ++ t ++ s " ``" else t.
Lemma write_emph l : forall x, fold_left write1 (map SEmph l) x = signs_before l ++ x ++ signs_after l.
Proof.
  induction l as [|e l IH]; intros x; cbn [map fold_left write1].
  - unfold signs_before, signs_after. cbn. now rewrite app_nil_r.
  - rewrite IH. unfold signs_before, signs_after. cbn [rev map List.concat]. rewrite map_app, concat_app. cbn [map List.concat]. rewrite app_nil_r.
    now rewrite <- !app_assoc.
Qed.
Lemma write_format f t : fold_left write1 (styles f) t = front f ++ inside f t ++ back f.
Proof.
  unfold styles, front, back, inside. rewrite !fold_left_app.
  replace (fold_left write1 (if f_code f then [SCode] else []) t) with (if f_code f then s "`` " ++ t ++ s " ``" else t) by (destruct (f_code f); reflexivity).
  rewrite write_emph. destruct (f_link f) as [h|]; cbn [fold_left write1]; rewrite write_emph; rewrite <- !app_assoc; reflexivity.
Qed.
Definition seeable (x : str) : Prop := exists c, In c x /\ is_ws c = false.
Lemma write1_seeable x y : seeable x -> seeable (write1 x y).
Proof.
  intros (c & HI & HW). exists c. split; [|exact HW]. destruct y; cbn [write1]; rewrite !in_app_iff; tauto.
Qed.
(** A style that needs something to format. *)
Definition needs (y : style) : bool := match y with SLink _ => false | _ => true end.
Lemma apply_styles E ms ls : Forall2 asks ms ls -> forall x, (existsb needs (List.concat ls) = true -> seeable x) ->
  (forall q r, List.concat ls = q ++ SCode :: r -> ~ In NL (fold_left write1 q x)) ->
  apply_marks E ms (VStr x) = Ok (VStr (fold_left write1 (List.concat ls) x)).
Proof.
  induction 1 as [|m l ms ls HA HF IH]; intros x HX HC; [reflexivity|]. cbn [apply_marks List.concat] in *.
  assert (HL : forall l0, l = l0 -> mark_to_markdown E m (VStr x) = Ok (VStr (fold_left write1 l0 x)) ->
     match mark_to_markdown E m (VStr x) with Ok md' => apply_marks E ms md' | Err AttributeError => Ok (VStr x) | Err e => Err e end
      = Ok (VStr (fold_left write1 (l0 ++ List.concat ls) x))).
  { intros l0 -> HM. rewrite HM. rewrite fold_left_app. apply IH.
    - intros HE. assert (HS : seeable x) by (apply HX; rewrite existsb_app, HE; apply orb_true_r).
      clear - HS. revert x HS. induction l0 as [|y l IHl]; intros x HS; [exact HS|]. cbn [fold_left]. apply IHl. now apply write1_seeable.
    - intros q r HQ. rewrite <- fold_left_app. apply (HC (l0 ++ q) r). rewrite HQ. apply app_assoc. }
  unfold asks in HA.
  assert (HS : forall e, l = [SEmph e] -> mark_to_markdown E m (VStr x) = wrap_mark (sign e) (VStr x) -> mark_to_markdown E m (VStr x) = Ok (VStr (fold_left write1 [SEmph e] x))).
  { intros e -> ->. cbn [wrap_mark]. assert (HV : seeable x) by (apply HX; reflexivity). apply nonblank_true in HV. rewrite HV. reflexivity. }
  destruct (m_kind m) eqn:K; try contradiction;
    try (subst l; apply (HL _ eq_refl); try (apply (HS _ eq_refl); unfold mark_to_markdown; rewrite K; reflexivity); unfold mark_to_markdown; rewrite K; reflexivity).
  - (* code *) subst l. apply (HL _ eq_refl). unfold mark_to_markdown. rewrite K. unfold code_mark.
    assert (HN : ~ In NL x) by (exact (HC [] _ eq_refl)).
    destruct (existsb (N.eqb NL) x) eqn:X; [apply existsb_NL in X; contradiction|].
    assert (HV : seeable x) by (apply HX; reflexivity). apply nonblank_true in HV. rewrite HV. reflexivity.
  - (* link *) destruct HA as (a & h & title & HA & HH & HT & HN & ->). apply (HL _ eq_refl).
    unfold mark_to_markdown. rewrite K. unfold link_mark. rewrite HA. cbn [attr]. rewrite HT, HH. cbn [rbind].
    replace (match title with VStr _ => title | _ => VStr x end) with (VStr x); [reflexivity|].
    destruct title; try reflexivity. now destruct (HN x0).
Qed.

(** ---------------------------------------------------------------- emphasis as runs *)
Definition add_run (e : emph) (R : runs) : runs :=
  match e, R with
  | Strike, _ => tilde :: R
  | Strong, (42%N, n) :: R' => star (2 + n) :: R'
  | Em, (42%N, n) :: R' => star (1 + n) :: R'
  | Strong, _ => star 2 :: R
  | Em, _ => star 1 :: R
  end.
Definition runs_of (l : list emph) : runs := fold_left (fun R e => add_run e R) l [].
Definition orders : list (list emph) :=
  [[]; [Strong]; [Em]; [Strike]; [Strong; Em]; [Em; Strong]; [Strong; Strike]; [Strike; Strong]; [Em; Strike]; [Strike; Em];
   [Strong; Em; Strike]; [Em; Strong; Strike]; [Strong; Strike; Em]; [Em; Strike; Strong]; [Strike; Strong; Em]; [Strike; Em; Strong]].
Lemma orders_all l : NoDup l -> In l orders.
Proof.
  intros H. assert (HL : List.length l <= 3).
  { change 3 with (List.length [Strong; Em; Strike]). apply NoDup_incl_length; [exact H|]. intros [] _; cbn; tauto. }
  assert (ND : forall (x : emph) r, NoDup (x :: r) -> ~ In x r /\ NoDup r) by (intros x r HH; inversion HH; tauto).
  destruct l as [|a [|b [|c [|d l]]]]; cbn in HL; try lia.
  - left. reflexivity.
  - destruct a; unfold orders; repeat first [left; reflexivity|right].
  - apply ND in H as [H1 H2]. destruct a, b; try (exfalso; apply H1; left; reflexivity); unfold orders; repeat first [left; reflexivity|right].
  - apply ND in H as [H1 H2]. apply ND in H2 as [H2 H3].
    destruct a, b, c; try (exfalso; apply H1; first [left; reflexivity|right; left; reflexivity]); try (exfalso; apply H2; left; reflexivity);
      unfold orders; repeat first [left; reflexivity|right].
Qed.
Ltac by_order l H := let X := fresh in pose proof (orders_all l H) as X; unfold orders in X; cbn [In] in X;
  repeat (destruct X as [X|X]; [subst l|]); [..|contradiction].
Lemma runs_shell l : NoDup l -> l = [] \/ In (runs_of l) shells.
Proof. intros H. by_order l H; (left; reflexivity) || (right; unfold shells; repeat first [left; reflexivity|right]). Qed.
Lemma runs_good l : NoDup l -> Forall good_run (runs_of l).
Proof. intros H. by_order l H; cbn [runs_of fold_left add_run star tilde Nat.add]; repeat (apply Forall_cons; [unfold good_run, star, tilde; cbn [fst snd]; clear; lia|]); apply Forall_nil. Qed.
Lemma runs_open l : NoDup l -> signs_before l = open_str (runs_of l).
Proof. intros H. by_order l H; reflexivity. Qed.
Lemma runs_close l : NoDup l -> signs_after l = close_str (runs_of l).
Proof. intros H. by_order l H; reflexivity. Qed.
Lemma show_one k e X : flat_map (show k) [IEmph e X] = flat_map (show (emphasize e k)) X.
Proof. cbn. now rewrite app_nil_r. Qed.
Lemma show_runs l X : NoDup l -> forall k, flat_map (show k) (wrap (runs_of l) X) = flat_map (show (fold_right emphasize k l)) X.
Proof. intros H k. by_order l H; cbn [runs_of fold_left add_run star tilde wrap wrap_run N.eqb fst snd Pos.eqb Nat.add fold_right]; rewrite ?show_one; reflexivity. Qed.
Lemma fold_look l k : fold_right emphasize k l = Look (has Strong l || bold k) (has Em l || italic k) (has Strike l || struck k) (code k) (link k).
Proof.
  induction l as [|e l IH]; cbn [fold_right has existsb orb]; [destruct k; reflexivity|]. rewrite IH. unfold has.
  destruct e; cbn; reflexivity.
Qed.
Lemma runs_one l : NoDup l -> l <> [] -> ~ In Strike l \/ l = [Strike] -> exists r, runs_of l = [r].
Proof.
  intros H HN HO. by_order l H; try (eexists; reflexivity); try congruence; exfalso; destruct HO as [HO|HO]; try discriminate; apply HO; cbn; tauto.
Qed.
