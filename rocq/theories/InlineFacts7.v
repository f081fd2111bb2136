(** The inline reader on pieces that are not read as they were meant (C80): signs that do not take effect, code, links and images. *)
From Coq Require Import List Arith NArith Bool String Lia.
From Verif Require Import PyStr Values Schema Parse Date Markdown Basics StrFacts MarkFacts SpecMd SpecReader SpecInline SpecLook InlineFacts1 InlineFacts2 InlineFacts3 InlineFacts4 InlineFacts5 InlineFacts6.
Import ListNotations.
Open Scope string_scope.
Open Scope list_scope.
Open Scope nat_scope.

(** ---------------------------------------------------------------- signs that do not take effect *)
Definition sgn (e : emph) : list inl := map IChar (sign e).
Lemma sgn_rev e : rev (sgn e) = sgn e. Proof. destruct e; reflexivity. Qed.
Definition opener_of (e : emph) (bo : bool) (Y : list inl) : opener := Opener (sign_char e) (sign_len e) (sign_len e) bo Y.
Lemma step_alone e o c b : emph_step ([], b) (TRun (sign_char e) (sign_len e) o c) = if o then ([opener_of e c []], b) else ([], sgn e ++ b).
Proof. destruct e, o, c; reflexivity. Qed.
Lemma step_dead e o os b : emph_step (os, b) (TRun (sign_char e) (sign_len e) o false) = if o then (opener_of e false [] :: os, b) else put (sgn e) (os, b).
Proof. destruct e, o; reflexivity. Qed.
Lemma finish0 b : finish ([], b) = rev b. Proof. reflexivity. Qed.
Lemma finish1 e bo Y b : finish ([opener_of e bo Y], b) = rev b ++ sgn e ++ rev Y.
Proof. unfold finish. cbn [List.length fst Nat.iter nat_rect drop opener_of o_in o_char o_left put snd]. rewrite chars_sign. fold (sgn e). rewrite !rev_app_distr, sgn_rev. reflexivity. Qed.
Lemma finish2 e bo Y e' bo' Y' b : finish ([opener_of e bo Y; opener_of e' bo' Y'], b) = rev b ++ sgn e' ++ rev Y' ++ sgn e ++ rev Y.
Proof.
  unfold finish. cbn [List.length fst Nat.iter nat_rect drop opener_of o_in o_char o_left o_len o_both put snd].
  rewrite !chars_sign. fold (sgn e) (sgn e'). rewrite !rev_app_distr, !sgn_rev. rewrite <- ?app_assoc. reflexivity.
Qed.
Lemma items1 e bo Y X b : fold_left emph_step (map TIn X) ([opener_of e bo Y], b) = ([opener_of e bo (rev X ++ Y)], b).
Proof. apply fold_items. Qed.
Lemma items2 e bo Y o X b : fold_left emph_step (map TIn X) ([opener_of e bo Y; o], b) = ([opener_of e bo (rev X ++ Y); o], b).
Proof. apply fold_items. Qed.
Lemma items0 X b : fold_left emph_step (map TIn X) ([], b) = ([], rev X ++ b).
Proof. apply fold_items. Qed.
(** Something that is read the same inside an opener of e as outside. *)
Definition closed (e : emph) (T : list tok) (X : list inl) : Prop :=
  (forall b, fold_left emph_step T ([], b) = ([], rev X ++ b)) /\
  (forall bo b, fold_left emph_step T ([opener_of e bo []], b) = ([opener_of e bo (rev X)], b)).
Lemma closed_items e X : closed e (map TIn X) X.
Proof. split; intros; [apply items0|rewrite items1; now rewrite app_nil_r]. Qed.
Lemma closed_inner e e1 A x y : sign_char e1 <> sign_char e -> closed e ([TRun (sign_char e1) (sign_len e1) true x] ++ map TIn A ++ [TRun (sign_char e1) (sign_len e1) y true]) [IEmph e1 A].
Proof.
  intros HN.
  assert (H0 : forall b, fold_left emph_step ([TRun (sign_char e1) (sign_len e1) true x] ++ map TIn A ++ [TRun (sign_char e1) (sign_len e1) y true]) ([], b) = ([], [IEmph e1 A] ++ b)).
  { intros b. rewrite !fold_left_app. cbn [fold_left]. rewrite step_alone. rewrite items1, app_nil_r. rewrite <- (rev_involutive A) at 2. destruct e1, x, y; reflexivity. }
  split; [exact H0|]. intros bo b. rewrite !fold_left_app.
  assert (H1 : fold_left emph_step [TRun (sign_char e1) (sign_len e1) true x] ([opener_of e bo []], b) = ([opener_of e1 x []; opener_of e bo []], b)).
  { destruct e1, e; try (now contradiction HN); destruct x, bo; reflexivity. }
  rewrite H1, items2, app_nil_r. rewrite <- (rev_involutive A) at 2. destruct e1, e; try (now contradiction HN); destruct x, y, bo; reflexivity.
Qed.
Lemma emph_ineffective e T X o1 c1 o2 c2 U V : closed e T X -> o1 = false \/ c2 = false ->
  emphasis (map TIn U ++ [TRun (sign_char e) (sign_len e) o1 c1] ++ T ++ [TRun (sign_char e) (sign_len e) o2 c2] ++ map TIn V) = U ++ sgn e ++ X ++ sgn e ++ V.
Proof.
  intros [HT0 HT1] HO. unfold emphasis. rewrite !fold_left_app. rewrite items0, app_nil_r. cbn [fold_left]. rewrite step_alone. destruct o1.
  - destruct HO as [HO| ->]; [discriminate|]. rewrite HT1. rewrite step_dead. destruct o2.
    + rewrite items2, app_nil_r. rewrite finish2. rewrite !rev_involutive. reflexivity.
    + cbn [put opener_of o_in o_char o_len o_left o_both]. fold (opener_of e c1 (sgn e ++ rev X)). rewrite items1, finish1. rewrite !rev_app_distr, !rev_involutive, sgn_rev. now rewrite <- !app_assoc.
  - rewrite HT0. rewrite step_alone. destruct o2.
    + rewrite items1, finish1, app_nil_r. rewrite !rev_app_distr, !rev_involutive, sgn_rev. now rewrite <- !app_assoc.
    + rewrite items0, finish0. rewrite !rev_app_distr, !rev_involutive, sgn_rev. now rewrite <- !app_assoc.
Qed.

Section Facts.
Variable up : N -> bool.
(** u, a sign, something closed, the same sign, v. *)
Lemma shown_ineffective e u w v T X : ordinary up NL u (sign e ++ w ++ sign e ++ v) = true -> w <> [] -> hd NL w <> sign_char e -> hd NL v <> sign_char e ->
  adds up false (sign_char e) w (sign e ++ v) T -> closed e T X -> ordinary up (sign_char e) v [] = true ->
  left_flanking up (last u NL) (hd NL w) = false \/ right_flanking up (last w NL) (hd NL v) = false ->
  shown up (u ++ (sign e ++ w ++ sign e) ++ v) = flat_map (show plain) (map IChar u ++ sgn e ++ X ++ sgn e ++ map IChar v).
Proof.
  intros HU HW HF HV HA HC HO HD.
  rewrite (shown_adds up _ (map TIn (map IChar u) ++ [norm (run_token up (sign_char e) (sign_len e) (last u NL) (hd NL w))] ++ T ++
      [norm (run_token up (sign_char e) (sign_len e) (last w NL) (hd NL v))] ++ map TIn (map IChar v))).
  - f_equal. rewrite !token_sign.
    assert (HN : forall l, emphasis (map norm l) = emphasis l) by (intros l; unfold emphasis; now rewrite fold_norm).
    rewrite <- (emph_ineffective e T X (left_flanking up (last u NL) (hd NL w)) (right_flanking up (last u NL) (hd NL w))
       (left_flanking up (last w NL) (hd NL v)) (right_flanking up (last w NL) (hd NL v)) (map IChar u) (map IChar v) HC HD).
    rewrite <- HN. symmetry. rewrite <- HN. rewrite !map_app. cbn [map].
    assert (HI : forall t, norm (norm t) = norm t) by (intros [|? [|[|?]] [] []| |]; reflexivity). rewrite !HI. reflexivity.
  - rewrite <- !app_assoc. apply adds_app; [apply adds_text; [now rewrite app_nil_r|discriminate]|].
    apply adds_app.
    { rewrite app_nil_r. rewrite <- (hd_app w (sign e ++ v) HW). apply adds_sign. now rewrite hd_app. }
    rewrite sign_last. apply adds_app; [now rewrite app_nil_r|].
    rewrite (last_nonempty w _ NL HW). apply adds_app; [rewrite app_nil_r; now apply adds_sign|].
    rewrite sign_last. apply adds_text; [exact HO|discriminate].
Qed.

(** ---------------------------------------------------------------- code *)
Lemma closing_free t n : ~ In 96%N t -> forall rest, closing n 0 (t ++ rest) = match n, t with O, _ :: _ => Some [] | _, _ => option_map (app t) (closing n 0 rest) end.
Proof.
  induction t as [|c t IH]; intros HN rest.
  - cbn [app]. destruct n, (closing _ 0 rest); reflexivity.
  - cbn [app closing]. assert (HC : is_ch "`" c = false) by (rewrite (isch "`" c 96 eq_refl); apply N.eqb_neq; intros ->; apply HN; left; reflexivity).
    rewrite HC. destruct n; [reflexivity|]. cbn [Nat.eqb]. rewrite IH by (intros X; apply HN; right; exact X). destruct (closing (S n) 0 rest); reflexivity.
Qed.
Lemma closing_none t : ~ In 96%N t -> closing 2 0 t = None.
Proof. intros H. pose proof (closing_free t 2 H []) as X. rewrite app_nil_r in X. rewrite X. reflexivity. Qed.
Lemma plain_code_free t : ~ In 96%N t -> ~ In NL t -> forallb (N.eqb SP) t = false -> plain_code t = true.
Proof.
  intros H1 H2 H3. unfold plain_code. rewrite closing_none by (rewrite in_app_iff; intros [X|[X|[]]]; [contradiction|discriminate]).
  rewrite H3. cbn [andb negb]. apply negb_true_iff. apply not_true_is_false. intros X. apply existsb_NL in X. contradiction.
Qed.
(** Code up to the next run of two back-ticks. *)
Lemma adds_code_to p t rest : ~ In 96%N t -> t <> [] -> hd_error rest <> Some 96%N ->
  adds up true p (s "``" ++ t ++ s "``") rest [TIn (ICode (code_text t))].
Proof.
  intros HT HF HR st HB. exists (TIn (ICode (code_text t)) :: st). split.
  2:{ split; [discriminate|]. exists [TIn (ICode (code_text t))]. split; [reflexivity|]. split; [repeat constructor|reflexivity]. }
  assert (HC : closing 2 0 (t ++ s "``" ++ rest) = Some (t ++ s "``")).
  { rewrite closing_free by exact HT. rewrite closing_end by exact HR. reflexivity. }
  assert (HW : s "``" ++ t ++ s "``" = 96%N :: (96%N :: t ++ s "``")) by reflexivity.
  rewrite HW. rewrite last_cons.
  transitivity (scan up (List.length (96%N :: t ++ s "``")) 96 ((96%N :: t ++ s "``") ++ rest) (TIn (ICode (code_text t)) :: st)).
  2:{ now rewrite scan_skip. }
  assert (HL : leading 96 (96%N :: 96%N :: (t ++ s "``" ++ rest)) = 2).
  { apply (leading_repeat 96 2). destruct t as [|c t]; [contradiction|]. cbn [app hd_error]. intros X. injection X as ->. apply HT. left. reflexivity. }
  replace ((96%N :: 96%N :: t ++ s "``") ++ rest) with (96%N :: 96%N :: (t ++ s "``" ++ rest)) by (cbn [app]; now rewrite <- app_assoc).
  replace ((96%N :: t ++ s "``") ++ rest) with (96%N :: (t ++ s "``" ++ rest)) by (cbn [app]; now rewrite <- app_assoc).
  remember (96%N :: (t ++ s "``" ++ rest)) as l eqn:El.
  cbn [SpecInline.scan]. change (is_ch "\" 96) with false. change (is_ch "`" 96) with true. cbn iota zeta. rewrite HL.
  assert (HK : skipn 2 (96%N :: l) = t ++ s "``" ++ rest) by (rewrite El; reflexivity).
  rewrite HK, HC.
  assert (HX : firstn (List.length (t ++ s "``") - 2) (t ++ s "``") = t).
  { rewrite app_length. change (List.length (s "``")) with 2. rewrite Nat.add_sub. apply firstn_exact. }
  rewrite HX. f_equal. cbn [List.length]. rewrite app_length. change (List.length (s "``")) with 2. lia.
Qed.
(** Two back-ticks that open nothing. *)
Lemma adds_ticks p rest : ~ In 96%N rest -> adds up true p (s "``") rest (map TIn (map IChar (s "``"))).
Proof.
  intros HR st HB. exists (map TIn (map IChar (s "``")) ++ st). split.
  2:{ split; [discriminate|]. exists (map TIn (map IChar (s "``"))). split; [reflexivity|]. split; [repeat constructor|reflexivity]. }
  change (s "``" ++ rest) with (96%N :: (96%N :: rest)). change (last (s "``") p) with 96%N.
  assert (HL : leading 96 (96%N :: 96%N :: rest) = 2).
  { apply (leading_repeat 96 2). destruct rest as [|c r]; [discriminate|]. cbn. intros X. injection X as ->. apply HR. left. reflexivity. }
  remember (96%N :: rest) as l eqn:El.
  cbn [SpecInline.scan]. change (is_ch "\" 96) with false. change (is_ch "`" 96) with true. cbn iota zeta. rewrite HL.
  assert (HK : skipn 2 (96%N :: l) = rest) by (rewrite El; reflexivity). rewrite HK, (closing_none rest HR). rewrite El. reflexivity.
Qed.
Lemma ordinary_ticks t after : forall p, ordinary up p t after = true -> ~ In 96%N t.
Proof.
  induction t as [|c t IH]; intros p H; [intros []|]. intros [X|X].
  - subst c. cbn [ordinary] in H. apply andb_prop in H as [H _]. unfold literal in H. change (is_ch "\" 96) with false in H. change (is_ch "`" 96) with true in H. discriminate.
  - cbn [ordinary] in H. apply andb_prop in H as [_ H]. exact (IH _ H X).
Qed.
Lemma code_text_open a : a <> [] -> last a NL <> SP -> ~ In NL a -> code_text (SP :: a) = SP :: a.
Proof.
  intros HA HL HN. unfold code_text.
  assert (HM : map (fun c => if N.eqb c NL then SP else c) (SP :: a) = SP :: a).
  { cbn [map]. change (N.eqb SP NL) with false. cbn iota. f_equal. clear - HN. induction a as [|c a IH]; [reflexivity|]. cbn [map].
    destruct (N.eqb_spec c NL) as [->|_]; [exfalso; apply HN; left; reflexivity|]. f_equal. apply IH. intros X. apply HN. right. exact X. }
  rewrite HM. cbv zeta. destruct (exists_last HA) as (q & d & ->). rewrite last_snoc in HL.
  change (SP :: q ++ [d]) with ((SP :: q) ++ [d]). rewrite rev_app_distr. cbn [rev app].
  apply N.eqb_neq in HL. rewrite HL. change (N.eqb SP SP) with true. reflexivity.
Qed.

(** ---------------------------------------------------------------- backslash *)
Lemma adds_backslash p d rest : ascii_punct d = true -> adds up true p (s "\" ++ [d]) rest [TIn (IChar d)].
Proof.
  intros HD st HB. exists (TIn (IChar d) :: st). split.
  2:{ split; [discriminate|]. exists [TIn (IChar d)]. split; [reflexivity|]. split; [repeat constructor|reflexivity]. }
  change ((s "\" ++ [d]) ++ rest) with (92%N :: (d :: rest)). change (last (s "\" ++ [d]) p) with d.
  cbn [SpecInline.scan]. change (is_ch "\" 92) with true. cbn iota. rewrite HD. reflexivity.
Qed.

(** ---------------------------------------------------------------- images *)
Lemma scan_image p l st q h : Forall no_bracket l -> destination 0 q = Some h ->
  scan up 0 p (93%N :: 40%N :: q) (l ++ TBracket true :: TBang :: st) = scan up (2 + List.length h) 93 (40%N :: q) (TIn (IImage h (emphasis (rev l))) :: st).
Proof.
  intros HN HD. cbn [SpecInline.scan]. change (is_ch "\" 93) with false. change (is_ch "`" 93) with false. change (delimiter 93) with false.
  change (is_ch "!" 93) with false. change (is_ch "[" 93) with false. change (is_ch "]" 93) with true. cbn [andb]. cbn iota.
  rewrite bracket_join by exact HN. change (is_ch "(" 40) with true. cbn [andb]. cbn iota. rewrite HD. reflexivity.
Qed.
Lemma adds_image p w h rest T : plain_href h = true -> adds up true 91 w (s "](" ++ h ++ s ")" ++ rest) T ->
  adds up false p (s "!" ++ s "[" ++ w ++ s "](" ++ h ++ s ")") rest [TIn (IImage h (emphasis T))].
Proof.
  intros HH HW st HG. destruct (HW (TBracket true :: TBang :: st)) as (st' & HS & _ & l & -> & HN & HM); [discriminate|].
  exists (TIn (IImage h (emphasis T)) :: st). split; [|split; [discriminate|reflexivity]].
  assert (HE : emphasis (rev l) = emphasis T).
  { unfold emphasis. rewrite <- fold_norm. rewrite map_rev. rewrite HM. rewrite rev_involutive. reflexivity. }
  replace ((s "!" ++ s "[" ++ w ++ s "](" ++ h ++ s ")") ++ rest) with (33%N :: 91%N :: (w ++ s "](" ++ h ++ s ")" ++ rest)).
  2:{ rewrite <- !app_assoc. reflexivity. }
  cbn [SpecInline.scan]. change (is_ch "\" 33) with false. change (is_ch "`" 33) with false. change (delimiter 33) with false.
  change (is_ch "!" 33) with true. change (is_ch "[" 91) with true. cbn [andb]. cbn iota.
  change (is_ch "\" 91) with false. change (is_ch "`" 91) with false. change (delimiter 91) with false.
  change (is_ch "!" 91) with false. cbn [andb]. cbn iota.
  rewrite HS. change (s "](" ++ h ++ s ")" ++ rest) with (93%N :: (40%N :: h ++ 41%N :: rest)).
  unfold plain_href in HH. destruct (destination 0 (h ++ s ")")) as [x|] eqn:X; [|discriminate]. apply str_eqb_eq in HH. subst x.
  rewrite (scan_image _ l st _ h HN (destination_stop h rest 0 X)).
  replace (40%N :: h ++ 41%N :: rest) with (((40%N :: h) ++ [41%N]) ++ rest) by (rewrite <- app_assoc; reflexivity).
  rewrite (scan_skip' up _ ((40%N :: h) ++ [41%N])); [|rewrite app_length; cbn; lia].
  rewrite HE. f_equal. rewrite last_snoc.
  rewrite !last_app. reflexivity.
Qed.
Lemma reads_image p w h rest X : plain_href h = true -> reads up true 91 w (s "](" ++ h ++ s ")" ++ rest) X ->
  reads up false p (s "!" ++ s "[" ++ w ++ s "](" ++ h ++ s ")") rest [IImage h X].
Proof.
  intros HH (T & HA & HT). apply core_reads, core_items. replace X with (emphasis T).
  2:{ unfold emphasis, finish. rewrite HT. cbn. now rewrite app_nil_r, rev_involutive. }
  exact (adds_image p w h rest T HH HA).
Qed.
End Facts.
