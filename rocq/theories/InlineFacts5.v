(** The nodes of a paragraph as the inline reader sees them. *)
From Coq Require Import List Arith NArith Bool String Lia.
From Verif Require Import PyStr Values Schema Parse Date Markdown Basics StrFacts MarkFacts SpecMd SpecReader SpecInline SpecLook InlineFacts1 InlineFacts2 InlineFacts3 InlineFacts4.
Import ListNotations.
Open Scope string_scope.
Open Scope list_scope.
Open Scope nat_scope.

Section Facts.
Variable up : N -> bool.
Definition signc (c : N) : Prop := c = 42%N \/ c = 126%N.
Lemma punct_star : punct up 42 = true. Proof. reflexivity. Qed.
Lemma punct_tilde : punct up 126 = true. Proof. reflexivity. Qed.
Lemma not_word c : word up c = false -> uni_ws c = true \/ punct up c = true.
Proof. unfold word. destruct (uni_ws c), (punct up c); cbn; intuition discriminate. Qed.
Lemma left_free p f : uni_ws f = false -> (word up p = true -> punct up f = false) -> left_flanking up p f = true.
Proof.
  intros HF HP. unfold left_flanking. rewrite HF. cbn [negb andb]. destruct (word up p) eqn:W.
  - rewrite (HP eq_refl). reflexivity.
  - destruct (not_word p W) as [X|X]; rewrite X; rewrite ?orb_true_r; reflexivity.
Qed.
Lemma right_free p f : uni_ws p = false -> (word up f = true -> punct up p = false) -> right_flanking up p f = true.
Proof.
  intros HF HP. unfold right_flanking. rewrite HF. cbn [negb andb]. destruct (word up f) eqn:W.
  - rewrite (HP eq_refl). reflexivity.
  - destruct (not_word f W) as [X|X]; rewrite X; rewrite ?orb_true_r; reflexivity.
Qed.
Definition single (R : runs) : Prop := exists r, R = [r].
Lemma opens_shell p R f : In R shells -> uni_ws f = false -> ~ signc f -> (word up p = true -> single R /\ punct up f = false) -> opens up p R f.
Proof.
  intros HR HF HS HP. unfold signc in HS. unfold shells in HR. cbn [In] in HR.
  repeat (destruct HR as [<-|HR]; [cbn [opens star tilde]; repeat split;
     try (apply left_free; [exact HF || reflexivity|]; intros W; first [exact (proj2 (HP W)) | exfalso; destruct (HP W) as [[? X] _]; discriminate X | exfalso; discriminate W]);
     try (intros ->; tauto); try discriminate|]).
  contradiction.
Qed.
Lemma shuts_shell p R f : In R shells -> uni_ws p = false -> (word up f = true -> single R /\ punct up p = false) ->
  (forall r, hd_error R = Some r -> f <> fst r) -> shuts up p (rev R) f.
Proof.
  intros HR HF HP HS. unfold shells in HR. cbn [In] in HR.
  repeat (destruct HR as [<-|HR]; [cbn [rev app shuts star tilde]; repeat split;
     try (apply right_free; [exact HF || reflexivity|]; intros W; first [exact (proj2 (HP W)) | exfalso; destruct (HP W) as [[? X] _]; discriminate X | exfalso; discriminate W]);
     try exact (HS _ eq_refl); try discriminate|]).
  contradiction.
Qed.
Lemma last_close R p : In R shells -> forall r, hd_error R = Some r -> last (close_str R) p = fst r.
Proof.
  intros HR r Hr. unfold shells in HR. cbn [In] in HR.
  repeat (destruct HR as [<-|HR]; [injection Hr as <-; reflexivity|]). contradiction.
Qed.
Lemma last_open R p : In R shells -> signc (last (open_str R) p).
Proof.
  intros HR. unfold shells in HR. cbn [In] in HR.
  repeat (destruct HR as [<-|HR]; [first [left; reflexivity|right; reflexivity]|]). contradiction.
Qed.
(** Emphasis around a piece that begins with f and ends with g. *)
Lemma reads_emph nb p l w rest X : NoDup l ->
  core up nb (last (signs_before l) p) w (signs_after l ++ rest) X ->
  (l <> [] -> w <> [] /\ uni_ws (hd NL w) = false /\ uni_ws (last w NL) = false /\ ~ signc (hd NL w) /\
     (word up p = true -> (~ In Strike l \/ l = [Strike]) /\ punct up (hd NL w) = false) /\
     (word up (hd NL rest) = true -> (~ In Strike l \/ l = [Strike]) /\ punct up (last w NL) = false) /\
     hd NL rest <> last (signs_after l) NL) ->
  reads up nb p (signs_before l ++ w ++ signs_after l) rest (wrap (runs_of l) X).
Proof.
  intros HN HC HL. destruct (runs_shell l HN) as [->|HS].
  - unfold signs_before, signs_after in *. cbn [rev map List.concat app last runs_of fold_left wrap] in *. rewrite app_nil_r. now apply core_reads.
  - assert (HNE : l <> []) by (intros ->; revert HS; cbn; intuition discriminate).
    destruct (HL HNE) as (H1 & H2 & H3 & H4 & H5 & H6 & H7).
    rewrite (runs_open l HN), (runs_close l HN) in *.
    apply reads_shell; [exact HS|now apply runs_good|exact H1|exact HC| |].
    + apply opens_shell; try assumption. intros W. destruct (H5 W) as [A B]. split; [now apply runs_one|exact B].
    + apply shuts_shell; try assumption.
      * intros W. destruct (H6 W) as [A B]. split; [now apply runs_one|exact B].
      * intros r Hr. rewrite <- (last_close _ NL HS r Hr). exact H7.
Qed.

(** ---------------------------------------------------------------- ends of pieces *)
Lemma literal_sign p c a : signc c -> literal up p c a = uni_ws p && uni_ws (hd NL a).
Proof. intros [->| ->]; reflexivity. Qed.
Lemma ordinary_first p t after : ordinary up p t after = true -> t <> [] -> uni_ws p = false -> ~ signc (hd NL t).
Proof.
  destruct t as [|c t]; [contradiction|]. cbn [ordinary hd]. intros H _ HP HS. apply andb_prop in H as [H _].
  rewrite (literal_sign _ _ _ HS), HP in H. discriminate.
Qed.
Lemma last_sign_after l p : l <> [] -> exists c, last (signs_after l) p = c /\ signc c.
Proof.
  intros H. destruct (exists_last H) as (l' & e & ->). unfold signs_after. rewrite map_app, concat_app. rewrite last_app.
  destruct e; eexists; (split; [reflexivity|]); [left|left|right]; reflexivity.
Qed.
Lemma last_sign_before l p : l <> [] -> signc (last (signs_before l) p).
Proof.
  intros H. unfold signs_before. destruct l as [|e l]; [contradiction|]. cbn [rev]. rewrite map_app, concat_app. rewrite last_app.
  destruct e; [left|left|right]; reflexivity.
Qed.
Lemma signc_ws c : signc c -> uni_ws c = false.
Proof. intros [->| ->]; reflexivity. Qed.
Lemma ends (b : bool) (t : str) : (b = true \/ t <> []) -> let w := if b then s "`` " ++ t ++ s " ``" else t in
  w <> [] /\ hd NL w = (if b then 96%N else hd NL t) /\ last w NL = if b then 96%N else last t NL.
Proof.
  intros H w. destruct b; subst w; [|destruct H; [discriminate|tauto]]. split; [discriminate|]. split; [reflexivity|].
  rewrite !last_app. reflexivity.
Qed.
Lemma last_nonempty (w : str) p q : w <> [] -> last w p = last w q.
Proof. destruct w as [|c w]; [contradiction|]. intros _. now rewrite !last_cons. Qed.

(** ---------------------------------------------------------------- one text node *)
Definition seen_as (f : format) (t : str) : list inl :=
  let X := if f_code f then [ICode t] else map IChar t in
  wrap (runs_of (f_outer f)) (match f_link f with Some h => [ILink h (wrap (runs_of (f_inner f)) X)] | None => X end).
Lemma NoDup_app {A} (a b : list A) : NoDup (a ++ b) -> NoDup a /\ NoDup b.
Proof.
  induction a as [|x a IH]; cbn [app]; intros H; [split; [constructor|exact H]|].
  inversion H as [|y l HN HD]; subst. destruct (IH HD) as [H1 H2]. split; [|exact H2]. constructor; [|exact H1].
  intros HI. apply HN. apply in_or_app. tauto.
Qed.
Lemma reads_text p f t after : expressible up p f t after -> reads up false p (front f ++ inside f t ++ back f) after (seen_as f t).
Proof.
  intros (HD & HI & HT & HL & HV & HW & HP & HN & HA).
  destruct (NoDup_app _ _ HD) as [HD1 HD2].
  assert (HX : f_inner f ++ f_outer f <> [] -> f_code f = true \/ t <> []).
  { intros X. destruct (HV (or_intror X)) as (c & HC & _). right. intros ->. exact HC. }
  unfold seen_as, front, back, inside in *. destruct (f_link f) as [h|] eqn:L.
  - destruct (HL h eq_refl) as [HH HB].
    set (w := if f_code f then s "`` " ++ t ++ s " ``" else t) in *.
    set (w1 := signs_before (f_inner f) ++ w ++ signs_after (f_inner f)) in *.
    set (w2 := s "[" ++ w1 ++ s "](" ++ h ++ s ")").
    match goal with |- reads _ _ _ ?x _ _ => replace x with (signs_before (f_outer f) ++ w2 ++ signs_after (f_outer f)) end.
    2:{ subst w2 w1 w. rewrite <- !app_assoc. reflexivity. }
    apply reads_emph; [exact HD2| |].
    + apply core_link; [exact HH|]. apply reads_emph; [exact HD1| |].
      * subst w. destruct (f_code f) eqn:C.
        -- apply core_code; [exact (proj1 HT)|]. apply (hd_hd_error _ NL).
           destruct HT as [_ HT]. rewrite <- !app_assoc in HT. intros X. apply HT. rewrite <- X. rewrite <- ?app_assoc. reflexivity.
        -- apply core_text; [|intros _; now apply HB]. rewrite !last_app in HT. cbn [last] in HT. rewrite <- !app_assoc in HT. exact HT.
      * intros HNE.
        assert (HNE' : f_inner f ++ f_outer f <> []) by (intros X; apply app_eq_nil in X; tauto).
        destruct (ends (f_code f) t (HX HNE')) as (E1 & E2 & E3). fold w in E1, E2, E3. rewrite E2, E3.
        split; [exact E1|]. destruct (f_code f) eqn:C.
        -- split; [reflexivity|]. split; [reflexivity|]. split; [intros [X|X]; discriminate|].
           split; [intros X; discriminate|]. split; [intros X; discriminate|].
           destruct (last_sign_after (f_inner f) NL HNE) as (c & -> & [->| ->]); discriminate.
        -- destruct (HW eq_refl HNE') as [W1 W2]. split; [exact W1|]. split; [exact W2|]. split.
           { apply (ordinary_first _ _ _ HT); [destruct (HX HNE') as [X|X]; [discriminate|exact X]|].
             rewrite !last_app. apply signc_ws. now apply last_sign_before. }
           split; [intros X; discriminate|]. split; [intros X; discriminate|].
           destruct (last_sign_after (f_inner f) NL HNE) as (c & -> & [->| ->]); discriminate.
    + intros HNE.
      assert (E1 : hd NL w2 = 91%N) by reflexivity.
      assert (E2 : last w2 NL = 41%N) by (subst w2; rewrite !last_app; reflexivity).
      rewrite E1, E2. split; [discriminate|]. split; [reflexivity|]. split; [reflexivity|]. split; [intros [X|X]; discriminate|].
      split; [intros X; destruct (HP HNE X) as [(_ & Y & _) _]; congruence|]. split; [intros X; destruct (HN HNE X) as [(_ & Y & _) _]; congruence|].
      specialize (HA HNE). rewrite !last_app in HA.
      destruct (last_sign_after (f_outer f) NL HNE) as (c & Hc & _).
      rewrite (last_nonempty (signs_after (f_outer f)) NL (last (s ")") (last h (last (s "](") (last (signs_after (f_inner f)) NL))))); [exact HA|].
      intros X. destruct (f_outer f) as [|[] ?]; [contradiction|discriminate X..].
  - rewrite (HI eq_refl) in *. change (signs_before []) with (@nil N) in *. change (signs_after []) with (@nil N) in *. cbn [app] in *.
    rewrite app_nil_r in *.
    apply reads_emph; [exact HD2| |].
    + destruct (f_code f) eqn:C.
      * apply core_code; [exact (proj1 HT)|]. apply (hd_hd_error _ NL). exact (proj2 HT).
      * apply core_text; [exact HT|discriminate].
    + intros HNE. destruct (ends (f_code f) t (HX HNE)) as (E1 & E2 & E3).
      match goal with |- ?w <> [] /\ _ => change w with (if f_code f then s "`` " ++ t ++ s " ``" else t) end.
      match goal with |- context [hd NL ?w] => replace (hd NL w) with (if f_code f then 96%N else hd NL t) by (symmetry; exact E2) end.
      match goal with |- context [last ?w NL] => replace (last w NL) with (if f_code f then 96%N else last t NL) by (symmetry; exact E3) end.
      split; [exact E1|]. destruct (f_code f) eqn:C.
      * split; [reflexivity|]. split; [reflexivity|]. split; [intros [X|X]; discriminate|].
        split; [intros X; destruct (HP HNE X) as [(Y & _) _]; congruence|]. split; [intros X; destruct (HN HNE X) as [(Y & _) _]; congruence|]. exact (HA HNE).
      * destruct (HW eq_refl HNE) as [W1 W2]. split; [exact W1|]. split; [exact W2|]. split.
        { apply (ordinary_first _ _ _ HT); [destruct (HX HNE) as [X|X]; [discriminate|exact X]|]. apply signc_ws. now apply last_sign_before. }
        split; [intros X; destruct (HP HNE X) as [(_ & _ & Y) Z]; tauto|]. split; [intros X; destruct (HN HNE X) as [(_ & _ & Y) Z]; tauto|]. exact (HA HNE).
Qed.
Lemma show_seen f t : NoDup (f_inner f ++ f_outer f) -> (f_link f = None -> f_inner f = []) ->
  flat_map (show plain) (seen_as f t) = map (fun c => Glyph c (look_of f)) t.
Proof.
  intros HD HI. destruct (NoDup_app _ _ HD) as [HD1 HD2]. unfold seen_as, look_of. cbv zeta.
  rewrite (show_runs _ _ HD2), fold_look. unfold has. rewrite !existsb_app. cbn [bold italic struck code link plain].
  assert (HC : forall t k, flat_map (show k) (map IChar t) = map (fun c => Glyph c k) t).
  { intros t' k. induction t' as [|c t' IH]; [reflexivity|]. cbn. now rewrite IH. }
  destruct (f_link f) as [h|].
  - cbn [flat_map show]. rewrite app_nil_r. cbn [bold italic struck code link].
    rewrite (show_runs _ _ HD1), fold_look. unfold has. cbn [bold italic struck code link].
    rewrite !orb_false_r. destruct (f_code f).
    + cbn [flat_map show]. rewrite app_nil_r. reflexivity.
    + apply HC.
  - rewrite (HI eq_refl). cbn [existsb orb]. rewrite !orb_false_r. destruct (f_code f).
    + cbn [flat_map show]. rewrite app_nil_r. reflexivity.
    + apply HC.
Qed.

(** ---------------------------------------------------------------- the nodes of a paragraph *)
Lemma styles_code f : (In SCode (styles f) -> f_code f = true /\ exists r, styles f = SCode :: r /\ ~ In SCode r).
Proof.
  unfold styles. intros H.
  assert (HR : ~ In SCode (map SEmph (f_inner f) ++ match f_link f with Some h => [SLink h] | None => [] end ++ map SEmph (f_outer f))).
  { rewrite !in_app_iff, !in_map_iff. intros [(x & X & _)|[X|(x & X & _)]]; try discriminate.
    destruct (f_link f); [destruct X as [X|[]]; discriminate|contradiction]. }
  destruct (f_code f); [|contradiction]. split; [reflexivity|]. eexists. split; [reflexivity|exact HR].
Qed.
Lemma styles_needs f : existsb needs (styles f) = true -> f_code f = true \/ f_inner f ++ f_outer f <> [].
Proof.
  unfold styles. rewrite !existsb_app. destruct (f_code f); [tauto|]. intros H. right. intros X. apply app_eq_nil in X as [X1 X2].
  rewrite X1, X2 in H. destruct (f_link f); discriminate H.
Qed.
Lemma styled_writes E n t l x : styled n t l -> renders E n x -> (existsb needs l = true -> seeable t) ->
  (forall q r, l = q ++ SCode :: r -> ~ In NL (fold_left write1 q t)) -> x = fold_left write1 l t.
Proof.
  intros (HK & HT & HM) HR HN HC. destruct n as [k ty ve tx a co ma]. cbn [n_kind n_text n_marks] in *. subst k tx. unfold renders, to_markdown in HR. cbn [to_md] in HR.
  destruct HM as [[HM ->]|(ms & ls & -> & HF & <-)].
  - assert (X : add_style E ma (VStr t) = Ok (VStr t)) by (destruct ma as [| |[|m l]|r]; try reflexivity; now destruct (HM (m :: l))).
    rewrite X in HR. apply okstr_inj in HR. now symmetry.
  - assert (X : add_style E (Items ms) (VStr t) = apply_marks E ms (VStr t)) by (destruct ms; reflexivity).
    rewrite X in HR. rewrite (apply_styles E ms ls HF t HN HC) in HR. apply okstr_inj in HR. now symmetry.
Qed.
Lemma styled_plain E n t x : styled n t [] -> renders E n x -> x = t.
Proof. intros HS HR. apply (styled_writes E n t [] x HS HR); [discriminate|]. intros [|? ?] r X; discriminate X. Qed.
Lemma renders_text E n t f x : styled n t (styles f) ->
  ((f_code f = true \/ f_inner f ++ f_outer f <> []) -> seeable t) -> (f_code f = true -> ~ In NL t) ->
  renders E n x -> x = front f ++ inside f t ++ back f.
Proof.
  intros HS HV HC HR. rewrite <- write_format. apply (styled_writes E n t (styles f) x HS HR).
  - intros X. apply HV. now apply styles_needs.
  - intros q r X. destruct (styles_code f) as (Y & r' & Z & HN); [rewrite X; apply in_elt|]. rewrite Z in X.
    destruct q as [|y q]; [exact (HC Y)|]. exfalso. cbn [app] in X. injection X as _ X. apply HN. rewrite X. apply in_elt.
Qed.
Lemma show_chars k t : flat_map (show k) (map IChar t) = map (fun c => Glyph c k) t.
Proof. induction t as [|c t IH]; [reflexivity|]. cbn. now rewrite IH. Qed.
(** Code between single back-ticks. *)
Lemma closing1 t rest : ~ In 96%N t -> hd_error rest <> Some 96%N -> closing 1 0 (t ++ s "`" ++ rest) = Some (t ++ s "`").
Proof.
  intros HT HR. induction t as [|c t IH].
  - change (s "`") with [96%N]. cbn [app closing]. change (is_ch "`" 96) with true. cbn iota. destruct rest as [|d r]; [reflexivity|]. cbn [closing].
    assert (X : is_ch "`" d = false) by (rewrite (isch "`" d 96 eq_refl); apply N.eqb_neq; intros ->; now contradiction HR).
    rewrite X. reflexivity.
  - cbn [app closing]. assert (X : is_ch "`" c = false) by (rewrite (isch "`" c 96 eq_refl); apply N.eqb_neq; intros ->; apply HT; left; reflexivity).
    rewrite X. change (Nat.eqb 0 1) with false. cbn iota. rewrite IH by (intros Y; apply HT; right; exact Y). reflexivity.
Qed.
Lemma adds_tick p t rest : ~ In 96%N t -> t <> [] -> hd_error rest <> Some 96%N ->
  adds up true p (s "`" ++ t ++ s "`") rest [TIn (ICode (code_text t))].
Proof.
  intros HT HF HR st HB. exists (TIn (ICode (code_text t)) :: st). split.
  2:{ split; [discriminate|]. exists [TIn (ICode (code_text t))]. split; [reflexivity|]. split; [repeat constructor|reflexivity]. }
  assert (HW : s "`" ++ t ++ s "`" = 96%N :: (t ++ s "`")) by reflexivity.
  rewrite HW. rewrite last_cons.
  transitivity (scan up (List.length (t ++ s "`")) 96 ((t ++ s "`") ++ rest) (TIn (ICode (code_text t)) :: st)).
  2:{ now rewrite scan_skip. }
  assert (HL : leading 96 (96%N :: (t ++ s "`" ++ rest)) = 1).
  { apply (leading_repeat 96 1). destruct t as [|c t]; [contradiction|]. cbn [app hd_error]. intros X. injection X as ->. apply HT. left. reflexivity. }
  replace ((96%N :: t ++ s "`") ++ rest) with (96%N :: (t ++ s "`" ++ rest)) by (cbn [app]; now rewrite <- app_assoc).
  replace ((t ++ s "`") ++ rest) with (t ++ s "`" ++ rest) by (now rewrite <- app_assoc).
  remember (t ++ s "`" ++ rest) as l eqn:El.
  cbn [SpecInline.scan]. change (is_ch "\" 96) with false. change (is_ch "`" 96) with true. cbn iota zeta. rewrite HL.
  cbn [skipn]. rewrite El. rewrite (closing1 t rest HT HR).
  assert (HX : firstn (List.length (t ++ s "`") - 1) (t ++ s "`") = t).
  { rewrite app_length. change (List.length (s "`")) with 1. rewrite Nat.add_sub. apply firstn_exact. }
  rewrite HX. f_equal. rewrite app_length. change (List.length (s "`")) with 1. lia.
Qed.
Lemma code_text_same t : ~ In NL t -> hd NL t <> SP \/ last t NL <> SP -> code_text t = t.
Proof.
  intros HN HE. unfold code_text.
  assert (HM : map (fun c => if N.eqb c NL then SP else c) t = t).
  { clear HE. induction t as [|c t IH]; [reflexivity|]. cbn [map].
    destruct (N.eqb_spec c NL) as [->|_]; [exfalso; apply HN; left; reflexivity|]. f_equal. apply IH. intros X. apply HN. right. exact X. }
  rewrite HM. destruct t as [|a t]; [reflexivity|]. destruct (rev (a :: t)) as [|b r] eqn:Er; [reflexivity|].
  assert (HL : last (a :: t) NL = b). { rewrite <- (rev_involutive (a :: t)), Er. cbn [rev]. apply last_snoc. }
  rewrite HL in HE. cbn [hd] in HE.
  destruct (N.eqb_spec a SP) as [->|_]; [|reflexivity]. destruct (N.eqb_spec b SP) as [->|_]; [|reflexivity]. exfalso. destruct HE as [X|X]; apply X; reflexivity.
Qed.
Lemma reads_node E n x p after g : renders E n x -> node_shown up p n x after g -> exists X, reads up false p x after X /\ flat_map (show plain) X = g.
Proof.
  intros HR HS. destruct HS as [t f HST HE|HK HL|h a HK HA HU HE|t a HK HA HU HN HB HL HS HF|t a v0 HK HA HU HT HO|t a v0 HK HA HU HT HO|_ HO].
  - assert (HX := HE). destruct HX as (HD & HI & HC & _ & HV & _).
    assert (x = front f ++ inside f t ++ back f) as ->.
    { apply (renders_text E n t f x HST); [exact HV| |exact HR].
      intros C. rewrite C in HC. destruct HC as [HC _]. unfold plain_code in HC. apply andb_prop in HC as [_ HC]. apply negb_true_iff in HC.
      intros X. apply existsb_NL in X. congruence. }
    exists (seen_as f t). split; [now apply reads_text|now apply show_seen].
  - destruct n as [k ty ve tx a co ma]. cbn [n_kind] in HK. subst k. unfold renders in HR. apply okstr_inj in HR. subst x.
    exists [IBreak]. split; [now apply reads_break|reflexivity].
  - destruct n as [k ty ve tx a' co ma]. cbn [n_kind n_attrs] in *. subst k a'. unfold renders, to_markdown in HR. cbn [to_md] in HR. cbn [attr] in HR. rewrite HU in HR. cbn [rbind] in HR.
    apply okstr_inj in HR. subst x. exists (seen_as (Format false [] (Some h) []) h). split; [|exact (show_seen (Format false [] (Some h) []) h (NoDup_nil _) (fun _ => eq_refl))].
    assert (HX := reads_text p (Format false [] (Some h) []) h after HE). unfold front, back, inside in HX. cbn [f_outer f_inner f_link f_code] in HX.
    change (signs_before []) with (@nil N) in HX. change (signs_after []) with (@nil N) in HX. rewrite !app_nil_r in HX. exact HX.
  - destruct n as [k ty ve tx a' co ma]. cbn [n_kind n_attrs] in *. subst k a'. unfold renders, to_markdown in HR. cbn [to_md] in HR. cbn [attr] in HR. rewrite HU in HR. cbn [rbind] in HR.
    apply okstr_inj in HR. subst x. exists [ICode t]. split; [|cbn; now rewrite app_nil_r].
    exists [TIn (ICode t)]. split.
    + rewrite <- (code_text_same t HL HS) at 2. apply adds_weaken. apply adds_tick; [exact HB|exact HN|]. destruct after as [|d r]; [discriminate|]. cbn. intros X. injection X as ->. now apply HF.
    + intros b. reflexivity.
  - destruct n as [k ty ve tx a' co ma]. cbn [n_kind n_attrs] in *. subst k a'. unfold renders, to_markdown in HR. cbn [to_md] in HR. cbn [attr] in HR. rewrite HU in HR. cbn [rbind] in HR.
    assert (x = t) as ->. { destruct HT as [->|[HT ->]]; [now apply okstr_inj in HR|]. destruct v0; try (now apply okstr_inj in HR). now destruct (HT x0). }
    exists (map IChar t). split; [apply core_reads, core_text; [exact HO|discriminate]|apply show_chars].
  - destruct n as [k ty ve tx a' co ma]. cbn [n_kind n_attrs] in *. subst k a'. unfold renders, to_markdown in HR. cbn [to_md] in HR. cbn [attr] in HR. rewrite HU in HR. cbn [rbind] in HR.
    assert (x = t) as ->. { destruct HT as [->|[HT HSN]]; [now apply okstr_inj in HR|]. rewrite HSN in HR. cbn [rbind] in HR. destruct v0; try (now apply okstr_inj in HR). now destruct (HT x0). }
    exists (map IChar t). split; [apply core_reads, core_text; [exact HO|discriminate]|apply show_chars].
  - exists (map IChar x). split; [apply core_reads, core_text; [exact HO|discriminate]|apply show_chars].
Qed.
Lemma reads_nodes E ns xs : Forall2 (renders E) ns xs -> forall p gs, all_shown up p ns xs gs ->
  exists X, reads up false p (List.concat xs) [] X /\ flat_map (show plain) X = gs.
Proof.
  induction 1 as [|n x ns xs HR HF IH]; intros p gs HS; cbn [all_shown] in HS.
  - subst gs. exists []. split; [apply reads_nil|reflexivity].
  - destruct HS as (g1 & g2 & H1 & H2 & ->). destruct (reads_node E n x p _ g1 HR H1) as (X1 & R1 & S1). destruct (IH _ _ H2) as (X2 & R2 & S2).
    exists (X1 ++ X2). split; [|rewrite flat_map_app; now rewrite S1, S2]. cbn [List.concat]. apply reads_app; [now rewrite app_nil_r|exact R2].
Qed.
End Facts.
