(** C80: what a Markdown reader sees when the text of a paragraph is not one that Markdown can express (see C79): the precise misreading, for the
    ways in which it happens.  Vocabulary as in Properties_Inline.v; [styled n t l]: a text node with the text t whose marks ask for the styles l;
    [written E ns x]: the nodes ns write x; [tame]: without special characters; [harmless]: and without a space at the end. *)
From Coq Require Import List Arith NArith ZArith Bool String Lia.
From Verif Require Import PyStr Values Schema Parse Date Markdown Basics StrFacts MarkFacts SpecParse ParseFacts4 SpecMd MdFacts2 SpecErr ErrFacts SpecReader SpecSeen SpecInline SpecLook
  InlineFacts1 InlineFacts2 InlineFacts3 InlineFacts4 InlineFacts5 InlineFacts6 InlineFacts7 InlineFacts8 ReaderFacts ReaderFacts2
  Properties_Marks Properties_Nodes Properties_Layout Properties_Lists Properties_Reader Properties_Inline.
Import ListNotations.
Open Scope string_scope.
Open Scope list_scope.
Open Scope nat_scope.

Definition glyphs_of (k : look) (t : str) : list glyph := map (fun c => Glyph c k) t.
(** What is written before and after the nodes in question. *)
Lemma around E before ns after u v out : written E (before ++ ns ++ after) out -> written E before u -> written E after v ->
  exists x, written E ns x /\ out = u ++ x ++ v.
Proof.
  intros HO HU HV. apply written_app in HO as (u' & r & HU' & HR & ->). apply written_app in HR as (x & v' & HX & HV' & ->).
  rewrite (written_same E _ _ _ HU' HU), (written_same E _ _ _ HV' HV). exists x. split; [exact HX|reflexivity].
Qed.
Lemma around1 E before n after u v out : written E (before ++ [n] ++ after) out -> written E before u -> written E after v ->
  exists x, renders E n x /\ out = u ++ x ++ v.
Proof. intros HO HU HV. destruct (around E before [n] after u v out HO HU HV) as (x & HX & ->). exists x. split; [now apply written_one|reflexivity]. Qed.
Lemma glyphs_app k a b : glyphs_of k (a ++ b) = glyphs_of k a ++ glyphs_of k b.
Proof. apply map_app. Qed.
Lemma emph_only e t : List.length [SEmph e] = 1 /\ forall q r, [SEmph e] = q ++ SCode :: r -> ~ In NL (fold_left write1 q t).
Proof. split; [reflexivity|]. intros [|? [|? ?]] r X; discriminate X. Qed.

(** ================================================================ emphasis *)
(** Two texts in a row with the same emphasis: the signs between them are shown, twice. *)
Theorem C80_same_twice : forall E up before n1 n2 after u v out e a b,
  written E (before ++ [n1; n2] ++ after) out -> written E before u -> written E after v -> tame u -> harmless v ->
  styled n1 a [SEmph e] -> styled n2 b [SEmph e] -> word_text up a -> word_text up b ->
  shown up out = glyphs_of plain u ++ glyphs_of (emphasize e plain) (a ++ sign e ++ sign e ++ b) ++ glyphs_of plain v.
Proof.
  intros E up before n1 n2 after u v out e a b HO HU HV TU TV S1 S2 WA WB.
  destruct (around E before [n1; n2] after u v out HO HU HV) as (x & HX & ->).
  apply written_cons in HX as (x1 & z & R1 & HZ & ->). apply written_one in HZ.
  pose proof (styled_writes E n1 a _ x1 S1 R1 (fun _ => word_text_see up a WA) (proj2 (emph_only e a))) as ->.
  pose proof (styled_writes E n2 b _ z S2 HZ (fun _ => word_text_see up b WB) (proj2 (emph_only e b))) as ->.
  cbn [fold_left write1].
  rewrite (shown_between up u _ v [IEmph e (map IChar (a ++ (sign e ++ sign e) ++ b))]).
  - cbn [flat_map show]. rewrite app_nil_r, show_chars. unfold glyphs_of. now rewrite <- !app_assoc.
  - apply tame_before; [exact TU|rewrite <- !app_assoc, sign_hd; destruct e; discriminate|rewrite <- !app_assoc, sign_hd; destruct e; discriminate].
  - apply reads_adjacent; [exact WA|exact WB|]. apply hd_v. now apply harmless_tame.
  - now apply harmless_ordinary.
Qed.
(** White space at an end of an emphasised text: no emphasis, the signs are shown. *)
Theorem C80_white_space : forall E up before n after u v out e t,
  written E (before ++ [n] ++ after) out -> written E before u -> written E after v -> tame u -> harmless v ->
  styled n t [SEmph e] -> tame t -> (exists c, In c t /\ is_ws c = false) -> uni_ws (hd NL t) = true \/ uni_ws (last t NL) = true ->
  shown up out = glyphs_of plain (u ++ sign e ++ t ++ sign e ++ v).
Proof.
  intros E up before n after u v out e t HO HU HV TU TV HS TT HE HW.
  destruct (around1 E before n after u v out HO HU HV) as (x & HX & ->).
  pose proof (styled_writes E n t _ x HS HX (fun _ => HE) (proj2 (emph_only e t))) as ->. cbn [fold_left write1].
  assert (NT : t <> []) by (destruct HE as (c & HC & _); intros ->; exact HC).
  assert (SC : forall r, hd NL (sign e ++ r) <> SP /\ hd NL (sign e ++ r) <> NL) by (intros r; rewrite sign_hd; destruct e; split; discriminate).
  rewrite (shown_ineffective up e u t v (map TIn (map IChar t)) (map IChar t)).
  - unfold sgn. rewrite <- !map_app, show_chars. unfold glyphs_of. reflexivity.
  - apply tame_before; [exact TU|apply SC|apply SC].
  - exact NT.
  - now apply not_special_sign.
  - apply hd_v. now apply harmless_tame.
  - apply adds_text; [|discriminate]. apply tame_before; [exact TT|apply SC|apply SC].
  - apply closed_items.
  - now apply harmless_ordinary.
  - destruct HW as [HW|HW]; [left|right]; unfold left_flanking, right_flanking; rewrite HW; reflexivity.
Qed.
(** Two kinds of signs next to a letter: the outer signs do nothing and are shown. *)
Theorem C80_next_to_letter : forall E up before n after u v out e1 e2 t,
  written E (before ++ [n] ++ after) out -> written E before u -> written E after v -> tame u -> harmless v ->
  styled n t [SEmph e1; SEmph e2] -> (e1 = Strike <-> e2 <> Strike) -> word_text up t -> word up (last u NL) = true \/ word up (hd NL v) = true ->
  shown up out = glyphs_of plain (u ++ sign e2) ++ glyphs_of (emphasize e1 plain) t ++ glyphs_of plain (sign e2 ++ v).
Proof.
  intros E up before n after u v out e1 e2 t HO HU HV TU TV HS HE WT HW.
  destruct (around1 E before n after u v out HO HU HV) as (x & HX & ->).
  assert (HC : forall q r, [SEmph e1; SEmph e2] = q ++ SCode :: r -> ~ In NL (fold_left write1 q t)) by (intros [|? [|? [|? ?]]] r X; discriminate X).
  pose proof (styled_writes E n t _ x HS HX (fun _ => word_text_see up t WT) HC) as ->. cbn [fold_left write1].
  assert (NE : sign_char e1 <> sign_char e2).
  { destruct HE as [H1 H2]. destruct e1, e2; cbn; try discriminate; exfalso; first [assert (Y := H2 ltac:(discriminate)); discriminate Y | exact (H1 eq_refl eq_refl)]. }
  assert (SC : forall e r, hd NL (sign e ++ r) <> SP /\ hd NL (sign e ++ r) <> NL) by (intros e r; rewrite sign_hd; destruct e; split; discriminate).
  destruct WT as (HT & NT & FT & LT & WS).
  rewrite (shown_ineffective up e2 u (sign e1 ++ t ++ sign e1) v ([TRun (sign_char e1) (sign_len e1) true (right_flanking up (sign_char e2) (hd NL t))] ++ map TIn (map IChar t) ++
      [TRun (sign_char e1) (sign_len e1) (left_flanking up (last t NL) (sign_char e2)) true]) [IEmph e1 (map IChar t)]).
  - unfold sgn. rewrite !flat_map_app, !show_chars. cbn [flat_map show]. rewrite app_nil_r, show_chars. unfold glyphs_of. rewrite !map_app, <- !app_assoc. reflexivity.
  - apply tame_before; [exact TU|apply SC|apply SC].
  - destruct e1; discriminate.
  - rewrite sign_hd. exact NE.
  - apply hd_v. now apply harmless_tame.
  - assert (K : forall op cl, op = true \/ cl = true -> norm (TRun (sign_char e1) (sign_len e1) op cl) = TRun (sign_char e1) (sign_len e1) op cl).
    { intros [] []; destruct e1; try reflexivity; intros [X|X]; discriminate X. }
    apply adds_app; [|apply adds_app].
    + assert (X := adds_sign up false e1 ((t ++ sign e1) ++ sign e2 ++ v) (sign_char e2)).
      rewrite <- app_assoc in X. rewrite (hd_app t) in X by exact NT. rewrite token_sign in X. rewrite (left_word up _ _ FT) in X. rewrite K in X by (left; reflexivity).
      rewrite <- app_assoc. apply X. apply not_special_sign; [now apply harmless_tame|exact NT].
    + rewrite sign_last. apply adds_text; [now apply harmless_ordinary|discriminate].
    + rewrite (last_nonempty t _ NL NT).
      assert (X := adds_sign up false e1 (sign e2 ++ v) (last t NL)). rewrite sign_hd in X. rewrite token_sign in X. rewrite (right_word up _ _ LT) in X. rewrite K in X by (right; reflexivity).
      apply X. intros Y. apply NE. now symmetry.
  - now apply closed_inner.
  - now apply harmless_ordinary.
  - assert (PS : uni_ws (sign_char e1) = false /\ punct up (sign_char e1) = true) by (destruct e1; split; reflexivity).
    destruct PS as [PS1 PS2]. assert (L1 : last (sign e1 ++ t ++ sign e1) NL = sign_char e1) by (rewrite !last_app; apply sign_last).
    rewrite L1, sign_hd. destruct HW as [HW|HW]; apply word_class in HW as [HW1 HW2]; [left; unfold left_flanking|right; unfold right_flanking]; rewrite PS1, PS2, HW1, HW2; reflexivity.
Qed.

(** Text that is italic twice is read as bold. *)
Theorem C80_em_twice : forall E up before n after u v out t,
  written E (before ++ [n] ++ after) out -> written E before u -> written E after v -> tame u -> harmless v ->
  styled n t [SEmph Em; SEmph Em] -> word_text up t ->
  shown up out = glyphs_of plain u ++ glyphs_of (emphasize Strong plain) t ++ glyphs_of plain v.
Proof.
  intros E up before n after u v out t HO HU HV TU TV HS WT.
  destruct (around1 E before n after u v out HO HU HV) as (x & HX & ->).
  assert (HC : forall q r, [SEmph Em; SEmph Em] = q ++ SCode :: r -> ~ In NL (fold_left write1 q t)) by (intros [|? [|? [|? ?]]] r X; discriminate X).
  pose proof (styled_writes E n t _ x HS HX (fun _ => word_text_see up t WT) HC) as ->. cbn [fold_left write1].
  destruct WT as (HT & NT & FT & LT & WS). apply word_class in FT as [FT1 FT2]. apply word_class in LT as [LT1 LT2].
  assert (HX' : sign Em ++ (sign Em ++ t ++ sign Em) ++ sign Em = front (Format false [] None [Strong]) ++ inside (Format false [] None [Strong]) t ++ back (Format false [] None [Strong])).
  { unfold front, back, inside. cbn. rewrite <- !app_assoc. reflexivity. }
  rewrite HX'. rewrite (shown_between up u _ v (seen_as (Format false [] None [Strong]) t)).
  - rewrite show_seen; [reflexivity|repeat constructor; intros []|reflexivity].
  - apply tame_before; [exact TU|discriminate|discriminate].
  - apply reads_text. split; [repeat constructor; intros []|]. split; [reflexivity|]. split; [now apply harmless_ordinary|]. split; [discriminate|].
    split; [intros _; destruct t as [|c t]; [contradiction|]; exists c; split; [left; reflexivity|exact WS]|].
    split; [intros _ _; split; assumption|]. split; [intros _ _; split; [|exact FT2]|].
    { split; [reflexivity|]. split; [reflexivity|]. left. intros [X|[]]; discriminate X. }
    split; [intros _ _; split; [|exact LT2]|].
    { split; [reflexivity|]. split; [reflexivity|]. left. intros [X|[]]; discriminate X. }
    intros _. exact (hd_v v Em (harmless_tame v TV)).
  - now apply harmless_ordinary.
Qed.

(** ================================================================ no escaping *)
(** Plain text that looks like Markdown is read as Markdown. *)
Theorem C80_no_escape : forall E up before n after u v out f t,
  written E (before ++ [n] ++ after) out -> written E before u -> written E after v ->
  styled n (front f ++ (if f_code f then s "`` " ++ t ++ s " ``" else t) ++ back f) [] ->
  ordinary up NL u (front f ++ (if f_code f then s "`` " ++ t ++ s " ``" else t) ++ back f ++ v) = true -> expressible up (last u NL) f t v -> harmless v ->
  shown up out = glyphs_of plain u ++ glyphs_of (look_of f) t ++ glyphs_of plain v.
Proof.
  intros E up before n after u v out f t HO HU HV HS OU HE TV.
  destruct (around1 E before n after u v out HO HU HV) as (x & HX & ->). pose proof (styled_plain E n _ x HS HX) as ->.
  rewrite (shown_between up u _ v (seen_as f t)).
  - destruct HE as (HD & HI & _). rewrite show_seen by assumption. reflexivity.
  - rewrite <- !app_assoc. exact OU.
  - exact (reads_text up _ f t v HE).
  - now apply harmless_ordinary.
Qed.
(** A backslash in front of punctuation is lost. *)
Theorem C80_backslash : forall E up before n after u v out a d b,
  written E (before ++ [n] ++ after) out -> written E before u -> written E after v -> tame u -> harmless v ->
  styled n (a ++ s "\" ++ [d] ++ b) [] -> tame a -> harmless b -> ascii_punct d = true ->
  shown up out = glyphs_of plain (u ++ a ++ [d] ++ b ++ v).
Proof.
  intros E up before n after u v out a d b HO HU HV TU TV HS TA TB HD.
  destruct (around1 E before n after u v out HO HU HV) as (x & HX & ->). pose proof (styled_plain E n _ x HS HX) as ->.
  assert (HW : u ++ (a ++ s "\" ++ [d] ++ b) ++ v = (u ++ a) ++ (s "\" ++ [d]) ++ (b ++ v)) by (rewrite <- !app_assoc; reflexivity).
  rewrite HW. rewrite (shown_between up (u ++ a) (s "\" ++ [d]) (b ++ v) [IChar d]).
  - unfold glyphs_of. rewrite !map_app, <- !app_assoc. reflexivity.
  - apply tame_before; [now apply tame_app|discriminate|discriminate].
  - exists [TIn (IChar d)]. split; [apply adds_weaken; now apply adds_backslash|intros; reflexivity].
  - rewrite ordinary_app. rewrite (harmless_ordinary up b _ _ TB). now apply harmless_ordinary.
Qed.

(** ================================================================ code *)
(** Code inside emphasis: the signs become part of the code. *)
Theorem C80_code_outside : forall E up before n after u v out l t,
  written E (before ++ [n] ++ after) out -> written E before u -> written E after v -> tame u -> harmless v ->
  styled n t (map SEmph l ++ [SCode]) -> tame t -> (exists c, In c t /\ is_ws c = false) ->
  shown up out = glyphs_of plain u ++ glyphs_of (Look false false false true None) (signs_before l ++ t ++ signs_after l) ++ glyphs_of plain v.
Proof.
  intros E up before n after u v out l t HO HU HV TU TV HS TT HE.
  destruct (around1 E before n after u v out HO HU HV) as (x & HX & ->).
  assert (SN : forall l c, In c (signs_before l ++ signs_after l) -> c = 42%N \/ c = 126%N).
  { intros l0 c Y. unfold signs_before, signs_after in Y. rewrite in_app_iff, !in_concat in Y.
    assert (K : forall e, In c (sign e) -> c = 42%N \/ c = 126%N) by (intros [] Z; vm_compute in Z; intuition).
    destruct Y as [(y & Y & Z)|(y & Y & Z)]; apply in_map_iff in Y as (e & <- & _); exact (K e Z). }
  assert (HC : forall q r, map SEmph l ++ [SCode] = q ++ SCode :: r -> ~ In NL (fold_left write1 q t)).
  { intros q r Y. assert (Q : exists l0, q = map SEmph l0).
    { clear - Y. revert q Y. induction l as [|e l IH]; intros q Y; destruct q as [|y q]; cbn [map app] in Y; try (now exists []); try discriminate Y.
      - injection Y as _ Y. destruct q; discriminate Y.
      - injection Y as <- Y. destruct (IH q Y) as (l0 & ->). now exists (e :: l0). }
    destruct Q as (l0 & ->). rewrite write_emph. intros Z. rewrite !in_app_iff in Z.
    destruct Z as [Z|[Z|Z]]; [|exact (tame_NL t TT Z)|]; destruct (SN l0 NL) as [W|W]; try discriminate W; rewrite in_app_iff; tauto. }
  pose proof (styled_writes E n t _ x HS HX (fun _ => HE) HC) as ->. rewrite fold_left_app, write_emph. cbn [fold_left write1].
  pose (w := signs_before l ++ t ++ signs_after l). fold w.
  assert (HP : plain_code w = true).
  { destruct HE as (c & HI & HWS). apply plain_code_free.
    - intros Z. unfold w in Z. rewrite !in_app_iff in Z. destruct Z as [Z|[Z|Z]]; [|exact (tame_ticks t TT Z)|]; destruct (SN l 96%N) as [W|W]; try discriminate W; rewrite in_app_iff; tauto.
    - intros Z. unfold w in Z. rewrite !in_app_iff in Z. destruct Z as [Z|[Z|Z]]; [|exact (tame_NL t TT Z)|]; destruct (SN l NL) as [W|W]; try discriminate W; rewrite in_app_iff; tauto.
    - apply not_true_is_false. intros Z. rewrite forallb_forall in Z. assert (HI' : In c w) by (unfold w; rewrite !in_app_iff; tauto).
      apply Z in HI'. apply N.eqb_eq in HI'. subst c. discriminate HWS. }
  rewrite (shown_between up u _ v [ICode w]).
  - cbn [flat_map show]. rewrite app_nil_r. reflexivity.
  - apply tame_before; [exact TU|discriminate|discriminate].
  - exists [TIn (ICode w)]. split; [|intros; reflexivity]. apply adds_weaken. apply adds_code; [exact HP|]. destruct v as [|c v]; [discriminate|]. cbn. intros X. injection X as ->.
    apply (tame_ticks _ (harmless_tame _ TV)). left. reflexivity.
  - now apply harmless_ordinary.
Qed.
(** Two back-ticks inside code end it. *)
Theorem C80_ticks_in_code : forall E up before n after u v out a b,
  written E (before ++ [n] ++ after) out -> written E before u -> written E after v -> tame u -> harmless v ->
  styled n (a ++ s "``" ++ b) [SCode] -> harmless a -> a <> [] -> tame b ->
  shown up out = glyphs_of plain u ++ glyphs_of (Look false false false true None) (s " " ++ a) ++ glyphs_of plain (b ++ s " ``" ++ v).
Proof.
  intros E up before n after u v out a b HO HU HV TU TV HS TA NA TB.
  destruct (around1 E before n after u v out HO HU HV) as (x & HX & ->).
  assert (HC : forall q r, [SCode] = q ++ SCode :: r -> ~ In NL (fold_left write1 q (a ++ s "``" ++ b))).
  { intros [|? [|? ?]] r Y; try discriminate Y. cbn [fold_left]. rewrite !in_app_iff. intros [Z|[Z|Z]]; [exact (tame_NL a (harmless_tame a TA) Z)|vm_compute in Z; intuition discriminate|exact (tame_NL b TB Z)]. }
  assert (HE : seeable (a ++ s "``" ++ b)) by (exists 96%N; split; [rewrite !in_app_iff; right; left; left; reflexivity|reflexivity]).
  pose proof (styled_writes E n _ _ x HS HX (fun _ => HE) HC) as ->. cbn [fold_left write1].
  assert (HW : u ++ (s "`` " ++ (a ++ s "``" ++ b) ++ s " ``") ++ v = u ++ (s "``" ++ (SP :: a) ++ s "``") ++ ((b ++ [SP]) ++ s "``" ++ v)).
  { change (s "`` ") with (s "``" ++ [SP]). change (s " ``") with ([SP] ++ s "``"). rewrite <- !app_assoc. reflexivity. }
  rewrite HW. clear HW.
  assert (T3 : ~ In 96%N v) by (exact (tame_ticks v (harmless_tame v TV))).
  unfold shown. rewrite (reads_all up _ (map IChar u ++ [ICode (SP :: a)] ++ map IChar (b ++ [SP]) ++ map IChar (s "``") ++ map IChar v)).
  - rewrite !flat_map_app, !show_chars. cbn [flat_map show]. rewrite app_nil_r. unfold glyphs_of. change (s " ``") with ([SP] ++ s "``"). rewrite !map_app, <- !app_assoc. reflexivity.
  - apply reads_app; [apply core_reads, core_text; [|discriminate]; rewrite app_nil_r; apply tame_before; [exact TU|discriminate|discriminate]|].
    apply reads_app.
    { exists [TIn (ICode (SP :: a))]. split; [|intros; reflexivity]. apply adds_weaken. rewrite app_nil_r.
      rewrite <- (code_text_open a NA (proj2 TA) (tame_NL a (harmless_tame a TA))) at 2. apply adds_code_to.
      - intros [X|X]; [discriminate X|exact (tame_ticks a (harmless_tame a TA) X)].
      - discriminate.
      - destruct b as [|c b]; [discriminate|]. cbn. intros X. injection X as ->. apply (tame_ticks _ TB). left. reflexivity. }
    apply reads_app; [apply core_reads, core_text; [|discriminate]; rewrite app_nil_r; apply tame_before; [apply tame_app; [exact TB|]|discriminate|discriminate]|].
    { intros c [<-|[]] X. unfold special in X. vm_compute in X. intuition discriminate. }
    apply reads_app.
    { rewrite app_nil_r. exists (map TIn (map IChar (s "``"))). split; [apply adds_weaken; now apply adds_ticks|]. intros b0. exact (items0 (map IChar (s "``")) b0). }
    apply core_reads, core_text; [now apply harmless_ordinary|discriminate].
Qed.

(** ================================================================ links *)
(** An exclamation mark in front of a link makes it a picture: the text is gone. *)
Theorem C80_picture : forall E up before n after u v out h t,
  written E (before ++ [n] ++ after) out -> written E before (u ++ s "!") -> written E after v -> tame u -> harmless v ->
  styled n t [SLink h] -> harmless t -> plain_href h = true ->
  shown up out = glyphs_of plain u ++ [Picture h] ++ glyphs_of plain v.
Proof.
  intros E up before n after u v out h t HO HU HV TU TV HS TT HH.
  destruct (around1 E before n after _ v out HO HU HV) as (x & HX & ->).
  assert (HC : forall q r, [SLink h] = q ++ SCode :: r -> ~ In NL (fold_left write1 q t)) by (intros [|? [|? ?]] r X; discriminate X).
  pose proof (styled_writes E n t _ x HS HX ltac:(discriminate) HC) as ->. cbn [fold_left write1].
  rewrite <- app_assoc. rewrite (app_assoc (s "!")).
  rewrite (shown_between up u (s "!" ++ s "[" ++ t ++ s "](" ++ h ++ s ")") v [IImage h (map IChar t)]).
  - reflexivity.
  - apply tame_before; [exact TU|discriminate|discriminate].
  - apply reads_image; [exact HH|]. apply core_reads, core_text; [now apply harmless_ordinary|]. intros _. now apply (harmless_text up t NL []).
  - now apply harmless_ordinary.
Qed.
(** A closing parenthesis without an opening one ends the destination of a link: the link leads elsewhere, the rest is shown. *)
Theorem C80_parenthesis : forall E up before n after u v out h r t,
  written E (before ++ [n] ++ after) out -> written E before u -> written E after v -> tame u -> harmless v ->
  styled n t [SLink (h ++ s ")" ++ r)] -> harmless t -> plain_href h = true -> harmless r ->
  shown up out = glyphs_of plain u ++ glyphs_of (Look false false false false (Some h)) t ++ glyphs_of plain (r ++ s ")" ++ v).
Proof.
  intros E up before n after u v out h r t HO HU HV TU TV HS TT HH TR.
  destruct (around1 E before n after _ v out HO HU HV) as (x & HX & ->).
  assert (HC : forall q r0, [SLink (h ++ s ")" ++ r)] = q ++ SCode :: r0 -> ~ In NL (fold_left write1 q t)) by (intros [|? [|? ?]] r0 X; discriminate X).
  pose proof (styled_writes E n t _ x HS HX ltac:(discriminate) HC) as ->. cbn [fold_left write1].
  assert (HW : u ++ (s "[" ++ t ++ s "](" ++ (h ++ s ")" ++ r) ++ s ")") ++ v = u ++ (s "[" ++ t ++ s "](" ++ h ++ s ")") ++ (r ++ s ")" ++ v)) by (rewrite <- !app_assoc; reflexivity).
  rewrite HW.
  assert (HX' : s "[" ++ t ++ s "](" ++ h ++ s ")" = front (Format false [] (Some h) []) ++ inside (Format false [] (Some h) []) t ++ back (Format false [] (Some h) [])).
  { unfold front, back, inside. cbn [f_outer f_inner f_link f_code]. change (signs_before []) with (@nil N). change (signs_after []) with (@nil N). rewrite !app_nil_r. reflexivity. }
  rewrite HX'. rewrite (shown_between up u _ (r ++ s ")" ++ v) (seen_as (Format false [] (Some h) []) t)).
  - rewrite show_seen; [reflexivity|constructor|discriminate].
  - apply tame_before; [exact TU|discriminate|discriminate].
  - apply reads_text. split; [constructor|]. split; [discriminate|]. split; [now apply harmless_ordinary|].
    split; [intros h0 X; injection X as <-; split; [exact HH|intros _; now apply (harmless_text up t NL [])]|].
    split; [intros [X|X]; [discriminate X|now contradiction X]|]. split; [intros _ X; now contradiction X|]. split; [intros X; now contradiction X|]. split; [intros X; now contradiction X|]. intros X; now contradiction X.
  - rewrite ordinary_app, (harmless_ordinary up r _ _ TR). cbn [andb]. rewrite ordinary_app. rewrite (harmless_ordinary up v _ _ TV). rewrite andb_true_r. reflexivity.
Qed.

(** ================================================================ line breaks *)
(** Two line breaks in a row: not an empty line inside the paragraph, but two paragraphs. *)
Lemma run_para ls : Forall text_line ls -> ls <> [] -> run ([], ONone) ls = ([], ([], OPara ls)).
Proof.
  intros H N. destruct ls as [|l ls]; [contradiction|]. apply Forall_cons_iff in H as [HL H]. cbn [run]. rewrite step_text_none by exact HL. rewrite run_text by exact H. reflexivity.
Qed.
Lemma drop_last_snoc ls : drop_last_empty (ls ++ [[]]) = ls.
Proof. induction ls as [|l ls IH]; [reflexivity|]. cbn [app drop_last_empty]. destruct l, ls; try reflexivity; cbn [app] in *; now rewrite IH. Qed.
Theorem C80_two_breaks : forall E w v n n1 n2 before after x y ign, snd (parse_node w v) = Ok n -> n_kind n = Kparagraph -> n_content n = Items (before ++ [n1; n2] ++ after) ->
  (forall m l, n_marks n <> Items (m :: l)) -> n_kind n1 = KhardBreak -> n_kind n2 = KhardBreak -> written E before x -> written E after y ->
  Forall text_line (split_on NL (x ++ s "  ")) -> Forall text_line (split_on NL y) ->
  exists out, to_markdown E n ign = Ok (VStr out) /\ read out = [EPara (split_on NL (x ++ s "  ")); EPara (split_on NL y)].
Proof.
  intros E w v n n1 n2 before after x y ign HP HK HC HM H1 H2 (xs & HX & <-) (ys & HY & <-) LX LY.
  assert (HB : forall n, n_kind n = KhardBreak -> renders E n (s "  " ++ nl)) by (intros [] X; cbn [n_kind] in X; subst; reflexivity).
  assert (HR : renders E n (List.concat (xs ++ [s "  " ++ nl; s "  " ++ nl] ++ ys) ++ nl)).
  { destruct n as [k ty ve tx a co ma]. cbn [n_kind n_content n_marks] in *. subst. unfold renders, to_markdown. cbn [to_md].
    rewrite (content_renders E (before ++ [n1; n2] ++ after) (xs ++ [s "  " ++ nl; s "  " ++ nl] ++ ys)).
    2:{ apply Forall2_app; [exact HX|]. apply Forall2_app; [|exact HY]. constructor; [now apply HB|]. constructor; [now apply HB|constructor]. }
    cbn [rbind].
    match goal with |- context [add_style E ma ?z] => replace (add_style E ma z) with (Ok z : res value) end; [reflexivity|].
    destruct ma as [| |[|m l]|r]; try reflexivity. now destruct (HM m l). }
  match type of HR with renders _ _ ?o => exists o end. split; [destruct ign; [apply ignore_conservative; exact HR|exact HR]|].
  rewrite !concat_app. cbn [List.concat]. pose (X := List.concat xs). pose (Y := List.concat ys). fold X Y. fold X in LX. fold Y in LY.
  assert (HL : text_lines ((X ++ ((s "  " ++ nl) ++ (s "  " ++ nl) ++ []) ++ Y) ++ nl) = split_on NL (X ++ s "  ") ++ [s "  "] ++ split_on NL Y).
  { unfold text_lines. match goal with |- drop_last_empty (split_on NL ?z) = _ => replace z with ((X ++ s "  ") ++ NL :: (s "  " ++ NL :: (Y ++ NL :: []))) by (change nl with [NL]; rewrite <- !app_assoc; reflexivity) end.
    rewrite !split_nl. cbn [split_on]. change (split_on NL (s "  ")) with [s "  "]. 
    match goal with |- drop_last_empty ?z = _ => replace z with ((split_on NL (X ++ s "  ") ++ [s "  "] ++ split_on NL Y) ++ [[]]) by (rewrite <- !app_assoc; reflexivity) end.
    apply drop_last_snoc. }
  unfold read. rewrite HL. rewrite run_app, (run_para _ LX) by (apply split_on_nonnil). rewrite run_app.
  assert (HS : run ([], OPara (split_on NL (X ++ s "  "))) [s "  "] = ([EPara (split_on NL (X ++ s "  "))], ([], ONone))) by reflexivity.
  rewrite HS. rewrite (run_para _ LY) by (apply split_on_nonnil). reflexivity.
Qed.

(** ================================================================ examples *)
Ltac wr xs := match goal with |- written _ ?ns _ => let l := eval vm_compute in ns in change ns with l end; exists xs; split; [xs_render|reflexivity].
Ltac tm := apply tame_check; vm_compute; reflexivity.
Ltac hl := split; [tm|vm_compute; discriminate].
Ltac wt := split; [hl|]; split; [discriminate|]; split; [vm_compute; reflexivity|]; split; [vm_compute; reflexivity|vm_compute; reflexivity].
Definition up0 : N -> bool := fun _ => false.
Definition n_pre := get (tx "See ").
Definition n_post := get (tx ".").
Definition n_of (t : string) (ms : list value) : node := get (ex_marked t ms).
(** See **one****two**. *)
Example C80_same_twice_example : written rt0 ([n_pre] ++ [n_of "one" [mk "strong"]; n_of "two" [mk "underline"; mk "strong"]] ++ [n_post]) (s "See **one****two**.") /\
  written rt0 [n_pre] (s "See ") /\ written rt0 [n_post] (s ".") /\ tame (s "See ") /\ harmless (s ".") /\
  styled (n_of "one" [mk "strong"]) (s "one") [SEmph Strong] /\ styled (n_of "two" [mk "underline"; mk "strong"]) (s "two") [SEmph Strong] /\ word_text up0 (s "one") /\ word_text up0 (s "two") /\
  shown up0 (s "See **one****two**.") = glyphs plain "See " ++ glyphs (Look true false false false None) "one****two" ++ glyphs plain ".".
Proof.
  split; [wr [s "See "; s "**one**"; s "**two**"; s "."]|]. split; [wr [s "See "]|]. split; [wr [s "."]|]. split; [tm|]. split; [hl|].
  split; [st [[SEmph Strong]]|]. split; [st [[]; [SEmph Strong]]|]. split; [wt|]. split; [wt|]. vm_compute. reflexivity.
Qed.
(** See *one *. *)
Example C80_white_space_example : written rt0 ([n_pre] ++ [n_of "one " [mk "em"]] ++ [n_post]) (s "See *one *.") /\
  styled (n_of "one " [mk "em"]) (s "one ") [SEmph Em] /\ tame (s "one ") /\ (exists c, In c (s "one ") /\ is_ws c = false) /\ uni_ws (last (s "one ") NL) = true /\
  shown up0 (s "See *one *.") = glyphs plain "See *one *.".
Proof.
  split; [wr [s "See "; s "*one *"; s "."]|]. split; [st [[SEmph Em]]|]. split; [tm|].
  split; [exists 111%N; split; [left; reflexivity|vm_compute; reflexivity]|]. split; vm_compute; reflexivity.
Qed.
(** un**~~do~~**. *)
Example C80_next_to_letter_example : written rt0 ([get (tx "un")] ++ [n_of "do" [mk "strike"; mk "strong"]] ++ [n_post]) (s "un**~~do~~**.") /\
  written rt0 [get (tx "un")] (s "un") /\ tame (s "un") /\ styled (n_of "do" [mk "strike"; mk "strong"]) (s "do") [SEmph Strike; SEmph Strong] /\ (Strike = Strike <-> Strong <> Strike) /\
  word_text up0 (s "do") /\ word up0 (last (s "un") NL) = true /\
  shown up0 (s "un**~~do~~**.") = glyphs plain "un**" ++ glyphs (Look false false true false None) "do" ++ glyphs plain "**.".
Proof.
  split; [wr [s "un"; s "**~~do~~**"; s "."]|]. split; [wr [s "un"]|]. split; [tm|]. split; [st [[SEmph Strike]; [SEmph Strong]]|].
  split; [split; [discriminate|reflexivity]|]. split; [wt|]. split; vm_compute; reflexivity.
Qed.
(** See **one**. *)
Example C80_em_twice_example : written rt0 ([n_pre] ++ [n_of "one" [mk "em"; mk "em"]] ++ [n_post]) (s "See **one**.") /\
  styled (n_of "one" [mk "em"; mk "em"]) (s "one") [SEmph Em; SEmph Em] /\ word_text up0 (s "one") /\
  shown up0 (s "See **one**.") = glyphs plain "See " ++ glyphs (Look true false false false None) "one" ++ glyphs plain ".".
Proof. split; [wr [s "See "; s "**one**"; s "."]|]. split; [st [[SEmph Em]; [SEmph Em]]|]. split; [wt|]. vm_compute. reflexivity. Qed.
(** See *args*. *)
Example C80_no_escape_example : written rt0 ([n_pre] ++ [get (tx "*args*")] ++ [n_post]) (s "See *args*.") /\
  styled (get (tx "*args*")) (front (Format false [] None [Em]) ++ s "args" ++ back (Format false [] None [Em])) [] /\
  ordinary up0 NL (s "See ") (front (Format false [] None [Em]) ++ s "args" ++ back (Format false [] None [Em]) ++ s ".") = true /\
  expressible up0 (last (s "See ") NL) (Format false [] None [Em]) (s "args") (s ".") /\
  shown up0 (s "See *args*.") = glyphs plain "See " ++ glyphs (Look false true false false None) "args" ++ glyphs plain ".".
Proof. split; [wr [s "See "; s "*args*"; s "."]|]. split; [st0|]. split; [vm_compute; reflexivity|]. split; [expr|]. vm_compute. reflexivity. Qed.
(** See C:\_x. *)
Example C80_backslash_example : written rt0 ([n_pre] ++ [get (tx "C:\_x")] ++ [n_post]) (s "See C:\_x.") /\
  styled (get (tx "C:\_x")) (s "C:" ++ s "\" ++ [95%N] ++ s "x") [] /\ tame (s "C:") /\ harmless (s "x") /\ ascii_punct 95 = true /\
  shown up0 (s "See C:\_x.") = glyphs plain "See C:_x.".
Proof. split; [wr [s "See "; s "C:\_x"; s "."]|]. split; [st0|]. split; [tm|]. split; [hl|]. split; vm_compute; reflexivity. Qed.
(** See `` **one** ``. *)
Example C80_code_outside_example : written rt0 ([n_pre] ++ [n_of "one" [mk "strong"; mk "code"]] ++ [n_post]) (s "See `` **one** ``.") /\
  styled (n_of "one" [mk "strong"; mk "code"]) (s "one") (map SEmph [Strong] ++ [SCode]) /\ tame (s "one") /\
  shown up0 (s "See `` **one** ``.") = glyphs plain "See " ++ glyphs (Look false false false true None) "**one**" ++ glyphs plain ".".
Proof. split; [wr [s "See "; s "`` **one** ``"; s "."]|]. split; [st [[SEmph Strong]; [SCode]]|]. split; [tm|]. vm_compute. reflexivity. Qed.
(** See `` a``b ``. *)
Example C80_ticks_in_code_example : written rt0 ([n_pre] ++ [n_of "a``b" [mk "code"]] ++ [n_post]) (s "See `` a``b ``.") /\
  styled (n_of "a``b" [mk "code"]) (s "a" ++ s "``" ++ s "b") [SCode] /\ harmless (s "a") /\ tame (s "b") /\
  shown up0 (s "See `` a``b ``.") = glyphs plain "See " ++ glyphs (Look false false false true None) " a" ++ glyphs plain "b ``.".
Proof. split; [wr [s "See "; s "`` a``b ``"; s "."]|]. split; [st [[SCode]]|]. split; [hl|]. split; [tm|]. vm_compute. reflexivity. Qed.
(** Look![here](http://a.b). *)
Example C80_picture_example : written rt0 ([get (tx "Look!")] ++ [n_of "here" [mk_link "http://a.b"]] ++ [n_post]) (s "Look![here](http://a.b).") /\
  written rt0 [get (tx "Look!")] (s "Look" ++ s "!") /\ tame (s "Look") /\ styled (n_of "here" [mk_link "http://a.b"]) (s "here") [SLink (s "http://a.b")] /\ harmless (s "here") /\
  plain_href (s "http://a.b") = true /\ shown up0 (s "Look![here](http://a.b).") = glyphs plain "Look" ++ [Picture (s "http://a.b")] ++ glyphs plain ".".
Proof.
  split; [wr [s "Look!"; s "[here](http://a.b)"; s "."]|]. split; [wr [s "Look!"]|]. split; [tm|]. split; [st [[SLink (s "http://a.b")]]|]. split; [hl|]. split; vm_compute; reflexivity.
Qed.
(** See [here](http://a.b/c)d). *)
Example C80_parenthesis_example : written rt0 ([n_pre] ++ [n_of "here" [mk_link "http://a.b/c)d"]] ++ [n_post]) (s "See [here](http://a.b/c)d).") /\
  styled (n_of "here" [mk_link "http://a.b/c)d"]) (s "here") [SLink (s "http://a.b/c" ++ s ")" ++ s "d")] /\ plain_href (s "http://a.b/c") = true /\ harmless (s "d") /\
  shown up0 (s "See [here](http://a.b/c)d).") = glyphs plain "See " ++ glyphs (Look false false false false (Some (s "http://a.b/c"))) "here" ++ glyphs plain "d).".
Proof.
  split; [wr [s "See "; s "[here](http://a.b/c)d)"; s "."]|]. split; [st [[SLink (s "http://a.b/c)d")]]|]. split; [vm_compute; reflexivity|]. split; [hl|]. vm_compute. reflexivity.
Qed.
Definition hb : value := VDict [tyv "hardBreak"].
Definition ex_breaks : value := VDict [tyv "paragraph"; (s "content", VList [tx "one"; hb; hb; tx "two"])].
Example C80_two_breaks_example : snd (parse_node true ex_breaks) = Ok (get ex_breaks) /\ n_kind (get ex_breaks) = Kparagraph /\
  n_content (get ex_breaks) = Items ([get (tx "one")] ++ [get hb; get hb] ++ [get (tx "two")]) /\ (forall m l, n_marks (get ex_breaks) <> Items (m :: l)) /\
  n_kind (get hb) = KhardBreak /\ written rt0 [get (tx "one")] (s "one") /\ written rt0 [get (tx "two")] (s "two") /\
  Forall text_line (split_on NL (s "one" ++ s "  ")) /\ Forall text_line (split_on NL (s "two")).
Proof.
  split; [vm_compute; reflexivity|]. split; [vm_compute; reflexivity|]. split; [vm_compute; reflexivity|]. split; [vm_compute; discriminate|]. split; [vm_compute; reflexivity|].
  split; [wr [s "one"]|]. split; [wr [s "two"]|]. split; lines_ok.
Qed.
