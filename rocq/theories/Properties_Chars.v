(** C74: the conversion treats all characters outside ASCII (white space aside) alike. *)
From Coq Require Import List NArith ZArith Bool String Lia.
From Verif Require Import PyStr Values Schema Parse Markdown Basics Samples SpecChars CharFacts CharFacts2 CharFacts3 Properties_Marks SpecSource Properties_Code Properties_Source PySem.
Import ListNotations.
Open Scope string_scope.
Open Scope list_scope.

(** ---------------------------------------------------------------- the general statement *)
(** Related objects: the same exception, or Markdown related character by character. *)
Theorem C74_objects : forall E R n n' ign, respects R -> like_node E R n n' -> like_result E R (to_markdown E n ign) (to_markdown E n' ign).
Proof. intros E R n n' ign HR HN. exact (like_md E R HR n n' HN None ign). Qed.
(** Related dictionaries: the same warnings, the same exception or related objects; then the same exception or related Markdown. *)
Theorem C74_dictionaries : forall E R W v v' ign, respects R -> forallb is_ascii (rt_repr E VOpt) = true -> like_dict E R v v' ->
  fst (parse_node W v) = fst (parse_node W v') /\
  like_result E R (do n <- snd (parse_node W v); to_markdown E n ign) (do n <- snd (parse_node W v'); to_markdown E n ign).
Proof.
  intros E R W v v' ign HR HO HD. destruct (parse_rel E R HR HO W v v' HD) as [HW HP]. split; [exact HW|].
  destruct (snd (parse_node W v)) as [n|e], (snd (parse_node W v')) as [n'|e']; try contradiction; [|exact HP]. now apply C74_objects.
Qed.
(** The same for K.from_dict(v), such as NodeDoc.from_dict. *)
Theorem C74_from_dict : forall E R W k v v' ign, respects R -> forallb is_ascii (rt_repr E VOpt) = true -> like_dict E R v v' ->
  fst (from_dict W k v) = fst (from_dict W k v') /\
  like_result E R (do n <- snd (from_dict W k v); to_markdown E n ign) (do n <- snd (from_dict W k v'); to_markdown E n ign).
Proof.
  intros E R W k v v' ign HR HO HD. destruct (from_dict_rel E R HR HO W k v v' HD) as [HW HP]. split; [exact HW|].
  destruct (snd (from_dict W k v)) as [n|e], (snd (from_dict W k v')) as [n'|e']; try contradiction; [|exact HP]. now apply C74_objects.
Qed.
(** The same for the conversion as the source text does it (C73). *)
Definition like_outcome (E : runtime) (R : N -> N -> Prop) (o o' : out pv) : Prop :=
  match o, o' with Val (PV v), Val (PV w) => like_value E R v w | Exc e, Exc e' => e = e' | _, _ => False end.
Theorem C74_source : forall E R W v v' ign o o', respects R -> forallb is_ascii (rt_repr E VOpt) = true -> like_dict E R v v' ->
  converts E W v ign o -> converts E W v' ign o' -> like_outcome E R o o'.
Proof.
  intros E R W v v' ign o o' HR HO HD H H'. apply converts_iff in H, H'. subst o o'. unfold model_convert.
  destruct (C74_dictionaries E R W v v' ign HR HO HD) as [_ HM]. destruct (Values.rbind (snd (parse_node W v)) _), (Values.rbind (snd (parse_node W v')) _); exact HM.
Qed.

(** ---------------------------------------------------------------- three uses *)
Definition through (f : N -> N) (c d : N) : Prop := d = f c.
Lemma through_respects f : renaming f -> respects (through f).
Proof.
  intros H. split.
  - intros c Hc. specialize (H c). apply N.ltb_lt in Hc. rewrite Hc in H. cbn in H. now symmetry.
  - intros c d ->. specialize (H c). destruct (c <? 128)%N eqn:E1; cbn [orb] in H; [left; now symmetry|]. apply N.ltb_ge in E1.
    destruct (is_ws c) eqn:E2; [left; now symmetry|]. right. split; [split; assumption|exact H].
Qed.
Lemma through_map f x y : Forall2 (through f) x y -> y = map f x.
Proof. induction 1 as [|c d x y H _ IH]; [reflexivity|]. cbn [map]. now rewrite H, IH. Qed.
(** 1. Changing the characters before or after the conversion is the same: for every renaming f of the plain characters. *)
Theorem C74_renamed : forall E f W v v' ign x, renaming f -> forallb is_ascii (rt_repr E VOpt) = true -> like_dict E (through f) v v' ->
  (do n <- snd (parse_node W v); to_markdown E n ign) = Ok (VStr x) ->
  (do n <- snd (parse_node W v'); to_markdown E n ign) = Ok (VStr (map f x)).
Proof.
  intros E f W v v' ign x HF HO HD HM. destruct (C74_dictionaries E (through f) W v v' ign (through_respects f HF) HO HD) as [_ H]. rewrite HM in H.
  destruct (do n <- snd (parse_node W v'); to_markdown E n ign) as [[| | | |y| | |]|e]; cbn [like_result like_value] in H; try (destruct H as [H _]; discriminate H); try contradiction.
  now rewrite (through_map f x y H).
Qed.
(** 2. Documents of the same shape give Markdown of the same shape: same length, and equal characters at every position where one of them is ASCII or white space. *)
Definition same_shape (c d : N) : Prop := c = d \/ plain c /\ plain d.
Lemma same_shape_respects : respects same_shape. Proof. split; [now left|intros c d H; exact H]. Qed.
Theorem C74_shape : forall E W v v' ign x y, forallb is_ascii (rt_repr E VOpt) = true -> like_dict E same_shape v v' ->
  (do n <- snd (parse_node W v); to_markdown E n ign) = Ok (VStr x) -> (do n <- snd (parse_node W v'); to_markdown E n ign) = Ok (VStr y) ->
  List.length x = List.length y /\ forall i c d, nth_error x i = Some c -> nth_error y i = Some d -> ~ plain c \/ ~ plain d -> c = d.
Proof.
  intros E W v v' ign x y HO HD H1 H2. destruct (C74_dictionaries E same_shape W v v' ign same_shape_respects HO HD) as [_ H]. rewrite H1, H2 in H.
  cbn [like_result like_value] in H. unfold like in H. clear H1 H2 HD. induction H as [|c d x y HCD _ IH]; [split; [reflexivity|]; intros [|i] c d HC; discriminate HC|].
  destruct IH as [IL IN]. split; [cbn; now rewrite IL|]. intros [|i] c' d' HC HE HP; cbn in HC, HE; [|now apply (IN i)].
  injection HC as <-. injection HE as <-. destruct HCD as [HCD|[P1 P2]]; [exact HCD|]. destruct HP; contradiction.
Qed.
(** 3. No character from nowhere: every character of the Markdown is ASCII or one of those the strings of the document are made of. *)
Definition among (p : N -> Prop) (c d : N) : Prop := c = d /\ ((c < 128)%N \/ p c).
Lemma among_respects p : respects (among p). Proof. split; [intros c H; split; [reflexivity|now left]|intros c d [H _]; now left]. Qed.
Theorem C74_characters : forall E p W v ign x, forallb is_ascii (rt_repr E VOpt) = true -> like_dict E (among p) v v ->
  (do n <- snd (parse_node W v); to_markdown E n ign) = Ok (VStr x) -> forall c, In c x -> (c < 128)%N \/ p c.
Proof.
  intros E p W v ign x HO HD HM. destruct (C74_dictionaries E (among p) W v v ign (among_respects p) HO HD) as [_ H]. rewrite HM in H. cbn [like_result like_value] in H.
  unfold like in H. assert (HA : forall y, Forall2 (among p) x y -> forall c, In c x -> (c < 128)%N \/ p c); [|exact (HA x H)]. clear. induction x as [|c x IH]; intros y H; [intros c []|]. inversion H as [|? d ? y' [_ HC] HX]; subst. intros c' [<-|HI]; [exact HC|exact (IH y' HX c' HI)].
Qed.
(** An ASCII document gives ASCII Markdown. *)
Theorem C74_ascii : forall E W v ign x, forallb is_ascii (rt_repr E VOpt) = true -> like_dict E (among (fun _ => False)) v v ->
  (do n <- snd (parse_node W v); to_markdown E n ign) = Ok (VStr x) -> forallb is_ascii x = true.
Proof.
  intros E W v ign x HO HD HM. apply forallb_forall. intros c HC. unfold is_ascii. destruct (C74_characters E _ W v ign x HO HD HM c HC) as [H|[]]. now apply N.ltb_lt.
Qed.

(** ---------------------------------------------------------------- an example *)
Definition ex_shift (c : N) : N := if (19968 <=? c)%N && (c <? 40000)%N then (c + 1)%N else c.
Example ex_renaming : renaming ex_shift.
Proof.
  intros c. unfold ex_shift. destruct ((19968 <=? c) && (c <? 40000))%N eqn:ER.
  - apply andb_true_iff in ER as [H1 H2]. apply N.leb_le in H1. apply N.ltb_lt in H2.
    assert (HB : ((c <? 128)%N || is_ws c) = false).
    { unfold is_ws. repeat (apply orb_false_iff; split); try (apply N.ltb_ge; lia); try (apply N.eqb_neq; lia); apply andb_false_iff; right; apply N.leb_gt; lia. }
    rewrite HB. split; [lia|]. unfold is_ws. repeat (apply orb_false_iff; split); try (apply N.eqb_neq; lia); apply andb_false_iff; right; apply N.leb_gt; lia.
  - destruct ((c <? 128)%N || is_ws c) eqn:EW; [reflexivity|]. apply orb_false_iff in EW as [E1 E2]. split; [now apply N.ltb_ge in E1|exact E2].
Qed.
(** A document with a heading, a strong text, a mention, a date, a panel and an element of unknown type. *)
Definition ex_kanji (x y : N) : value :=
  let t := VStr (s "a " ++ [x; y] ++ s " b") in
  let txt := VDict [(s "type", VStr (s "text")); (s "text", t); (s "marks", VList [VDict [(s "type", VStr (s "strong"))];
               VDict [(s "type", VStr (s "link")); (s "attrs", VDict [(s "href", VStr (s "u/" ++ [y]))])]])] in
  VDict [(s "type", VStr (s "doc")); (s "version", VInt 1); (s "content", VList
    [VDict [(s "type", VStr (s "heading")); (s "attrs", VDict [(s "level", VInt 2)]); (s "content", VList [txt])];
     VDict [(s "type", VStr (s "nowhere")); (s "x", VInt 3)];
     VDict [(s "type", VStr (s "paragraph")); (s "content", VList
       [VDict [(s "type", VStr (s "mention")); (s "attrs", VDict [(s "id", VStr [x]); (s "text", VStr (s "@" ++ [x]))])];
        VDict [(s "type", VStr (s "date")); (s "attrs", VDict [(s "timestamp", VStr (s "86400000"))])]])];
     VDict [(s "type", VStr (s "panel")); (s "attrs", VDict [(s "panelType", VStr (s "info"))]); (s "content", VList
       [VDict [(s "type", VStr (s "paragraph")); (s "content", VList [txt])]])]])].
Lemma ex_chars_like (R : N -> N -> Prop) x y x' y' : respects R -> R x x' -> R y y' -> like_dict rt0 R (ex_kanji x y) (ex_kanji x' y').
Proof.
  intros HR HX HY. pose proof (fun z H => lit_self R HR z H) as HL.
  assert (HS : forall k v, k <> s "text" -> k <> s "attrs" -> k <> s "content" -> k <> s "marks" -> like_entry rt0 R (k, v) (k, v)).
  { intros k v H1 H2 H3 H4. apply like_same; [exact H1|exact H2|]. intros [H|H]; contradiction. }
  assert (HTY : forall v, like_entry rt0 R (s "type", v) (s "type", v)) by (intros v; apply HS; discriminate).
  assert (HXS : like R [x] [x']) by (repeat constructor; exact HX). assert (HYS : like R [y] [y']) by (repeat constructor; exact HY).
  assert (HXY : like R (s "a " ++ [x; y] ++ s " b") (s "a " ++ [x'; y'] ++ s " b")).
  { apply Forall2_app; [exact (HL (s "a ") eq_refl)|]. apply Forall2_app; [repeat constructor; assumption|exact (HL (s " b") eq_refl)]. }
  assert (HTX : like_dict rt0 R
     (VDict [(s "type", VStr (s "text")); (s "text", VStr (s "a " ++ [x; y] ++ s " b")); (s "marks", VList [VDict [(s "type", VStr (s "strong"))];
               VDict [(s "type", VStr (s "link")); (s "attrs", VDict [(s "href", VStr (s "u/" ++ [y]))])]])])
     (VDict [(s "type", VStr (s "text")); (s "text", VStr (s "a " ++ [x'; y'] ++ s " b")); (s "marks", VList [VDict [(s "type", VStr (s "strong"))];
               VDict [(s "type", VStr (s "link")); (s "attrs", VDict [(s "href", VStr (s "u/" ++ [y']))])]])])).
  { apply like_entries. constructor; [apply HTY|]. constructor; [apply like_text; exact HXY|]. constructor; [|constructor]. apply like_mark_list. constructor; [|constructor; [|constructor]].
    - apply like_mark_entries. constructor; [split; reflexivity|constructor].
    - apply like_mark_entries. constructor; [split; reflexivity|]. constructor; [|constructor]. split; [reflexivity|].
      change (Forall2 (like_attr rt0 R) [(s "href", VStr (s "u/" ++ [y]))] [(s "href", VStr (s "u/" ++ [y']))]). constructor; [|constructor]. split; [reflexivity|].
      change (like R (s "u/" ++ [y]) (s "u/" ++ [y'])). apply Forall2_app; [exact (HL (s "u/") eq_refl)|exact HYS]. }
  unfold ex_kanji. cbv zeta. apply like_entries. constructor; [apply HTY|]. constructor; [apply HS; discriminate|]. constructor; [|constructor].
  apply like_content_list. constructor; [|constructor; [|constructor; [|constructor; [|constructor]]]].
  - apply like_entries. constructor; [apply HTY|]. constructor.
    + apply like_attributes. change (Forall2 (like_attr rt0 R) [(s "level", VInt 2)] [(s "level", VInt 2)]). constructor; [|constructor]. split; [reflexivity|].
      change (VInt 2 = VInt 2 /\ like R (s "2") (s "2")). split; [reflexivity|exact (HL (s "2") eq_refl)].
    + constructor; [|constructor]. apply like_content_list. constructor; [exact HTX|constructor].
  - apply like_entries. constructor; [apply HTY|]. constructor; [apply HS; discriminate|constructor].
  - apply like_entries. constructor; [apply HTY|]. constructor; [|constructor]. apply like_content_list. constructor; [|constructor; [|constructor]].
    + apply like_entries. constructor; [apply HTY|]. constructor; [|constructor]. apply like_attributes.
      change (Forall2 (like_attr rt0 R) [(s "id", VStr [x]); (s "text", VStr (s "@" ++ [x]))] [(s "id", VStr [x']); (s "text", VStr (s "@" ++ [x']))]).
      constructor; [split; [reflexivity|exact HXS]|]. constructor; [|constructor]. split; [reflexivity|]. change (like R (s "@" ++ [x]) (s "@" ++ [x'])). apply Forall2_app; [exact (HL (s "@") eq_refl)|exact HXS].
    + apply like_entries. constructor; [apply HTY|]. constructor; [|constructor]. apply like_attributes.
      change (Forall2 (like_attr rt0 R) [(s "timestamp", VStr (s "86400000"))] [(s "timestamp", VStr (s "86400000"))]). constructor; [split; reflexivity|constructor].
  - apply like_entries. constructor; [apply HTY|]. constructor.
    + apply like_attributes. change (Forall2 (like_attr rt0 R) [(s "panelType", VStr (s "info"))] [(s "panelType", VStr (s "info"))]). constructor; [|constructor]. split; [reflexivity|].
      change (VStr (s "info") = VStr (s "info") /\ like R (s "INFO") (s "INFO")). split; [reflexivity|exact (HL (s "INFO") eq_refl)].
    + constructor; [|constructor]. apply like_content_list. constructor; [|constructor]. apply like_entries. constructor; [apply HTY|]. constructor; [|constructor].
      apply like_content_list. constructor; [exact HTX|constructor].
Qed.
Definition kanji_md (x y : N) : str :=
  nl ++ nl ++ s "## [**a " ++ [x; y] ++ s " b**](u/" ++ [y] ++ s ")" ++ nl ++ nl ++ s "@" ++ [x] ++ s "1970-01-02" ++ nl ++ nl
  ++ s "> **INFO**" ++ nl ++ s "> " ++ nl ++ s "> [**a " ++ [x; y] ++ s " b**](u/" ++ [y] ++ s ")" ++ nl ++ nl.
Example ex_C74_converted : fst (parse_node true (ex_kanji 26085 26412)) = [Warn CNode (VStr (s "nowhere"))] /\
  (do n <- snd (parse_node true (ex_kanji 26085 26412)); to_markdown rt0 n false) = Ok (VStr (kanji_md 26085 26412)).
Proof. split; vm_compute; reflexivity. Qed.
Example ex_C74_renamed : (do n <- snd (parse_node true (ex_kanji 26086 26413)); to_markdown rt0 n false) = Ok (VStr (map ex_shift (kanji_md 26085 26412))).
Proof.
  apply (C74_renamed rt0 ex_shift true (ex_kanji 26085 26412)); [exact ex_renaming|reflexivity| |exact (proj2 ex_C74_converted)].
  apply ex_chars_like; [exact (through_respects _ ex_renaming)|reflexivity|reflexivity].
Qed.
Example ex_C74_shape : like_dict rt0 same_shape (ex_kanji 26085 26412) (ex_kanji 8364 233).
Proof. apply ex_chars_like; [exact same_shape_respects|right|right]; repeat split; try reflexivity; discriminate. Qed.
Example ex_C74_characters : like_dict rt0 (among (fun c => c = 26085%N \/ c = 26412%N)) (ex_kanji 26085 26412) (ex_kanji 26085 26412) /\
  like_dict rt0 (among (fun _ => False)) (ex_kanji 64 65) (ex_kanji 64 65).
Proof.
  split; (apply ex_chars_like; [exact (among_respects _)| |]).
  - split; [reflexivity|]. right. now left.
  - split; [reflexivity|]. right. now right.
  - split; [reflexivity|]. left. reflexivity.
  - split; [reflexivity|]. left. reflexivity.
Qed.
(** White space is different: a no-break space and a letter in its place do not give Markdown of the same shape. *)
Example ex_C74_ws_differs : let d c := VDict [(s "type", VStr (s "text")); (s "text", VStr [c]); (s "marks", VList [VDict [(s "type", VStr (s "strong"))]])] in
  (do n <- snd (parse_node true (d 160%N)); to_markdown rt0 n false) = Ok (VStr [160%N]) /\
  (do n <- snd (parse_node true (d 233%N)); to_markdown rt0 n false) = Ok (VStr (s "**" ++ [233%N] ++ s "**")).
Proof. split; vm_compute; reflexivity. Qed.
