(** C79: a Markdown reader sees every character of a paragraph with the formats its marks ask for.  Vocabulary: SpecInline.v ([shown up x]: the
    characters a reader of CommonMark with GFM strikethrough shows for the paragraph text x, each with its formats; written after the CommonMark
    algorithm, independent of /repo) and SpecLook.v ([all_shown up p ns xs gs]: the nodes ns, written as xs, should be seen as gs). *)
From Coq Require Import List Arith NArith ZArith Bool String Lia.
From Verif Require Import PyStr Values Schema Parse Date Markdown Basics StrFacts MarkFacts SpecParse ParseFacts4 SpecMd MdFacts2 SpecErr ErrFacts SpecReader SpecSeen SpecInline SpecLook
  InlineFacts1 InlineFacts2 InlineFacts3 InlineFacts4 InlineFacts5 InlineFacts6 Properties_Marks Properties_Nodes Properties_Layout Properties_Lists Properties_Reader.
Import ListNotations.
Open Scope string_scope.
Open Scope list_scope.
Open Scope nat_scope.

(** ================================================================ C79 *)
(** Whatever counts as punctuation above ASCII. *)
Theorem C79_nodes : forall E up ns xs gs, Forall2 (renders E) ns xs -> all_shown up NL ns xs gs -> shown up (List.concat xs) = gs.
Proof.
  intros E up ns xs gs HR HS. destruct (reads_nodes up E ns xs HR NL gs HS) as (X & HX & <-). unfold shown. now rewrite (reads_all up _ X HX).
Qed.
(** A parsed paragraph on its own is read as one paragraph with what its nodes wrote as its text. *)
Theorem C79_source : forall E w v n ns xs ign, snd (parse_node w v) = Ok n -> n_kind n = Kparagraph -> n_content n = Items ns ->
  (forall m l, n_marks n <> Items (m :: l)) -> Forall2 (renders E) ns xs -> Forall text_line (split_on NL (List.concat xs)) ->
  exists out ls, to_markdown E n ign = Ok (VStr out) /\ read out = [EPara ls] /\ join nl ls = List.concat xs.
Proof.
  intros E w v n ns xs ign HP HK HC HM HR HL.
  assert (HE : seen E n 0 [EPara (split_on NL (List.concat xs))] 1) by (apply (seen_para E n ns xs HK HM HC HR HL)).
  destruct (C75_block E w v n _ _ _ ign HP HE) as (out & HO & HRd). exists out, (split_on NL (List.concat xs)).
  split; [exact HO|]. split; [exact HRd|]. change nl with [NL]. apply join_split.
Qed.
(** A parsed paragraph on its own: the block reader finds one paragraph, and its text is shown as it should be. *)
Theorem C79_paragraph : forall E up w v n ns xs gs ign, snd (parse_node w v) = Ok n -> n_kind n = Kparagraph -> n_content n = Items ns ->
  (forall m l, n_marks n <> Items (m :: l)) -> Forall2 (renders E) ns xs -> Forall text_line (split_on NL (List.concat xs)) -> all_shown up NL ns xs gs ->
  exists out ls, to_markdown E n ign = Ok (VStr out) /\ read out = [EPara ls] /\ shown up (join nl ls) = gs.
Proof.
  intros E up w v n ns xs gs ign HP HK HC HM HR HL HS. destruct (C79_source E w v n ns xs ign HP HK HC HM HR HL) as (out & ls & HO & HRd & HJ).
  exists out, ls. split; [exact HO|]. split; [exact HRd|]. rewrite HJ. now apply (C79_nodes E up ns xs).
Qed.
(** What is seen is determined by the nodes. *)
Theorem C79_unambiguous : forall E up ns xs gs gs', Forall2 (renders E) ns xs -> all_shown up NL ns xs gs -> all_shown up NL ns xs gs' -> gs = gs'.
Proof. intros E up ns xs gs gs' HR H1 H2. rewrite <- (C79_nodes E up ns xs gs HR H1). now apply (C79_nodes E up ns xs). Qed.

(** ---------------------------------------------------------------- the conditions in common cases *)
(** A text without special characters that does not end with a space means itself, wherever it stands. *)
Theorem C79_harmless_text : forall up t p after, harmless t -> ordinary up p t after = true /\ no_brackets t = true.
Proof. exact harmless_text. Qed.

(** ---------------------------------------------------------------- an example *)
Definition ex_marked (t : string) (ms : list value) : value := VDict [tyv "text"; (s "text", VStr (s t)); (s "marks", VList ms)].
Definition mk (x : string) : value := VDict [tyv x].
Definition mk_link (h : string) : value := link_dict [(s "href", VStr (s h))].
Definition ex_look : value :=
  VDict [tyv "paragraph"; (s "content", VList
    [tx "See [1] "; ex_marked "bold_x" [mk "strong"; mk "underline"]; tx ", "; ex_marked "both" [mk "em"; mk "strike"]; tx "; ";
     ex_marked "here" [mk "strong"; mk_link "http://a.b/c_(d)?x=1&y=2"; mk "em"]; tx " or"; VDict [tyv "hardBreak"]; ex_marked "a`b" [mk "code"]; tx " 2 * 3 ";
     VDict [tyv "status"; (s "attrs", VDict [(s "text", VStr (s "DONE")); (s "color", VStr (s "green"))])]; tx " ";
     VDict [tyv "inlineCard"; (s "attrs", VDict [(s "url", VStr (s "http://x.y/z_1"))])]; tx " ";
     VDict [tyv "mention"; (s "attrs", VDict [(s "id", VStr (s "7")); (s "text", VStr (s "@Ann"))])];
     VDict [tyv "emoji"; (s "attrs", VDict [(s "shortName", VStr (s ":ok:"))])]; VDict [tyv "date"; (s "attrs", VDict [(s "timestamp", VStr (s "0"))])]])].
Definition ex_look_nodes : list node := blocks_of (get ex_look).
Definition ex_look_out : list str :=
  [s "See [1] "; s "**bold_x**"; s ", "; s "~~*both*~~"; s "; "; s "*[**here**](http://a.b/c_(d)?x=1&y=2)*"; s " or"; s "  " ++ nl; s "`` a`b ``"; s " 2 * 3 ";
   s "`DONE`"; s " "; s "[http://x.y/z_1](http://x.y/z_1)"; s " "; s "@Ann"; s ":ok:"; s "1970-01-01"].
Definition glyphs (k : look) (t : string) : list glyph := map (fun c => Glyph c k) (s t).
Definition ex_look_seen : list glyph :=
  glyphs plain "See [1] " ++ glyphs (Look true false false false None) "bold_x" ++ glyphs plain ", " ++ glyphs (Look false true true false None) "both" ++ glyphs plain "; " ++
  glyphs (Look true true false false (Some (s "http://a.b/c_(d)?x=1&y=2"))) "here" ++ glyphs plain " or" ++ [LineBreak] ++ glyphs (Look false false false true None) "a`b" ++ glyphs plain " 2 * 3 " ++
  glyphs (Look false false false true None) "DONE" ++ glyphs plain " " ++ glyphs (Look false false false false (Some (s "http://x.y/z_1"))) "http://x.y/z_1" ++ glyphs plain " @Ann:ok:1970-01-01".
Ltac no_dup := repeat (apply NoDup_cons; [cbn [In]; intros X; repeat (destruct X as [X|X]; [discriminate X|]); exact X|]); apply NoDup_nil.
Ltac asks_all := repeat (apply Forall2_cons; [first [reflexivity | do 3 eexists; split; [vm_compute; reflexivity|]; split; [vm_compute; reflexivity|]; split; [vm_compute; reflexivity|];
  split; [intros ?; discriminate|reflexivity]]|]); apply Forall2_nil.
Ltac expr := split; [cbn; no_dup|]; split; [first [discriminate | reflexivity]|]; split; [vm_compute; first [reflexivity | split; [reflexivity|discriminate]]|];
  split; [let X := fresh in intros h X; vm_compute in X; first [discriminate X | apply some_inj in X; subst h; split; [vm_compute; reflexivity|intros; vm_compute; reflexivity]]|];
  split; [first [let X := fresh in intros [X|X]; [discriminate X|contradiction X; reflexivity] | intros _; eexists; split; [left; reflexivity|vm_compute; reflexivity]]|];
  split; [let X := fresh in let Y := fresh in intros X Y; first [discriminate X|contradiction Y; reflexivity|split; vm_compute; reflexivity]|];
  split; [let X := fresh in let Y := fresh in intros X Y; first [contradiction X; reflexivity|vm_compute in Y; discriminate Y]|];
  split; [let X := fresh in let Y := fresh in intros X Y; first [contradiction X; reflexivity|vm_compute in Y; discriminate Y]|];
  let X := fresh in intros X; first [contradiction X; reflexivity|vm_compute; discriminate].
Ltac st0 := split; [vm_compute; reflexivity|]; split; [vm_compute; reflexivity|]; left; split; [vm_compute; discriminate|reflexivity].
Ltac st ls := split; [vm_compute; reflexivity|]; split; [vm_compute; reflexivity|]; right; match goal with |- context [n_marks ?n] => let m := eval vm_compute in (n_marks n) in match m with Items ?ms => exists ms, ls end end;
  split; [vm_compute; reflexivity|]; split; [asks_all|reflexivity].
Ltac shown_text f ls := eexists; eexists; split; [eapply (ns_text _ _ _ _ _ _ f); [st ls|expr]|split; [|reflexivity]].
Ltac shown_plain := eexists; eexists; split; [eapply (ns_text _ _ _ _ _ _ (Format false [] None [])); [st0|expr]|split; [|reflexivity]].
Ltac shown_break := eexists; eexists; split; [apply ns_break; [reflexivity|vm_compute; reflexivity]|split; [|reflexivity]].
Example C79_example : snd (parse_node true ex_look) = Ok (get ex_look) /\ n_kind (get ex_look) = Kparagraph /\ n_content (get ex_look) = Items ex_look_nodes /\
  (forall m l, n_marks (get ex_look) <> Items (m :: l)) /\ Forall2 (renders rt0) ex_look_nodes ex_look_out /\ Forall text_line (split_on NL (List.concat ex_look_out)) /\
  all_shown (fun _ => false) NL ex_look_nodes ex_look_out ex_look_seen.
Proof.
  split; [vm_compute; reflexivity|]. split; [vm_compute; reflexivity|]. split; [vm_compute; reflexivity|]. split; [vm_compute; discriminate|].
  split; [let l := eval vm_compute in ex_look_nodes in change ex_look_nodes with l; xs_render|].
  split; [lines_ok|].
  let l := eval vm_compute in ex_look_nodes in change ex_look_nodes with l.
  unfold ex_look_out.
  match goal with |- all_shown ?u ?p ?ns ?xs ?gs => enough (exists g, all_shown u p ns xs g /\ g = gs) as (g & HG & <-); [exact HG|] end.
  eexists. split.
  - cbn [all_shown].
    shown_plain. shown_text (Format false [] None [Strong]) [[SEmph Strong]; []]. shown_plain. shown_text (Format false [] None [Em; Strike]) [[SEmph Em]; [SEmph Strike]].
    shown_plain. shown_text (Format false [Strong] (Some (s "http://a.b/c_(d)?x=1&y=2")) [Em]) [[SEmph Strong]; [SLink (s "http://a.b/c_(d)?x=1&y=2")]; [SEmph Em]].
    shown_plain. shown_break. shown_text (Format true [] None []) [[SCode]]. shown_plain.
    eexists; eexists; split; [eapply ns_status; [reflexivity|reflexivity|vm_compute; reflexivity|discriminate| | |left; discriminate|discriminate]|split; [|reflexivity]];
      [cbn; intros X; repeat (destruct X as [X|X]; [discriminate X|]); exact X|cbn; intros X; repeat (destruct X as [X|X]; [discriminate X|]); exact X|].
    shown_plain.
    eexists; eexists; split; [eapply ns_card; [reflexivity|reflexivity|vm_compute; reflexivity|expr]|split; [|reflexivity]].
    shown_plain.
    eexists; eexists; split; [eapply ns_mention; [reflexivity|reflexivity|vm_compute; reflexivity|left; reflexivity|vm_compute; reflexivity]|split; [|reflexivity]].
    eexists; eexists; split; [eapply ns_emoji; [reflexivity|reflexivity|vm_compute; reflexivity|right; split; [discriminate|vm_compute; reflexivity]|vm_compute; reflexivity]|split; [|reflexivity]].
    eexists; eexists; split; [apply ns_other; [cbn; intros X; repeat (destruct X as [X|X]; [discriminate X|]); exact X|vm_compute; reflexivity]|split; [|reflexivity]]. reflexivity.
  - vm_compute. reflexivity.
Qed.
