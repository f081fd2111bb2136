(** C81: what a Markdown reader sees of a whole document: the blocks, and inside them every character with its formats.  Vocabulary: SpecSight.v
    ([behold up x]: what a reader sees of the Markdown x, block structure first (SpecReader.v), then the text of each block (SpecInline.v);
    [all_look E up blocks ss]: the blocks should be seen as ss) and SpecSeen.v ([all_seen]: which blocks Markdown keeps apart). *)
From Coq Require Import List Arith NArith ZArith Bool String Lia.
From Verif Require Import PyStr Values Schema Parse Date Markdown Basics StrFacts MarkFacts SpecParse ParseFacts4 SpecMd MdFacts2 SpecErr ErrFacts SpecList SpecTable SpecReader SpecSeen
  ReaderFacts9 ReaderFacts10 SpecInline SpecLook SpecCell SpecSight InlineFacts1 InlineFacts2 InlineFacts3 InlineFacts4 InlineFacts5 InlineFacts6 InlineFacts8 SightFacts1 SightFacts2
  Properties_Marks Properties_Nodes Properties_Layout Properties_Lists Properties_Table Properties_Reader Properties_Inline Properties_Inline2.
Import ListNotations.
Open Scope string_scope.
Open Scope list_scope.
Open Scope nat_scope.

(** ================================================================ C81 *)
(** A document is seen as it should be, with either flag, whatever counts as punctuation above ASCII. *)
Theorem C81_document : forall E up n blocks a es b ss ign, is_document n blocks -> all_seen E blocks a es b -> all_look E up blocks ss ->
  exists out, to_markdown E n ign = Ok (VStr out) /\ behold up out = ss.
Proof.
  intros E up n blocks a es b ss ign HD HS HL. destruct (C75_document E n blocks a es b ign HD HS) as (out & HO & HR). exists out. split; [exact HO|].
  unfold behold. rewrite HR. exact (proj2 (sights E up) blocks a es b HS ss HL).
Qed.
(** A single block on its own. *)
Theorem C81_block : forall E up w v n a es b ss ign, snd (parse_node w v) = Ok n -> seen E n a es b -> looks E up n ss ->
  exists out, to_markdown E n ign = Ok (VStr out) /\ behold up out = ss.
Proof.
  intros E up w v n a es b ss ign HP HS HL. destruct (C75_block E w v n a es b ign HP HS) as (out & HO & HR). exists out. split; [exact HO|].
  unfold behold. rewrite HR. exact (proj1 (sights E up) n a es b HS ss HL).
Qed.
(** What is seen is determined by the blocks; documents that should be seen differently have different Markdown. *)
Theorem C81_distinguishes : forall E up n n' blocks blocks' a es b a' es' b' ss ss' ign out, is_document n blocks -> is_document n' blocks' ->
  all_seen E blocks a es b -> all_seen E blocks' a' es' b' -> all_look E up blocks ss -> all_look E up blocks' ss' ->
  to_markdown E n ign = Ok (VStr out) -> to_markdown E n' ign = Ok (VStr out) -> ss = ss'.
Proof.
  intros E up n n' bl bl' a es b a' es' b' ss ss' ign out HD HD' HS HS' HL HL' HO HO'.
  destruct (C81_document E up n bl a es b ss ign HD HS HL) as (o & H1 & <-). destruct (C81_document E up n' bl' a' es' b' ss' ign HD' HS' HL') as (o' & H2 & <-).
  rewrite HO in H1. rewrite HO' in H2. apply okstr_inj in H1 as <-. apply okstr_inj in H2 as <-. reflexivity.
Qed.

(** ---------------------------------------------------------------- the difference in decisions *)
(** A hard break in a decision is not seen as one: the line ends lose their spaces, and the text goes on after an ordinary line end. *)
Lemma reads_soft up p rest : leading SP rest = 0 -> reads up false p nl rest [IChar NL].
Proof.
  intros H. apply core_reads, core_items. intros st _. exists (TIn (IChar NL) :: st). split; [|split; [discriminate|reflexivity]].
  change (nl ++ rest) with (NL :: rest). cbn [scan].
  change (is_ch "\" NL) with false. change (is_ch "`" NL) with false. change (delimiter NL) with false. change (is_ch "!" NL) with false.
  change (is_ch "[" NL) with false. change (is_ch "]" NL) with false. change (is_ch "<" NL) with false. change (is_ch "&" NL) with false.
  change (N.eqb NL SP) with false. change (N.eqb NL NL) with true. cbn [andb orb]. cbn iota zeta. rewrite H. reflexivity.
Qed.
Theorem C81_decision_break_lost : forall E up w v n c before hb after x y ign, snd (parse_node w v) = Ok n -> n_kind n = KdecisionList -> n_content n = Items [c] ->
  n_kind c = KdecisionItem -> n_content c = Items (before ++ [hb] ++ after) -> n_kind hb = KhardBreak -> written E before x -> written E after y ->
  harmless x -> harmless y -> text_line x -> text_line y -> solid_end x -> solid_end y ->
  exists out, to_markdown E n ign = Ok (VStr out) /\ behold up out = [SightQuote; SightPara (in_plain (x ++ nl ++ y)); SightEnd].
Proof.
  intros E up w v n c before hb after x y ign HP HK HC HKc HCc HH (xs & HX & <-) (ys & HY & <-) HM1 HM2 HT1 HT2 HE1 HE2.
  set (x := List.concat xs) in *. set (y := List.concat ys) in *.
  assert (HBR : renders E hb (s "  " ++ nl)) by (destruct hb as [k ty ve tx a co ma]; cbn [n_kind] in HH; subst k; reflexivity).
  assert (HNx : ~ In NL x) by (apply tame_NL, harmless_tame; exact HM1). assert (HNy : ~ In NL y) by (apply tame_NL, harmless_tame; exact HM2).
  assert (HA : Forall2 (renders E) (before ++ [hb] ++ after) (xs ++ [s "  " ++ nl] ++ ys)) by (apply Forall2_app; [exact HX|]; apply Forall2_app; [repeat constructor; exact HBR|exact HY]).
  assert (HCC : List.concat (xs ++ [s "  " ++ nl] ++ ys) = (x ++ s "  ") ++ NL :: y). { rewrite !concat_app. cbn [List.concat]. rewrite app_nil_r. fold x y. rewrite <- !app_assoc. reflexivity. }
  assert (HS : seen E n 0 [EQuote; EPara [x; y]; EEnd] 0).
  { change [EQuote; EPara [x; y]; EEnd] with (List.concat [[EQuote; EPara [x; y]; EEnd]]). apply (seen_decisions E n [c]); [exact HK|exact HC|discriminate|]. constructor; [|constructor].
    split; [exact HKc|]. exists (before ++ [hb] ++ after), (xs ++ [s "  " ++ nl] ++ ys). split; [exact HCc|]. split; [exact HA|].
    assert (HL : map rstrip (split_on NL (rstrip (List.concat (xs ++ [s "  " ++ nl] ++ ys)))) = [x; y]).
    { rewrite HCC. assert (HSo : solid_end ((x ++ s "  ") ++ NL :: y)).
      { apply split_last. rewrite ReaderFacts.split_nl, (split_on_notin NL y) by exact HNy. rewrite last_last. exact HE2. }
      rewrite (solid_rstrip _ HSo), ReaderFacts.split_nl, (split_on_notin NL y) by exact HNy. rewrite split_on_notin.
      2:{ intros HI. apply in_app_or in HI as [HI|HI]; [now apply HNx|]. vm_compute in HI. intuition discriminate. }
      cbn [map app]. rewrite (solid_rstrip y HE2). f_equal. clear -HE1. unfold solid_end, rstrip in *. induction x as [|d z IH]; [discriminate HE1|]. cbn [app rstrip_by].
      destruct z as [|e z]; [cbn [app]; cbn [last] in HE1; change (rstrip_by is_ws (s "  ")) with (@nil N); rewrite HE1; reflexivity|]. rewrite (IH HE1). reflexivity. }
    rewrite HL. split; [repeat constructor; (apply HT1 || apply HT2)|reflexivity]. }
  destruct (C75_block E w v n _ _ _ ign HP HS) as (out & HO & HR). exists out. split; [exact HO|]. unfold behold. rewrite HR. cbn [map sight_of]. do 2 f_equal. f_equal.
  unfold shown. rewrite (reads_all up _ (map IChar (x ++ nl ++ y))); [apply show_chars|].
  rewrite !map_app. change (join nl [x; y]) with (x ++ nl ++ y).
  assert (HTX : forall t p r, ordinary up p t r = true -> reads up false p t r (map IChar t)) by (intros t p r HO'; apply core_reads, core_items, adds_text; [exact HO'|discriminate]).
  apply reads_app; [apply HTX, harmless_ordinary; exact HM1|]. apply reads_app; [|apply HTX, harmless_ordinary; exact HM2].
  apply reads_soft. rewrite app_nil_r. destruct HT2 as (_ & _ & HT2). destruct y as [|d z]; [reflexivity|]. cbn [leading]. destruct (N.eqb_spec d SP) as [->|]; [now destruct (HT2 z)|reflexivity].
Qed.

(** ---------------------------------------------------------------- examples *)
Notation para t := (SightPara (in_plain (s t))).
Definition ex_seen_sights : list sight :=
  [SightHead 2 (in_plain (s "Title")); para "intro";
   SightBullet; para "one"; SightBullet; para "deep"; SightEnd; SightEnd; SightBullet; para "two"; SightEnd;
   SightNumber (s "3"); para "three"; SightEnd; SightCode [] [s "x = 1"];
   SightQuote; SightPara (in_bold (s "INFO")); para "note"; SightCode [] [s "y"]; SightEnd; SightQuote; para "said"; SightEnd;
   SightTable [in_plain (s "A"); in_plain (s "B")] [[in_plain (s "1"); in_plain (s "2")]]; SightRule; para "end"].
Lemma word_looks E up p n t : styled n t [] -> renders E n t -> harmless t -> t <> [] -> inline_looks E up p [n] t (in_plain t).
Proof.
  intros HS HR HH HN. exists [t]. split; [repeat constructor; exact HR|]. split; [cbn [List.concat]; now rewrite app_nil_r|]. split.
  - exists (in_plain t), []. split; [|split; [reflexivity|now rewrite app_nil_r]]. apply (ns_text up _ _ _ _ t (Format false [] None [])); [exact HS|].
    split; [constructor|]. split; [reflexivity|]. split; [apply harmless_ordinary; exact HH|]. split; [discriminate|]. split; [intros [X|X]; [discriminate X|now destruct X]|].
    split; [intros _ X; now destruct X|]. split; [intros X; now destruct X|]. split; intros X; now destruct X.
  - destruct t as [|c t]; [now destruct HN|]. exists c. split; [now left|]. intros ->. apply (harmless_tame _ HH NL); left; reflexivity.
Qed.
Ltac w_look := apply word_looks; [st0|vm_compute; reflexivity|hl|discriminate].
Ltac lk t := match goal with
  | |- looks _ _ _ [SightPara _] => eapply (lk_para _ _ _ _ (s t)); [reflexivity|discriminate|reflexivity|w_look]
  end.
(** A cell with one text. *)
Lemma cell_word E up p n t : styled n t [] -> renders E n t -> harmless t -> t <> [] -> hd NL t <> SP -> para_looks E up p [n] [] t (in_plain t).
Proof.
  intros HS HR HH HN HF. destruct (word_looks E up p n t HS HR HH HN) as (xs & HX & HE & HA & _). subst t. apply pl_line, ln_flush; [exact HX| | |].
  - intros HI. apply (harmless_tame _ HH NL); [exact HI|left; reflexivity].
  - intros r HE. rewrite HE in HF. now apply HF.
  - clear -HA. revert HA. generalize (in_plain (List.concat xs)). revert p. generalize [n] as ns. induction xs as [|x xs IH]; intros [|m ns] p g H; cbn [all_shown shown_before] in *; try exact H.
    destruct H as (g1 & g2 & H1 & H2 & H3). exists g1, g2. rewrite app_nil_r. split; [exact H1|]. split; [now apply IH|exact H3].
Qed.
Ltac c_look := match goal with |- cell_looks _ _ ?n _ => match goal with |- cell_looks _ _ _ (in_plain ?t) =>
  eexists; exists t; split; [reflexivity|]; split; [right; apply cell_word; [st0|vm_compute; reflexivity|hl|discriminate|discriminate]|right; split; [do 2 eexists; split; [reflexivity|reflexivity]|]] end end;
  match goal with |- visible_last ?t => exists (removelast t), (last t 0%N); split; vm_compute; reflexivity end.
Ltac al := match goal with |- all_look _ _ _ (?x :: ?r) => change (x :: r) with ([x] ++ r) end; apply al_cons.
Ltac il t := eapply (il_cons _ _ _ _ _ _ _ _ (s t)); [reflexivity|reflexivity|discriminate|reflexivity|w_look|vm_compute; reflexivity|..].
Example C81_example : is_document (get ex_seen_value) (blocks_of (get ex_seen_value)) /\ all_seen rt0 (blocks_of (get ex_seen_value)) 2 ex_seen_events 1 /\
  all_look rt0 up0 (blocks_of (get ex_seen_value)) ex_seen_sights.
Proof.
  destruct C75_example as [H1 H2]. split; [exact H1|]. split; [exact H2|]. clear.
  match goal with |- all_look _ _ ?l _ => let l' := eval vm_compute in l in change l with l' end. unfold ex_seen_sights.
  al. { eapply (lk_heading _ _ _ 2); [reflexivity|vm_compute; reflexivity|reflexivity|w_look]. }
  al. { lk "intro". }
  match goal with |- all_look _ _ _ (?a :: ?b :: ?c :: ?d :: ?e :: ?f :: ?g :: ?h :: ?i :: ?r) => change (a :: b :: c :: d :: e :: f :: g :: h :: i :: r) with ([a; b; c; d; e; f; g; h; i] ++ r) end. apply al_cons.
  { apply lk_bullets; [reflexivity|]. eapply ll_list; [reflexivity|]. cbn [filter is_item n_kind]. refine (il_cons rt0 up0 KbulletList 1 _ _ _ _ (s "one") _ [SightBullet; para "deep"; SightEnd] _ [SightBullet; para "two"; SightEnd] _ _ _ _ _ _ _ _);
      [reflexivity|reflexivity|discriminate|reflexivity|w_look|vm_compute; reflexivity| |].
    - change [SightBullet; para "deep"; SightEnd] with ([SightBullet; para "deep"; SightEnd] ++ []). apply sl_cons; [|constructor]. eapply ll_list; [reflexivity|]. cbn [filter is_item n_kind].
      refine (il_cons rt0 up0 KbulletList 1 _ _ _ _ (s "deep") _ [] _ [] _ _ _ _ _ _ _ _); [reflexivity|reflexivity|discriminate|reflexivity|w_look|vm_compute; reflexivity|constructor|constructor].
    - refine (il_cons rt0 up0 KbulletList 2 _ _ _ _ (s "two") _ [] _ [] _ _ _ _ _ _ _ _); [reflexivity|reflexivity|discriminate|reflexivity|w_look|vm_compute; reflexivity|constructor|constructor]. }
  match goal with |- all_look _ _ _ (?a :: ?b :: ?c :: ?r) => change (a :: b :: c :: r) with ([a; b; c] ++ r) end. apply al_cons.
  { apply (lk_ordered _ _ _ 3); [reflexivity|left; vm_compute; reflexivity|]. eapply ll_list; [reflexivity|]. cbn [filter is_item n_kind].
    refine (il_cons rt0 up0 KorderedList 3 _ _ _ _ (s "three") _ [] _ [] _ _ _ _ _ _ _ _); [reflexivity|reflexivity|discriminate|reflexivity|w_look|vm_compute; reflexivity|constructor|constructor]. }
  al. { refine (lk_code rt0 up0 _ [] _ [s "x = 1"] _ _ _ _); [reflexivity|right; right; split; reflexivity|reflexivity|apply Forall2_cons; [st0|apply Forall2_nil]]. }
  match goal with |- all_look _ _ _ (?a :: ?b :: ?c :: ?d :: ?e :: ?r) => change (a :: b :: c :: d :: e :: r) with ([a; b; c; d; e] ++ r) end. apply al_cons.
  { refine (lk_panel rt0 up0 _ (s "info") _ [para "note"; SightCode [] [s "y"]] _ _ _ _ _); [reflexivity|vm_compute; reflexivity|reflexivity|change (py_upper rt0 (s "info")) with (s "INFO"); wt|].
    al. { lk "note". } al; [|constructor]. refine (lk_code rt0 up0 _ [] _ [s "y"] _ _ _ _); [reflexivity|right; right; split; reflexivity|reflexivity|apply Forall2_cons; [st0|apply Forall2_nil]]. }
  match goal with |- all_look _ _ _ (?a :: ?b :: ?c :: ?r) => change (a :: b :: c :: r) with ([a; b; c] ++ r) end. apply al_cons.
  { refine (lk_quote rt0 up0 _ _ [para "said"] _ _ _); [reflexivity|reflexivity|]. al; [lk "said"|constructor]. }
  al.
  { match goal with |- looks _ _ _ ?g => enough (HG : exists g', looks rt0 up0 _ g' /\ g' = g) by (destruct HG as (? & HG & <-); exact HG) end. eexists. split.
    - eapply (lk_table _ _ _ _ _ _ [in_plain (s "A"); in_plain (s "B")] [[in_plain (s "1"); in_plain (s "2")]]); [reflexivity|reflexivity| |].
      + repeat (apply Forall2_cons; [split; [reflexivity|split; [reflexivity|split; [repeat (apply Forall_cons; [(left; reflexivity) || (right; reflexivity)|]); apply Forall_nil|discriminate]]]|]). apply Forall2_nil.
      + repeat (apply Forall2_cons; [repeat (apply Forall2_cons; [c_look|]); apply Forall2_nil|]). apply Forall2_nil.
    - vm_compute. reflexivity. }
  al. { apply lk_rule. reflexivity. }
  al; [|constructor]. eapply lk_expand; [right; reflexivity|reflexivity|]. al; [lk "end"|constructor].
Qed.

(** With formats, a hard break, statuses, tasks and a card. *)
Definition ex_card (h : string) : value := VDict [tyv "blockCard"; (s "attrs", VDict [(s "url", VStr (s h))])].
Definition ex_decide (l : list value) : value := VDict [tyv "decisionList"; (s "attrs", VDict [(s "localId", VStr (s "x"))]);
  (s "content", VList [VDict [tyv "decisionItem"; (s "attrs", VDict [(s "localId", VStr (s "x")); (s "state", VStr (s "x"))]); (s "content", VList l)]])].
Definition ex_rich : value := ex_doc [ex_look; ex_tl [ex_task "DONE" [ex_marked "ship" [mk "strong"]; tx " it"]]; ex_card "http://x.y/z_1"; ex_decide [tx "go "; ex_marked "now" [mk "em"]]].
Definition ex_rich_events : list event := [EPara (split_on NL (List.concat ex_look_out)); EBullet; EPara [s "[x] **ship** it"]; EEnd; EPara [s "[http://x.y/z_1](http://x.y/z_1)"]; EQuote; EPara [s "go *now*"]; EEnd].
Definition ex_rich_sights : list sight :=
  [SightPara ex_look_seen; SightBullet; SightPara (in_plain (s "[x] ") ++ in_bold (s "ship") ++ in_plain (s " it")); SightEnd;
   SightPara (in_link (s "http://x.y/z_1") (s "http://x.y/z_1")); SightQuote; SightPara (in_plain (s "go ") ++ map (fun c => Glyph c (Look false true false false None)) (s "now")); SightEnd].
Example C81_formats_example : is_document (get ex_rich) (blocks_of (get ex_rich)) /\ all_seen rt0 (blocks_of (get ex_rich)) 0 ex_rich_events 0 /\ all_look rt0 up0 (blocks_of (get ex_rich)) ex_rich_sights.
Proof.
  destruct C79_example as (_ & HK & HC & HM & HR & HT & HS). split; [apply document_get; vm_compute; reflexivity|].
  assert (HB : exists t c d, blocks_of (get ex_rich) = [get ex_look; t; c; d] /\ t = get (ex_tl [ex_task "DONE" [ex_marked "ship" [mk "strong"]; tx " it"]]) /\ c = get (ex_card "http://x.y/z_1") /\
    d = get (ex_decide [tx "go "; ex_marked "now" [mk "em"]])) by (do 3 eexists; split; [vm_compute; reflexivity|]; split; [vm_compute; reflexivity|]; split; vm_compute; reflexivity).
  destruct HB as (t & c & d & -> & HEt & HEc & HEd). split.
  - change ex_rich_events with ([EPara (split_on NL (List.concat ex_look_out))] ++ [EBullet; EPara [s "[x] **ship** it"]; EEnd] ++ [EPara [s "[http://x.y/z_1](http://x.y/z_1)"]] ++ List.concat [[EQuote; EPara [s "go *now*"]; EEnd]]).
    eapply as_cons with (b := 1) (a' := 0). { apply (seen_para rt0 _ ex_look_nodes ex_look_out HK HM HC HR HT). } 2: lia.
    eapply as_cons with (b := 0) (a' := 1).
    { subst t. match goal with |- seen _ ?l _ _ _ => let l' := eval vm_compute in l in change l with l' end. eapply seen_tasks; [reflexivity|reflexivity|discriminate|].
      refine (ts_cons rt0 _ _ [s "**ship**"; s " it"] (VStr (s "DONE")) true (s "**ship** it") [] [] [] [] [] _ _ _ _ _ _ _ _ _ _); task_ok; constructor. }
    2: lia. eapply as_cons with (b := 1) (a' := 0).
    { subst c. match goal with |- seen _ ?l _ _ _ => let l' := eval vm_compute in l in change l with l' end. apply (seen_text rt0 _ 1 1 (s "[http://x.y/z_1](http://x.y/z_1)")); [left; discriminate|no_rule|vm_compute; reflexivity|lines_ok|lia|lia]. }
    2: lia. apply as_one. subst d. match goal with |- seen _ ?l _ _ _ => let l' := eval vm_compute in l in change l with l' end. eapply seen_decisions; [reflexivity|reflexivity|discriminate|].
    apply Forall2_cons; [|apply Forall2_nil]. split; [reflexivity|]. do 2 eexists. split; [reflexivity|]. split; [apply (Forall2_cons _ (s "go ")); [vm_compute; reflexivity|apply (Forall2_cons _ (s "*now*")); [vm_compute; reflexivity|apply Forall2_nil]]|]. split; [lines_ok|vm_compute; reflexivity].
  - unfold ex_rich_sights. al.
    { apply (lk_para _ _ _ ex_look_nodes (List.concat ex_look_out)); [exact HK|exact HM|exact HC|]. exists ex_look_out. split; [exact HR|]. split; [reflexivity|]. split; [exact HS|]. exists 83%N. split; [left; reflexivity|discriminate]. }
    match goal with |- all_look _ _ _ (?a :: ?b :: ?e :: ?r) => change (a :: b :: e :: r) with ([a; b; e] ++ r) end. apply al_cons.
    { subst t. match goal with |- looks _ _ ?l _ => let l' := eval vm_compute in l in change l with l' end. eapply lk_tasks; [reflexivity|reflexivity|].
      refine (tl_cons rt0 up0 _ _ (VStr (s "DONE")) true (s "**ship** it") _ [] [] [] [] _ _ _ _ _ _ _ _ _); [reflexivity|reflexivity|eexists; split; [reflexivity|vm_compute; reflexivity]|split; reflexivity| |vm_compute; reflexivity|vm_compute; reflexivity|constructor|constructor].
      exists [s "**ship**"; s " it"]. split; [xs_render|]. split; [reflexivity|]. split; [|exists 42%N; split; [left; reflexivity|discriminate]].
      cbn [all_shown]. shown_text (Format false [] None [Strong]) [[SEmph Strong]]. exists (in_plain (s " it")), []. split; [eapply (ns_text _ _ _ _ _ _ (Format false [] None [])); [st0|expr]|]. split; [reflexivity|now rewrite app_nil_r]. }
    al. { subst c. match goal with |- looks _ _ ?l _ => let l' := eval vm_compute in l in change l with l' end. apply lk_text. eapply tb_card; [left; reflexivity|reflexivity|vm_compute; reflexivity|discriminate|expr]. }
    match goal with |- all_look _ _ _ (?a :: ?b :: ?e :: []) => change (a :: b :: e :: []) with (List.concat [[a; b; e]] ++ []) end. apply al_cons; [|constructor].
    subst d. match goal with |- looks _ _ ?l _ => let l' := eval vm_compute in l in change l with l' end. eapply lk_decisions; [reflexivity|reflexivity|].
    apply Forall2_cons; [|apply Forall2_nil]. do 3 eexists. split; [reflexivity|]. split; [|split; [|reflexivity]].
    + exists [s "go "; s "*now*"]. split; [xs_render|]. split; [reflexivity|]. split; [|exists 103%N; split; [left; reflexivity|discriminate]].
      cbn [all_shown]. exists (in_plain (s "go ")). eexists. split; [eapply (ns_text _ _ _ _ _ _ (Format false [] None [])); [st0|expr]|]. split; [|reflexivity].
      eexists. exists []. split; [eapply (ns_text _ _ _ _ _ _ (Format false [] None [Em])); [st [[SEmph Em]]|expr]|]. split; [reflexivity|now rewrite app_nil_r].
    + apply Forall_cons; [vm_compute; reflexivity|apply Forall_nil].
Qed.
Example C81_decision_example : exists v n c before after, snd (parse_node true v) = Ok n /\ n_kind n = KdecisionList /\ n_content n = Items [c] /\ n_kind c = KdecisionItem /\
  n_content c = Items (before ++ [get hb] ++ after) /\ n_kind (get hb) = KhardBreak /\ written rt0 before (s "one") /\ written rt0 after (s "two") /\ harmless (s "one") /\ harmless (s "two") /\
  text_line (s "one") /\ text_line (s "two") /\ solid_end (s "one") /\ solid_end (s "two").
Proof.
  exists (ex_decide [tx "one"; hb; tx "two"]). do 2 eexists. exists [get (tx "one")], [get (tx "two")]. split; [vm_compute; reflexivity|]. split; [reflexivity|]. split; [reflexivity|]. split; [reflexivity|]. split; [vm_compute; reflexivity|].
  split; [reflexivity|]. split; [wr [s "one"]|]. split; [wr [s "two"]|]. split; [hl|]. split; [hl|]. split; [t_line|]. split; [t_line|]. split; vm_compute; reflexivity.
Qed.

(** ---------------------------------------------------------------- the source text *)
From Verif Require Import PySem PySem2 SpecSource Properties_Source.
(** The same for the source text of the repository, as interpreted (C73): reading and rendering the dictionary. *)
Theorem C81_source : forall E W up v n blocks a es b ss ign, loads W v n -> n_kind n = Kdoc -> n_content n = Items blocks -> all_seen E blocks a es b -> all_look E up blocks ss ->
  exists out, converts E W v ign (Val (PV (VStr out))) /\ behold up out = ss.
Proof.
  intros E W up v n blocks a es b ss ign HL HK HC HS HA. apply loads_iff in HL.
  destruct (C81_document E up n blocks a es b ss ign) as (out & HO & HB); [split; [exists W, v; exact HL|split; assumption]|assumption|assumption|].
  exists out. split; [|exact HB]. apply converts_iff. unfold model_convert. rewrite HL. cbn [Values.rbind]. rewrite HO. reflexivity.
Qed.
