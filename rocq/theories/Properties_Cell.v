(** C82: what a Markdown reader sees of table cells; and two additions to C80.  Vocabulary: SpecCell.v
    ([cell_shown up x]: what is seen of a cell with the source x; [cell_looks E up n gs]: the cell n should be seen as gs). *)
From Coq Require Import List Arith NArith ZArith Bool String Lia.
From Verif Require Import PyStr Values Schema Parse Date Markdown Basics StrFacts MarkFacts SpecParse ParseFacts4 SpecMd MdFacts2 SpecErr ErrFacts SpecList SpecTable TableFacts SpecReader SpecSeen
  ReaderFacts7 ReaderFacts9 ReaderFacts10 SpecInline SpecLook SpecCell CellFacts SpecSight InlineFacts1 InlineFacts2 InlineFacts3 InlineFacts4 InlineFacts5 InlineFacts6 InlineFacts8 SightFacts1 SightFacts2
  Properties_Marks Properties_Nodes Properties_Layout Properties_Lists Properties_Table Properties_Reader Properties_Inline Properties_Inline2 Properties_Sight.
Import ListNotations.
Open Scope string_scope.
Open Scope list_scope.
Open Scope nat_scope.

(** ================================================================ C82 *)
(** A cell is seen as it should be, with either flag. *)
Theorem C82_cell : forall E up w v n gs ign, snd (parse_node w v) = Ok n -> is_cell n -> cell_looks E up n gs ->
  exists x, to_markdown E n ign = Ok (VStr x) /\ cell_shown up (trim x) = gs.
Proof.
  intros E up w v n gs ign HP HC HL. destruct (cell_writes E up n gs HC HL) as (x & HX & HG). exists x. split; [|exact HG].
  destruct ign; [apply ignore_conservative; exact HX|exact HX].
Qed.
(** A table whose first row, and only that row, begins with a header cell is seen as a table with these cells. *)
Theorem C82_table : forall E up n rows cells1 cellss gs1 gss ign, is_table n rows (cells1 :: cellss) -> header_row cells1 -> Forall (fun cells => ~ header_row cells) cellss ->
  Forall2 (Forall2 (cell_looks E up)) (cells1 :: cellss) (gs1 :: gss) -> Forall (Forall (fun c => forall x, renders E c x -> ~ In CR x)) (cells1 :: cellss) ->
  exists out, to_markdown E n ign = Ok (VStr out) /\ behold up out = [SightTable gs1 (map (fill (List.length cells1)) gss)].
Proof.
  intros E up n rows cells1 cellss gs1 gss ign ((w & v & HP) & HK & HC & HR) HH HN HG HCR.
  assert (HX : exists xss, Forall2 (Forall2 (renders E)) (cells1 :: cellss) xss /\ Forall (Forall (fun x => ~ In CR x)) xss).
  { pose proof (rows_cells _ _ HR) as HIC. revert HG HCR HIC. clear. generalize (cells1 :: cellss) (gs1 :: gss). clear. intros L G HG. induction HG as [|cs gs css gss HG _ IH]; intros HCR HIC; [exists []; split; constructor|].
    inversion HCR as [|? ? HCR1 HCR2]; subst. inversion HIC as [|? ? HIC1 HIC2]; subst. destruct (IH HCR2 HIC2) as (xss & H1 & H2).
    assert (HX : exists xs, Forall2 (renders E) cs xs /\ Forall (fun x => ~ In CR x) xs).
    { clear -HG HCR1 HIC1. revert HCR1 HIC1. induction HG as [|c g cs gs HG _ IH]; intros HCR HIC; [exists []; split; constructor|]. inversion HCR as [|? ? HCR1 HCR2]; subst. inversion HIC as [|? ? HIC1 HIC2]; subst.
      destruct (IH HCR2 HIC2) as (xs & H1 & H2). destruct (cell_writes E up c g HIC1 HG) as (x & HX & _). exists (x :: xs). split; constructor; auto. }
    destruct HX as (xs & H3 & H4). exists (xs :: xss). split; constructor; assumption. }
  destruct HX as (xss & HX & HXC). inversion HX as [|? xs1 ? xss' HX1 HX2]; subst.
  apply (C81_block E up w v n 0 _ 0 _ ign HP (seen_table E n rows cells1 cellss xs1 xss' HK HC HR HX HH HN HXC)). now apply (lk_table E up n rows cells1 cellss).
Qed.
(** What is seen of a cell is determined by it. *)
Theorem C82_unambiguous : forall E up n gs gs', is_cell n -> cell_looks E up n gs -> cell_looks E up n gs' -> gs = gs'.
Proof.
  intros E up n gs gs' HC H H'. destruct (cell_writes E up n gs HC H) as (x & HX & <-). destruct (cell_writes E up n gs' HC H') as (x' & HX' & <-). do 2 f_equal. now apply (renders_same E n).
Qed.
(** A cell with a paragraph of one text, pipes and all: the text, and an empty line below it. *)
Theorem C82_one_paragraph : forall E up w v n p m t ign, snd (parse_node w v) = Ok n -> is_cell n -> n_content n = Items [p] ->
  n_kind p = Kparagraph -> bare p -> n_content p = Items [m] -> styled m t [] -> harmless t -> visible_first t ->
  exists x, to_markdown E n ign = Ok (VStr x) /\ cell_shown up (trim x) = in_plain t ++ [LineBreak].
Proof.
  intros E up w v n p m t ign HP HC HI HK HB HM HS HH (c & r & HT & HV). apply (C82_cell E up w v n _ ign HP HC). exists [p], (t ++ br). split; [exact HI|]. split.
  - left. change (t ++ br) with (t ++ br ++ []). change (in_plain t ++ [LineBreak]) with (in_plain t ++ LineBreak :: []). apply (cl_para E up NL p [m] [] t (in_plain t) [] []); [exact HK|exact HB|exact HM| |constructor].
    apply pl_line. replace t with (List.concat [t]) at 1 by (cbn [List.concat]; now rewrite app_nil_r). apply ln_flush.
    + repeat constructor. destruct HS as (HKt & HTt & HMt). destruct m as [k ty ve tx a co ma]. cbn [n_kind n_text n_marks] in *. subst k tx. unfold renders, to_markdown. cbn [to_md].
      destruct HMt as [(HMt & _)|(ms & ls & -> & HF & HL)].
      * unfold add_style. destruct ma as [| |ms|]; try reflexivity. now destruct (HMt ms).
      * unfold add_style. clear -HF HL. revert HL. induction HF as [|m l ms ls HA _ IH]; intros HL; [reflexivity|]. cbn [List.concat] in HL. apply app_eq_nil in HL as [-> HL].
        cbn [apply_marks]. assert (HX : mark_to_markdown E m (VStr t) = Ok (VStr t)).
        { unfold asks in HA. unfold mark_to_markdown. destruct (m_kind m); try discriminate HA; try reflexivity; try (now destruct HA). destruct HA as (a & h & ti & _ & _ & _ & _ & HA). discriminate HA. }
        rewrite HX. cbn [rbind]. now apply IH.
    + cbn [List.concat]. rewrite app_nil_r. intros HIn. apply (harmless_tame _ HH NL); [exact HIn|left; reflexivity].
    + cbn [List.concat]. rewrite app_nil_r. intros q HE. rewrite HT in HE. injection HE as -> _. discriminate HV.
    + exists (in_plain t), []. split; [|split; [reflexivity|now rewrite app_nil_r]]. apply (ns_text up _ _ _ _ t (Format false [] None [])); [exact HS|].
      split; [constructor|]. split; [reflexivity|]. split; [apply harmless_ordinary; exact HH|]. split; [discriminate|]. split; [intros [X|X]; [discriminate X|now destruct X]|].
      split; [intros _ X; now destruct X|]. split; [intros X; now destruct X|]. split; intros X; now destruct X.
  - right. split; [exists c, (r ++ br); rewrite HT; now split|]. exists (t ++ s "<br"), 62%N. rewrite <- app_assoc. now split.
Qed.

(** ---------------------------------------------------------------- an example *)
Definition ex_para (l : list value) : value := VDict [tyv "paragraph"; (s "content", VList l)].
Definition ex_row (l : list value) : value := VDict [tyv "tableRow"; (s "content", VList l)].
Definition ex_cells : value := VDict [tyv "table"; (s "content", VList [
  ex_row [ex_cell "tableHeader" [ex_para [ex_marked "Name" [mk "strong"]]]; ex_cell "tableHeader" [ex_para [tx "Use"]]];
  ex_row [ex_cell "tableCell" [ex_para [tx "a|b "; ex_marked "now" [mk "em"]; hb; tx "  then"]; ex_para [tx "end"]]; ex_cell "tableCell" []]])].
Definition bold_look : look := Look true false false false None.
Definition em_look : look := Look false true false false None.
Definition ex_cells_seen : list sight :=
  [SightTable [glyphs bold_look "Name" ++ [LineBreak]; glyphs plain "Use" ++ [LineBreak]]
     [[glyphs plain "a|b " ++ glyphs em_look "now" ++ [Glyph SP plain; Glyph SP plain; LineBreak; Glyph 160 plain; Glyph 160 plain] ++ glyphs plain "then" ++ [LineBreak] ++
       glyphs plain "end" ++ [LineBreak]; []]]].
Definition cells_of_row (n : node) : list node := match n_content n with Items l => l | _ => [] end.
Definition ex_cell1 (i j : nat) : node := nth j (cells_of_row (nth i (cells_of_row (get ex_cells)) (get ex_cells))) (get ex_cells).
Lemma ex_text_shown (m : node) t after p : styled m t [] -> ordinary up0 p t after = true -> node_shown up0 p m t after (in_plain t).
Proof.
  intros HS HO. apply (ns_text up0 _ _ _ _ t (Format false [] None [])); [exact HS|]. split; [constructor|]. split; [reflexivity|]. split; [exact HO|]. split; [discriminate|].
  split; [intros [X|X]; [discriminate X|now destruct X]|]. split; [intros _ X; now destruct X|]. split; [intros X; now destruct X|]. split; intros X; now destruct X.
Qed.
Lemma ex_emph_shown (m : node) e t after p : styled m t [SEmph e] -> ordinary up0 (last (signs_before [e]) p) t (signs_after [e] ++ after) = true ->
  (exists c, In c t /\ is_ws c = false) -> uni_ws (hd NL t) = false -> uni_ws (last t NL) = false -> word up0 p = false -> word up0 (hd NL after) = false ->
  hd NL after <> last (signs_after [e]) NL -> node_shown up0 p m (signs_before [e] ++ t ++ signs_after [e]) after (glyphs_of (emphasize e plain) t).
Proof.
  intros HS HO HE HF HL HP HN HD. replace (glyphs_of (emphasize e plain) t) with (map (fun c => Glyph c (look_of (Format false [] None [e]))) t) by (unfold glyphs_of; destruct e; reflexivity).
  apply (ns_text up0 _ _ _ _ t (Format false [] None [e])); [exact HS|]. split; [repeat constructor; intros []|]. split; [reflexivity|].
  unfold front, back. cbn [f_inner f_outer f_link f_code]. change (signs_before []) with (@nil N). change (signs_after []) with (@nil N). rewrite !app_nil_r.
  split; [exact HO|]. split; [discriminate|]. split; [intros _; exact HE|]. split; [intros _ _; now split|]. split; [intros _ X; congruence|]. split; [intros _ X; congruence|]. intros _. exact HD.
Qed.
Ltac t_shown := apply ex_text_shown; [st0|vm_compute; reflexivity].
Ltac e_shown := apply ex_emph_shown; [split; [reflexivity|split; [reflexivity|right; do 2 eexists; split; [reflexivity|split; [repeat constructor; reflexivity|reflexivity]]]]|vm_compute; reflexivity| |vm_compute; reflexivity..|vm_compute; discriminate].
Ltac ends_ok := right; split; [do 2 eexists; split; [reflexivity|vm_compute; reflexivity]|match goal with |- visible_last ?t => exists (removelast t), (last t 0%N); split; vm_compute; reflexivity end].
Example C82_example : is_table (get ex_cells) (cells_of_row (get ex_cells)) (map cells_of_row (cells_of_row (get ex_cells))) /\
  header_row (cells_of_row (nth 0 (cells_of_row (get ex_cells)) (get ex_cells))) /\
  Forall2 (Forall2 (cell_looks rt0 up0)) (map cells_of_row (cells_of_row (get ex_cells)))
    [[glyphs bold_look "Name" ++ [LineBreak]; glyphs plain "Use" ++ [LineBreak]];
     [glyphs plain "a|b " ++ glyphs em_look "now" ++ [Glyph SP plain; Glyph SP plain; LineBreak; Glyph 160 plain; Glyph 160 plain] ++ glyphs plain "then" ++ [LineBreak] ++
       glyphs plain "end" ++ [LineBreak]; []]].
Proof.
  split; [|split].
  - split; [exists true, ex_cells; vm_compute; reflexivity|]. split; [reflexivity|]. split; [reflexivity|].
    match goal with |- Forall2 _ ?a ?b => let a' := eval vm_compute in a in let b' := eval vm_compute in b in change (Forall2 row_of a' b') end.
    repeat (apply Forall2_cons; [split; [reflexivity|split; [reflexivity|split; [repeat (apply Forall_cons; [(left; reflexivity) || (right; reflexivity)|]); apply Forall_nil|discriminate]]]|]). apply Forall2_nil.
  - vm_compute. do 2 eexists. split; reflexivity.
  - match goal with |- Forall2 ?P ?a ?b => let a' := eval vm_compute in a in change (Forall2 P a' b) end.
    apply Forall2_cons; [apply Forall2_cons; [|apply Forall2_cons; [|apply Forall2_nil]]|apply Forall2_cons; [apply Forall2_cons; [|apply Forall2_cons; [|apply Forall2_nil]]|apply Forall2_nil]].
    + eexists; exists (s "**Name**" ++ br ++ []). split; [reflexivity|]. split; [left|ends_ok].
      refine (cl_para _ _ _ _ _ _ _ (glyphs bold_look "Name") [] [] _ _ _ _ _); [reflexivity|discriminate|reflexivity| |constructor]. apply pl_line.
      refine (ln_flush _ _ _ _ [s "**Name**"] _ _ _ _ _ _); [xs_render|vm_compute; intuition discriminate|vm_compute; discriminate|].
      exists (glyphs bold_look "Name"), []. split; [|split; reflexivity].
      change (s "**Name**") with (signs_before [Strong] ++ s "Name" ++ signs_after [Strong]). e_shown. exists 78%N. split; [left|]; reflexivity.
    + eexists; exists (s "Use" ++ br ++ []). split; [reflexivity|]. split; [left|ends_ok].
      refine (cl_para _ _ _ _ _ _ _ (glyphs plain "Use") [] [] _ _ _ _ _); [reflexivity|discriminate|reflexivity| |constructor]. apply pl_line.
      refine (ln_flush _ _ _ _ [s "Use"] _ _ _ _ _ _); [xs_render|vm_compute; intuition discriminate|vm_compute; discriminate|].
      exists (glyphs plain "Use"), []. split; [|split; reflexivity]. t_shown.
    + eexists; exists ((s "a|b *now*" ++ s "  " ++ br ++ nbsp 2 ++ s "then") ++ br ++ s "end" ++ br ++ []). split; [reflexivity|]. split; [left|ends_ok].
      match goal with |- cell_lines _ _ _ _ _ ?g => change g with ((glyphs plain "a|b " ++ glyphs em_look "now" ++ [Glyph SP plain; Glyph SP plain; LineBreak] ++ [Glyph 160 plain; Glyph 160 plain] ++ glyphs plain "then") ++ LineBreak :: (glyphs plain "end" ++ LineBreak :: [])) end.
      refine (cl_para _ _ _ _ _ _ _ _ _ _ _ _ _ _ _); [reflexivity|discriminate|reflexivity| |].
      * match goal with |- para_looks _ _ _ (?a :: ?b :: ?c :: ?r) _ _ _ => change (a :: b :: c :: r) with ([a; b] ++ c :: r) end.
        match goal with |- para_looks _ _ _ _ _ _ ?g => change g with ((glyphs plain "a|b " ++ glyphs em_look "now") ++ [Glyph SP plain; Glyph SP plain; LineBreak] ++ [Glyph 160 plain; Glyph 160 plain] ++ glyphs plain "then") end.
        apply pl_break; [reflexivity|discriminate| |].
        -- refine (ln_flush _ _ _ _ [s "a|b "; s "*now*"] _ _ _ _ _ _); [xs_render|vm_compute; intuition discriminate|vm_compute; discriminate|].
           exists (glyphs plain "a|b "), (glyphs em_look "now"). split; [t_shown|split; [|reflexivity]]. exists (glyphs em_look "now"), []. split; [|split; reflexivity].
           change (s "*now*") with (signs_before [Em] ++ s "now" ++ signs_after [Em]). e_shown. exists 110%N. split; [left|]; reflexivity.
        -- apply pl_line. refine (ln_indented _ _ _ 2 _ (s "then") [] [] _ [] _ _ _ _ _ _ _ _ _); [st0|vm_compute; reflexivity|constructor|vm_compute; intuition discriminate|discriminate|vm_compute; discriminate|discriminate|vm_compute; reflexivity|reflexivity].
      * refine (cl_para _ _ _ _ _ _ _ (glyphs plain "end") [] [] _ _ _ _ _); [reflexivity|discriminate|reflexivity| |constructor]. apply pl_line.
        refine (ln_flush _ _ _ _ [s "end"] _ _ _ _ _ _); [xs_render|vm_compute; intuition discriminate|vm_compute; discriminate|].
        exists (glyphs plain "end"), []. split; [|split; reflexivity]. t_shown.
    + eexists; exists []. split; [reflexivity|]. split; [left; constructor|now left].
Qed.
(** The Markdown of that table. *)
Example C82_example_markdown : to_markdown rt0 (get ex_cells) false =
  Ok (VStr (s "| **Name**<br> | Use<br> |" ++ nl ++ s "| --- | --- |" ++ nl ++ s "| a\|b *now*  <br>&nbsp;&nbsp;then<br>end<br> |  |")) /\
  behold up0 (s "| **Name**<br> | Use<br> |" ++ nl ++ s "| --- | --- |" ++ nl ++ s "| a\|b *now*  <br>&nbsp;&nbsp;then<br>end<br> |  |") = ex_cells_seen.
Proof. split; vm_compute; reflexivity. Qed.

(** ================================================================ C80: more that is misread *)
(** A text that contains the tag of a line break is read with a line break in its place. *)
Theorem C80_break_tag : forall E up before n after u v out a b,
  written E (before ++ [n] ++ after) out -> written E before u -> written E after v -> tame u -> harmless v ->
  styled n (a ++ s "<br>" ++ b) [] -> tame a -> harmless b ->
  shown up out = glyphs_of plain (u ++ a) ++ [LineBreak] ++ glyphs_of plain (b ++ v).
Proof.
  intros E up before n after u v out a b HO HU HV TU TV HS TA TB.
  destruct (around1 E before n after u v out HO HU HV) as (x & HX & ->). pose proof (styled_plain E n _ x HS HX) as ->.
  assert (HW : u ++ (a ++ s "<br>" ++ b) ++ v = (u ++ a) ++ br ++ (b ++ v)) by (rewrite <- !app_assoc; reflexivity).
  rewrite HW. rewrite (shown_between up (u ++ a) br (b ++ v) [IBreak]).
  - reflexivity.
  - apply tame_before; [now apply tame_app|discriminate|discriminate].
  - apply reads_br.
  - rewrite ordinary_app. rewrite (harmless_ordinary up b _ _ TB). now apply harmless_ordinary.
Qed.
(** The same for the character reference of a no-break space. *)
Theorem C80_character_reference : forall E up before n after u v out a b,
  written E (before ++ [n] ++ after) out -> written E before u -> written E after v -> tame u -> harmless v ->
  styled n (a ++ s "&nbsp;" ++ b) [] -> tame a -> harmless b ->
  shown up out = glyphs_of plain (u ++ a ++ [160%N] ++ b ++ v).
Proof.
  intros E up before n after u v out a b HO HU HV TU TV HS TA TB.
  destruct (around1 E before n after u v out HO HU HV) as (x & HX & ->). pose proof (styled_plain E n _ x HS HX) as ->.
  assert (HW : u ++ (a ++ s "&nbsp;" ++ b) ++ v = (u ++ a) ++ s "&nbsp;" ++ (b ++ v)) by (rewrite <- !app_assoc; reflexivity).
  rewrite HW. rewrite (shown_between up (u ++ a) (s "&nbsp;") (b ++ v) [IChar 160]).
  - unfold glyphs_of. rewrite !map_app, <- !app_assoc. reflexivity.
  - apply tame_before; [now apply tame_app|discriminate|discriminate].
  - apply reads_nbsp1.
  - rewrite ordinary_app. rewrite (harmless_ordinary up b _ _ TB). now apply harmless_ordinary.
Qed.
(** See a<br>b&nbsp;c. *)
Example C80_break_tag_example : written rt0 ([n_pre] ++ [get (tx "a<br>b")] ++ [n_post]) (s "See a<br>b.") /\ styled (get (tx "a<br>b")) (s "a" ++ s "<br>" ++ s "b") [] /\ tame (s "a") /\ harmless (s "b") /\
  shown up0 (s "See a<br>b.") = glyphs plain "See a" ++ [LineBreak] ++ glyphs plain "b.".
Proof. split; [wr [s "See "; s "a<br>b"; s "."]|]. split; [st0|]. split; [tm|]. split; [hl|]. vm_compute. reflexivity. Qed.
Example C80_character_reference_example : written rt0 ([n_pre] ++ [get (tx "a&nbsp;b")] ++ [n_post]) (s "See a&nbsp;b.") /\ styled (get (tx "a&nbsp;b")) (s "a" ++ s "&nbsp;" ++ s "b") [] /\
  shown up0 (s "See a&nbsp;b.") = glyphs plain "See a" ++ [Glyph 160 plain] ++ glyphs plain "b.".
Proof. split; [wr [s "See "; s "a&nbsp;b"; s "."]|]. split; [st0|]. vm_compute. reflexivity. Qed.
(** A cell with one paragraph whose text has a pipe. *)
Definition ex_one : value := ex_cell "tableCell" [ex_para [tx "a|b"]].
Example C82_one_paragraph_example : exists p m, snd (parse_node true ex_one) = Ok (get ex_one) /\ is_cell (get ex_one) /\ n_content (get ex_one) = Items [p] /\ n_kind p = Kparagraph /\ bare p /\ n_content p = Items [m] /\
  styled m (s "a|b") [] /\ harmless (s "a|b") /\ visible_first (s "a|b") /\ to_markdown rt0 (get ex_one) false = Ok (VStr (s "a\|b<br>")).
Proof.
  exists (get (ex_para [tx "a|b"])), (get (tx "a|b")). split; [vm_compute; reflexivity|]. split; [left; vm_compute; reflexivity|]. split; [vm_compute; reflexivity|]. split; [vm_compute; reflexivity|].
  split; [discriminate|]. split; [vm_compute; reflexivity|]. split; [st0|]. split; [hl|]. split; [do 2 eexists; split; [reflexivity|reflexivity]|vm_compute; reflexivity].
Qed.
(** ---------------------------------------------------------------- C81: a picture and an embedded card *)
Definition ex_media : value := VDict [tyv "mediaSingle"; (s "content", VList [VDict [tyv "media"; (s "attrs", VDict
  [(s "type", VStr (s "external")); (s "url", VStr (s "http://x.y/p.png")); (s "alt", VStr (s "a cat"))])]])].
Definition ex_embed : value := VDict [tyv "embedCard"; (s "attrs", VDict [(s "url", VStr (s "http://x.y/z")); (s "layout", VStr (s "wide"))])].
Definition ex_pictures : value := ex_doc [ex_media; ex_embed].
Example C81_picture_example : is_document (get ex_pictures) (blocks_of (get ex_pictures)) /\
  all_seen rt0 (blocks_of (get ex_pictures)) 0 [EPara [s "![a cat](http://x.y/p.png)"]; EPara [s "[http://x.y/z](http://x.y/z)"]] 1 /\
  all_look rt0 up0 (blocks_of (get ex_pictures)) [SightPara [Picture (s "http://x.y/p.png")]; SightPara (in_link (s "http://x.y/z") (s "http://x.y/z"))].
Proof.
  split; [apply document_get; vm_compute; reflexivity|].
  match goal with |- all_seen _ ?l _ _ _ /\ _ => let l' := eval vm_compute in l in change l with l' end. split.
  - change [EPara [s "![a cat](http://x.y/p.png)"]; EPara [s "[http://x.y/z](http://x.y/z)"]] with ([EPara [s "![a cat](http://x.y/p.png)"]] ++ [EPara [s "[http://x.y/z](http://x.y/z)"]]).
    eapply (as_cons rt0 _ 0 _ 0 _ 1); [| |lia].
    + apply (seen_text rt0 _ 0 0 (s "![a cat](http://x.y/p.png)")); [left; discriminate|no_rule|vm_compute; reflexivity|lines_ok|lia|lia].
    + apply as_one. apply (seen_text rt0 _ 1 1 (s "[http://x.y/z](http://x.y/z)")); [left; discriminate|no_rule|vm_compute; reflexivity|lines_ok|lia|lia].
  - al. { apply lk_text. refine (tb_picture up0 _ _ _ _ (VStr (s "a cat")) VOpt _ _ _ _ _ _ _ _ _ _ _); try (vm_compute; reflexivity); [discriminate|intros x H; injection H as <-; hl]. }
    al; [|constructor]. apply lk_text. eapply tb_card; [right; reflexivity|reflexivity|vm_compute; reflexivity|discriminate|expr].
Qed.
