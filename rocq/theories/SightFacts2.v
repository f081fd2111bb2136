(** The blocks of a document are seen as they should be (C81): induction over the blocks. *)
From Coq Require Import List NArith ZArith Bool String Lia.
From Verif Require Import PyStr Values Schema Parse Date Markdown Basics StrFacts MarkFacts SpecParse ParseFacts4 SpecMd MdFacts2 SpecErr ErrFacts SpecList SpecTable SpecReader SpecSeen
  ReaderFacts ReaderFacts2 ReaderFacts7 ReaderFacts9 ReaderFacts10 SpecInline SpecLook SpecCell CellFacts SpecSight InlineFacts1 InlineFacts2 InlineFacts3 InlineFacts4 InlineFacts5 InlineFacts6 InlineFacts7 InlineFacts8
  Properties_Marks Properties_Nodes Properties_Inline SightFacts1.
Import ListNotations.
Open Scope string_scope.
Open Scope list_scope.
Open Scope nat_scope.

Lemma text_line_nil : ~ text_line []. Proof. intros (H & _). discriminate H. Qed.
Lemma lines_first x : Forall text_line (split_on NL x) -> exists c r, x = c :: r /\ c <> NL.
Proof.
  destruct x as [|c r]; [intros H; inversion H as [|? ? HT]; now destruct text_line_nil|]. intros H. exists c, r. split; [reflexivity|]. intros ->.
  change (NL :: r) with ([] ++ NL :: r) in H. rewrite split_nl in H. inversion H as [|? ? HT]; subst. now apply text_line_nil.
Qed.
Lemma lines_last x : Forall text_line (split_on NL x) -> exists c r, rev x = c :: r /\ c <> NL.
Proof.
  intros H. destruct (rev x) as [|c r] eqn:ER; apply (f_equal (@rev N)) in ER; rewrite rev_involutive in ER.
  - subst x. inversion H as [|? ? HT]. now destruct text_line_nil.
  - exists c, r. split; [reflexivity|]. intros ->. subst x. cbn [rev] in H. rewrite split_nl in H. apply Forall_app in H as [_ H]. inversion H as [|? ? HT]. now apply text_line_nil.
Qed.
Lemma nls_front j x j' x' : (exists c r, x = c :: r /\ c <> NL) -> (exists c r, x' = c :: r /\ c <> NL) -> repeat NL j ++ x = repeat NL j' ++ x' -> x = x'.
Proof.
  intros (c & r & -> & HC) (c' & r' & -> & HC'). revert j'. induction j as [|j IH]; intros [|j'] H; cbn [repeat app] in *; [exact H|injection H as -> _; now destruct HC|injection H as <- _; now destruct HC'|injection H as H; now apply (IH j')].
Qed.
Lemma rev_nls k : rev (repeat NL k) = repeat NL k.
Proof. induction k as [|k IH]; [reflexivity|]. cbn [repeat rev]. rewrite IH. change [NL] with (repeat NL 1). rewrite <- repeat_app. now rewrite Nat.add_1_r. Qed.
Lemma nls_core j x k j' x' k' : (exists c r, x = c :: r /\ c <> NL) -> (exists c r, x' = c :: r /\ c <> NL) -> (exists c r, rev x = c :: r /\ c <> NL) -> (exists c r, rev x' = c :: r /\ c <> NL) ->
  repeat NL j ++ x ++ repeat NL k = repeat NL j' ++ x' ++ repeat NL k' -> x = x'.
Proof.
  intros H1 H2 H3 H4 H. assert (HE : x ++ repeat NL k = x' ++ repeat NL k').
  { apply (nls_front j _ j'); [destruct H1 as (c & r & -> & HC); exists c, (r ++ repeat NL k); now split|destruct H2 as (c & r & -> & HC); exists c, (r ++ repeat NL k'); now split|exact H]. }
  apply (f_equal (@rev N)) in HE. rewrite !rev_app_distr, !rev_nls in HE. apply nls_front in HE; [|assumption|assumption]. rewrite <- (rev_involutive x), HE. apply rev_involutive.
Qed.
Lemma starts_same n y z : starts_at n y -> starts_at n z -> y = z.
Proof.
  intros [H|(-> & v & H & HV1 & HV2)] [H'|(-> & v' & H' & HV3 & HV4)]; rewrite H in H'; injection H' as H'; subst; first [reflexivity|congruence|now destruct (HV3 y)|now destruct (HV1 z)].
Qed.
Lemma rows_same rows a b : Forall2 row_of rows a -> Forall2 row_of rows b -> a = b.
Proof.
  intros H. revert b. induction H as [|r x rows xs H _ IH]; intros b HB; inversion HB as [|? y ? ys H' HB']; subst; [reflexivity|]. f_equal; [|now apply IH].
  destruct H as (_ & H & _), H' as (_ & H' & _). congruence.
Qed.
Lemma rows_cells rows cellss : Forall2 row_of rows cellss -> Forall (Forall is_cell) cellss.
Proof. induction 1 as [|r c rows cs (_ & _ & H & _) _ IH]; constructor; assumption. Qed.
Lemma fit_seen up w l : map (cell_shown up) (fit w l) = fill w (map (cell_shown up) l).
Proof.
  unfold fit, fill. rewrite <- firstn_map, map_app. do 2 f_equal. induction w as [|w IH]; [reflexivity|]. cbn [repeat map]. now rewrite IH.
Qed.
Lemma cells_sight E up cs xs gs : Forall is_cell cs -> Forall2 (renders E) cs xs -> Forall2 (cell_looks E up) cs gs -> map (cell_shown up) (map trim xs) = gs.
Proof.
  intros HI. revert xs gs. induction HI as [|c cs HC _ IH]; intros xs gs HR HG; inversion HR; subst; inversion HG; subst; [reflexivity|]. cbn [map].
  f_equal; [|now apply IH]. destruct (cell_writes E up c _ HC H2) as (x & HX & <-). do 2 f_equal. now apply (renders_same E c).
Qed.
Section S.
Variables (E : runtime) (up : N -> bool).
(** Titles and cards, as text with marks. *)
Definition bold_text (t : str) : node := Node Ktext VNone None (Some (VStr t)) NoAttrs NoField (Items [Mark Mstrong (VStr (s "strong")) NoAttrs]).
Lemma title_sight t : word_text up t -> shown up (s "**" ++ t ++ s "**") = in_bold t.
Proof.
  intros (HH & HN & HW1 & HW2 & HW3). assert (HO : renders E (bold_text t) (s "**" ++ t ++ s "**")).
  { unfold renders, to_markdown, bold_text. cbn [to_md]. unfold add_style, apply_marks, mark_to_markdown. cbn [m_kind]. unfold wrap_mark. 
    destruct (nonblank t) eqn:EB; [reflexivity|]. exfalso. destruct t as [|c t]; [now destruct HN|]. assert (HB : nonblank (c :: t) = true) by (apply nonblank_true; exists c; split; [now left|exact HW3]). congruence. }
  replace (s "**" ++ t ++ s "**") with (List.concat [s "**" ++ t ++ s "**"]) by (cbn [List.concat]; now rewrite app_nil_r).
  apply (C79_nodes E up [bold_text t]); [repeat constructor; exact HO|]. exists (in_bold t), []. split; [|split; [reflexivity|now rewrite app_nil_r]].
  apply (ns_text up _ _ _ _ t (Format false [] None [Strong])).
  - split; [reflexivity|]. split; [reflexivity|]. right. exists [Mark Mstrong (VStr (s "strong")) NoAttrs], [[SEmph Strong]]. split; [reflexivity|]. split; [repeat constructor|reflexivity].
  - assert (HU : forall c, word up c = true -> uni_ws c = false /\ punct up c = false).
    { intros c. unfold word. rewrite Bool.andb_true_iff, !Bool.negb_true_iff. tauto. }
    split; [repeat constructor; intros []|]. split; [reflexivity|]. split; [apply harmless_ordinary; exact HH|]. split; [discriminate|]. split; [intros _; destruct t as [|c t]; [now destruct HN|]; exists c; split; [now left|exact HW3]|].
    split; [intros _ _; split; apply HU; assumption|]. split; [|split; [|discriminate]]; intros _ _; (split; [split; [reflexivity|]; split; [reflexivity|left; intros [X|[]]; discriminate X]|]; apply HU; assumption).
Qed.
Definition card (h : str) : node := Node KinlineCard VNone None None (AObj [(s "url", VStr h)]) NoField NoField.
Lemma card_sight h : expressible up NL (Format false [] (Some h) []) h [] -> shown up (s "[" ++ h ++ s "](" ++ h ++ s ")") = in_link h h.
Proof.
  intros HX. match goal with |- shown up ?y = _ => set (x := y) end. replace x with (List.concat [x]) by (cbn [List.concat]; now rewrite app_nil_r). apply (C79_nodes E up [card h]); [repeat constructor; reflexivity|].
  exists (in_link h h), []. split; [|split; [reflexivity|now rewrite app_nil_r]]. now apply (ns_card up _ _ _ _ h [(s "url", VStr h)]).
Qed.
Lemma card_writes n a h x : n_kind n = KblockCard \/ n_kind n = KembedCard -> n_attrs n = AObj a -> lookup (s "url") a = Some (VStr h) -> renders E n x -> x = nl ++ (s "[" ++ h ++ s "](" ++ h ++ s ")") ++ nl.
Proof.
  intros HK HA HL HR. destruct n as [k ty ve tx at_ co ma]. cbn [n_kind n_attrs] in *. subst at_. unfold renders, to_markdown in HR.
  destruct HK as [->| ->]; cbn [to_md] in HR; unfold attr in HR; rewrite HL in HR; cbn [rbind py_str] in HR; injection HR as <-; rewrite <- !app_assoc; reflexivity.
Qed.
Lemma picture_writes n m a u alt v x : n_kind n = KmediaSingle -> n_content n = Items [m] -> n_kind m = Kmedia -> (forall k l, n_marks m <> Items (k :: l)) -> n_attrs m = AObj a ->
  lookup (s "type") a = Some (VStr (s "external")) -> lookup (s "url") a = Some (VStr u) -> lookup (s "alt") a = Some alt -> lookup (s "id") a = Some v ->
  renders E n x -> x = s "!" ++ s "[" ++ (match alt with VStr y => y | _ => s "media" end) ++ s "](" ++ u ++ s ")".
Proof.
  intros HK HC HM HB HA HT HU HAl HI HR. assert (HW : renders E m (s "!" ++ s "[" ++ (match alt with VStr y => y | _ => s "media" end) ++ s "](" ++ u ++ s ")")).
  { destruct m as [k ty ve tx at_ co ma]. cbn [n_kind n_attrs n_marks] in *. subst k at_. unfold renders, to_markdown. cbn [to_md]. unfold media_md, attr. rewrite HT, HU, HAl, HI. cbn [rbind].
    replace (is_media (VStr (s "external")) "external") with true by reflexivity. cbn iota. unfold add_style. destruct ma as [| |[|k l]|]; try reflexivity. now destruct (HB k l). }
  destruct n as [k ty ve tx at_ co ma]. cbn [n_kind n_content] in *. subst k co. unfold renders, to_markdown in HR. cbn [to_md] in HR.
  pose proof (Forall2_cons _ _ HW (Forall2_nil _)) as HF. rewrite (content_renders E [m] _) in HR by exact HF. cbn [rbind List.concat] in HR. injection HR as <-. now rewrite app_nil_r.
Qed.
Lemma text_block_kind n gs : text_block up n gs -> n_kind n = KblockCard \/ n_kind n = KembedCard \/ n_kind n = KmediaSingle.
Proof. intros [? ? ? [H|H]|]; auto. Qed.
Lemma text_block_writes n gs x : text_block up n gs -> renders E n x ->
  exists j y k, x = repeat NL j ++ y ++ repeat NL k /\ (exists c r, y = c :: r /\ c <> NL) /\ (exists c r, rev y = c :: r /\ c <> NL) /\ shown up y = gs.
Proof.
  intros [n' a h HK HA HU HN HX|n' m a u alt v HK HC HM HB HA HT HU HH HAl HHa HI] HR.
  - rewrite (card_writes n' a h x HK HA HU HR). exists 1, (s "[" ++ h ++ s "](" ++ h ++ s ")"), 1. split; [reflexivity|]. split; [exists 91%N; eexists; split; [reflexivity|discriminate]|].
    split; [rewrite !rev_app_distr; exists 41%N; eexists; split; [reflexivity|discriminate]|now apply card_sight].
  - rewrite (picture_writes n' m a u alt v x HK HC HM HB HA HT HU HAl HI HR). set (w := match alt with VStr y => y | _ => s "media" end).
    exists 0, (s "!" ++ s "[" ++ w ++ s "](" ++ u ++ s ")"), 0. split; [cbn [repeat app]; now rewrite app_nil_r|]. split; [exists 33%N; eexists; split; [reflexivity|discriminate]|].
    split; [rewrite !rev_app_distr; exists 41%N; eexists; split; [reflexivity|discriminate]|].
    assert (HW : harmless w).
    { unfold w. destruct alt; try (split; [intros c HIc HS; vm_compute in HIc; vm_compute in HS; intuition congruence|discriminate]). now apply HHa. }
    unfold shown. rewrite (reads_all up _ [IImage u (map IChar w)]); [reflexivity|]. apply reads_image; [exact HH|]. destruct (harmless_text up w 91 (s "](" ++ u ++ s ")" ++ []) HW) as [H1 H2].
    apply core_reads, core_items, adds_text; [exact H1|intros _; exact H2].
Qed.
Lemma bare_texts_write cs ts xs : bare_texts cs ts -> Forall2 (renders E) cs xs -> ts = xs.
Proof. intros H. revert xs. induction H as [|c t cs ts H _ IH]; intros xs HX; inversion HX; subst; [reflexivity|]. f_equal; [symmetry; now apply (styled_plain E c)|now apply IH]. Qed.
Definition P_seen (n : node) (a : nat) (es : list event) (b : nat) : Prop := forall ss, looks E up n ss -> map (sight_of up) es = ss.
Definition P_all (l : list node) (a : nat) (es : list event) (b : nat) : Prop := forall ss, all_look E up l ss -> map (sight_of up) es = ss.
Ltac other := exfalso; try (match goal with H : text_block up _ _ |- _ => destruct (text_block_kind _ _ H) as [?|[?|?]] end); match goal with H : n_kind ?n = _, H' : n_kind ?n = _ |- _ => rewrite H in H'; discriminate H' end.
Ltac same_items := match goal with H : n_content ?n = Items ?a, H' : n_content ?n = Items ?b |- _ => rewrite H in H'; injection H' as <- end.
Theorem sights : (forall n a es b, seen E n a es b -> P_seen n a es b) /\ (forall l a es b, all_seen E l a es b -> P_all l a es b).
Proof.
  apply (seen_both E P_seen P_all).
  - intros n cs xs HK HB HC HR x HT ss HL. inversion HL; subst; try other; try (match goal with H : _ \/ _ |- _ => destruct H; other end); same_items.
    + cbn [map]. rewrite sight_para, join_lines. unfold x. match goal with H : inline_looks E up NL cs ?y ?g |- _ => rewrite (inline_writes E up _ _ _ _ _ H HR), (inline_sight E up _ _ _ H) end. reflexivity.
    + exfalso. destruct (lines_first x HT) as (c & r & HX & HN). match goal with H : bare_texts cs ?y, H' : Forall (eq NL) _ |- _ => rewrite (bare_texts_write cs y xs H HR) in H'; fold x in H'; rewrite HX in H'; inversion H'; congruence end.
  - intros n cs xs k HK HB HC HR HX ss HL. inversion HL; subst; try other; try (match goal with H : _ \/ _ |- _ => destruct H; other end); [|reflexivity]. same_items.
    exfalso. match goal with H : inline_looks E up NL cs ?y ?g |- _ => pose proof (inline_writes E up _ _ _ _ _ H HR) as HW; destruct H as (_ & _ & _ & _ & c & HI & HN) end. rewrite HX in HW. subst. apply repeat_spec in HI. now apply HN.
  - intros n j k x HB HS HR HT HJ HKK ss HL. 
    assert (HP : n_kind n = Kparagraph -> bare n -> False) by (intros H1 H2; destruct HB as [HB|HB]; auto).
    inversion HL; subst; try (exfalso; now apply HP); try (exfalso; apply HS; match goal with H : n_kind n = _ |- _ => rewrite H end; cbn; auto 20; fail);
      try (match goal with H : n_kind n = _ \/ _ |- _ => destruct H as [H|H]; exfalso; apply HS; rewrite H; cbn; auto 20; fail end).
    match goal with H : text_block up n _ |- _ => destruct (text_block_writes n _ _ H HR) as (j' & y & k' & HW & H1 & H2 & HG) end.
    apply nls_core in HW; [|now apply lines_first|exact H1|now apply lines_last|exact H2]. subst y.
    cbn [map]. rewrite sight_para, join_lines, HG. reflexivity.
  - intros n k HB HS HR ss HL.
    assert (HP : n_kind n = Kparagraph -> bare n -> False) by (intros H1 H2; destruct HB as [HB|HB]; auto).
    inversion HL; subst; try (exfalso; now apply HP); try (exfalso; apply HS; match goal with H : n_kind n = _ |- _ => rewrite H end; cbn; auto 20; fail);
      try (match goal with H : n_kind n = _ \/ _ |- _ => destruct H as [H|H]; exfalso; apply HS; rewrite H; cbn; auto 20; fail end).
    exfalso. match goal with H : text_block up n _ |- _ => destruct (text_block_writes n _ _ H HR) as (j' & y & k' & HW & (c & r & -> & HN) & _) end.
    assert (HI : In c (repeat NL k)) by (rewrite HW; apply in_or_app; right; left; reflexivity). apply repeat_spec in HI. now apply HN.
  - intros n HH HC ss HL. unfold hollow in HH.
    inversion HL; subst; try same_items; try reflexivity; try (exfalso; destruct HH as [[HH|[HH|[HH|[HH|[]]]]]|[HH _]]; congruence);
      try (exfalso; match goal with H : text_block up n _ |- _ => destruct (text_block_kind _ _ H) as [?|[?|?]] end; destruct HH as [[HH|[HH|[HH|[HH|[]]]]]|[HH _]]; congruence).
    + match goal with H : tasks_look _ _ [] _ |- _ => inversion H; reflexivity end.
    + match goal with H : Forall2 (decision_looks _ _) [] _ |- _ => inversion H; reflexivity end.
    + match goal with H : Forall2 row_of [] _ |- _ => inversion H end.
    + match goal with H : all_look _ _ [] _ |- _ => inversion H; reflexivity end.
  - intros n z cs xs HK HA HZ HC HR t _ _ _ _ ss HL. inversion HL; subst; try other; try (match goal with H : _ \/ _ |- _ => destruct H; other end). same_items.
    match goal with H : attr _ _ = Ok (VInt ?y) |- _ => rewrite HA in H; injection H as <- end. cbn [map sight_of]. unfold t.
    match goal with H : inline_looks E up NL cs ?y ?g |- _ => rewrite (inline_writes E up _ _ _ _ _ H HR), (inline_sight E up _ _ _ H) end. reflexivity.
  - intros n HK ss HL. inversion HL; subst; try other; try (match goal with H : _ \/ _ |- _ => destruct H; other end). reflexivity.
  - intros n lang cs xs HK HLa _ HC HR t _ _ ss HL. inversion HL; subst; try other; try (match goal with H : _ \/ _ |- _ => destruct H; other end). same_items.
    match goal with H : language_of n ?y |- _ => apply lang_code in H; apply lang_code in HLa; rewrite HLa in H; injection H as <- end.
    match goal with H : bare_texts cs ?y |- context [List.concat ?y] => rewrite (bare_texts_write cs y xs H HR) end. reflexivity.
  - intros n es HK HLS ss HL. inversion HL; subst; try other; try (match goal with H : _ \/ _ |- _ => destruct H; other end).
    apply (proj1 (list_sights E up KbulletList (or_introl eq_refl)) 1%Z n); assumption.
  - intros n z es HK HST HLS ss HL. inversion HL; subst; try other; try (match goal with H : _ \/ _ |- _ => destruct H; other end).
    match goal with H : starts_at n ?y, H' : list_looks E up KorderedList ?y n _ |- _ => assert (HZ : y = z); [apply (starts_same n); assumption|] end.
    subst. apply (proj1 (list_sights E up KorderedList (or_intror eq_refl)) z n); assumption.
  - intros n cs es HK HC _ HTS ss HL. inversion HL; subst; try other; try (match goal with H : _ \/ _ |- _ => destruct H; other end). same_items.
    now apply (proj1 (task_sights E up) cs).
  - intros n cs ess HK HC _ HD ss HL. inversion HL; subst; try other; try (match goal with H : _ \/ _ |- _ => destruct H; other end). same_items.
    match goal with H : Forall2 (decision_looks E up) cs ?y |- _ => revert H; generalize y end. clear -HD. induction HD as [|c es cs ess H _ IH]; intros y HY; inversion HY; subst; [reflexivity|]. cbn [List.concat]. rewrite map_app. f_equal; [now apply (decision_sight E up c)|now apply IH].
  - intros n rows c1 cellss x1 xss HK HC HRo HR _ _ _ ss HL. inversion HL; subst; try other; try (match goal with H : _ \/ _ |- _ => destruct H; other end). same_items.
    match goal with H : Forall2 row_of rows ?l |- _ => match l with c1 :: cellss => fail 1 | _ => pose proof (rows_same rows _ _ H HRo) as HE end end. injection HE as -> ->.
    match goal with H : Forall2 (Forall2 (cell_looks E up)) (c1 :: cellss) (?a :: ?b) |- _ => revert H; generalize a b end; clear - HRo HR. intros g1 gs' HG.
    pose proof (rows_cells _ _ HRo) as HIC. inversion HIC as [|? ? HI1 HIs]; subst. inversion HR as [|? ? ? ? HR1 HRs]; subst. inversion HG as [|? ? ? ? HG1 HGs]; subst.
    cbn [map sight_of]. rewrite (cells_sight E up _ _ _ HI1 HR1 HG1). do 2 f_equal. clear -HIs HRs HGs. revert xss HRs gs' HGs. generalize (List.length c1) as w. intros w.
    induction HIs as [|c cs HC _ IH]; intros xss HR gs' HG; inversion HR; subst; inversion HG; subst; [reflexivity|]. cbn [map]. rewrite fit_seen. f_equal; [f_equal; now apply (cells_sight E up c)|now apply IH].
  - intros n cs a es b HK HC _ IH _ _ ss HL. inversion HL; subst; try other; try (match goal with H : _ \/ _ |- _ => destruct H; other end). same_items.
    cbn [map]. rewrite map_app. cbn [map sight_of]. do 2 f_equal. now apply IH.
  - intros n p cs a es b HK HA HC title _ _ _ _ IH _ ss HL. inversion HL; subst; try other; try (match goal with H : _ \/ _ |- _ => destruct H; other end). same_items.
    match goal with H : attr _ _ = Ok (VStr ?y) |- _ => rewrite HA in H; injection H as <- end. cbn [map]. rewrite map_app. cbn [map sight_of join]. unfold title. rewrite title_sight by assumption. do 3 f_equal. now apply IH.
  - intros n cs a es b HK HC _ IH ss HL. assert (HK' : n_kind n = KnestedExpand \/ n_kind n = Kexpand) by (destruct HK as [HK|[HK _]]; auto). clear HK.
    inversion HL; subst; try (destruct HK' as [HK'|HK']; other). same_items. now apply IH.
  - intros n a es b _ IH ss HL. inversion HL as [|? s1 ? s2 H1 H2]; subst. inversion H2; subst. rewrite app_nil_r. now apply IH.
  - intros n a es b rest a' es' b' _ IH1 _ IH2 _ ss HL. inversion HL as [|? s1 ? s2 H1 H2]; subst. rewrite map_app. f_equal; [now apply IH1|now apply IH2].
Qed.
End S.
