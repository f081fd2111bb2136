(** Table cells are seen as they should be (C82). *)
From Coq Require Import List NArith ZArith Bool String Lia.
From Verif Require Import PyStr Values Schema Parse Date Markdown Basics StrFacts MarkFacts SpecMd MdFacts2 SpecTable TableFacts SpecReader SpecSeen ReaderFacts ReaderFacts2 ReaderFacts7 SpecInline SpecLook SpecCell
  InlineFacts1 InlineFacts2 InlineFacts3 InlineFacts4 InlineFacts5 InlineFacts6 InlineFacts8.
Import ListNotations.
Open Scope string_scope.
Open Scope list_scope.
Open Scope nat_scope.

(** ---------------------------------------------------------------- pipes *)
Lemma escape_head r : forall d q, escape r = d :: q -> d <> PIPE.
Proof. destruct r as [|c r]; [discriminate|]. cbn [escape]. intros d q. destruct (N.eqb_spec c PIPE) as [->|]; intros H; injection H as <- <-; [discriminate|assumption]. Qed.
Lemma unescape_escape x : unescape (escape x) = x.
Proof.
  induction x as [|c x IH]; [reflexivity|]. cbn [escape]. destruct (N.eqb_spec c PIPE) as [->|HC].
  - change (BACKSLASH :: PIPE :: escape x) with ([BACKSLASH; PIPE] ++ escape x). cbn [app unescape]. change (is_ch "\" BACKSLASH && is_ch "|" PIPE) with true. cbn iota. now rewrite IH.
  - cbn [unescape]. destruct (escape x) as [|d q] eqn:EX; [destruct x as [|a x]; [reflexivity|cbn [escape] in EX; destruct (N.eqb a PIPE); discriminate]|].
    replace (is_ch "|" d) with false; [rewrite andb_false_r; now rewrite IH|]. symmetry. change (is_ch "|" d) with (N.eqb d PIPE). apply N.eqb_neq. now apply (escape_head x d q).
Qed.
Lemma escape_app a b : escape (a ++ b) = escape a ++ escape b.
Proof. induction a as [|c a IH]; [reflexivity|]. cbn [escape app]. rewrite IH. now destruct (N.eqb c PIPE). Qed.
Lemma escape_nbsp k : escape (nbsp k) = nbsp k.
Proof. apply escape_free. intros H. apply nbsp_in in H. vm_compute in H. intuition discriminate. Qed.
Lemma escape_line l : cell_line (escape l) = escape (cell_line l).
Proof.
  destruct (lstrip_sp_split l) as [k H]. rewrite (cell_line_spec _ _ _ H). rewrite (cell_line_spec _ _ _ (leading_escape _ _ _ H)). now rewrite escape_app, escape_nbsp.
Qed.
(** The source of a cell without regard to pipes. *)
Definition src (w : str) : str := join br (map cell_line (split_on NL w)).
Lemma escape_join l : escape (join br l) = join br (map escape l).
Proof.
  induction l as [|a l IH]; [reflexivity|]. destruct l as [|b l]; [reflexivity|]. cbn [map] in *. rewrite !join_cons by discriminate. rewrite !escape_app, IH. reflexivity.
Qed.
Lemma cell_src w : cell_text w = escape (src w).
Proof. rewrite cell_text_lines. unfold src. rewrite escape_join, map_map. f_equal. apply map_ext. intros l. apply escape_line. Qed.
Lemma src_line w : ~ In NL w -> src w = cell_line w.
Proof. intros H. unfold src. now rewrite split_on_notin. Qed.
Lemma src_nl w v : ~ In NL w -> src (w ++ NL :: v) = cell_line w ++ br ++ src v.
Proof.
  intros H. unfold src. rewrite split_nl, (split_on_notin NL w) by exact H. cbn [app map]. destruct (split_on NL v) as [|a l] eqn:EV; [now apply split_on_nonnil in EV|]. cbn [map]. now rewrite join_cons by discriminate.
Qed.
Lemma trim_escape y : y = [] \/ visible_first y /\ visible_last y -> trim (escape y) = escape y.
Proof.
  intros [->|[(c & r & -> & HC) (q & d & HE & HD)]]; [reflexivity|]. apply trim_trimmed. split.
  - cbn [escape]. destruct (N.eqb c PIPE); [exists BACKSLASH, (PIPE :: escape r); now split|exists c, (escape r); now split].
  - rewrite HE, escape_app. cbn [escape]. destruct (N.eqb_spec d PIPE) as [->|]; [exists (escape q ++ [BACKSLASH]), PIPE; rewrite <- app_assoc; now split|exists (escape q), d; now split].
Qed.

(** ---------------------------------------------------------------- the reader *)
Section S.
Variables (E : runtime) (up : N -> bool).
Lemma reads_nodes_before after ns xs : Forall2 (renders E) ns xs -> forall p gs, shown_before up after p ns xs gs ->
  exists X, reads up false p (List.concat xs) after X /\ flat_map (show plain) X = gs.
Proof.
  induction 1 as [|n x ns xs HR HF IH]; intros p gs HS; cbn [shown_before] in HS.
  - subst gs. exists []. split; [apply reads_nil|reflexivity].
  - destruct HS as (g1 & g2 & H1 & H2 & ->). destruct (reads_node up E n x p _ g1 HR H1) as (X1 & R1 & S1). destruct (IH _ _ H2) as (X2 & R2 & S2).
    exists (X1 ++ X2). split; [|rewrite flat_map_app; now rewrite S1, S2]. cbn [List.concat]. now apply reads_app.
Qed.
Lemma scan_br p r st : begins (s "br>") r = true -> scan up 0 p (60%N :: r) st = scan up 3 60%N r (TIn IBreak :: st).
Proof.
  intros H. cbn [scan]. change (is_ch "\" 60) with false. change (is_ch "`" 60) with false. change (delimiter 60) with false. change (is_ch "!" 60) with false.
  change (is_ch "[" 60) with false. change (is_ch "]" 60) with false. change (is_ch "<" 60) with true. cbn [andb]. rewrite H. reflexivity.
Qed.
Lemma scan_nbsp p r st : begins (s "nbsp;") r = true -> scan up 0 p (38%N :: r) st = scan up 5 38%N r (TIn (IChar 160) :: st).
Proof.
  intros H. cbn [scan]. change (is_ch "\" 38) with false. change (is_ch "`" 38) with false. change (delimiter 38) with false. change (is_ch "!" 38) with false.
  change (is_ch "[" 38) with false. change (is_ch "]" 38) with false. change (is_ch "<" 38) with false. change (is_ch "&" 38) with true. cbn [andb]. rewrite H. reflexivity.
Qed.
Lemma reads_br p rest : reads up false p br rest [IBreak].
Proof.
  apply core_reads, core_items. intros st _. exists (TIn IBreak :: st). split; [|split; [discriminate|reflexivity]].
  change (br ++ rest) with (60%N :: [98; 114; 62]%N ++ rest). rewrite scan_br by reflexivity. rewrite (scan_skip' up 3 [98; 114; 62]%N rest _ 60 eq_refl). reflexivity.
Qed.
Lemma reads_nbsp1 p rest : reads up false p (s "&nbsp;") rest [IChar 160].
Proof.
  apply core_reads, core_items. intros st _. exists (TIn (IChar 160) :: st). split; [|split; [discriminate|reflexivity]].
  change (s "&nbsp;" ++ rest) with (38%N :: [110; 98; 115; 112; 59]%N ++ rest). rewrite scan_nbsp by reflexivity. rewrite (scan_skip' up 5 [110; 98; 115; 112; 59]%N rest _ 38 eq_refl). reflexivity.
Qed.
Lemma last_nbsp k p : k <> 0 -> last (nbsp k) p = semicolon.
Proof. induction k as [|k IH]; [now intros []|]. intros _. cbn [nbsp]. rewrite last_app. destruct k as [|k]; [reflexivity|]. rewrite <- IH by discriminate. now apply last_nonempty. Qed.
Lemma reads_nbsp k : forall p rest, reads up false p (nbsp k) rest (repeat (IChar 160) k).
Proof.
  induction k as [|k IH]; intros p rest; [apply reads_nil|]. cbn [nbsp repeat]. apply (reads_app up false p (s "&nbsp;") (nbsp k) rest [IChar 160]); [apply reads_nbsp1|apply IH].
Qed.
Lemma reads_ordinary p t rest : ordinary up p t rest = true -> reads up false p t rest (map IChar t).
Proof. intros H. apply core_reads, core_items, adds_text; [exact H|discriminate]. Qed.
Lemma reads_spaces p rest : reads up false p (s "  ") (br ++ rest) [IChar SP; IChar SP].
Proof. apply (reads_ordinary p (s "  ")). reflexivity. Qed.

(** ---------------------------------------------------------------- lines *)
Lemma no_nl_app (a b : str) : ~ In NL a -> ~ In NL b -> ~ In NL (a ++ b).
Proof. intros HA HB H. apply in_app_or in H as [H|H]; auto. Qed.
Lemma no_nl_spaces k : ~ In NL (repeat SP k).
Proof. intros H. apply repeat_spec in H. discriminate. Qed.
Lemma line_reads prev ns after y gs : line_looks E up prev ns after y gs ->
  exists xs, Forall2 (renders E) ns xs /\ (let w := List.concat xs in ~ In NL w /\ cell_line w = y /\ (y <> [] -> cell_line (w ++ s "  ") = y ++ s "  ")) /\
    exists X, reads up false prev y after X /\ flat_map (show plain) X = gs.
Proof.
  intros [ns' xs after' gs' y' HR HN HS HG|k n t ns' xs after' gs' y' HST HRn HR HN HNE HS HK HO HG].
  - exists xs. split; [exact HR|]. split.
    + cbv zeta. fold y'. split; [exact HN|]. split; [apply (cell_line_spec 0); split; [reflexivity|exact HS]|]. intros HNE. apply (cell_line_spec 0). split; [reflexivity|].
      intros r HE. destruct y' as [|c y']; [now destruct HNE|]. injection HE as -> _. now apply (HS y').
    + now apply (reads_nodes_before after' ns' xs HR).
  - exists ((repeat SP k ++ t) :: xs). split; [now constructor|]. cbv zeta. cbn [List.concat]. rewrite <- app_assoc. fold y'. split.
    + split; [apply no_nl_app; [apply no_nl_spaces|exact HN]|]. split; [now apply cell_line_spec|]. intros _. rewrite <- !app_assoc. apply cell_line_spec. split; [reflexivity|].
      intros r HE. destruct y' as [|c z]; [now destruct HNE|]. injection HE as -> _. now apply (HS z).
    + destruct (reads_nodes_before after' ns' xs HR _ _ HG) as (X & HX & HSX).
      exists (repeat (IChar 160) k ++ map IChar t ++ X). split.
      * apply reads_app; [apply reads_nbsp|]. rewrite (last_nbsp k prev HK). apply reads_app; [now apply reads_ordinary|exact HX].
      * rewrite !flat_map_app, HSX, show_chars. f_equal. clear. induction k as [|k IH]; [reflexivity|]. cbn [repeat flat_map show app]. now rewrite IH.
Qed.
Lemma para_reads prev ns after y gs : para_looks E up prev ns after y gs ->
  exists xs, Forall2 (renders E) ns xs /\ (let w := List.concat xs in src w = y /\ forall v, src (w ++ NL :: v) = y ++ br ++ src v) /\
    exists X, reads up false prev y after X /\ flat_map (show plain) X = gs.
Proof.
  induction 1 as [prev ns after y gs HL|prev l hb ns after y1 g1 y2 g2 HK HNE HL _ IH].
  - destruct (line_reads _ _ _ _ _ HL) as (xs & HR & (HN & HC & _) & HX). exists xs. split; [exact HR|]. split; [|exact HX]. cbv zeta. split; [now rewrite src_line|]. intros v. rewrite src_nl by exact HN. now rewrite HC.
  - destruct (line_reads _ _ _ _ _ HL) as (xs & HR & (HN & _ & HC) & X1 & HX1 & HS1). destruct IH as (ys & HRy & (HY & HV) & X2 & HX2 & HS2).
    exists (xs ++ (s "  " ++ nl) :: ys). split.
    { apply Forall2_app; [exact HR|]. constructor; [|exact HRy]. destruct hb as [k ty ve tx a co ma]. cbn [n_kind] in HK. subst k. reflexivity. }
    split.
    + cbv zeta. rewrite concat_app. cbn [List.concat]. set (w := List.concat xs) in *. set (u := List.concat ys) in *.
      assert (HE : forall z, w ++ (s "  " ++ nl) ++ z = (w ++ s "  ") ++ NL :: z) by (intros z; rewrite <- !app_assoc; reflexivity).
      assert (HNN : ~ In NL (w ++ s "  ")) by (apply no_nl_app; [exact HN|]; intros H; vm_compute in H; intuition discriminate).
      split; [|intros v; rewrite <- !app_assoc]; rewrite app_assoc in *.
      * rewrite <- app_assoc, HE, src_nl by exact HNN. rewrite (HC HNE), HY, <- !app_assoc. reflexivity.
      * rewrite <- !app_assoc. specialize (HE (u ++ NL :: v)). rewrite <- !app_assoc in HE. rewrite HE. change (s "  " ++ NL :: u ++ NL :: v) with (s "  " ++ NL :: (u ++ NL :: v)). rewrite app_assoc, src_nl by exact HNN. rewrite (HC HNE), HV, <- !app_assoc. reflexivity.
    + exists (X1 ++ [IChar SP; IChar SP] ++ [IBreak] ++ X2). split.
      * apply reads_app; [rewrite <- !app_assoc; exact HX1|]. apply reads_app; [rewrite <- !app_assoc; apply reads_spaces|]. apply reads_app; [apply reads_br|].
        exact HX2.
      * rewrite !flat_map_app, HS1, HS2. reflexivity.
Qed.
Lemma cell_reads prev ns y gs : cell_lines E up prev ns y gs ->
  exists xs, Forall2 (renders E) ns xs /\ src (List.concat xs) = y /\ exists X, reads up false prev y [] X /\ flat_map (show plain) X = gs.
Proof.
  induction 1 as [prev|prev p cs ps y g rest gs HK HB HC HP _ (xs & HR & HS & X & HX & HG)].
  - exists []. split; [constructor|]. split; [reflexivity|]. exists []. split; [apply reads_nil|reflexivity].
  - destruct (para_reads _ _ _ _ _ HP) as (ys & HRy & (_ & HV) & Y & HY & HGY). exists ((List.concat ys ++ nl) :: xs). split; [constructor; [now apply (para_renders E p cs)|exact HR]|].
    split; [cbn [List.concat]; rewrite <- app_assoc; change (nl ++ List.concat xs) with (NL :: List.concat xs); rewrite HV; now rewrite HS|].
    exists (Y ++ [IBreak] ++ X). split; [|rewrite !flat_map_app, HGY, HG; reflexivity].
    apply reads_app; [rewrite app_nil_r; exact HY|]. apply reads_app; [apply reads_br|]. exact HX.
Qed.
Lemma cell_writes n gs : is_cell n -> cell_looks E up n gs -> exists x, renders E n x /\ cell_shown up (trim x) = gs.
Proof.
  intros HC (cs & y & HI & HL & HV).
  assert (H : exists xs, Forall2 (renders E) cs xs /\ src (List.concat xs) = y /\ exists X, reads up false NL y [] X /\ flat_map (show plain) X = gs).
  { destruct HL as [HL|HL]; [now apply cell_reads|]. destruct (para_reads _ _ _ _ _ HL) as (xs & HR & (HS & _) & HX). exists xs. now split. }
  clear HL. destruct H as (xs & HR & HS & X & HX & HG). exists (cell_text (List.concat xs)). split.
  - destruct n as [k ty ve tx a co ma]. cbn [n_kind n_content] in *. unfold is_cell in HC. cbn [n_kind] in HC. subst co. unfold renders, to_markdown.
    destruct HC as [->| ->]; cbn [to_md]; unfold table_cell_md; rewrite (content_renders E cs xs) by exact HR; reflexivity.
  - unfold cell_shown. rewrite cell_src, HS, (trim_escape y HV), unescape_escape. unfold shown. now rewrite (reads_all up y X HX).
Qed.
End S.
