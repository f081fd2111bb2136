(** C78: headings and code that a Markdown reader does not get back as written.  Vocabulary: SpecReader.v ([read]), SpecSeen.v. *)
From Coq Require Import List NArith ZArith Bool String Lia.
From Verif Require Import PyStr Values Schema Parse Date Markdown Basics StrFacts MarkFacts Collapse SpecParse ParseFacts4 MdFacts SpecMd MdFacts2 LeafFacts LayoutFacts SpecErr ErrFacts SpecList ListFacts2 SpecTable TableFacts
  SpecReader SpecSeen ReaderFacts ReaderFacts2 ReaderFacts3 ReaderFacts4 ReaderFacts5 ReaderFacts6 ReaderFacts7 ReaderFacts8 ReaderFacts9 Properties_Marks Properties_Nodes Properties_Layout Properties_Table Properties_Lists Properties_Reader Properties_Reader2.
Import ListNotations.
Open Scope string_scope.
Open Scope list_scope.
Open Scope nat_scope.

(** ================================================================ C78: headings *)
(** A heading of level z with the text t. *)
Definition heading_of (E : runtime) (n : node) (z : Z) (t : str) : Prop :=
  n_kind n = Kheading /\ attr (n_attrs n) (s "level") = Ok (VInt z) /\ exists cs xs, n_content n = Items cs /\ Forall2 (renders E) cs xs /\ List.concat xs = t.
Lemma heading_renders E n z t : heading_of E n z t -> renders E n (nls 2 ++ (hashes (Z.to_nat z) ++ SP :: t) ++ nls 2).
Proof.
  intros (HK & HA & cs & xs & HC & HF & <-). destruct n as [k ty ve tx a co ma]. cbn [n_kind n_attrs n_content] in *. subst k co. unfold renders, to_markdown. cbn [to_md]. rewrite HA. cbn [rbind times]. rewrite (content_renders E cs xs) by exact HF. cbn [rbind].
  rewrite repeat_hashes, <- !app_assoc. reflexivity.
Qed.
Lemma read_margin c es a b : block_reading c es -> solid c -> read (nls a ++ c ++ nls b) = es.
Proof. intros HB HS. exact (presents_read _ _ _ _ (presents_one c es 0 0 a b HB HS (Nat.le_0_l _) (Nat.le_0_l _) (Nat.le_0_l _) (Nat.le_0_l _))). Qed.
Lemma hashes_repeat k : hashes k = repeat 35%N k.
Proof. induction k as [|k IH]; [reflexivity|]. cbn [repeat]. rewrite <- IH. reflexivity. Qed.
(** A level above 6 is no heading: the line is read as a paragraph, hashes included. *)
Lemma deep_line n t : 7 <= n -> ~ In CR t -> text_line (hashes n ++ SP :: t).
Proof.
  intros HN HC. destruct (leading_hashes n t) as [HL HA]. destruct n as [|n]; [lia|]. split; [|split; [reflexivity|discriminate]]. unfold classify.
  assert (E1 : existsb (N.eqb CR) (hashes (S n) ++ SP :: t) = false).
  { rewrite existsb_app. apply orb_false_iff. split; [apply no_existsb; intros HI; apply hashes_chars in HI; discriminate HI|]. cbn [existsb]. now rewrite (no_existsb CR t HC). }
  rewrite E1. change (blank (hashes (S n) ++ SP :: t)) with false. change (leading SP (hashes (S n) ++ SP :: t)) with 0. cbv zeta. change (after SP (hashes (S n) ++ SP :: t)) with (hashes (S n) ++ SP :: t).
  cbn [Nat.leb]. change (hashes (S n) ++ SP :: t) with (35%N :: (hashes n ++ SP :: t)) at 1. cbn iota. change (N.eqb 35 9) with false. change (is_ch "#" 35) with true. cbn iota.
  rewrite HL. assert (E2 : (S n <=? 6) = false) by (apply Nat.leb_gt; lia). rewrite E2. reflexivity.
Qed.
Theorem C78_heading_too_deep : forall E n z t ign, heading_of E n z t -> (7 <= z)%Z -> one_line t ->
  exists out, to_markdown E n ign = Ok (VStr out) /\ read out = [EPara [repeat 35%N (Z.to_nat z) ++ s " " ++ t]].
Proof.
  intros E n z t ign HH HZ [HCR HNL]. eexists. split; [destruct ign; [apply ignore_conservative|]; exact (heading_renders _ _ _ _ HH)|].
  assert (HT : text_line (hashes (Z.to_nat z) ++ SP :: t)) by (apply deep_line; [lia|exact HCR]).
  assert (HFREE : ~ In NL (hashes (Z.to_nat z) ++ SP :: t)). { intros HI. apply in_app_or in HI as [HI|[HI|HI]]; [apply hashes_chars in HI; discriminate HI|discriminate HI|contradiction]. }
  assert (HS : split_on NL (hashes (Z.to_nat z) ++ SP :: t) = [hashes (Z.to_nat z) ++ SP :: t]) by (now apply split_on_notin).
  destruct (reading_para (hashes (Z.to_nat z) ++ SP :: t)) as [HB HSO]; [rewrite HS; constructor; [exact HT|constructor]|]. rewrite HS in HB. rewrite (read_margin _ _ 2 2 HB HSO).
  rewrite hashes_repeat. reflexivity.
Qed.
(** A line break in a heading: what follows it is read as a paragraph. *)
Theorem C78_heading_break : forall E n z u x ign, heading_of E n z (u ++ s "  " ++ nl ++ x) -> (1 <= z <= 6)%Z -> one_line u -> visible_first u -> visible_last u -> (forall q, u <> q ++ s "#") ->
  Forall text_line (split_on NL x) ->
  exists out, to_markdown E n ign = Ok (VStr out) /\ read out = [EHead (Z.to_nat z) u; EPara (split_on NL x)].
Proof.
  intros E n z u x ign HH HZ [HCR HNL] HV1 HV2 HQ HX. pose proof (heading_renders _ _ _ _ HH) as HR. match type of HR with renders _ _ ?o => exists o end. split; [destruct ign; [apply ignore_conservative; exact HR|exact HR]|]. clear HR.
  remember (Z.to_nat z) as k eqn:Ek. set (h := hashes k ++ SP :: u ++ s "  ").
  assert (HE : hashes k ++ SP :: u ++ s "  " ++ nl ++ x = h ++ nl ++ x) by (unfold h; rewrite <- !app_assoc; cbn [app]; rewrite <- !app_assoc; reflexivity). rewrite HE.
  assert (HFREE : ~ In NL h). { unfold h. intros HI. apply in_app_or in HI as [HI|[HI|HI]]; [apply hashes_chars in HI; discriminate HI|discriminate HI|]. apply in_app_or in HI as [HI|HI]; [contradiction|vm_compute in HI; intuition discriminate]. }
  assert (HS : split_on NL (h ++ nl ++ x) = h :: split_on NL x) by (change (h ++ nl ++ x) with (h ++ NL :: x); rewrite split_nl, split_on_notin by exact HFREE; reflexivity).
  assert (HTR : trimmed u) by (split; [exact HV1|exact HV2]).
  assert (HT : heading_text (SP :: u ++ s "  ") = u).
  { rewrite <- (heading_text_ok u HTR HQ) at 2. unfold heading_text. cbv zeta. assert (HTT : trim (SP :: u ++ s "  ") = trim (SP :: u)); [|now rewrite HTT].
    destruct HV1 as (c & r & -> & Hc). unfold trim. cbn [lstrip_by app]. change (blank_ch SP) with true. cbn iota. rewrite Hc. change (c :: r ++ s "  ") with ((c :: r) ++ [SP] ++ [SP]). rewrite app_assoc, !rstrip_sp. reflexivity. }
  assert (HC : classify h = LHead k u).
  { destruct (leading_hashes k (u ++ s "  ")) as [HL HA]. unfold h in *. assert (HK : 1 <= k <= 6) by (lia). destruct k as [|k']; [lia|]. unfold classify.
    assert (E1 : existsb (N.eqb CR) (hashes (S k') ++ SP :: u ++ s "  ") = false).
    { rewrite existsb_app. apply orb_false_iff. split; [apply no_existsb; intros HI; apply hashes_chars in HI; discriminate HI|]. cbn [existsb]. rewrite existsb_app, (no_existsb CR u HCR). reflexivity. }
    rewrite E1. change (blank (hashes (S k') ++ SP :: u ++ s "  ")) with false. change (leading SP (hashes (S k') ++ SP :: u ++ s "  ")) with 0. cbv zeta. change (after SP (hashes (S k') ++ SP :: u ++ s "  ")) with (hashes (S k') ++ SP :: u ++ s "  ").
    cbn [Nat.leb]. change (hashes (S k') ++ SP :: u ++ s "  ") with (35%N :: (hashes k' ++ SP :: u ++ s "  ")) at 1. cbn iota. change (N.eqb 35 9) with false. change (is_ch "#" 35) with true. cbn iota.
    rewrite HL, HA. assert (E2 : (S k' <=? 6) = true) by (apply Nat.leb_le; lia). rewrite E2. change (blank_ch SP) with true. cbn [andb]. now rewrite HT. }
  assert (HNC : starts_container h = false) by (unfold h; assert (HK : 1 <= k) by (lia); destruct k; [lia|reflexivity]).
  assert (HB : block_reading (h ++ nl ++ x) [EHead k u; EPara (split_on NL x)]).
  { pose proof (block_reading_top (h ++ nl ++ x) [EHead k u] (OPara (split_on NL x))) as G. apply G; [|reflexivity]. rewrite HS. destruct (split_on NL x) as [|l more] eqn:ESX; [now destruct (split_on_nonnil NL x)|].
    inversion HX as [|? ? HX1 HX2]; subst. cbn [run]. rewrite step_top by (right; exact HNC). cbn [leaf_step]. rewrite HC. cbn [close_leaf app]. rewrite step_text_none by exact HX1. rewrite (run_text more HX2 [l]). reflexivity. }
  assert (HSO : solid (h ++ nl ++ x)).
  { apply solid_lines.
    - unfold h. assert (HK : 1 <= k) by (lia). destruct k as [|k']; [lia|]. exists 35%N. eexists. split; [reflexivity|reflexivity].
    - rewrite HS. constructor; [unfold h; destruct (hashes k); discriminate|]. eapply Forall_impl; [|exact HX]. intros l Hl. destruct (text_visible l Hl) as (c & r & -> & _). discriminate. }
  exact (read_margin _ _ 2 2 HB HSO).
Qed.

(** ================================================================ C78: code *)
(** A code block with the language lang (as shown) and the text t. *)
Definition code_of (E : runtime) (n : node) (lang t : str) : Prop :=
  n_kind n = KcodeBlock /\ language_of n lang /\ info_string lang /\ exists cs xs, n_content n = Items cs /\ Forall2 (renders E) cs xs /\ List.concat xs = t.
Lemma code_renders E n lang t : code_of E n lang t -> renders E n ((s "```" ++ lang) ++ nl ++ t ++ nl ++ s "```").
Proof.
  intros (HK & HL & HI & cs & xs & HC & HF & <-). apply lang_code in HL. destruct n as [k ty ve tx a co ma]. cbn [n_kind n_attrs n_content] in *. subst k co. unfold renders, to_markdown. cbn [to_md]. rewrite (content_renders E cs xs) by exact HF. cbn [rbind]. rewrite HL. cbn [rbind].
  rewrite <- !app_assoc. reflexivity.
Qed.
Lemma info_ok_of lang : info_string lang -> info_ok lang.
Proof. intros (H1 & H2 & H3 & H4). split; [destruct H1 as [->|[A B]]; [now left|right; split; assumption]|]. repeat split; assumption. Qed.
Lemma fence_free lang : info_string lang -> ~ In NL (s "```" ++ lang).
Proof. intros (_ & _ & _ & H) HI. apply in_app_or in HI as [HI|HI]; [vm_compute in HI; intuition discriminate|contradiction]. Qed.
Lemma open_fence lang : info_string lang -> step ([], ONone) (s "```" ++ lang) = ([], ([], OCode lang [])).
Proof. intros HI. rewrite step_top by (right; reflexivity). cbn [leaf_step]. rewrite (classify_fence lang (info_ok_of lang HI)). reflexivity. Qed.
Lemma code_lines_of lang t : info_string lang -> split_on NL ((s "```" ++ lang) ++ nl ++ t ++ nl ++ s "```") = (s "```" ++ lang) :: split_on NL t ++ [s "```"].
Proof. intros HI. unfold nl. cbn [app]. rewrite !split_nl. rewrite (split_on_notin NL (s "```" ++ lang)) by (now apply fence_free). reflexivity. Qed.
Lemma text_lines_last x c : c <> NL -> text_lines (x ++ [c]) = split_on NL (x ++ [c]).
Proof.
  intros HC. unfold text_lines. assert (HL : forall ls, last ls [] <> [] -> drop_last_empty ls = ls).
  { induction ls as [|l r IH]; [reflexivity|]. intros H. cbn [drop_last_empty]. destruct l as [|c' l]; [|destruct r; [reflexivity|now rewrite IH]]. destruct r as [|h r]; [now destruct H|]. now rewrite IH. }
  apply HL. assert (HG : forall y, last (split_on NL (y ++ [c])) [] <> []).
  { induction y as [|d y IH]; cbn [app split_on].
    - destruct (N.eqb c NL) eqn:EC; [apply N.eqb_eq in EC; contradiction|]. discriminate.
    - destruct (N.eqb d NL).
      + destruct (split_on NL (y ++ [c])) as [|h r] eqn:ES; [now destruct (split_on_nonnil NL (y ++ [c]))|]. exact IH.
      + destruct (split_on NL (y ++ [c])) as [|h r] eqn:ES; [now destruct (split_on_nonnil NL (y ++ [c]))|]. destruct r; [discriminate|exact IH]. }
  exact (HG x).
Qed.
Lemma read_lines x : text_lines x = split_on NL x -> read x = let (es, st) := run ([], ONone) (split_on NL x) in es ++ close_leaf (snd st) ++ repeat EEnd (List.length (fst st)).
Proof. intros H. unfold read. now rewrite H. Qed.
Lemma fence_last x : text_lines (x ++ s "```") = split_on NL (x ++ s "```").
Proof. change (s "```") with (s "``" ++ [96%N]). rewrite app_assoc. now apply text_lines_last. Qed.
(** A line in the code that is itself a fence ends the code block; the rest is read as Markdown, and the closing fence opens another block. *)
Theorem C78_code_fence_inside : forall E n lang before f after_ ign, code_of E n lang (join nl (before ++ f :: after_)) -> Forall code_line before -> closes_fence f = true ->
  Forall one_line (before ++ f :: after_) ->
  exists out, to_markdown E n ign = Ok (VStr out) /\ read out = ECode lang before :: read (join nl (after_ ++ [s "```"])).
Proof.
  intros E n lang a f b ign HN HA HF HO. pose proof (code_renders _ _ _ _ HN) as HR. destruct HN as (_ & _ & HI & _).
  match type of HR with renders _ _ ?o => exists o end. split; [destruct ign; [apply ignore_conservative; exact HR|exact HR]|].
  assert (HFREE : Forall (fun l => ~ In NL l) (a ++ f :: b)) by (eapply Forall_impl; [|exact HO]; intros l H; apply H).
  assert (HS : split_on NL (join nl (a ++ f :: b)) = a ++ f :: b) by (apply split_lines; [exact HFREE|destruct a; discriminate]).
  assert (HB : join nl (b ++ [s "```"]) = match b with [] => [] | _ => join nl b ++ nl end ++ s "```").
  { destruct b as [|x b]; [reflexivity|]. rewrite join_app by discriminate. cbn [join]. now rewrite <- app_assoc. }
  assert (HSB : split_on NL (join nl (b ++ [s "```"])) = b ++ [s "```"]).
  { apply split_lines; [|destruct b; discriminate]. apply Forall_app in HFREE as [_ HFREE]. inversion HFREE; subst. apply Forall_app. split; [assumption|]. constructor; [|constructor]. intros HIN. vm_compute in HIN. intuition discriminate. }
  rewrite (read_lines (join nl (b ++ [s "```"]))) by (rewrite HB; apply fence_last). rewrite HSB.
  rewrite read_lines by (rewrite !app_assoc; apply fence_last). rewrite code_lines_of by exact HI. rewrite HS, <- app_assoc. cbn [app run]. rewrite (open_fence lang HI). rewrite run_app, (run_code lang a HA []). cbn [app run].
  rewrite step_top by (left; reflexivity). cbn [leaf_step]. apply Forall_app in HO as [_ HO]. inversion HO as [|? ? [HCR _] _]; subst. rewrite (no_existsb CR f HCR), HF. cbn iota.
  match goal with |- context [run ([], ONone) ?z] => destruct (run ([], ONone) z) as [es st] end. cbn [app]. reflexivity.
Qed.
(** Empty lines in the code: the layout of the document takes them for its own. *)
Lemma strip_free a x : ~ In NL a -> strip_double_empty_line (a ++ x) = a ++ strip_double_empty_line x.
Proof. induction a as [|c a IH]; [reflexivity|]. intros H. cbn [app]. rewrite strip_char by (intros ->; apply H; now left). rewrite IH; [reflexivity|]. intros H'. apply H. now right. Qed.
Lemma strip_before x c b : c <> NL -> strip_double_empty_line (x ++ c :: b) = strip_double_empty_line x ++ strip_double_empty_line (c :: b).
Proof.
  intros HC. revert x. refine (run_ind _ _ _ _); [reflexivity| |].
  - intros k d _ HD IH. rewrite <- app_assoc. rewrite strip_run by (destruct d; [exact HC|exact HD]). rewrite IH, strip_run by exact HD. now rewrite app_assoc.
  - intros d x HD IH. cbn [app]. rewrite !strip_char by exact HD. rewrite IH. reflexivity.
Qed.
Lemma squeeze_pos k : 1 <= k -> 1 <= squeeze k. Proof. intros H. apply squeeze_ge; lia. Qed.
Lemma strip_ends x : forall y, x = y ++ [NL] -> exists y', strip_double_empty_line x = y' ++ [NL].
Proof.
  revert x. refine (run_ind _ _ _ _).
  - intros y H. now destruct y.
  - intros k b HK HB IH y HE. rewrite strip_run by exact HB. destruct b as [|c b].
    + change (strip_double_empty_line []) with (@nil N). rewrite app_nil_r. pose proof (squeeze_pos k HK) as HP. destruct (squeeze k) as [|m]; [lia|]. exists (nls m). change (S m) with (1 + m). rewrite Nat.add_comm. apply nls_app.
    + destruct (exists_last (l := c :: b)) as (b' & d & HD); [discriminate|]. rewrite HD in HE. rewrite app_assoc in HE. apply app_inj_tail in HE as [_ HE]. subst d. destruct (IH _ HD) as (y' & ->). exists (nls (squeeze k) ++ y'). now rewrite app_assoc.
  - intros c b HC IH y HE. rewrite strip_char by exact HC. destruct b as [|d b]; [apply (app_inj_tail [] y) in HE as [_ HE]; contradiction|].
    destruct y as [|e y]; [discriminate HE|]. injection HE as _ HE. destruct (IH _ HE) as (y' & ->). exists (c :: y'). reflexivity.
Qed.

Lemma strip_around t : exists t', strip_double_empty_line (nl ++ t ++ nl) = nl ++ t' ++ nl.
Proof.
  assert (HD : exists k b, NL :: t ++ [NL] = nls (S k) ++ b /\ starts_clean b).
  { clear. assert (G : forall x : str, exists k b, x = nls k ++ b /\ starts_clean b).
    { induction x as [|c x IH]; [exists 0, []; split; [reflexivity|exact I]|]. destruct (N.eq_dec c NL) as [->|HC]; [|exists 0, (c :: x); split; [reflexivity|exact HC]]. destruct IH as (k & b & -> & HB). now exists (S k), b. }
    destruct (G (t ++ [NL])) as (k & b & HE & HB). exists k, b. split; [cbn [nls repeat app]; f_equal; exact HE|exact HB]. }
  destruct HD as (k & b & HE & HB). change (nl ++ t ++ nl) with (NL :: t ++ [NL]). rewrite HE, strip_run by exact HB. pose proof (squeeze_pos (S k) ltac:(lia)) as HP. destruct b as [|c b].
  - assert (HK : 2 <= S k). { apply (f_equal (@List.length N)) in HE. rewrite app_nil_r in HE. unfold nls in HE. rewrite repeat_length in HE. cbn [List.length] in HE. rewrite app_length in HE. cbn in HE. lia. }
    pose proof (squeeze_ge (S k) 2 (le_n _) HK) as H2. destruct (squeeze (S k)) as [|[|m]]; try lia. exists (nls m). change (strip_double_empty_line []) with (@nil N). rewrite app_nil_r.
    replace (S (S m)) with (1 + (m + 1)) by lia. rewrite !nls_app. reflexivity.
  - destruct (exists_last (l := c :: b)) as (b' & d & HL); [discriminate|]. pose proof HE as HE'. rewrite HL in HE'. change (NL :: t ++ [NL]) with ((NL :: t) ++ [NL]) in HE'. rewrite app_assoc in HE'. apply app_inj_tail in HE' as [_ HE']. subst d.
    destruct (strip_ends _ _ HL) as (y & ->). destruct (squeeze (S k)) as [|m]; [lia|]. exists (nls m ++ y). change (nls (S m)) with (nl ++ nls m). rewrite <- !app_assoc. reflexivity.
Qed.
Lemma squeeze_less k : 3 <= k -> squeeze k < k.
Proof.
  intros H. assert (HP : forall j, pass j <= j). { intros j. unfold pass. pose proof (Nat.div_mod j 3). lia. }
  assert (H3 : pass k < k). { unfold pass. pose proof (Nat.div_mod k 3). pose proof (Nat.div_le_mono 3 k 3 ltac:(lia) H) as HD. change (3 / 3) with 1 in HD. lia. }
  unfold squeeze. pose proof (HP (pass (pass k))). pose proof (HP (pass k)). lia.
Qed.
Lemma strip_shorter x : List.length (strip_double_empty_line x) <= List.length x /\ (contains (nls 3) x -> List.length (strip_double_empty_line x) < List.length x).
Proof.
  revert x. refine (run_ind _ _ _ _).
  - split; [apply le_n|]. intros (p & q & H). destruct p; discriminate H.
  - intros k b HK HB [H1 H2]. rewrite strip_run by exact HB. rewrite !app_length. unfold nls. rewrite !repeat_length. assert (HS : squeeze k <= k) by (destruct (Nat.le_gt_cases k 2) as [HL|HL]; [rewrite squeeze_small by lia; lia|pose proof (squeeze_less k); lia]). split; [lia|].
    intros HC. apply contains_nls_run in HC; [|exact HB]. destruct HC as [HC|HC]; [pose proof (squeeze_less k HC); lia|specialize (H2 HC); lia].
  - intros c b HC [H1 H2]. rewrite strip_char by exact HC. cbn [List.length]. split; [lia|]. intros H. apply contains_nls_char in H; [|lia|exact HC]. specialize (H2 H). lia.
Qed.
Lemma full_around t : full_lines (nl ++ t ++ nl) = full_lines t.
Proof. unfold full_lines, nl. cbn [app]. change (NL :: t ++ [NL]) with ([] ++ NL :: (t ++ NL :: [])). rewrite !split_nl. cbn [split_on app filter]. rewrite filter_app. cbn [filter]. now rewrite app_nil_r. Qed.

Definition nonempty_lines (x : str) : list str := filter (fun l => negb (str_eqb l [])) (split_on NL x).
Lemma nonempty_full x : nonempty_lines x = full_lines x.
Proof. unfold nonempty_lines, full_lines. apply filter_ext. intros [|c l]; reflexivity. Qed.
Lemma lines_length x : List.length (split_on NL x) + List.length (visible_chars x) = S (List.length x).
Proof.
  unfold visible_chars. induction x as [|c x IH]; [reflexivity|]. cbn [split_on filter]. destruct (N.eqb c NL) eqn:EC; cbn [negb List.length].
  - lia.
  - destruct (split_on NL x) as [|h r] eqn:ES; [now destruct (split_on_nonnil NL x)|]. cbn [List.length] in *. lia.
Qed.
Lemma length_around t : List.length (nl ++ t ++ nl) = S (S (List.length t)).
Proof. unfold nl. cbn [app List.length]. rewrite app_length. cbn. lia. Qed.
Lemma visible_around t : visible_chars (nl ++ t ++ nl) = visible_chars t.
Proof. unfold visible_chars, nl. rewrite !filter_app. cbn. apply app_nil_r. Qed.
Theorem C78_code_blank_lines : forall E n c lang t ign, is_document n [c] -> code_of E c lang t -> Forall code_line (split_on NL t) ->
  exists out t', to_markdown E n ign = Ok (VStr out) /\ read out = [ECode lang (split_on NL t')] /\ nonempty_lines t' = nonempty_lines t /\
    (contains (nl ++ nl ++ nl) (nl ++ t ++ nl) -> List.length (split_on NL t') < List.length (split_on NL t)).
Proof.
  intros E n c lang t ign HD HC HL. pose proof (code_renders _ _ _ _ HC) as HR. destruct HC as (HK & _ & HI & _).
  pose proof (C27_document E n [c] _ ign HD (Forall2_cons _ _ HR (Forall2_nil _))) as HM. cbn [zip_with join] in HM. rewrite (pads_kind' c KcodeBlock HK eq_refl) in HM.
  destruct (strip_around t) as (t' & HT). set (f := s "```" ++ lang) in *.
  assert (HO : strip_double_empty_line (nl ++ (f ++ nl ++ t ++ nl ++ s "```") ++ nl) = nl ++ f ++ (nl ++ t' ++ nl) ++ s "```" ++ nl).
  { rewrite <- (app_assoc f). rewrite <- !app_assoc. change (nl ++ f ++ nl ++ t ++ nl ++ s "```" ++ nl) with (nls 1 ++ (f ++ nl ++ t ++ nl ++ s "```" ++ nl)). rewrite strip_run by (unfold f; discriminate). change (nls (squeeze 1)) with nl. f_equal.
    rewrite strip_free by (now apply fence_free). f_equal. change (nl ++ t ++ nl ++ s "```" ++ nl) with (nl ++ t ++ nl ++ 96%N :: s "``" ++ nl). replace (nl ++ t ++ nl ++ 96%N :: s "``" ++ nl) with ((nl ++ t ++ nl) ++ 96%N :: s "``" ++ nl) by (rewrite <- !app_assoc; reflexivity).
    rewrite strip_before by discriminate. rewrite HT, <- !app_assoc. reflexivity. }
  change (nls 1) with nl in HM. rewrite HO in HM. eexists. exists t'. split; [exact HM|].
  assert (HFL : full_lines t' = full_lines t) by (rewrite <- (full_around t'), <- HT, strip_full_lines; apply full_around).
  assert (HVC : visible_chars t' = visible_chars t) by (rewrite <- (visible_around t'), <- HT, strip_visible; apply visible_around).
  split; [|split; [rewrite !nonempty_full; exact HFL|]].
  - assert (HL' : Forall code_line (split_on NL t')).
    { apply Forall_forall. intros l Hl. destruct l as [|d l]; [split; [reflexivity|intros []]|]. rewrite Forall_forall in HL. apply HL. assert (HIN : In (d :: l) (full_lines t')) by (unfold full_lines; apply filter_In; split; [exact Hl|reflexivity]). rewrite HFL in HIN. unfold full_lines in HIN. now apply filter_In in HIN. }
    assert (HSP : split_on NL (nl ++ f ++ (nl ++ t' ++ nl) ++ s "```" ++ nl) = [] :: f :: split_on NL t' ++ [s "```"; []]).
    { replace (nl ++ f ++ (nl ++ t' ++ nl) ++ s "```" ++ nl) with ([] ++ NL :: (f ++ NL :: (t' ++ NL :: (s "```" ++ NL :: [])))) by (unfold nl; rewrite <- !app_assoc; reflexivity). rewrite !split_nl. rewrite (split_on_notin NL f) by (now apply fence_free). reflexivity. }
    rewrite (read_total _ [ECode lang (split_on NL t')] [] ONone); [reflexivity| |left; reflexivity]. rewrite HSP. cbn [run]. rewrite blank_line_top by reflexivity. unfold f. rewrite (open_fence lang HI), run_app, (run_code lang _ HL' []). cbn [app run].
    rewrite step_top by (left; reflexivity). reflexivity.
  - intros H3. pose proof (proj2 (strip_shorter (nl ++ t ++ nl)) H3) as HLT. rewrite HT, !length_around in HLT. pose proof (lines_length t). pose proof (lines_length t'). rewrite HVC in *. lia.
Qed.

(** Code as the first block of a list item: only the opening fence stands inside the item; the code is read as Markdown, and the closing fence opens a block. *)
Theorem C78_code_first_in_item : forall E w v n c lang t ign, snd (parse_node w v) = Ok n -> bullets n [[c]] -> code_of E c lang t -> visible_first t -> (forall q, t <> NL :: q) ->
  exists out, to_markdown E n ign = Ok (VStr out) /\ read out = EBullet :: ECode lang [] :: EEnd :: read (t ++ nl ++ s "```").
Proof.
  intros E w v n c lang t ign HP (HK & is_ & HI & HF) HC HV HNN. pose proof (code_renders _ _ _ _ HC) as HR. destruct HC as (HKC & _ & HINF & _). inversion HF as [|i ? is' ? [HKI HCI] HF']; subst. inversion HF'; subst.
  set (x := (s "```" ++ lang) ++ nl ++ t ++ nl ++ s "```") in *.
  assert (HRS : rstrip x = x). { unfold x. change (s "```") with (rstrip (s "```")) at 2. rewrite !app_assoc. rewrite rstrip_behind by discriminate. reflexivity. }
  assert (HS : split_on NL (rstrip x) = (s "```" ++ lang) :: (split_on NL t ++ [s "```"])) by (rewrite HRS; now apply code_lines_of).
  assert (HO : outline E KbulletList 0 n (Item 0 0 (s "```" ++ lang) :: map Cont (split_on NL t ++ [s "```"]) ++ [] ++ [])).
  { eapply o_list; [exact HK|exact HI|]. cbn [filter]. rewrite (is_item_true i HKI). eapply i_cons; [exact HCI|rewrite HKC; discriminate|exact HR|exact HS|constructor|constructor]. }
  rewrite !app_nil_r in HO. destruct (bullet_sound E 0 n _ HO (parse_consistent _ _ _ HP)) as (HFR & _ & HRR). cbn [map] in HFR, HRR. rewrite cont_lines in HFR, HRR.
  specialize (HRR eq_refl). match type of HRR with _ = Ok (VStr ?o) => exists o end. split; [destruct ign; [apply ignore_conservative; exact HRR|exact HRR]|]. clear HRR.
  change (print_bullet (Item 0 0 (s "```" ++ lang))) with (s "- ```" ++ lang) in *.
  assert (HL : text_lines (t ++ nl ++ s "```") = split_on NL (t ++ nl ++ s "```")) by (rewrite app_assoc; apply fence_last).
  rewrite (read_lines _ HL). change (t ++ nl ++ s "```") with (t ++ NL :: s "```"). rewrite split_nl. change (split_on NL (s "```")) with [s "```"].
  assert (HJ : join nl ((s "- ```" ++ lang) :: split_on NL t ++ [s "```"]) = ((s "- ```" ++ lang) ++ nl ++ t ++ nl) ++ s "```").
  { rewrite join_cons by (destruct (split_on NL t); discriminate). rewrite join_app by (apply split_on_nonnil || discriminate). change (join nl (split_on NL t)) with (join [NL] (split_on NL t)). rewrite join_split. cbn [join]. rewrite <- !app_assoc. reflexivity. }
  assert (HTL : forall z y : str, z = y ++ s "```" -> text_lines z = split_on NL z) by (intros z y ->; apply fence_last).
  match goal with |- read ?o = _ => assert (HTO : text_lines o = split_on NL o) by exact (HTL _ _ HJ); rewrite (read_lines o HTO);
    assert (HSO : split_on NL o = (s "- ```" ++ lang) :: split_on NL t ++ [s "```"]) by (apply split_lines; [exact HFR|discriminate]); rewrite HSO end. cbn [run].
  assert (H1 : step ([], ONone) (s "- ```" ++ lang) = ([EBullet], ([CItem 2], OCode lang []))).
  { pose proof (classify_fence lang (info_ok_of lang HINF)) as HCL. unfold step. cbn [continued]. change (List.length (@nil container)) with 0. cbn [Nat.eqb is_para andb].
    assert (HOP : opened (S (List.length (s "- ```" ++ lang))) false (s "- ```" ++ lang) = ([(CItem 2, EBullet)], s "```" ++ lang)).
    { change (S (List.length (s "- ```" ++ lang))) with (S (S (4 + List.length lang))). change (s "- ```" ++ lang) with (45%N :: SP :: s "```" ++ lang). change (s "```" ++ lang) with (96%N :: s "``" ++ lang). reflexivity. }
    rewrite HOP. cbn [leaf_step]. rewrite HCL. reflexivity. }
  rewrite H1. destruct HV as (d & r & -> & HD). assert (HDN : d <> NL) by (intros ->; now apply (HNN r)).
  destruct (split_first d r HDN) as (h & more & ->). cbn [app run].
  assert (H2 : step ([CItem 2], OCode lang []) (d :: h) = let (es, st) := step ([], ONone) (d :: h) in (ECode lang [] :: EEnd :: es, st)).
  { assert (HB : blank (d :: h) = false) by (unfold blank; cbn [forallb]; now rewrite HD). assert (HLD : leading SP (d :: h) = 0).
    { cbn [leading]. destruct (N.eqb d SP) eqn:ES; [apply N.eqb_eq in ES; subst d; discriminate HD|reflexivity]. }
    unfold step. cbn [continued]. rewrite HB, HLD. cbn [Nat.leb List.length Nat.eqb is_para andb negb].
    destruct (opened (S (S (List.length h))) false (d :: h)) as [[|nw new] inner]; [destruct (leaf_step ONone (d :: h)) as [es o']; reflexivity|destruct (leaf_step ONone inner) as [es o']; reflexivity]. }
  rewrite H2. destruct (step ([], ONone) (d :: h)) as [es st]. match goal with |- context [run st ?z] => destruct (run st z) as [fs st2] end. cbn [app]. rewrite <- !app_assoc. reflexivity.
Qed.

(** ================================================================ examples: the hypotheses are met *)
Ltac not_in := let H := fresh in intros H; vm_compute in H; intuition discriminate.
Ltac heading_ok := split; [reflexivity|split; [vm_compute; reflexivity|do 2 eexists; split; [reflexivity|split; [repeat (apply Forall2_cons; [vm_compute; reflexivity|]); apply Forall2_nil|reflexivity]]]].
Example C78_heading_too_deep_example : heading_of rt0 (get (ex_head 7 [tx "deep"])) 7 (s "deep") /\ one_line (s "deep").
Proof. split; [heading_ok|split; not_in]. Qed.
Example C78_heading_break_example : heading_of rt0 (get (ex_head 2 [tx "one"; VDict [tyv "hardBreak"]; tx "two"])) 2 (s "one" ++ s "  " ++ nl ++ s "two") /\
  one_line (s "one") /\ visible_first (s "one") /\ visible_last (s "one") /\ (forall q, s "one" <> q ++ s "#") /\ Forall text_line (split_on NL (s "two")).
Proof.
  split; [heading_ok|]. split; [split; not_in|]. split; [v_first|]. split; [exists (s "on"); eexists; split; vm_compute; reflexivity|]. split; [|lines_ok].
  intros q H. apply (f_equal (@rev N)) in H. rewrite rev_app_distr in H. vm_compute in H. discriminate H.
Qed.
Lemma ex_code_of x : n_kind (get (ex_c x)) = KcodeBlock -> n_attrs (get (ex_c x)) = AOpt -> (exists c, n_content (get (ex_c x)) = Items [c] /\ renders rt0 c (s x)) -> code_of rt0 (get (ex_c x)) [] (s x).
Proof.
  intros HK HA (c & HC & HR). split; [exact HK|]. split; [right; right; split; [reflexivity|exact HA]|]. split; [split; [left; reflexivity|split; [intros []|split; intros []]]|]. exists [c], [s x]. split; [exact HC|]. split; [constructor; [exact HR|constructor]|apply app_nil_r].
Qed.
Ltac code_ok := apply ex_code_of; [vm_compute; reflexivity|vm_compute; reflexivity|eexists; split; [vm_compute; reflexivity|vm_compute; reflexivity]].
Ltac code_lines := match goal with |- Forall _ ?l => let l' := eval vm_compute in l in change l with l' end; repeat (apply Forall_cons; [split; [vm_compute; reflexivity|not_in]|]); apply Forall_nil.
Ltac one_lines := repeat (apply Forall_cons; [split; not_in|]); apply Forall_nil.
Definition ex_fenced : string := "a
```
# b".
Example C78_code_fence_inside_example : code_of rt0 (get (ex_c ex_fenced)) [] (join nl ([s "a"] ++ s "```" :: [s "# b"])) /\ Forall code_line [s "a"] /\ closes_fence (s "```") = true /\ Forall one_line ([s "a"] ++ s "```" :: [s "# b"]) /\
  read (join nl ([s "# b"] ++ [s "```"])) = [EHead 1 (s "b"); ECode [] []].
Proof.
  split; [|split; [code_lines|split; [reflexivity|split; [one_lines|vm_compute; reflexivity]]]]. change (join nl ([s "a"] ++ s "```" :: [s "# b"])) with (s ex_fenced). code_ok.
Qed.
Definition ex_gaps : string := "a


b".
Example C78_code_blank_lines_example : is_document (get (ex_doc [ex_c ex_gaps])) [get (ex_c ex_gaps)] /\ code_of rt0 (get (ex_c ex_gaps)) [] (s ex_gaps) /\ Forall code_line (split_on NL (s ex_gaps)) /\
  contains (nl ++ nl ++ nl) (nl ++ s ex_gaps ++ nl).
Proof.
  split; [split; [exists true, (ex_doc [ex_c ex_gaps]); vm_compute; reflexivity|split; vm_compute; reflexivity]|]. split; [code_ok|]. split; [code_lines|]. exists (nl ++ s "a"), (s "b" ++ nl). reflexivity.
Qed.
Definition ex_hash : string := "# x".
Example C78_code_first_in_item_example : exists n c, snd (parse_node true (ex_ul [ex_li [ex_c ex_hash]])) = Ok n /\ bullets n [[c]] /\ code_of rt0 c [] (s ex_hash) /\ visible_first (s ex_hash) /\ (forall q, s ex_hash <> NL :: q) /\
  read (s ex_hash ++ nl ++ s "```") = [EHead 1 (s "x"); ECode [] []].
Proof.
  eexists. exists (get (ex_c ex_hash)). split; [vm_compute; reflexivity|]. split; [split; [reflexivity|eexists; split; [reflexivity|apply Forall2_cons; [split; [reflexivity|vm_compute; reflexivity]|apply Forall2_nil]]]|].
  split; [code_ok|]. split; [v_first|]. split; [intros q H; discriminate H|vm_compute; reflexivity].
Qed.
