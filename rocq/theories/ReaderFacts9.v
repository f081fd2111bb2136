(** Every block a reader should see is presented by its Markdown (C75). *)
From Coq Require Import List NArith ZArith Bool String Lia.
From Verif Require Import PyStr Values Schema Parse Date Markdown Basics StrFacts Collapse MdFacts SpecParse SpecMd MdFacts2 LeafFacts LayoutFacts SpecErr ErrFacts SpecList ListFacts ListFacts2
  SpecTable TableFacts SpecReader SpecSeen ReaderFacts ReaderFacts2 ReaderFacts3 ReaderFacts6 ReaderFacts7 ReaderFacts8 ReaderFacts10 Properties_Nodes Properties_Table.
Import ListNotations.
Open Scope string_scope.
Open Scope list_scope.
Open Scope nat_scope.

Lemma not_padded k : ~ padded_kind k -> pads k = false.
Proof. intros H. destruct k; try reflexivity; destruct H; unfold padded_kind; auto. Qed.
Lemma structured_pads k : ~ structured k -> pads k = false.
Proof. intros H. apply not_padded. intros [->|[->| ->]]; apply H; cbn; auto 10. Qed.
Lemma pads_kind n k : n_kind n = k -> pads k = false -> forall x, laid_out n x = x. Proof. intros HK HP x. unfold laid_out. now rewrite HK, HP. Qed.
Lemma pads_kind' n k : n_kind n = k -> pads k = true -> forall x, laid_out n x = nls 1 ++ x ++ nls 1. Proof. intros HK HP x. unfold laid_out. now rewrite HK, HP. Qed.
(** ---------------------------------------------------------------- tables, for nodes of a parsed tree *)
Lemma table_renders' E n rows cellss xss : consistent n -> n_kind n = Ktable -> n_content n = Items rows -> Forall2 row_of rows cellss ->
  Forall2 (Forall2 (renders E)) cellss xss -> renders E n (join nl (List.concat (zip_with row_lines cellss xss))).
Proof.
  intros HP HK HI HR HX. pose proof (consistent_items _ _ HP HI) as HC. destruct n as [k ty ve tx a co ma]. cbn [n_kind n_content] in *. subst k co. clear HP.
  unfold renders, to_markdown. cbn [to_md]. unfold table_md, loop. rewrite (for_each_ok _ rows (map (map VStr) (zip_with row_lines cellss xss))).
  - cbn [rbind]. rewrite <- concat_map, join_values_str. reflexivity.
  - revert xss HX. induction HR as [|r cs rows cellss HRow HR IH]; intros xss HX; inversion HX; subst; [constructor|]. inversion HC; subst. cbn [zip_with map]. constructor; [|auto].
    unfold table_row_lines. match goal with H : Forall2 (renders E) cs ?y |- _ => pose proof (row_renders E r cs y false HRow H) as HW end.
    unfold to_markdown in HW. rewrite HW, (header_width_row r cs) by assumption. unfold row_lines. destruct (header_rowb cs); reflexivity.
Qed.
Lemma rows_fine E rows cellss xss : Forall2 row_of rows cellss -> Forall2 (Forall2 (renders E)) cellss xss -> Forall (Forall (fun x => ~ In CR x)) xss -> Forall fine_row xss.
Proof.
  intros HR. revert xss. induction HR as [|r cs rows cellss HRow _ IH]; intros xss HX HC; inversion HX as [|? xs ? xss' HX1 HX2]; subst; [constructor|]. inversion HC as [|? ? HC1 HC2]; subst. constructor; [|now apply IH].
  destruct HRow as (_ & _ & HF & HN). split; [destruct HX1; [now destruct HN|discriminate]|]. clear -HF HX1 HC1. induction HX1 as [|c x cs xs H _ IH]; [split; constructor|].
  inversion HF as [|? ? HF1 HF2]; subst. inversion HC1 as [|? ? HC HC2]; subst. destruct (IH HF2 HC2) as [H1 H2]. split; constructor; try assumption.
  - exact (C29_pipes_escaped E c false x HF1 H).
  - split; [exact HC|exact (C29_single_line E c false x HF1 H)].
Qed.
Lemma no_header_rows E cellss xss : Forall (fun cells => ~ header_row cells) cellss -> Forall2 (Forall2 (renders E)) cellss xss -> List.concat (zip_with row_lines cellss xss) = map row_line xss.
Proof.
  intros HN. revert xss. induction HN as [|c cs H _ IH]; intros xss HX; inversion HX as [|? xs ? xss' _ HX2]; subst; [reflexivity|]. cbn [zip_with List.concat map]. unfold row_lines at 1.
  destruct (header_rowb c) eqn:E'; [exfalso; apply H; now apply C28_header_row|]. cbn [app]. f_equal. now apply IH.
Qed.
Lemma Forall2_len {A B} (R : A -> B -> Prop) l m : Forall2 R l m -> List.length l = List.length m. Proof. induction 1; cbn; congruence. Qed.
(** ---------------------------------------------------------------- line breaks *)
Lemma plain_app x y : plain_breaks x -> plain_breaks y -> plain_breaks (x ++ y).
Proof. intros H1 H2 c HC. apply in_app_or in HC as [HC|HC]; auto. Qed.
Lemma plain_nls k : plain_breaks (nls k). Proof. intros c HC _. now apply repeat_spec in HC. Qed.
Lemma plain_join ls : Forall plain_breaks ls -> plain_breaks (join nl ls).
Proof.
  induction 1 as [|l ls HL HF IH]; [intros c []|]. destruct ls as [|m ls]; [exact HL|]. rewrite join_cons by discriminate. apply plain_app; [exact HL|]. apply plain_app; [exact (plain_nls 1)|exact IH].
Qed.
Lemma plain_sub x y : subseq x y -> plain_breaks y -> plain_breaks x.
Proof.
  intros HS HP c HC. apply HP. clear HP. induction HS as [|d a b _ IH|d a b _ IH]; [destruct HC| |right; now apply IH]. destruct HC as [HC|HC]; [now left|right; now apply IH].
Qed.
Lemma plain_strip x : plain_breaks x -> plain_breaks (strip_double_empty_line x).
Proof. apply plain_sub. apply strip_subseq. Qed.
Lemma plain_blocks E blocks xs : Forall (fun c => forall x, renders E c x -> plain_breaks x) blocks -> Forall2 (renders E) blocks xs -> plain_breaks (join nl (zip_with laid_out blocks xs)).
Proof.
  intros HF HX. apply plain_join. revert HF. induction HX as [|c x cs xs H _ IH]; intros HF; cbn [zip_with]; [constructor|]. inversion HF as [|? ? HF1 HF2]; subst. constructor; [|now apply IH].
  unfold laid_out. destruct (pads (n_kind c)); [|exact (HF1 x H)]. apply plain_app; [exact (plain_nls 1)|]. apply plain_app; [exact (HF1 x H)|exact (plain_nls 1)].
Qed.
(** ---------------------------------------------------------------- quotes *)
Lemma presents_quote x es : plain_breaks x -> x <> [] -> read x = es -> presents (indent_all (s "> ") x ++ nl) 0 (EQuote :: es ++ [EEnd]) 1.
Proof.
  intros HP HX HR. destruct (quoted_text x HP) as (j & HJ & HQ). rewrite HQ. destruct (reading_quote x HX) as [HB HS]. rewrite HR in HB.
  pose proof (presents_one _ _ 0 1 0 (j + 1) HB HS) as H. cbn [nls repeat app] in H. rewrite nls_app in H. rewrite <- app_assoc. apply H; lia.
Qed.
Lemma presents_nonempty y a es b : presents y a es b -> es <> [] -> y <> [].
Proof.
  intros [(cs & ess & a' & b' & HF & HB & HE & _)|(k & _ & -> & _)] HN; [|now destruct HN].
  destruct HF as [c a0 b0 HS|c cs a0 g b0 x HS _ _]; destruct HS as [(d & r & -> & _) _]; destruct a0; discriminate.
Qed.
Scheme seen_i := Minimality for seen Sort Prop with all_seen_i := Minimality for all_seen Sort Prop.
Combined Scheme seen_both from seen_i, all_seen_i.
Lemma lang_code n x : language_of n x -> code_lang (n_attrs n) = Ok x.
Proof.
  intros [(l & -> & HL & HN)|[(-> & l & -> & HL)|(-> & ->)]]; [| |reflexivity]; cbn [code_lang attr].
  - unfold attr. rewrite HL. cbn [rbind]. apply str_eqb_neq in HN. rewrite HN. reflexivity.
  - unfold attr. destruct HL as [HL|HL]; rewrite HL; reflexivity.
Qed.
Lemma read_one c es : block_reading c es -> solid c -> read c = es.
Proof.
  intros HB HS. pose proof (presents_one c es 0 0 0 0 HB HS) as H. cbn [nls repeat app] in H. rewrite app_nil_r in H. exact (presents_read c 0 es 0 (H (le_n _) (le_n _) (le_S _ _ (le_S _ _ (le_n _))) (le_S _ _ (le_S _ _ (le_n _))))).
Qed.
Lemma with_read x a es b : presents x a es b -> presents x a es b /\ read x = es. Proof. intros H. split; [exact H|exact (presents_read _ _ _ _ H)]. Qed.
Section Seen.
  Variable E : runtime.
  Definition Q_seen (n : node) (a : nat) (es : list event) (b : nat) : Prop := consistent n -> exists x, renders E n x /\ presents (laid_out n x) a es b /\ read x = es.
  Definition Q_all (l : list node) (a : nat) (es : list event) (b : nat) : Prop := Forall consistent l -> exists xs, Forall2 (renders E) l xs /\ presents (join nl (zip_with laid_out l xs)) a es b.
  Theorem seen_presents : (forall n a es b, seen E n a es b -> Q_seen n a es b) /\ (forall l a es b, all_seen E l a es b -> Q_all l a es b).
  Proof.
    apply (seen_both E Q_seen Q_all).
    - intros n cs xs HK HB0 HC HF x HT _. exists (x ++ nls 1). split; [change (nls 1) with nl; now apply para_renders with cs|]. rewrite (pads_kind n Kparagraph HK eq_refl). apply with_read.
      destruct (reading_para x HT) as [HB HS]. apply (presents_one x [EPara (split_on NL x)] 0 1 0 1 HB HS); lia.
    - intros n cs xs k HK HB0 HC HF HX _. exists (nls (k + 1)). split; [rewrite nls_app; change (nls 1) with nl; change (nls k) with (repeat NL k); rewrite <- HX; now apply para_renders with cs|].
      rewrite (pads_kind n Kparagraph HK eq_refl). apply with_read. right. exists (k + 1). repeat split; lia.
    - intros n j k x _ HK HR HT HJ HKK _. exists (nls j ++ x ++ nls k). split; [exact HR|]. unfold laid_out. rewrite (structured_pads _ HK). apply with_read. destruct (reading_para x HT) as [HB HS]. apply presents_one; auto.
    - intros n k _ HK HR _. exists (nls k). split; [exact HR|]. unfold laid_out. rewrite (structured_pads _ HK). apply with_read. right. exists k. repeat split; lia.
    - intros n HK HC _. exists (nls 0). assert (HP : pads (n_kind n) = false) by (destruct HK as [[H|[H|[H|[H|[]]]]]|[H _]]; rewrite H || rewrite <- H; reflexivity). unfold laid_out. rewrite HP. split; [|apply with_read; right; exists 0; repeat split; lia].
      destruct n as [k ty ve tx at_ co ma]. cbn [n_kind n_content n_marks] in *. subst co. unfold hollow in HK. cbn [n_kind n_marks] in HK. destruct HK as [[<-|[<-|[<-|[<-|[]]]]]|[-> HM]]; try reflexivity.
      unfold renders, to_markdown. cbn [to_md]. unfold doc_content_to_markdown, loop. cbn [for_each rbind join_values mapM]. destruct ma as [| |[|m l]|]; try reflexivity. now destruct (HM m l).
    - intros n z cs xs HK HA HZ HC HF t [HCR HNL] HV1 HV2 HH _. exists (nls 2 ++ (hashes (Z.to_nat z) ++ SP :: t) ++ nls 2). split.
      + destruct n as [k ty ve tx a co ma]. cbn [n_kind n_attrs n_content] in *. subst k co. unfold renders, to_markdown. cbn [to_md]. rewrite HA. cbn [rbind times]. rewrite (content_renders E cs xs) by exact HF. cbn [rbind].
        rewrite repeat_hashes. fold t. rewrite <- !app_assoc. reflexivity.
      + rewrite (pads_kind n Kheading HK eq_refl). apply with_read. destruct (reading_heading (Z.to_nat z) t) as [HB HS]; [lia|exact HCR|exact HNL|split; assumption|exact HH|]. apply presents_one; auto.
    - intros n HK _. exists (nls 2 ++ s "---" ++ nls 2). split; [destruct n as [k ty ve tx a co ma]; cbn [n_kind] in HK; subst k; reflexivity|]. rewrite (pads_kind n Krule HK eq_refl). apply with_read. destruct reading_rule as [HB HS]. apply presents_one; auto.
    - intros n lang cs xs HK HL HI HC HF t HCL H3 _. exists (s "```" ++ lang ++ nl ++ t ++ nl ++ s "```"). split.
      + apply lang_code in HL. destruct n as [k ty ve tx a co ma]. cbn [n_kind n_attrs n_content] in *. subst k co. unfold renders, to_markdown. cbn [to_md]. rewrite (content_renders E cs xs) by exact HF. cbn [rbind]. rewrite HL. reflexivity.
      + rewrite (pads_kind' n KcodeBlock HK eq_refl). destruct HI as (HI1 & HI2 & HI3 & HI4). destruct (reading_code lang t) as [HB HS]; [|exact HCL|exact H3|split; [apply presents_one; auto|exact (read_one _ _ HB HS)]].
        split; [destruct HI1 as [->|[H1 H2]]; [now left|right; split; assumption]|]. repeat split; assumption.
    - intros n es HK HL HCO. destruct (list_reading E KbulletList 1 n es HL) as (ls & HO & HX). destruct (bullet_sound E 0 n ls HO HCO) as (HF & _ & HR). destruct (HX HF) as [HB HS]. exists (join nl (map print_bullet ls)).
      split; [exact (HR eq_refl)|]. rewrite (pads_kind' n KbulletList HK eq_refl). split; [apply presents_one; auto|exact (read_one _ _ HB HS)].
    - intros n z es HK HST HL HCO. destruct (list_reading E KorderedList z n es HL) as (ls & HO & HX). destruct (ordered_sound E z 0 n ls HO HCO) as (HF & _ & HR). destruct (HX HF) as [HB HS]. exists (join nl (map (print_ordered z) ls)).
      split; [exact (HR eq_refl HST)|]. rewrite (pads_kind' n KorderedList HK eq_refl). split; [apply presents_one; auto|exact (read_one _ _ HB HS)].
    - intros n cs es HK HC HN HS HCO. destruct (tasks_reading E n cs es HCO HK HC HN HS) as (x & HR & HB & HSO). exists x. split; [exact HR|]. rewrite (pads_kind n KtaskList HK eq_refl). apply with_read.
      pose proof (presents_one _ _ 0 0 0 0 HB HSO) as H. cbn [nls repeat app] in H. rewrite app_nil_r in H. apply H; lia.
    - intros n cs ess HK HC HN HS HCO. destruct (decisions_reading E n cs ess HCO HK HC HN HS) as (x & HR & HP). exists x. split; [exact HR|]. rewrite (pads_kind n KdecisionList HK eq_refl). now apply with_read.
    - intros n rows c1 cellss x1 xss HK HC HR HX HH HN HCR HCO. exists (join nl (List.concat (zip_with row_lines (c1 :: cellss) (x1 :: xss)))). split; [now apply table_renders' with rows|].
      rewrite (pads_kind n Ktable HK eq_refl). apply with_read. pose proof (rows_fine E rows _ _ HR HX HCR) as HFI. inversion HFI as [|? ? HFI1 HFI2]; subst. inversion HX as [|? ? ? ? HX1 HX2]; subst.
      cbn [zip_with List.concat]. rewrite (no_header_rows E cellss xss HN HX2). unfold row_lines. apply C28_header_row in HH. rewrite HH. rewrite (Forall2_len _ _ _ HX1). destruct (reading_table x1 xss HFI1 HFI2) as [HB HS].
      pose proof (presents_one _ _ 0 0 0 0 HB HS) as H. cbn [nls repeat app] in H. rewrite app_nil_r in H. apply H; lia.
    - intros n cs a es b HK HC _ IH HES HPL HCO. pose proof (consistent_items _ _ HCO HC) as HCC. destruct (IH HCC) as (xs & HF & HP).
      set (y := strip_double_empty_line (strip_double_empty_line (join nl (zip_with laid_out cs xs)))). exists (indent_all (s "> ") y ++ nl). split.
      + destruct n as [k ty ve tx at_ co ma]. cbn [n_kind n_content] in *. subst k co. unfold renders, to_markdown. cbn [to_md]. rewrite (doc_renders E cs xs false HCC HF). reflexivity.
      + rewrite (pads_kind n Kblockquote HK eq_refl). apply with_read. assert (HPY : presents y a es b) by (unfold y; now apply presents_strip, presents_strip).
        apply presents_quote; [unfold y; apply plain_strip, plain_strip; now apply (plain_blocks E cs xs)|exact (presents_nonempty _ _ _ _ HPY HES)|exact (presents_read _ _ _ _ HPY)].
    - intros n p cs a es b HK HA HC title HT HPT HNL _ IH HPL HCO. pose proof (consistent_items _ _ HCO HC) as HCC. destruct (IH HCC) as (xs & HF & HP).
      set (z := strip_double_empty_line (join nl (zip_with laid_out cs xs))) in *. set (y := strip_double_empty_line (join nl [title; []; z])). exists (indent_all (s "> ") y ++ nl). split.
      + destruct n as [k ty ve tx at_ co ma]. cbn [n_kind n_content n_attrs] in *. subst k co. unfold renders, to_markdown. cbn [to_md]. rewrite HA. cbn [rbind]. rewrite (doc_renders E cs xs false HCC HF). reflexivity.
      + rewrite (pads_kind n Kpanel HK eq_refl). apply with_read. assert (HPZ : presents z a es b) by (unfold z; now apply presents_strip).
        assert (HTL : split_on NL title = [title]) by (now apply split_on_notin). destruct (reading_para title) as [HB HS]; [rewrite HTL; repeat constructor; exact (proj1 HT) || apply HT|].
        rewrite HTL in HB. assert (HPY : presents y 0 (EPara [title] :: es) b).
        { unfold y. apply presents_strip. change (EPara [title] :: es) with ([EPara [title]] ++ es). replace (join nl [title; []; z]) with ((title ++ nls 1) ++ nl ++ z) by (cbn [join]; rewrite <- !app_assoc; reflexivity).
          apply presents_join with (b1 := 1) (a2 := a); [|exact HPZ|lia]. pose proof (presents_one title [EPara [title]] 0 1 0 1 HB HS) as H. cbn [nls repeat app] in H. apply H; lia. }
        change (EQuote :: EPara [title] :: es ++ [EEnd]) with (EQuote :: (EPara [title] :: es) ++ [EEnd]).
        apply presents_quote; [|apply (presents_nonempty _ _ _ _ HPY); discriminate|exact (presents_read _ _ _ _ HPY)].
        unfold y. apply plain_strip. apply plain_join. constructor; [exact HPT|]. constructor; [intros c []|]. constructor; [|constructor]. unfold z. apply plain_strip. now apply (plain_blocks E cs xs).
    - intros n cs a es b HK HC _ IH HCO. pose proof (consistent_items _ _ HCO HC) as HCC. destruct (IH HCC) as (xs & HF & HP). exists (strip_double_empty_line (join nl (zip_with laid_out cs xs))). split.
      + destruct n as [k ty ve tx at_ co ma]. cbn [n_kind n_content n_marks] in *. subst co. destruct HK as [->|[-> HM]]; unfold renders, to_markdown; cbn [to_md]; rewrite (doc_renders E cs xs false HCC HF); [reflexivity|]. cbn [rbind]. destruct ma as [| |[|m l]|]; try reflexivity. now destruct (HM m l).
      + unfold laid_out. assert (HPD : pads (n_kind n) = false) by (destruct HK as [->|[-> _]]; reflexivity). rewrite HPD. apply with_read. now apply presents_strip.
    - intros n a es b _ IH HCO. inversion HCO as [|? ? HC1 _]; subst. destruct (IH HC1) as (x & HR & HP & _). exists [x]. split; [repeat constructor; exact HR|exact HP].
    - intros n a es b rest a' es' b' _ IH1 HA IH2 HB HCO. inversion HCO as [|? ? HC1 HC2]; subst. destruct (IH1 HC1) as (x & HR & HP & _). destruct (IH2 HC2) as (xs & HF & HPS). exists (x :: xs). split; [now constructor|].
      cbn [zip_with]. assert (HZ : zip_with laid_out rest xs <> []). { destruct HF; [inversion HA|discriminate]. } rewrite join_cons by exact HZ. now apply presents_join with b a'.
  Qed.
End Seen.
