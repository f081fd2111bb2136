(** C76-C78: documents whose block structure a Markdown reader does not get back.  Vocabulary: SpecReader.v ([read]), SpecSeen.v. *)
From Coq Require Import List NArith ZArith Bool String Lia.
From Verif Require Import PyStr Values Schema Parse Date Markdown Basics StrFacts MarkFacts Collapse SpecParse ParseFacts4 MdFacts SpecMd MdFacts2 LeafFacts LayoutFacts SpecErr ErrFacts SpecList ListFacts2 SpecTable TableFacts
  SpecReader SpecSeen ReaderFacts ReaderFacts2 ReaderFacts3 ReaderFacts4 ReaderFacts5 ReaderFacts6 ReaderFacts7 ReaderFacts8 ReaderFacts9 ReaderFacts10 Properties_Marks Properties_Nodes Properties_Layout Properties_Table Properties_Lists Properties_Size Properties_Reader.
Import ListNotations.
Open Scope string_scope.
Open Scope list_scope.
Open Scope nat_scope.

(** ================================================================ C76: tables *)
(** A table whose first row is a header row; the texts of its cells. *)
Definition headed_table (E : runtime) (n : node) (cells1 : list node) (cellss : list (list node)) (xs1 : list str) (xss : list (list str)) : Prop :=
  n_kind n = Ktable /\ (exists rows, n_content n = Items rows /\ Forall2 row_of rows (cells1 :: cellss)) /\
  Forall2 (Forall2 (renders E)) (cells1 :: cellss) (xs1 :: xss) /\ header_row cells1 /\ Forall (Forall (fun x => ~ In CR x)) (xs1 :: xss).
(** What the reader takes for the rows of the body: below each further row that starts with a header cell comes a row of dashes. *)
Definition dashed_rows (cells : list node) (xs : list str) : list (list str) :=
  xs :: if header_rowb cells then [repeat (s "---") (List.length cells)] else [].
Definition body_rows (cellss : list (list node)) (xss : list (list str)) : list (list str) := List.concat (zip_with dashed_rows cellss xss).

Lemma body_lines cellss xss : List.concat (zip_with row_lines cellss xss) = map row_line (body_rows cellss xss).
Proof.
  revert xss. induction cellss as [|c cellss IH]; intros [|x xss]; try reflexivity. unfold body_rows. cbn [zip_with List.concat]. rewrite IH, map_app. f_equal. unfold row_lines, dashed_rows. now destruct (header_rowb c).
Qed.
Lemma body_fine rows cellss xss : Forall2 row_of rows cellss -> Forall fine_row xss -> Forall fine_row (body_rows cellss xss).
Proof.
  intros HR. revert xss. induction HR as [|r c rows cellss HRow _ IH]; intros xss HF; [destruct xss; constructor|]. destruct xss as [|x xss]; [constructor|]. inversion HF as [|? ? HF1 HF2]; subst. unfold body_rows. cbn [zip_with List.concat].
  apply Forall_app. split; [|now apply IH]. unfold dashed_rows. constructor; [exact HF1|]. destruct (header_rowb c); constructor; [|constructor]. apply delim_fine_row. destruct HRow as (_ & _ & _ & HN). destruct c; [now destruct HN|cbn; lia].
Qed.
Lemma headed_lines E n c1 cellss x1 xss : consistent n -> headed_table E n c1 cellss x1 xss ->
  renders E n (join nl (row_line x1 :: delimiter_line (List.length x1) :: map row_line (body_rows cellss xss))) /\ fine_row x1 /\ Forall fine_row (body_rows cellss xss) /\ List.length x1 = List.length c1.
Proof.
  intros HC (HK & (rows & HI & HR) & HX & HH & HCR). pose proof (rows_fine E rows _ _ HR HX HCR) as HF. inversion HF as [|? ? HF1 HF2]; subst. inversion HX as [|? ? ? ? HX1 HX2]; subst. pose proof (Forall2_len _ _ _ HX1) as HL.
  split; [|split; [exact HF1|split; [|now rewrite HL]]].
  - pose proof (table_renders' E n rows _ _ HC HK HI HR HX) as H. cbn [zip_with List.concat] in H. unfold row_lines in H at 1. apply C28_header_row in HH. rewrite HH, body_lines in H. cbn [app] in H. rewrite HL in H. exact H.
  - inversion HR as [|? ? ? ? HR1 HR2]; subst. now apply (body_fine _ _ _ HR2).
Qed.
(** A header row makes a table; every further row with a header cell in front (a header column) gets a row of dashes below it that is read as data. *)
Theorem C76_header_column : forall E w v n ign c1 cellss x1 xss, snd (parse_node w v) = Ok n -> headed_table E n c1 cellss x1 xss ->
  exists out, to_markdown E n ign = Ok (VStr out) /\
    read out = [ETable (map trim x1) (map (fun xs => fit (List.length x1) (map trim xs)) (body_rows cellss xss))].
Proof.
  intros E w v n ign c1 cellss x1 xss HP HT. pose proof (parse_consistent _ _ _ HP) as HC. destruct (headed_lines E n _ _ _ _ HC HT) as (HR & HF1 & HF2 & HL). eexists. split; [destruct ign; [apply ignore_conservative|]; exact HR|].
  destruct (reading_table x1 _ HF1 HF2) as [HB HS]. exact (read_one _ _ HB HS).
Qed.
(** Cells beyond the width of the header row are not shown: tables with the same header texts whose rows agree up to there are read alike. *)
Theorem C76_excess_cells : forall E w1 v1 w2 v2 n1 n2 ign c1 cs1 c2 cs2 h xss yss out1 out2,
  snd (parse_node w1 v1) = Ok n1 -> snd (parse_node w2 v2) = Ok n2 -> headed_table E n1 c1 cs1 h xss -> headed_table E n2 c2 cs2 h yss ->
  Forall2 (fun xs ys => firstn (List.length h) xs = firstn (List.length h) ys /\ List.length h <= List.length xs /\ List.length h <= List.length ys) (body_rows cs1 xss) (body_rows cs2 yss) ->
  to_markdown E n1 ign = Ok (VStr out1) -> to_markdown E n2 ign = Ok (VStr out2) -> read out1 = read out2.
Proof.
  intros E w1 v1 w2 v2 n1 n2 ign c1 cs1 c2 cs2 h xss yss out1 out2 HP1 HP2 HT1 HT2 HF HO1 HO2.
  destruct (C76_header_column E w1 v1 n1 ign _ _ _ _ HP1 HT1) as (o1 & R1 & E1). destruct (C76_header_column E w2 v2 n2 ign _ _ _ _ HP2 HT2) as (o2 & R2 & E2).
  rewrite HO1 in R1. rewrite HO2 in R2. apply okstr_inj in R1, R2. subst o1 o2. rewrite E1, E2. do 2 f_equal.
  clear -HF. induction HF as [|xs ys l m (HX & H1 & H2) _ IH]; [reflexivity|]. cbn [map]. rewrite IH. f_equal. unfold fit. rewrite !firstn_app, !firstn_map, !map_length, HX.
  replace (List.length h - List.length xs) with 0 by lia. replace (List.length h - List.length ys) with 0 by lia. reflexivity.
Qed.
(** Without a header row there is no table: the lines are read as one paragraph (if no row consists of dashes only). *)
Theorem C76_no_header : forall E w v n rows ign cellss xss, snd (parse_node w v) = Ok n -> n_kind n = Ktable -> n_content n = Items rows -> rows <> [] ->
  Forall2 row_of rows cellss -> Forall (fun cells => ~ header_row cells) cellss -> Forall2 (Forall2 (renders E)) cellss xss ->
  Forall (Forall (fun x => ~ In CR x)) xss -> Forall (fun xs => delimiter_row (row_line xs) = false) xss ->
  exists out, to_markdown E n ign = Ok (VStr out) /\ read out = [EPara (map row_line xss)].
Proof.
  intros E w v n rows ign cellss xss HP HK HI HNE HR HN HX HCR HD. pose proof (parse_consistent _ _ _ HP) as HC.
  pose proof (table_renders' E n rows _ _ HC HK HI HR HX) as HM. rewrite (no_header_rows E cellss xss HN HX) in HM. exists (join nl (map row_line xss)). split; [destruct ign; [apply ignore_conservative|]; exact HM|].
  destruct (reading_no_header xss) as [HB HS]; [|exact (rows_fine E rows _ _ HR HX HCR)|exact HD|exact (read_one _ _ HB HS)].
  destruct HR; [now destruct HNE|]. inversion HX; discriminate.
Qed.
(** Text directly after a table becomes rows of the table. *)
Lemma step_text_row h rs l : text_line l -> step ([], OTable h rs) l = ([], ([], OTable h (rs ++ [fit (List.length h) (cells l)]))).
Proof. intros (HC & HS & _). rewrite step_top by (right; exact HS). cbn [leaf_step]. now rewrite HC. Qed.
Lemma run_text_rows h ls : Forall text_line ls -> forall rs, run ([], OTable h rs) ls = ([], ([], OTable h (rs ++ map (fun l => fit (List.length h) (cells l)) ls))).
Proof. induction 1 as [|l ls HL _ IH]; intros rs; cbn [map run]; [now rewrite app_nil_r|]. rewrite step_text_row by exact HL. rewrite IH, <- app_assoc. reflexivity. Qed.
Lemma row_nonempty xs : row_line xs <> []. Proof. rewrite row_line_eq. discriminate. Qed.
Lemma block_writes E p x k : block_text E p (x ++ repeat NL k) -> exists k', renders E p (x ++ repeat NL k').
Proof.
  intros HB. inversion HB as [cs xs HK HBA HC HF HE|y _ HR HE]; subst; [|now exists k]. exists (k + 1). rewrite repeat_app, app_assoc, <- HE. now apply para_renders with cs.
Qed.
Theorem C76_text_after_table : forall E n t p ign c1 cellss x1 xss x k, is_document n [t; p] -> headed_table E t c1 cellss x1 xss ->
  ~ padded_kind (n_kind p) -> block_text E p (x ++ repeat NL k) -> Forall text_line (split_on NL x) ->
  exists out, to_markdown E n ign = Ok (VStr out) /\
    read out = [ETable (map trim x1) (map (fun xs => fit (List.length x1) (map trim xs)) (body_rows cellss xss) ++ map (fun l => fit (List.length x1) (cells l)) (split_on NL x))].
Proof.
  intros E n t p ign c1 cellss x1 xss x k0 HD HT HK HB0 HL. destruct (block_writes E p x k0 HB0) as (k & HR). assert (HCC : Forall consistent [t; p]) by (destruct HD as ((w & v & HP) & _ & HI); eapply consistent_items; [eapply parse_consistent; exact HP|exact HI]).
  inversion HCC as [|? ? HC1 _]; subst. destruct (headed_lines E t _ _ _ _ HC1 HT) as (HR1 & HF1 & HF2 & HLEN).
  pose proof (C27_document E n [t; p] _ ign HD (Forall2_cons _ _ HR1 (Forall2_cons _ _ HR (Forall2_nil _)))) as HM. eexists. split; [exact HM|].
  cbn [zip_with]. rewrite (pads_kind t Ktable) by (try reflexivity; apply HT). unfold laid_out at 1. rewrite (not_padded _ HK).
  match goal with |- context [join nl [?a; ?b]] => change (join nl [a; b]) with (a ++ nl ++ b) end.
  set (ls := row_line x1 :: delimiter_line (List.length x1) :: map row_line (body_rows cellss xss)).
  assert (HPOS : 0 < List.length x1) by (destruct HF1 as (HN & _); destruct x1; [now destruct HN|cbn; lia]).
  assert (HALL : Forall fine_row (x1 :: repeat (s "---") (List.length x1) :: body_rows cellss xss)) by (constructor; [exact HF1|]; constructor; [now apply delim_fine_row|exact HF2]).
  destruct (fine_map _ HALL) as [HRL HNL]. destruct (rows_solid ls) as [HS HSO]; [discriminate|exact HRL|exact HNL|].
  replace (join nl ls ++ nl ++ x ++ repeat NL k) with (nls 0 ++ join nl (ls ++ split_on NL x) ++ nls k).
  2:{ cbn [nls repeat app]. rewrite join_app by (discriminate || apply split_on_nonnil). change (join nl (split_on NL x)) with (join [NL] (split_on NL x)). rewrite (join_split NL x), <- !app_assoc. reflexivity. }
  assert (HFREE : Forall (fun l => ~ In NL l) (ls ++ split_on NL x)) by (apply Forall_app; split; [exact HNL|apply split_on_free]).
  assert (HSP : split_on NL (join nl (ls ++ split_on NL x)) = ls ++ split_on NL x) by (apply split_lines; [exact HFREE|discriminate]).
  set (rows' := map (fun xs => fit (List.length x1) (map trim xs)) (body_rows cellss xss)). set (more := map (fun l => fit (List.length x1) (cells l)) (split_on NL x)).
  assert (HB : block_reading (join nl (ls ++ split_on NL x)) [ETable (map trim x1) (rows' ++ more)]).
  { apply (block_reading_top _ [] (OTable (map trim x1) (rows' ++ more))); [|reflexivity]. rewrite HSP, run_app. unfold ls. cbn [run]. rewrite (step_header x1 HF1), (step_delim x1 HF1), (run_rows _ _ HF2 []).
    cbn [app]. rewrite (run_text_rows _ _ HL), map_length. reflexivity. }
  assert (HSOL : solid (join nl (ls ++ split_on NL x))).
  { apply solid_lines; [exists PIPE; unfold ls; cbn [app map]; rewrite join_cons by discriminate; eexists; split; reflexivity|]. rewrite HSP. apply Forall_app. split.
    - exact (Forall_impl _ (fun l H => match H with ex_intro _ xs HE => eq_ind_r (fun l => l <> []) (row_nonempty xs) HE end) HRL).
    - eapply Forall_impl; [|exact HL]. intros l Hl. destruct (text_visible l Hl) as (c & r & -> & _). discriminate. }
  exact (presents_read _ _ _ _ (presents_strip _ _ _ _ (presents_one _ _ 0 0 0 k HB HSOL (le_n _) (Nat.le_0_l _) (Nat.le_0_l _) (Nat.le_0_l _)))).
Qed.

(** ================================================================ C77: list items that hold more than one text *)
(** The block b of a list item is printed on the lines ls, all of them plain text. *)
Definition item_lines (E : runtime) (own : nkind) (b : node) (ls : list str) : Prop :=
  n_kind b <> own /\ (exists x, block_text E b x /\ split_on NL (rstrip x) = ls) /\ Forall text_line ls.
Lemma lines_written E own b ls : item_lines E own b ls -> n_kind b <> own /\ (exists x, renders E b x /\ split_on NL (rstrip x) = ls) /\ Forall text_line ls.
Proof. intros (HK & (x & HB & HX) & HT). apply text_renders in HB as (y & HR & HY). split; [exact HK|]. split; [|exact HT]. exists y. split; [exact HR|]. now rewrite HY. Qed.
Definition bullets (n : node) (items_ : list (list node)) : Prop :=
  n_kind n = KbulletList /\ exists is_, n_content n = Items is_ /\ Forall2 (fun i cs => n_kind i = KlistItem /\ n_content i = Items cs) is_ items_.
Lemma is_item_true n : n_kind n = KlistItem -> is_item n = true. Proof. unfold is_item. intros ->. reflexivity. Qed.
Lemma filter_items {A} is_ (l : list A) (R : node -> A -> Prop) : Forall2 (fun i cs => n_kind i = KlistItem /\ R i cs) is_ l -> filter is_item is_ = is_.
Proof. induction 1 as [|i cs is_ l [HK _] _ IH]; [reflexivity|]. cbn [filter]. rewrite (is_item_true i HK), IH. reflexivity. Qed.
Lemma split_nonempty x : exists t more, split_on NL x = t :: more.
Proof. destruct (split_on NL x) as [|t more] eqn:E; [now destruct (split_on_nonnil NL x)|eauto]. Qed.
Lemma text_blocks E own d bs lss : Forall2 (item_lines E own) bs lss -> blocks E own d bs (map Cont (List.concat lss)).
Proof.
  induction 1 as [|b ls bs lss HB _ IH]; [constructor|]. apply lines_written in HB as (HK & (x & HR & <-) & _). cbn [List.concat]. rewrite map_app. now apply b_text.
Qed.
Lemma read_bullets E w v n ign ls kids : snd (parse_node w v) = Ok n -> n_kind n = KbulletList -> outline E KbulletList 0 n ls -> map print_bullet ls = flat_map (tree_lines 0) kids -> Forall good kids -> kids <> [] ->
  exists out, to_markdown E n ign = Ok (VStr out) /\ read out = flat_map tree_events kids.
Proof.
  intros HP HK HO HL HG HN. pose proof (parse_consistent _ _ _ HP) as HC. destruct (bullet_sound E 0 n ls HO HC) as (HF & _ & HR). rewrite HL in HF, HR. destruct (reading_list kids HG HN HF) as [HB HS].
  eexists. split; [destruct ign; [apply ignore_conservative|]; exact (HR eq_refl)|]. exact (read_one _ _ HB HS).
Qed.
Lemma lines_text E own bs lss : Forall2 (item_lines E own) bs lss -> Forall text_line (List.concat lss).
Proof. induction 1 as [|b ls bs lss (_ & _ & HT) _ IH]; [constructor|]. cbn [List.concat]. now apply Forall_app. Qed.
Lemma cont_lines ls : map print_bullet (map Cont ls) = ls. Proof. induction ls; cbn; congruence. Qed.
(** The blocks of an item that are not lists of its own kind become one paragraph. *)
Theorem C77_paragraphs_merge : forall E w v n ign p ps ls lss, snd (parse_node w v) = Ok n -> bullets n [p :: ps] ->
  item_lines E KbulletList p ls -> Forall2 (item_lines E KbulletList) ps lss ->
  exists out, to_markdown E n ign = Ok (VStr out) /\ read out = [EBullet; EPara (ls ++ List.concat lss); EEnd].
Proof.
  intros E w v n ign p ps ls lss HP (HK & is_ & HI & HF) (HKP & (x & HR & HX) & HT)%lines_written HPS. inversion HF as [|i ? is' ? [HKI HCI] HF']; subst. inversion HF'; subst. destruct (split_nonempty (rstrip x)) as (t & more & HS). rewrite HS in *.
  assert (HO : outline E KbulletList 0 n (Item 0 0 t :: map Cont more ++ map Cont (List.concat lss) ++ [])).
  { eapply o_list; [exact HK|exact HI|]. cbn [filter]. rewrite (is_item_true i HKI). eapply i_cons; [exact HCI|exact HKP|exact HR|exact HS|now apply text_blocks|constructor]. }
  inversion HT as [|? ? HT1 HT2]; subst. rewrite app_nil_r, <- map_app in HO.
  apply (read_bullets E w v n ign _ [Tree Bullet t (more ++ List.concat lss) []] HP HK HO); [|constructor; [|constructor]|discriminate].
  - cbn [map flat_map tree_lines]. rewrite cont_lines, !app_nil_r. reflexivity.
  - constructor; [exact I|exact HT1|apply Forall_app; split; [exact HT2|exact (lines_text _ _ _ _ HPS)]|exact I|constructor].
Qed.
(** Text after a nested list joins the last nested item. *)
Theorem C77_text_after_nested : forall E w v n ign p sub r qs ls rs lss, snd (parse_node w v) = Ok n -> bullets n [p :: sub :: qs] -> bullets sub [[r]] ->
  item_lines E KbulletList p ls -> item_lines E KbulletList r rs -> Forall2 (item_lines E KbulletList) qs lss ->
  exists out, to_markdown E n ign = Ok (VStr out) /\ read out = [EBullet; EPara ls; EBullet; EPara (rs ++ List.concat lss); EEnd; EEnd].
Proof.
  intros E w v n ign p sub r qs ls rs lss HP (HK & is_ & HI & HF) (HKS & is2 & HI2 & HF2) (HKP & (x & HR & HX) & HT)%lines_written (HKR & (y & HRY & HY) & HTR)%lines_written HQS.
  inversion HF as [|i ? is' ? [HKI HCI] HF']; subst. inversion HF'; subst. inversion HF2 as [|j ? is2' ? [HKJ HCJ] HF2']; subst. inversion HF2'; subst.
  destruct (split_nonempty (rstrip x)) as (t & more & HS). destruct (split_nonempty (rstrip y)) as (t2 & more2 & HS2). rewrite HS, HS2 in *.
  assert (HO2 : outline E KbulletList 1 sub (Item 1 0 t2 :: map Cont more2 ++ [] ++ [])).
  { eapply o_list; [exact HKS|exact HI2|]. cbn [filter]. rewrite (is_item_true j HKJ). eapply i_cons; [exact HCJ|exact HKR|exact HRY|exact HS2|constructor|constructor]. }
  assert (HO : outline E KbulletList 0 n (Item 0 0 t :: map Cont more ++ ((Item 1 0 t2 :: map Cont more2 ++ [] ++ []) ++ map Cont (List.concat lss)) ++ [])).
  { eapply o_list; [exact HK|exact HI|]. cbn [filter]. rewrite (is_item_true i HKI). eapply i_cons; [exact HCI|exact HKP|exact HR|exact HS| |constructor]. apply b_sub; [exact HKS|exact HO2|discriminate|now apply text_blocks]. }
  inversion HT as [|? ? HT1 HT2]; subst. inversion HTR as [|? ? HT3 HT4]; subst.
  apply (read_bullets E w v n ign _ [Tree Bullet t more [Tree Bullet t2 (more2 ++ List.concat lss) []]] HP HK HO); [|constructor; [|constructor]|discriminate].
  - cbn [map flat_map tree_lines]. rewrite !map_app. cbn [map app]. rewrite !map_app, !cont_lines. cbn [map]. rewrite !app_nil_r. reflexivity.
  - constructor; [exact I|exact HT1|exact HT2|split; [cbn; lia|left; reflexivity]|]. constructor; [|constructor].
    constructor; [exact I|exact HT3|apply Forall_app; split; [exact HT4|exact (lines_text _ _ _ _ HQS)]|exact I|constructor].
Qed.
(** A list of another kind inside an item is read as a list after the item, not inside it. *)
Definition numbered (n : node) (z : Z) (items_ : list (list node)) : Prop :=
  n_kind n = KorderedList /\ starts_at n z /\ exists is_, n_content n = Items is_ /\ Forall2 (fun i cs => n_kind i = KlistItem /\ n_content i = Items cs) is_ items_.
Lemma rstrip_behind a y : rstrip y <> [] -> rstrip (a ++ rstrip y) = a ++ rstrip y.
Proof.
  intros HN. unfold rstrip in *. rewrite <- (app_nil_r (a ++ rstrip_by is_ws y)) at 1. apply rstrip_by_unique; [|reflexivity]. rewrite rev_app_distr. pose proof (rstrip_by_last is_ws y) as H.
  destruct (rev (rstrip_by is_ws y)) as [|c r] eqn:E; [|exact H]. apply (f_equal (@rev N)) in E. rewrite rev_involutive in E. now destruct HN.
Qed.
Lemma split_head p x t more : split_on NL x = t :: more -> ~ In NL p -> split_on NL (p ++ x) = (p ++ t) :: more.
Proof.
  intros HS HP. induction p as [|c p IH]; [exact HS|]. cbn [app]. assert (HC : c <> NL) by (intros ->; apply HP; now left). assert (HP' : ~ In NL p) by (intros H; apply HP; now right).
  specialize (IH HP'). cbn [split_on]. rewrite IH. apply N.eqb_neq in HC. now rewrite HC.
Qed.
Theorem C77_other_kind : forall E w v n ign p sub z r ls rs, snd (parse_node w v) = Ok n -> bullets n [[p; sub]] -> numbered sub z [[r]] -> (0 <= z <= 999999999)%Z ->
  item_lines E KbulletList p ls -> item_lines E KorderedList r rs ->
  exists out, to_markdown E n ign = Ok (VStr out) /\ read out = [EBullet; EPara ls; EEnd; ENumber (dec z); EPara rs; EEnd].
Proof.
  intros E w v n ign p sub z r ls rs HP (HK & is_ & HI & HF) (HKS & HST & is2 & HI2 & HF2) HZ (HKP & (x & HR & HX) & HT)%lines_written (HKR & (y & HRY & HY) & HTR)%lines_written.
  inversion HF as [|i ? is' ? [HKI HCI] HF']; subst. inversion HF'; subst. inversion HF2 as [|j ? is2' ? [HKJ HCJ] HF2']; subst. inversion HF2'; subst.
  destruct (split_nonempty (rstrip x)) as (t & more & HS). destruct (split_nonempty (rstrip y)) as (t2 & more2 & HS2). rewrite HS, HS2 in *.
  pose proof (parse_consistent _ _ _ HP) as HC. pose proof (consistent_items _ _ HC HI) as HCI'. inversion HCI' as [|? ? HCi _]; subst. pose proof (consistent_items _ _ HCi HCI) as HCPS. inversion HCPS as [|? ? _ HCS]; subst. inversion HCS as [|? ? HCsub _]; subst.
  assert (HO2 : outline E KorderedList 0 sub (Item 0 0 t2 :: map Cont more2 ++ [] ++ [])).
  { eapply o_list; [exact HKS|exact HI2|]. cbn [filter]. rewrite (is_item_true j HKJ). eapply i_cons; [exact HCJ|exact HKR|exact HRY|exact HS2|constructor|constructor]. }
  destruct (ordered_sound E z 0 sub _ HO2 HCsub) as (_ & _ & HRS). specialize (HRS eq_refl HST).
  inversion HT as [|? ? HT1 HT2]; subst. inversion HTR as [|? ? HT3 HT4]; subst.
  set (pre := dec z ++ s ". ") in *.
  assert (HSUB : join nl (map (print_ordered z) (Item 0 0 t2 :: map Cont more2 ++ [] ++ [])) = pre ++ rstrip y).
  { cbn [app]. rewrite app_nil_r. cbn [map print_ordered Nat.eqb]. rewrite Z.add_0_r. change (indentation 0) with (@nil N). cbn [app].
    replace (map (print_ordered z) (map Cont more2)) with more2 by (clear; induction more2; cbn; congruence). rewrite app_assoc. fold pre.
    transitivity (pre ++ join nl (t2 :: more2)); [destruct more2; [reflexivity|]; rewrite !join_cons by discriminate; rewrite <- !app_assoc; reflexivity|]. rewrite <- HS2. change nl with [NL]. now rewrite join_split. }
  assert (HNE : rstrip y <> []). { intros HE. rewrite HE in HS2. injection HS2 as <- <-. destruct (text_visible [] HT3) as (c & q & Hq & _). discriminate. }
  assert (HPRE : ~ In NL pre).
  { unfold pre. intros HIN. apply in_app_or in HIN as [HIN|HIN]; [|vm_compute in HIN; intuition discriminate]. pose proof (dec_digits z (proj1 HZ)) as HD. rewrite Forall_forall in HD. specialize (HD _ HIN). discriminate HD. }
  assert (HO : outline E KbulletList 0 n (Item 0 0 t :: map Cont more ++ (map Cont ((pre ++ t2) :: more2) ++ []) ++ [])).
  { eapply o_list; [exact HK|exact HI|]. cbn [filter]. rewrite (is_item_true i HKI). eapply i_cons; [exact HCI|exact HKP|exact HR|exact HS| |constructor].
    assert (HSX : split_on NL (rstrip (pre ++ rstrip y)) = (pre ++ t2) :: more2) by (rewrite rstrip_behind by exact HNE; now apply split_head).
    rewrite <- HSX. apply b_text; [rewrite HKS; discriminate| |constructor]. unfold renders, to_markdown. rewrite <- HSUB. exact HRS. }
  apply (read_bullets E w v n ign _ [Tree Bullet t more []; Tree (Number (dec z)) t2 more2 []] HP HK HO); [|constructor; [|constructor; [|constructor]]|discriminate].
  - remember ((pre ++ t2) :: more2) as l2 eqn:EL. cbn [map flat_map tree_lines]. rewrite !app_nil_r, map_app, !cont_lines. subst l2. reflexivity.
  - constructor; [exact I|exact HT1|exact HT2|exact I|constructor].
  - constructor; [|exact HT3|exact HT4|exact I|constructor]. exact (own_mark_ok KorderedList z (fun _ => HZ)).
Qed.
(** Under a number of three or more digits a nested list is not indented enough: its lines are read as text of the item. *)
Lemma block_reading_items core es0 cs o : run ([], ONone) (split_on NL core) = (es0, (cs, o)) -> ReaderFacts.items cs -> ReaderFacts.is_code o = false -> block_reading core (es0 ++ close_leaf o ++ repeat EEnd (List.length cs)).
Proof.
  intros HR HI HC. exists es0, cs, o, (close_leaf o), cs. split; [exact HR|]. split; [reflexivity|]. split; [|split; [exact HI|reflexivity]].
  unfold step. rewrite (continued_blank cs HI), Nat.eqb_refl. change (opened (S (List.length [])) (true && is_para o) []) with (@nil (container * event), @nil N). destruct o; try discriminate HC; reflexivity.
Qed.
Lemma text_no_cr l : text_line l -> existsb (N.eqb CR) l = false.
Proof. intros (HC & _). unfold classify in HC. destruct (existsb (N.eqb CR) l); [discriminate HC|reflexivity]. Qed.
Lemma step_deep w ls l : 5 <= w -> text_line l -> let line := spaces 4 ++ s "1. " ++ l in step ([CItem w], OPara ls) line = ([], ([CItem w], OPara (ls ++ [line]))).
Proof.
  intros HW HT line. assert (HV : ReaderFacts.visible (s "1. " ++ l)) by (exists 49%N, (s ". " ++ l); split; reflexivity). unfold step, line.
  assert (HC : continued [CItem w] (spaces 4 ++ s "1. " ++ l) = (0, spaces 4 ++ s "1. " ++ l)).
  { cbn [continued]. rewrite (blank_spaces 4 _ HV), (leading_spaces 4 _ HV). destruct w as [|[|[|[|[|w]]]]]; try lia. reflexivity. }
  rewrite HC. cbn [Nat.eqb List.length andb negb is_para].
  assert (HO : forall f, opened f false (spaces 4 ++ s "1. " ++ l) = ([], spaces 4 ++ s "1. " ++ l)) by (intros [|f]; [reflexivity|]; cbn [opened]; rewrite (leading_spaces 4 _ HV); reflexivity).
  rewrite HO. assert (HL : lazy_line (spaces 4 ++ s "1. " ++ l) = true).
  { unfold lazy_line. assert (HCL : classify (spaces 4 ++ s "1. " ++ l) = LIndented); [|now rewrite HCL]. unfold classify. rewrite (blank_spaces 4 _ HV), (leading_spaces 4 _ HV).
    assert (HE : existsb (N.eqb CR) (spaces 4 ++ s "1. " ++ l) = false) by (rewrite !existsb_app, (text_no_cr l HT); reflexivity). rewrite HE. reflexivity. }
  rewrite HL. reflexivity.
Qed.
Theorem C77_number_too_wide : forall E w v n ign z p sub zs r ls t rs, snd (parse_node w v) = Ok n -> numbered n z [[p; sub]] -> numbered sub zs [[r]] -> (100 <= z <= 999999999)%Z ->
  item_lines E KorderedList p ls -> item_lines E KorderedList r (t :: rs) ->
  exists out, to_markdown E n ign = Ok (VStr out) /\ read out = [ENumber (dec z); EPara (ls ++ (s "    1. " ++ t) :: rs); EEnd].
Proof.
  intros E w v n ign z p sub zs r ls t2 more2 HP (HK & HST & is_ & HI & HF) (HKS & _ & is2 & HI2 & HF2) HZ (HKP & (x & HR & HX) & HT)%lines_written (HKR & (y & HRY & HS2) & HTR)%lines_written.
  inversion HF as [|i ? is' ? [HKI HCI] HF']; subst. inversion HF'; subst. inversion HF2 as [|j ? is2' ? [HKJ HCJ] HF2']; subst. inversion HF2'; subst.
  destruct (split_nonempty (rstrip x)) as (t & more & HS). rewrite HS in *. pose proof (parse_consistent _ _ _ HP) as HC.
  assert (HO2 : outline E KorderedList 1 sub (Item 1 0 t2 :: map Cont more2 ++ [] ++ [])).
  { eapply o_list; [exact HKS|exact HI2|]. cbn [filter]. rewrite (is_item_true j HKJ). eapply i_cons; [exact HCJ|exact HKR|exact HRY|exact HS2|constructor|constructor]. }
  assert (HO : outline E KorderedList 0 n (Item 0 0 t :: map Cont more ++ ((Item 1 0 t2 :: map Cont more2 ++ [] ++ []) ++ []) ++ [])).
  { eapply o_list; [exact HK|exact HI|]. cbn [filter]. rewrite (is_item_true i HKI). eapply i_cons; [exact HCI|exact HKP|exact HR|exact HS| |constructor]. apply b_sub; [exact HKS|exact HO2|discriminate|constructor]. }
  destruct (ordered_sound E z 0 n _ HO HC) as (HF0 & _ & HRS). specialize (HRS eq_refl HST). inversion HT as [|? ? HT1 HT2]; subst. inversion HTR as [|? ? HT3 HT4]; subst.
  set (deep := spaces 4 ++ s "1. " ++ t2). set (top := mark_line 0 (Number (dec z)) t).
  assert (HL : map (print_ordered z) (Item 0 0 t :: map Cont more ++ ((Item 1 0 t2 :: map Cont more2 ++ [] ++ []) ++ []) ++ []) = top :: more ++ deep :: more2).
  { assert (HCO : forall l, map (print_ordered z) (map Cont l) = l) by (induction l; cbn; congruence). rewrite !app_nil_r. cbn [map]. rewrite map_app, HCO. cbn [map]. rewrite HCO. cbn [print_ordered Nat.eqb].
    rewrite !Z.add_0_r. f_equal. unfold top, mark_line. cbn [print_mark]. rewrite <- !app_assoc. reflexivity. }
  rewrite HL in HF0, HRS. eexists. split; [destruct ign; [apply ignore_conservative|]; exact HRS|].
  assert (HM : mark_ok (Number (dec z))) by (apply (own_mark_ok KorderedList z); intros _; lia).
  assert (HW : 5 <= mark_width (Number (dec z))).
  { pose proof (dec_bound z) as HD. cbn [mark_width]. destruct (le_lt_dec 3 (List.length (dec z))) as [G|G]; [lia|]. exfalso.
    assert (10 ^ Z.of_nat (List.length (dec z)) <= 10 ^ 2)%Z by (apply Z.pow_le_mono_r; lia). change (10 ^ 2)%Z with 100%Z in *. lia. }
  assert (HSP : split_on NL (join nl (top :: more ++ deep :: more2)) = top :: more ++ deep :: more2) by (apply split_lines; [exact HF0|discriminate]).
  assert (HB : block_reading (join nl (top :: more ++ deep :: more2)) [ENumber (dec z); EPara ((t :: more) ++ deep :: more2); EEnd]).
  { pose proof (block_reading_items (join nl (top :: more ++ deep :: more2)) [ENumber (dec z)] [CItem (mark_width (Number (dec z)))] (OPara ((t :: more) ++ deep :: more2))) as G. apply G; [|constructor; [|constructor]|reflexivity].
    - rewrite HSP. assert (H0 : step ([], ONone) top = ([ENumber (dec z)], ([CItem (mark_width (Number (dec z)))], OPara [t]))).
      { pose proof (step_mark 0 [] [] ONone (Number (dec z)) t) as SM. cbn [app close_leaf List.length repeat] in SM. apply SM; [split; [reflexivity|split; [constructor|cbn; lia]]|split; [constructor|exact I]|exact HM|exact HT1|reflexivity|discriminate]. }
      assert (HIT : ReaderFacts.items [CItem (mark_width (Number (dec z)))]) by (constructor; [|constructor]; exists (List.length (dec z) + 1); cbn [mark_width]; f_equal; lia).
      cbn [run]. rewrite H0, run_app, (run_lazy _ more HIT ltac:(discriminate) HT2). cbn [run]. unfold deep. rewrite (step_deep _ _ t2 HW HT3). rewrite (run_lazy _ more2 HIT ltac:(discriminate) HT4). rewrite <- !app_assoc. reflexivity.
    - exists (List.length (dec z) + 1). cbn [mark_width]. f_equal. lia. }
  apply (read_one _ _ HB). apply solid_lines.
  - destruct (mark_visible (Number (dec z)) t HM) as (c & q & HE & HBL). exists c. rewrite join_cons by (destruct more; discriminate). unfold top, mark_line. rewrite HE. eexists. split; [reflexivity|exact HBL].
  - rewrite HSP. constructor; [unfold top, mark_line; destruct (mark_visible (Number (dec z)) t HM) as (c & q & HE & _); rewrite HE; discriminate|].
    assert (HTN : forall l, Forall text_line l -> Forall (fun q => q <> []) l) by (intros l Hl; eapply Forall_impl; [|exact Hl]; intros q Hq; destruct (text_visible q Hq) as (c & r0 & -> & _); discriminate).
    apply Forall_app. split; [now apply HTN|]. constructor; [discriminate|now apply HTN].
Qed.

(** Text directly after a task list joins the last task. *)
Definition one_task (E : runtime) (n : node) (done : bool) (t : str) (more : list str) : Prop :=
  n_kind n = KtaskList /\ exists c kids xs st, n_content n = Items [c] /\ n_kind c = KtaskItem /\ n_content c = Items kids /\ Forall2 (renders E) kids xs /\ state_of c st /\ (done = true <-> st = VStr (s "DONE")) /\
    split_on NL (rstrip (List.concat xs)) = t :: more.
Theorem C77_text_after_tasks : forall E n l p ign done t more x k, is_document n [l; p] -> one_task E l done t more -> text_line (box done ++ t) -> Forall text_line more ->
  ~ padded_kind (n_kind p) -> block_text E p (x ++ repeat NL k) -> Forall text_line (split_on NL x) ->
  exists out, to_markdown E n ign = Ok (VStr out) /\ read out = [EBullet; EPara ((box done ++ t) :: more ++ split_on NL x); EEnd].
Proof.
  intros E n l p ign done t more x k0 HD (HK & c & kids & xs & st & HI & HKC & HC & HF & HS & HDN & HSP) HT HM HP HB0 HL. destruct (block_writes E p x k0 HB0) as (k & HR).
  assert (HCC : Forall consistent [l; p]) by (destruct HD as ((w & v & HPA) & _ & HII); eapply consistent_items; [eapply parse_consistent; exact HPA|exact HII]). inversion HCC as [|? ? HC1 _]; subst.
  set (y := rstrip (List.concat xs)) in *.
  assert (HR1 : renders E l (print_task (Task 0 done y))).
  { assert (HTS : tasks E 0 l [Task 0 done y]) by (eapply t_list; [exact HK|exact HI|]; eapply e_item; [exact HKC|exact HC|exact HF|exact HS|exact HDN|constructor]). exact (proj1 (tasks_main E) 0 l _ HTS HC1 None eq_refl). }
  pose proof (C27_document E n [l; p] _ ign HD (Forall2_cons _ _ HR1 (Forall2_cons _ _ HR (Forall2_nil _)))) as HMD. eexists. split; [exact HMD|].
  cbn [zip_with]. rewrite (pads_kind l KtaskList) by (try reflexivity; exact HK). unfold laid_out at 1. rewrite (not_padded _ HP).
  match goal with |- context [join nl [?a; ?b]] => change (join nl [a; b]) with (a ++ nl ++ b) end.
  set (tr := Tree Bullet (box done ++ t) (more ++ split_on NL x) []).
  assert (HTL : flat_map (tree_lines 0) [tr] = split_on NL (print_task (Task 0 done y)) ++ split_on NL x).
  { rewrite (split_task 0 done y t more HSP). unfold tr. cbn [flat_map tree_lines]. rewrite !app_nil_r. reflexivity. }
  assert (HJ : print_task (Task 0 done y) ++ nl ++ x = join nl (flat_map (tree_lines 0) [tr])).
  { rewrite HTL, join_app by apply split_on_nonnil. change (join nl (split_on NL ?z)) with (join [NL] (split_on NL z)). rewrite (join_split NL (print_task (Task 0 done y))). f_equal. f_equal. symmetry. exact (join_split NL x). }
  replace (print_task (Task 0 done y) ++ nl ++ x ++ repeat NL k) with (nls 0 ++ join nl (flat_map (tree_lines 0) [tr]) ++ nls k) by (rewrite <- HJ; cbn [nls repeat app]; rewrite <- !app_assoc; reflexivity).
  destruct (reading_list [tr]) as [HB HSO].
  - constructor; [|constructor]. constructor; [exact I|exact HT|now apply Forall_app|exact I|constructor].
  - discriminate.
  - rewrite HTL. apply Forall_app. split; apply split_on_free.
  - exact (presents_read _ _ _ _ (presents_strip _ _ _ _ (presents_one _ _ 0 0 0 k HB HSO (le_n _) (Nat.le_0_l _) (Nat.le_0_l _) (Nat.le_0_l _)))).
Qed.

(** ================================================================ examples: the hypotheses are met *)
Ltac rows_ok := repeat (apply Forall2_cons; [split; [reflexivity|split; [reflexivity|split; [repeat (apply Forall_cons; [(left; reflexivity) || (right; reflexivity)|]); apply Forall_nil|discriminate]]]|]); apply Forall2_nil.
Ltac no_chars := repeat (apply Forall_cons; [repeat (apply Forall_cons; [intros H; vm_compute in H; intuition discriminate|]); apply Forall_nil|]); apply Forall_nil.
Ltac cells_ok := repeat (apply Forall2_cons; [xs_render|]); apply Forall2_nil.
Ltac headed := split; [reflexivity|split; [eexists; split; [reflexivity|rows_ok]|split; [cells_ok|split; [do 2 eexists; split; reflexivity|no_chars]]]].
(** A table with a header row and a header column: the second row, "c | d", is followed by a row of dashes. *)
Example C76_header_column_example : exists n c1 cellss, snd (parse_node true (ex_table [[("tableHeader", "a"); ("tableHeader", "b")]; [("tableHeader", "c"); ("tableCell", "d")]])) = Ok n /\
  headed_table rt0 n c1 cellss [s "a"; s "b"] [[s "c"; s "d"]] /\ body_rows cellss [[s "c"; s "d"]] = [[s "c"; s "d"]; [s "---"; s "---"]].
Proof. do 3 eexists. split; [vm_compute; reflexivity|]. split; [headed|reflexivity]. Qed.
(** Two tables that differ in a third cell only. *)
Example C76_excess_cells_example : exists n1 n2 c1 c2 cs1 cs2,
  snd (parse_node true (ex_table [[("tableHeader", "a"); ("tableHeader", "b")]; [("tableCell", "1"); ("tableCell", "2"); ("tableCell", "3")]])) = Ok n1 /\
  snd (parse_node true (ex_table [[("tableHeader", "a"); ("tableHeader", "b")]; [("tableCell", "1"); ("tableCell", "2"); ("tableCell", "4")]])) = Ok n2 /\
  headed_table rt0 n1 c1 cs1 [s "a"; s "b"] [[s "1"; s "2"; s "3"]] /\ headed_table rt0 n2 c2 cs2 [s "a"; s "b"] [[s "1"; s "2"; s "4"]] /\
  Forall2 (fun xs ys => firstn 2 xs = firstn 2 ys /\ 2 <= List.length xs /\ 2 <= List.length ys) (body_rows cs1 [[s "1"; s "2"; s "3"]]) (body_rows cs2 [[s "1"; s "2"; s "4"]]).
Proof.
  do 6 eexists. split; [vm_compute; reflexivity|]. split; [vm_compute; reflexivity|]. split; [headed|]. split; [headed|]. apply Forall2_cons; [|apply Forall2_nil]. split; [reflexivity|cbn; lia].
Qed.
Example C76_no_header_example : exists n rows cellss, snd (parse_node true (ex_table [[("tableCell", "A")]; [("tableCell", "1")]])) = Ok n /\ n_kind n = Ktable /\ n_content n = Items rows /\ rows <> [] /\
  Forall2 row_of rows cellss /\ Forall (fun cells => ~ header_row cells) cellss /\ Forall2 (Forall2 (renders rt0)) cellss [[s "A"]; [s "1"]] /\
  Forall (Forall (fun x => ~ In CR x)) [[s "A"]; [s "1"]] /\ Forall (fun xs => delimiter_row (row_line xs) = false) [[s "A"]; [s "1"]].
Proof.
  do 3 eexists. split; [vm_compute; reflexivity|]. split; [reflexivity|]. split; [reflexivity|]. split; [discriminate|]. split; [rows_ok|]. split.
  { repeat (apply Forall_cons; [intros (c & r & H & HK); injection H as <- _; discriminate HK|]). apply Forall_nil. }
  split; [cells_ok|]. split; [no_chars|]. repeat constructor.
Qed.
(** A table followed by a paragraph. *)
Example C76_text_after_table_example : exists n t p c1 cellss, is_document n [t; p] /\ headed_table rt0 t c1 cellss [s "a"] [[s "1"]] /\
  ~ padded_kind (n_kind p) /\ block_text rt0 p (s "after" ++ repeat NL 0) /\ Forall text_line (split_on NL (s "after")).
Proof.
  exists (get (ex_doc [ex_table [[("tableHeader", "a")]; [("tableCell", "1")]]; ex_p "after"])). do 4 eexists. split; [split; [exists true, (ex_doc [ex_table [[("tableHeader", "a")]; [("tableCell", "1")]]; ex_p "after"]); vm_compute; reflexivity|split; [vm_compute; reflexivity|vm_compute; reflexivity]]|].
  split; [headed|]. split; [no_pad|]. split; [p_text (s "after")|lines_ok].
Qed.
Ltac bullets_ok := split; [reflexivity|eexists; split; [reflexivity|repeat (apply Forall2_cons; [split; reflexivity|]); apply Forall2_nil]].
Ltac numbered_ok := split; [reflexivity|split; [left; vm_compute; reflexivity|eexists; split; [reflexivity|repeat (apply Forall2_cons; [split; reflexivity|]); apply Forall2_nil]]].
Ltac item_ok x := split; [discriminate|split; [exists x; split; [p_text x|vm_compute; reflexivity]|lines_ok]].
(** - one
    two *)
Example C77_paragraphs_merge_example : exists n p q, snd (parse_node true (ex_ul [ex_li [ex_p "one"; ex_p "two"]])) = Ok n /\ bullets n [[p; q]] /\
  item_lines rt0 KbulletList p [s "one"] /\ Forall2 (item_lines rt0 KbulletList) [q] [[s "two"]].
Proof. do 3 eexists. split; [vm_compute; reflexivity|]. split; [bullets_ok|]. split; [item_ok (s "one")|]. constructor; [item_ok (s "two")|constructor]. Qed.
Example C77_text_after_nested_example : exists n p sub q r, snd (parse_node true (ex_ul [ex_li [ex_p "one"; ex_ul [ex_li [ex_p "deep"]]; ex_p "back"]])) = Ok n /\ bullets n [[p; sub; q]] /\ bullets sub [[r]] /\
  item_lines rt0 KbulletList p [s "one"] /\ item_lines rt0 KbulletList r [s "deep"] /\ Forall2 (item_lines rt0 KbulletList) [q] [[s "back"]].
Proof. do 5 eexists. split; [vm_compute; reflexivity|]. split; [bullets_ok|]. split; [bullets_ok|]. split; [item_ok (s "one")|]. split; [item_ok (s "deep")|]. constructor; [item_ok (s "back")|constructor]. Qed.
Example C77_other_kind_example : exists n p sub r, snd (parse_node true (ex_ul [ex_li [ex_p "one"; ex_ol 3 [ex_li [ex_p "first"]]]])) = Ok n /\ bullets n [[p; sub]] /\ numbered sub 3 [[r]] /\
  item_lines rt0 KbulletList p [s "one"] /\ item_lines rt0 KorderedList r [s "first"].
Proof. do 4 eexists. split; [vm_compute; reflexivity|]. split; [bullets_ok|]. split; [numbered_ok|]. split; [item_ok (s "one")|item_ok (s "first")]. Qed.
Example C77_number_too_wide_example : exists n p sub r, snd (parse_node true (ex_ol 100 [ex_li [ex_p "one"; ex_ol 1 [ex_li [ex_p "deep"]]]])) = Ok n /\ numbered n 100 [[p; sub]] /\ numbered sub 1 [[r]] /\
  item_lines rt0 KorderedList p [s "one"] /\ item_lines rt0 KorderedList r [s "deep"].
Proof. do 4 eexists. split; [vm_compute; reflexivity|]. split; [numbered_ok|]. split; [numbered_ok|]. split; [item_ok (s "one")|item_ok (s "deep")]. Qed.

Example C77_text_after_tasks_example : exists n l p, is_document n [l; p] /\ one_task rt0 l false (s "do") [] /\ text_line (box false ++ s "do") /\
  ~ padded_kind (n_kind p) /\ block_text rt0 p (s "after" ++ repeat NL 0) /\ Forall text_line (split_on NL (s "after")).
Proof.
  exists (get (ex_doc [ex_tl [ex_task "TODO" [tx "do"]]; ex_p "after"])). do 2 eexists. split; [split; [exists true, (ex_doc [ex_tl [ex_task "TODO" [tx "do"]]; ex_p "after"]); vm_compute; reflexivity|split; [vm_compute; reflexivity|vm_compute; reflexivity]]|].
  split; [|split; [t_line|split; [no_pad|split; [p_text (s "after")|lines_ok]]]].
  split; [reflexivity|]. do 2 eexists. exists [s "do"], (VStr (s "TODO")). split; [reflexivity|]. split; [reflexivity|]. split; [reflexivity|]. split; [xs_render|]. split; [eexists; split; [reflexivity|vm_compute; reflexivity]|]. split; [split; discriminate|vm_compute; reflexivity].
Qed.
