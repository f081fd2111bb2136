(** Proofs about table rendering. *)
From Coq Require Import List NArith ZArith Bool String Lia.
From Verif Require Import PyStr Values Schema Parse Date Markdown Basics StrFacts MarkFacts SpecParse ParseFacts4
  MdFacts SpecMd MdFacts2 LeafFacts Collapse LayoutFacts SpecErr ErrFacts SpecTable.
Import ListNotations.
Open Scope string_scope.
Open Scope list_scope.

(** ---------------------------------------------------------------- strings *)
Lemma escape_replace x : replace (s "|") (s "\|") x = escape x.
Proof.
  change (s "|") with [PIPE]. rewrite replace_char. induction x as [|c x IH]; [reflexivity|]. cbn [flat_map escape].
  rewrite N.eqb_sym, IH. destruct (N.eqb_spec c PIPE); reflexivity.
Qed.
Lemma escape_in c x : In c (escape x) -> In c x \/ c = BACKSLASH.
Proof.
  induction x as [|a x IH]; [auto|]. cbn [escape]. destruct (N.eqb_spec a PIPE) as [->|].
  - intros [<-|[<-|H]]; [auto|left; now left|]. destruct (IH H); [left; now right|auto].
  - intros [<-|H]; [left; now left|]. destruct (IH H); [left; now right|auto].
Qed.
Lemma escape_in2 c x : c <> PIPE -> In c x -> In c (escape x).
Proof.
  intros Hc. induction x as [|a x IH]; [auto|]. cbn [escape]. destruct (N.eqb_spec a PIPE) as [->|].
  - intros [<-|H]; [congruence|]. right; right; auto.
  - intros [<-|H]; [now left|right; auto].
Qed.
Lemma escape_free x : ~ In PIPE x -> escape x = x.
Proof. intros H. rewrite <- escape_replace. now apply replace_char_notin. Qed.
Lemma split_cons c x : split_on c x = hd [] (split_on c x) :: tl (split_on c x).
Proof. pose proof (split_on_nonnil c x). now destruct (split_on c x). Qed.
Lemma split_escape x : split_on NL (escape x) = map escape (split_on NL x).
Proof.
  induction x as [|c x IH]; [reflexivity|]. cbn [escape]. destruct (N.eqb_spec c PIPE) as [->|].
  - cbn [split_on]. change (BACKSLASH =? NL)%N with false. change (PIPE =? NL)%N with false. cbn iota. rewrite IH.
    destruct (split_on NL x); reflexivity.
  - cbn [split_on]. rewrite IH. destruct (N.eqb_spec c NL) as [->|]; [reflexivity|].
    destruct (split_on NL x) as [|l ls]; cbn [map escape]; rewrite (proj2 (N.eqb_neq c PIPE) n); reflexivity.
Qed.
Lemma lstrip_sp_split l : exists k, leading_spaces k (lstrip_sp l) l.
Proof.
  induction l as [|c l (k & H1 & H2)]; [exists 0; split; [reflexivity|discriminate]|].
  unfold lstrip_sp in *. cbn [lstrip_by]. destruct (N.eqb_spec SP c) as [<-|Hc].
  - exists (S k). split; [cbn; now rewrite <- H1|exact H2].
  - exists 0. split; [reflexivity|]. intros r Hr. assert (c = SP) by congruence. congruence.
Qed.
Lemma leading_unique k rest l : leading_spaces k rest l -> lstrip_sp l = rest.
Proof.
  intros [-> H]. unfold lstrip_sp. induction k as [|k IH]; [|exact IH].
  cbn [repeat app]. destruct rest as [|c r]; [reflexivity|]. cbn [lstrip_by]. destruct (N.eqb_spec SP c) as [<-|]; [|reflexivity].
  now destruct (H r).
Qed.
Lemma nbsp_repeat k : repeat_nat (s "&nbsp;") k = nbsp k.
Proof. induction k as [|k IH]; cbn [repeat_nat nbsp]; now rewrite ?IH. Qed.
Lemma cell_line_spec k rest l : leading_spaces k rest l -> cell_line l = nbsp k ++ rest.
Proof.
  intros H. unfold cell_line. rewrite (leading_unique _ _ _ H). destruct H as [-> H].
  rewrite app_length, repeat_length. replace (k + List.length rest - List.length rest) with k by lia.
  destruct k as [|k]; [reflexivity|]. cbn [Nat.ltb Nat.leb]. now rewrite nbsp_repeat.
Qed.
Lemma leading_escape k rest l : leading_spaces k rest l -> leading_spaces k (escape rest) (escape l).
Proof.
  intros [-> H]. split.
  - induction k as [|k IH]; [reflexivity|]. cbn [repeat app escape]. change (SP =? PIPE)%N with false. cbn iota. now rewrite IH.
  - intros r Hr. destruct rest as [|c rest]; [discriminate|]. cbn [escape] in Hr.
    destruct (N.eqb_spec c PIPE).
    + pose proof (f_equal (hd 0%N) Hr) as K. cbn [hd] in K. discriminate.
    + pose proof (f_equal (hd 0%N) Hr) as K. cbn [hd] in K. apply (H rest). congruence.
Qed.
Lemma cell_text_lines x : cell_text x = join (s "<br>") (map (fun l => cell_line (escape l)) (split_on NL x)).
Proof. unfold cell_text. now rewrite escape_replace, split_escape, map_map. Qed.

Lemma nbsp_in c k : In c (nbsp k) -> In c (s "&nbsp;").
Proof. induction k as [|k IH]; [intros []|]. cbn [nbsp]. intros H. apply in_app_or in H as [H|H]; auto. Qed.
Lemma cell_line_in c l : In c (cell_line l) -> In c l \/ In c (s "&nbsp;").
Proof.
  destruct (lstrip_sp_split l) as [k H]. rewrite (cell_line_spec _ _ _ H). intros HI. apply in_app_or in HI as [HI|HI].
  - right. now apply nbsp_in in HI.
  - left. destruct H as [-> _]. apply in_or_app. now right.
Qed.
Lemma cell_text_no_nl x : ~ In NL (cell_text x).
Proof.
  rewrite cell_text_lines. intros H. apply in_join in H as [H|(l & Hl & H)].
  - vm_compute in H. intuition congruence.
  - apply in_map_iff in Hl as (y & <- & Hy). pose proof (split_on_free NL x) as HF. rewrite Forall_forall in HF.
    specialize (HF y Hy). apply cell_line_in in H as [H|H].
    + apply escape_in in H as [H|H]; [auto|discriminate].
    + vm_compute in H. intuition congruence.
Qed.

(** Scanning for unescaped pipes; [st]: the previous character was a backslash. *)
Fixpoint last_bs (st : bool) (x : str) : bool := match x with [] => st | c :: r => last_bs (N.eqb c BACKSLASH) r end.
Lemma boundaries_app st a b : boundaries st (a ++ b) = boundaries st a + boundaries (last_bs st a) b.
Proof. revert st. induction a as [|c a IH]; intros st; [reflexivity|]. cbn [app boundaries last_bs]. rewrite IH. lia. Qed.
Lemma boundaries_free st x : ~ In PIPE x -> boundaries st x = 0.
Proof.
  revert st. induction x as [|c x IH]; intros st H; [reflexivity|]. cbn [boundaries].
  destruct (N.eqb_spec c PIPE) as [->|]; [exfalso; apply H; now left|]. rewrite IH; [reflexivity|]. intros K; apply H; now right.
Qed.
Lemma boundaries_escape st x : boundaries st (escape x) = 0.
Proof.
  revert st. induction x as [|c x IH]; intros st; [reflexivity|]. cbn [escape]. destruct (N.eqb_spec c PIPE) as [->|].
  - cbn [boundaries]. change (BACKSLASH =? PIPE)%N with false. change (BACKSLASH =? BACKSLASH)%N with true.
    change (PIPE =? PIPE)%N with true. cbn iota. rewrite IH. reflexivity.
  - cbn [boundaries]. destruct (N.eqb_spec c PIPE); [congruence|]. now rewrite IH.
Qed.
(** No pipe is unescaped, whatever precedes the text. *)
Lemma cell_line_escape_boundaries st l : boundaries st (cell_line (escape l)) = 0.
Proof.
  destruct (lstrip_sp_split l) as [k H]. apply leading_escape in H. rewrite (cell_line_spec _ _ _ H).
  rewrite boundaries_app, boundaries_escape, boundaries_free; [reflexivity|].
  intros K. apply nbsp_in in K. vm_compute in K. intuition congruence.
Qed.
Lemma boundaries_join st sep l : (forall b, boundaries b sep = 0) -> (forall x, In x l -> forall b, boundaries b x = 0) ->
  boundaries st (join sep l) = 0.
Proof.
  intros HS. revert st. induction l as [|x l IH]; intros st HL; [reflexivity|].
  destruct l as [|y l]; [apply HL; now left|]. rewrite join_cons by discriminate.
  rewrite !boundaries_app, HS, (HL x) by (now left). rewrite IH; [reflexivity|]. intros z Hz. apply HL. now right.
Qed.
Lemma cell_text_boundaries st x : boundaries st (cell_text x) = 0.
Proof.
  rewrite cell_text_lines. apply boundaries_join.
  - intros b. apply boundaries_free. intros H. vm_compute in H. intuition congruence.
  - intros l Hl b. apply in_map_iff in Hl as (y & <- & _). apply cell_line_escape_boundaries.
Qed.
Lemma boundaries_pipes x : (forall b, boundaries b x = 0) -> pipes_escaped x.
Proof.
  intros H p q ->. specialize (H false). rewrite !boundaries_app in H. cbn [boundaries] in H.
  change (PIPE =? PIPE)%N with true in H. cbn iota in H.
  destruct (last_bs false p) eqn:E; [|lia]. clear H.
  destruct p as [|c p] using rev_ind; [discriminate|]. clear IHp.
  assert (HL : forall st, last_bs st (p ++ [c]) = N.eqb c BACKSLASH).
  { clear. induction p as [|a p IH]; intros st; [reflexivity|]. cbn. apply IH. }
  rewrite HL in E. apply N.eqb_eq in E. subst c. now exists p.
Qed.

(** ---------------------------------------------------------------- nodes *)
Lemma table_cell_eq E k ty ve tx a co ma ign : k = KtableCell \/ k = KtableHeader ->
  to_md E (Node k ty ve tx a co ma) None ign = table_cell_md (to_md E) co ign.
Proof. now intros [->| ->]. Qed.
Lemma cell_renders_cell E n x : is_cell n -> renders E n x -> exists y, x = cell_text y.
Proof.
  destruct n as [k ty ve tx a co ma]. unfold is_cell, renders, to_markdown. cbn [n_kind].
  intros [->| ->]; cbn [to_md table_cell_md]; intros H; apply rbind_ok in H as (y & _ & H);
    exists y; match type of H with Ok ?a = Ok ?b => assert (a = b) as HE by congruence end;
    match type of HE with VStr ?a = VStr ?b => assert (a = b) by congruence end; congruence.
Qed.
Lemma cell_result_cell E n ign x : is_cell n -> to_markdown E n ign = Ok (VStr x) -> exists y, x = cell_text y.
Proof.
  destruct n as [k ty ve tx a co ma]. unfold is_cell, to_markdown. cbn [n_kind]. intros HC H.
  rewrite table_cell_eq in H by exact HC. unfold table_cell_md in H. apply rbind_ok in H as (y & _ & H).
  exists y. apply okstr_inj in H. symmetry. exact H.
Qed.
Lemma row_renders E row cells xs ign : row_of row cells -> Forall2 (renders E) cells xs ->
  to_markdown E row ign = Ok (VStr (row_line xs)).
Proof.
  intros (HK & HI & _ & _) HF. destruct row as [k ty ve tx a co ma]. cbn [n_kind n_content] in *. subst k co.
  unfold to_markdown. cbn [to_md]. unfold table_row_md, loop.
  rewrite (for_each_single _ cells (map VStr xs)).
  - cbn [rbind]. rewrite join_values_str. reflexivity.
  - clear - HF. induction HF as [|n x l xs H HF IH]; constructor; [|exact IH].
    assert (HE : to_md E n None ign = Ok (VStr x)) by (destruct ign; [apply ignore_conservative|]; exact H).
    now rewrite HE.
Qed.
Lemma header_width_row row cells : consistent row -> row_of row cells ->
  header_width row = Ok (if header_rowb cells then Some (List.length cells) else None).
Proof.
  intros HC (HK & HI & HF & HN). unfold header_width. rewrite HI. destruct cells as [|c l]; [congruence|].
  pose proof (consistent_items _ _ HC HI) as HCC. inversion HCC; subst.
  rewrite (type_is c "tableHeader" KtableHeader) by (assumption || reflexivity). cbn [header_rowb List.length].
  destruct (nk_eq_dec (n_kind c) KtableHeader) as [->|]; [reflexivity|].
  inversion HF as [|? ? [K|K] _]; subst; [now rewrite K|congruence].
Qed.
Lemma delimiter_delimiter n : delimiter n = delimiter_line n.
Proof. reflexivity. Qed.

(** The lines a row contributes. *)
Definition row_lines (cells : list node) (xs : list str) : list str :=
  if header_rowb cells then [row_line xs; delimiter_line (List.length cells)] else [row_line xs].
Lemma for_each_ok {A B} (f : A -> res (list B)) l yss :
  Forall2 (fun a ys => f a = Ok ys) l yss -> for_each f l = Ok (List.concat yss).
Proof. induction 1 as [|a b l ys H _ IH]; [reflexivity|]. cbn. rewrite H. cbn. fold (for_each f). now rewrite IH. Qed.
Lemma table_renders E n rows cellss xss ign : is_table n rows cellss -> Forall2 (Forall2 (renders E)) cellss xss ->
  to_markdown E n ign = Ok (VStr (join nl (List.concat (zip_with row_lines cellss xss)))).
Proof.
  intros ((w & v & HP) & HK & HI & HR) HX. apply parse_consistent in HP. pose proof (consistent_items _ _ HP HI) as HC.
  destruct n as [k ty ve tx a co ma]. cbn [n_kind n_content] in *. subst k co. clear HP.
  unfold to_markdown. cbn [to_md]. unfold table_md, loop.
  rewrite (for_each_ok _ rows (map (map VStr) (zip_with row_lines cellss xss))).
  - cbn [rbind]. rewrite <- concat_map, join_values_str. reflexivity.
  - revert xss HX. induction HR as [|r cs rows cellss HRow HR IH]; intros xss HX; inversion HX; subst; [constructor|].
    inversion HC; subst. cbn [zip_with map]. constructor; [|auto].
    unfold table_row_lines. match goal with H : Forall2 (renders E) cs ?y |- _ => pose proof (row_renders E r cs y false HRow H) as HW end.
    unfold to_markdown in HW. rewrite HW, (header_width_row r cs) by assumption. unfold row_lines.
    destruct (header_rowb cs); reflexivity.
Qed.
Lemma delimiter_no_nl n : ~ In NL (delimiter_line n).
Proof.
  unfold delimiter_line, row_line. intros H. apply in_app_or in H as [H|H]; [vm_compute in H; intuition congruence|].
  apply in_app_or in H as [H|H]; [|vm_compute in H; intuition congruence].
  apply in_join in H as [H|(x & Hx & H)]; [vm_compute in H; intuition congruence|].
  apply repeat_spec in Hx. subst x. vm_compute in H. intuition congruence.
Qed.
Lemma row_no_nl E cells xs : Forall is_cell cells -> Forall2 (renders E) cells xs -> ~ In NL (row_line xs).
Proof.
  intros HC HF H. unfold row_line in H. apply in_app_or in H as [H|H]; [vm_compute in H; intuition congruence|].
  apply in_app_or in H as [H|H]; [|vm_compute in H; intuition congruence].
  apply in_join in H as [H|(x & Hx & H)]; [vm_compute in H; intuition congruence|].
  induction HF as [|n y l ys HR HF IH]; [destruct Hx|]. inversion HC; subst. destruct Hx as [->|Hx]; [|auto].
  destruct (cell_renders_cell E n x) as [z ->]; auto. now apply cell_text_no_nl in H.
Qed.
Lemma row_line_boundaries xs : xs <> [] -> (forall x, In x xs -> forall b, boundaries b x = 0) ->
  boundaries false (row_line xs) = S (List.length xs).
Proof.
  intros HN HX. unfold row_line. rewrite boundaries_app. change (boundaries false (s "| ")) with 1. change (last_bs false (s "| ")) with false.
  cut (forall st, boundaries st (join (s " | ") xs ++ s " |") = List.length xs); [intros ->; reflexivity|].
  induction xs as [|x l IH]; [congruence|]. intros st.
  assert (HB : forall b r, boundaries b (s " |" ++ r) = S (boundaries false r)) by reflexivity.
  destruct l as [|y l].
  - cbn [join]. rewrite boundaries_app, (HX x) by (now left). rewrite <- (app_nil_r (s " |")), HB. reflexivity.
  - rewrite join_cons by discriminate. change (s " | ") with (s " |" ++ s " ") at 1. rewrite <- !app_assoc.
    rewrite boundaries_app, (HX x) by (now left). rewrite HB.
    change (boundaries false (s " " ++ join (s " | ") (y :: l) ++ s " |")) with (boundaries false (join (s " | ") (y :: l) ++ s " |")).
    rewrite IH; [reflexivity|discriminate|]. intros z Hz. apply HX. now right.
Qed.
Lemma cells_boundaries E cells xs : Forall is_cell cells -> Forall2 (renders E) cells xs ->
  forall x, In x xs -> forall b, boundaries b x = 0.
Proof.
  intros HC HF x Hx b. induction HF as [|n y l ys HR HF IH]; [destruct Hx|]. inversion HC; subst.
  destruct Hx as [->|Hx]; [|auto]. destruct (cell_renders_cell E n x) as [z ->]; auto. apply cell_text_boundaries.
Qed.
