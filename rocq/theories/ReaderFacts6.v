(** Tables as the Markdown reader sees them (C75). *)
From Coq Require Import List NArith ZArith Bool String Lia.
From Verif Require Import PyStr Values Schema Parse Markdown StrFacts Collapse SpecTable SpecReader ReaderFacts ReaderFacts2 ReaderFacts3.
Import ListNotations.
Open Scope string_scope.
Open Scope list_scope.
Open Scope nat_scope.

(** ---------------------------------------------------------------- the cells of a row line *)
Fixpoint safe (esc : bool) (x : str) : Prop := match x with [] => True | c :: r => (c = PIPE -> esc = true) /\ safe (N.eqb c BACKSLASH) r end.
Lemma escaped_safe x : pipes_escaped x -> safe false x.
Proof.
  intros H. assert (HG : forall pre, (forall p q, x = p ++ [PIPE] ++ q -> exists p', pre ++ p = p' ++ [BACKSLASH]) -> safe (match rev pre with c :: _ => N.eqb c BACKSLASH | [] => false end) x); [|exact (HG [] H)].
  clear H. induction x as [|c x IH]; intros pre HP; [exact I|]. cbn [safe]. split.
  - intros ->. destruct (HP [] x eq_refl) as (p' & HE). rewrite app_nil_r in HE. rewrite HE, rev_app_distr. reflexivity.
  - specialize (IH (pre ++ [c])). rewrite rev_app_distr in IH. cbn [rev app] in IH. apply IH. intros p q ->. destruct (HP (c :: p) q eq_refl) as (p' & HE). exists p'. rewrite <- app_assoc. exact HE.
Qed.
Fixpoint last_bs (esc : bool) (x : str) : bool := match x with [] => esc | c :: r => last_bs (N.eqb c BACKSLASH) r end.
Lemma is_bs c : is_ch "\" c = N.eqb c BACKSLASH. Proof. reflexivity. Qed.
Lemma is_pipe c : is_ch "|" c = N.eqb c PIPE. Proof. reflexivity. Qed.
Lemma cut_safe x : forall esc acc r, safe esc x -> cut esc acc (x ++ r) = cut (last_bs esc x) (rev x ++ acc) r.
Proof.
  induction x as [|c x IH]; intros esc acc r H; [reflexivity|]. destruct H as [H1 H2]. cbn [app cut last_bs rev]. rewrite is_pipe, is_bs.
  assert (E : N.eqb c PIPE && negb esc = false). { destruct (N.eqb c PIPE) eqn:E; [|reflexivity]. apply N.eqb_eq in E. now rewrite (H1 E). }
  rewrite E, (IH _ (c :: acc) r H2), <- app_assoc. reflexivity.
Qed.
Lemma cut_cell x r esc : safe false x -> cut esc [] (SP :: x ++ SP :: PIPE :: r) = (SP :: x ++ [SP]) :: cut false [] r.
Proof.
  intros H. cbn [cut]. rewrite is_pipe, is_bs. change (N.eqb SP PIPE) with false. change (N.eqb SP BACKSLASH) with false. cbn [andb]. rewrite (cut_safe x false [SP] _ H). cbn [cut]. rewrite !is_pipe, !is_bs.
  change (N.eqb SP PIPE) with false. change (N.eqb SP BACKSLASH) with false. change (N.eqb PIPE PIPE) with true. cbn [andb negb]. f_equal. cbn [rev]. rewrite rev_app_distr, rev_involutive. reflexivity.
Qed.
Lemma cut_row xs : Forall (safe false) xs -> xs <> [] -> cut false [] (SP :: join (s " | ") xs ++ s " |") = map (fun x => SP :: x ++ [SP]) xs ++ [[]].
Proof.
  induction 1 as [|x xs HX HF IH]; intros HN; [now destruct HN|]. destruct xs as [|y xs].
  - cbn [join map app]. change (s " |") with (SP :: PIPE :: []). rewrite (cut_cell x [] false HX). reflexivity.
  - rewrite join_cons by discriminate. cbn [map app]. rewrite <- !app_assoc. change (s " | " ++ ?z) with (SP :: PIPE :: SP :: z).
    match goal with |- context [x ++ SP :: PIPE :: ?r] => rewrite (cut_cell x r false HX) end. f_equal. cbn [map app] in IH. apply IH. discriminate.
Qed.
Lemma lstrip_sp x : lstrip_by blank_ch (x ++ [SP]) = match lstrip_by blank_ch x with [] => [] | y => y ++ [SP] end.
Proof. induction x as [|c x IH]; [reflexivity|]. cbn [app lstrip_by]. destruct (blank_ch c); [exact IH|reflexivity]. Qed.
Lemma rstrip_sp x : rstrip_by blank_ch (x ++ [SP]) = rstrip_by blank_ch x.
Proof. induction x as [|c x IH]; [reflexivity|]. cbn [app rstrip_by]. now rewrite IH. Qed.
Lemma trim_cell x : trim (SP :: x ++ [SP]) = trim x.
Proof.
  unfold trim. change (lstrip_by blank_ch (SP :: x ++ [SP])) with (lstrip_by blank_ch (x ++ [SP])). rewrite lstrip_sp. destruct (lstrip_by blank_ch x) as [|c y] eqn:E; [reflexivity|]. now rewrite rstrip_sp.
Qed.
Lemma row_line_eq xs : row_line xs = PIPE :: SP :: join (s " | ") xs ++ s " |". Proof. reflexivity. Qed.
Lemma cut_pipe r : cut false [] (PIPE :: r) = [] :: cut false [] r. Proof. reflexivity. Qed.
Theorem cells_row xs : Forall pipes_escaped xs -> xs <> [] -> cells (row_line xs) = map trim xs.
Proof.
  intros HF HN. assert (HS : Forall (safe false) xs) by (clear HN; induction HF as [|x xs H _ IH]; constructor; [now apply escaped_safe|exact IH]).
  unfold cells. rewrite row_line_eq, cut_pipe, (cut_row xs HS HN). cbn [rev drop_blank_first blank forallb].
  rewrite rev_app_distr. cbn [rev app drop_blank_first blank forallb]. rewrite rev_involutive, map_map. apply map_ext. intros x. apply trim_cell.
Qed.
(** ---------------------------------------------------------------- row lines as lines *)
Lemma row_not_container xs : starts_container (row_line xs) = false.
Proof.
  rewrite row_line_eq. unfold starts_container. change (after SP (PIPE :: SP :: join (s " | ") xs ++ s " |")) with (PIPE :: SP :: join (s " | ") xs ++ s " |"). cbv zeta.
  change (is_ch ">" PIPE) with false. change (marker (PIPE :: SP :: join (s " | ") xs ++ s " |")) with (@None (bool * str * str)). cbn [orb]. apply andb_false_r.
Qed.
Lemma classify_pipe r : ~ In CR r -> classify (PIPE :: r) = if delimiter_row (PIPE :: r) then LDelim else LRow.
Proof.
  intros HC. unfold classify. assert (E1 : existsb (N.eqb CR) (PIPE :: r) = false) by (apply no_existsb; intros [H|H]; [discriminate H|contradiction]). rewrite E1.
  change (blank (PIPE :: r)) with false. change (leading SP (PIPE :: r)) with 0. change (after SP (PIPE :: r)) with (PIPE :: r). cbv zeta. cbn [Nat.leb].
  change (N.eqb PIPE 9) with false. change (is_ch "#" PIPE) with false. change (is_ch "`" PIPE) with false. change (is_ch "~" PIPE) with false. change (is_ch "<" PIPE) with false. change (is_ch "[" PIPE) with false. cbn [andb]. cbn iota.
  change (forallb (fun d => is_ch "=" d || blank_ch d) (PIPE :: r)) with false. assert (ET : thematic (PIPE :: r) = false) by reflexivity. rewrite ET. destruct (delimiter_row (PIPE :: r)); reflexivity.
Qed.
Lemma in_join c sep xs : In c (join sep xs) -> In c sep \/ exists x, In x xs /\ In c x.
Proof.
  induction xs as [|x xs IH]; [intros []|]. destruct xs as [|y xs]; [intros H; right; exists x; split; [now left|exact H]|]. rewrite join_cons by discriminate. rewrite !in_app_iff.
  intros [H|[H|H]]; [right; exists x; split; [now left|exact H]|now left|]. destruct (IH H) as [H1|(z & H1 & H2)]; [now left|right; exists z; split; [now right|exact H2]].
Qed.
Definition no_breaks (x : str) : Prop := ~ In CR x /\ ~ In NL x.
Lemma row_chars c xs : In c (row_line xs) -> c <> PIPE -> c <> SP -> exists x, In x xs /\ In c x.
Proof.
  rewrite row_line_eq. intros [H|[H|H]] HP HS; [congruence|congruence|]. apply in_app_or in H as [H|H].
  - apply in_join in H as [H|H]; [|exact H]. vm_compute in H. unfold PIPE, SP in *. intuition congruence.
  - vm_compute in H. unfold PIPE, SP in *. intuition congruence.
Qed.
Lemma row_no_breaks xs : Forall no_breaks xs -> no_breaks (row_line xs).
Proof.
  intros HF. split; intros H; apply row_chars in H as (x & H1 & H2); try discriminate; rewrite Forall_forall in HF; destruct (HF x H1); contradiction.
Qed.
Lemma classify_row xs : Forall no_breaks xs -> classify (row_line xs) = if delimiter_row (row_line xs) then LDelim else LRow.
Proof. intros HF. destruct (row_no_breaks xs HF) as [HC _]. rewrite row_line_eq in *. apply classify_pipe. intros H. apply HC. now right. Qed.
Lemma delim_ok n : 0 < n -> delimiter_row (delimiter_line n) = true.
Proof.
  intros HN. unfold delimiter_row. apply andb_true_iff. split.
  - apply forallb_forall. intros c HC. unfold delimiter_line in HC. destruct (N.eq_dec c PIPE) as [->|HP]; [reflexivity|]. destruct (N.eq_dec c SP) as [->|HS]; [reflexivity|].
    destruct (row_chars c _ HC HP HS) as (x & HI & HX). apply repeat_spec in HI. subst x. vm_compute in HX. destruct HX as [<-|[<-|[<-|[]]]]; reflexivity.
  - apply existsb_exists. exists 45%N. split; [|reflexivity]. destruct n as [|n]; [lia|]. unfold delimiter_line. rewrite row_line_eq. right. right. apply in_or_app. left. cbn [repeat]. destruct (repeat (s "---") n); [now left|]. rewrite join_cons by discriminate. now left.
Qed.
Lemma delim_fine n : Forall no_breaks (repeat (s "---") n) /\ Forall pipes_escaped (repeat (s "---") n).
Proof.
  split; apply Forall_forall; intros x HX; apply repeat_spec in HX; subst x.
  - split; vm_compute; intuition discriminate.
  - intros p q HE. exfalso. assert (HI : In PIPE (s "---")) by (rewrite HE; apply in_or_app; right; now left). vm_compute in HI. intuition discriminate.
Qed.
Lemma delim_cells n : 0 < n -> cells (delimiter_line n) = repeat (s "---") n.
Proof.
  intros HN. unfold delimiter_line. rewrite cells_row; [|exact (proj2 (delim_fine n))|destruct n; [lia|discriminate]]. clear HN. induction n as [|n IH]; [reflexivity|]. cbn [repeat map]. rewrite IH. reflexivity.
Qed.
(** ---------------------------------------------------------------- a table as a block *)
Definition fine_row (xs : list str) : Prop := xs <> [] /\ Forall pipes_escaped xs /\ Forall no_breaks xs.
Lemma step_header xs : fine_row xs -> step ([], ONone) (row_line xs) = ([], ([], OHeader (row_line xs))).
Proof.
  intros (_ & _ & HB). rewrite step_top by (right; apply row_not_container). cbn [leaf_step]. rewrite (classify_row xs HB). destruct (delimiter_row (row_line xs)); reflexivity.
Qed.
Lemma step_delim xs : fine_row xs -> step ([], OHeader (row_line xs)) (delimiter_line (List.length xs)) = ([], ([], OTable (map trim xs) [])).
Proof.
  intros (HN & HP & HB). assert (HL : 0 < List.length xs) by (destruct xs; [now destruct HN|cbn; lia]). rewrite step_top by (right; apply row_not_container). cbn [leaf_step].
  unfold delimiter_line at 1. rewrite (classify_row _ (proj1 (delim_fine _))). fold (delimiter_line (List.length xs)). rewrite (delim_ok _ HL), (delim_cells _ HL), (cells_row xs HP HN), map_length, repeat_length, Nat.eqb_refl. reflexivity.
Qed.
Lemma step_row h rs xs : fine_row xs -> step ([], OTable h rs) (row_line xs) = ([], ([], OTable h (rs ++ [fit (List.length h) (map trim xs)]))).
Proof.
  intros (HN & HP & HB). rewrite step_top by (right; apply row_not_container). cbn [leaf_step]. rewrite (classify_row xs HB), (cells_row xs HP HN). destruct (delimiter_row (row_line xs)); reflexivity.
Qed.
Lemma run_rows h xss : Forall fine_row xss -> forall rs, run ([], OTable h rs) (map row_line xss) = ([], ([], OTable h (rs ++ map (fun xs => fit (List.length h) (map trim xs)) xss))).
Proof.
  induction 1 as [|xs xss HX _ IH]; intros rs; cbn [map run]; [now rewrite app_nil_r|]. rewrite step_row by exact HX. rewrite IH, <- app_assoc. reflexivity.
Qed.
Lemma rows_solid ls : ls <> [] -> Forall (fun l => exists xs, l = row_line xs) ls -> Forall (fun l => ~ In NL l) ls -> split_on NL (join nl ls) = ls /\ solid (join nl ls).
Proof.
  intros HN HR HF. assert (HS : split_on NL (join nl ls) = ls) by (now apply split_lines). split; [exact HS|]. apply solid_lines.
  - destruct HR as [|l ls (xs & ->) _]; [now destruct HN|]. rewrite row_line_eq. destruct ls as [|m ls]; [|rewrite join_cons by discriminate]; (exists PIPE; eexists; split; [reflexivity|reflexivity]).
  - rewrite HS. clear -HR. induction HR as [|l ls (xs & ->) _ IH]; constructor; [rewrite row_line_eq; discriminate|exact IH].
Qed.
Lemma fine_map xss : Forall fine_row xss -> Forall (fun l => exists xs, l = row_line xs) (map row_line xss) /\ Forall (fun l => ~ In NL l) (map row_line xss).
Proof. induction 1 as [|xs xss (_ & _ & HB) _ [IH1 IH2]]; split; cbn [map]; constructor; try assumption; [eauto|exact (proj2 (row_no_breaks xs HB))]. Qed.
Lemma delim_fine_row n : 0 < n -> fine_row (repeat (s "---") n).
Proof. intros HN. destruct (delim_fine n) as [H1 H2]. split; [destruct n; [lia|discriminate]|]. split; assumption. Qed.
Theorem reading_table xs xss : fine_row xs -> Forall fine_row xss ->
  let core := join nl (row_line xs :: delimiter_line (List.length xs) :: map row_line xss) in
  block_reading core [ETable (map trim xs) (map (fun r => fit (List.length xs) (map trim r)) xss)] /\ solid core.
Proof.
  intros HX HF core. assert (HL : 0 < List.length xs) by (destruct HX as (HN & _); destruct xs; [now destruct HN|cbn; lia]).
  assert (HALL : Forall fine_row (xs :: repeat (s "---") (List.length xs) :: xss)) by (constructor; [exact HX|]; constructor; [now apply delim_fine_row|exact HF]).
  destruct (fine_map _ HALL) as [HR HNL]. destruct (rows_solid (row_line xs :: delimiter_line (List.length xs) :: map row_line xss)) as [HS HSO]; [discriminate|exact HR|exact HNL|]. split; [|exact HSO].
  apply (block_reading_top core [] (OTable (map trim xs) (map (fun r => fit (List.length xs) (map trim r)) xss))); [|reflexivity]. unfold core. rewrite HS. cbn [run]. rewrite (step_header xs HX), (step_delim xs HX).
  rewrite (run_rows _ xss HF []). rewrite map_length. reflexivity.
Qed.
(** Rows without a delimiter line are only text. *)
Lemma run_para_rows xss : Forall fine_row xss -> Forall (fun xs => delimiter_row (row_line xs) = false) xss -> forall ls, run ([], OPara ls) (map row_line xss) = ([], ([], OPara (ls ++ map row_line xss))).
Proof.
  induction 1 as [|xs xss (_ & _ & HB) _ IH]; intros HD ls; cbn [map run]; [now rewrite app_nil_r|]. inversion HD as [|? ? HD1 HD2]; subst. rewrite step_top by (right; apply row_not_container). cbn [leaf_step]. rewrite (classify_row xs HB), HD1.
  cbn [add_para]. rewrite (IH HD2), <- app_assoc. reflexivity.
Qed.
Theorem reading_no_header xss : xss <> [] -> Forall fine_row xss -> Forall (fun xs => delimiter_row (row_line xs) = false) xss ->
  block_reading (join nl (map row_line xss)) [EPara (map row_line xss)] /\ solid (join nl (map row_line xss)).
Proof.
  intros HN HF HD. destruct (fine_map _ HF) as [HR HNL]. destruct (rows_solid (map row_line xss)) as [HS HSO]; [destruct xss; [now destruct HN|discriminate]|exact HR|exact HNL|]. split; [|exact HSO].
  destruct xss as [|x1 xss]; [now destruct HN|]. inversion HF as [|? ? HF1 HF2]; subst. inversion HD as [|? ? HD1 HD2]; subst. destruct xss as [|x2 xss].
  - apply (block_reading_top _ [] (OHeader (row_line x1))); [|reflexivity]. rewrite HS. cbn [map run]. rewrite (step_header x1 HF1). reflexivity.
  - apply (block_reading_top _ [] (OPara (map row_line (x1 :: x2 :: xss)))); [|reflexivity]. rewrite HS. cbn [map run]. rewrite (step_header x1 HF1).
    inversion HF2 as [|? ? (_ & _ & HB) HF3]; subst. inversion HD2 as [|? ? HD3 HD4]; subst. rewrite step_top by (right; apply row_not_container). cbn [leaf_step]. rewrite (classify_row x2 HB), HD3. cbn [add_para].
    rewrite (run_para_rows xss HF3 HD4 [row_line x1; row_line x2]). reflexivity.
Qed.
