(** Single blocks as the Markdown reader sees them: headings, paragraphs, rules, code (C75). *)
From Coq Require Import List NArith ZArith Bool String Lia.
From Verif Require Import PyStr Markdown StrFacts Collapse SpecMd SpecReader ReaderFacts Properties_Nodes.
Import ListNotations.
Open Scope string_scope.
Open Scope list_scope.
Open Scope nat_scope.

(** ---------------------------------------------------------------- no collapsing *)
Lemma strip_no3 x : ~ contains (nls 3) x -> strip_double_empty_line x = x.
Proof.
  induction x as [|k b HK HB IH|c b HC IH] using run_ind; intros H; [reflexivity| |].
  - rewrite contains_nls_run in H by exact HB. rewrite strip_run by exact HB. rewrite squeeze_small by lia. rewrite IH by tauto. reflexivity.
  - rewrite contains_nls_char in H by (lia || exact HC). rewrite strip_char by exact HC. now rewrite IH.
Qed.
Lemma no3_prefix p x : ~ In NL p -> ~ contains (nls 3) x -> ~ contains (nls 3) (p ++ x).
Proof.
  induction p as [|c p IH]; intros HP HX; [exact HX|]. cbn [app]. rewrite contains_nls_char; [|lia|intros ->; apply HP; now left]. apply IH; [intros H; apply HP; now right|exact HX].
Qed.
Lemma contains_rev a x : contains a x -> contains (rev a) (rev x).
Proof. intros (p & q & ->). exists (rev q), (rev p). now rewrite !rev_app_distr, <- app_assoc. Qed.
Lemma no3_suffix x q : ~ In NL q -> ~ contains (nls 3) x -> ~ contains (nls 3) (x ++ q).
Proof.
  intros HQ HX H. apply contains_rev in H. rewrite rev_app_distr in H. change (rev (nls 3)) with (nls 3) in H.
  apply no3_prefix in H; [exact H|rewrite <- in_rev; exact HQ|]. intros H2. apply contains_rev in H2. rewrite rev_involutive in H2. exact (HX H2).
Qed.
Lemma lines_no3 x : Forall (fun l => l <> []) (split_on NL x) -> ~ contains (nls 3) x.
Proof.
  intros H (p & q & ->). change (nls 3 ++ q) with (NL :: [] ++ NL :: (NL :: q)) in H. rewrite split_nl in H. apply Forall_app in H as [_ H]. cbn [split_on app] in H.
  rewrite N.eqb_refl in H. inversion H as [|? ? H1]; subst. now apply H1.
Qed.
Lemma ends_clean_last x c : c <> NL -> ends_clean (x ++ [c]).
Proof. intros H. unfold ends_clean. rewrite rev_app_distr. exact H. Qed.
Lemma ends_clean_free x : ~ In NL x -> ends_clean x.
Proof. intros H. unfold ends_clean, starts_clean. destruct (rev x) as [|c r] eqn:ER; [exact I|]. intros ->. apply H. apply in_rev. rewrite ER. now left. Qed.
Lemma ends_clean_app x y : y <> [] -> ends_clean y -> ends_clean (x ++ y).
Proof.
  intros HY H. unfold ends_clean in *. rewrite rev_app_distr. destruct (rev y) as [|c r] eqn:ER; [|exact H]. apply (f_equal (@rev N)) in ER. rewrite rev_involutive in ER. now destruct HY.
Qed.
(** A block of lines none of which is empty. *)
Lemma ends_clean_lines x : Forall (fun l => l <> []) (split_on NL x) -> ends_clean x.
Proof.
  intros H. unfold ends_clean, starts_clean. destruct (rev x) as [|c r] eqn:ER; [exact I|]. intros ->. apply (f_equal (@rev N)) in ER. rewrite rev_involutive in ER. subst x.
  change (rev (NL :: r)) with (rev r ++ NL :: []) in H. rewrite split_nl in H. apply Forall_app in H as [_ H]. inversion H as [|? ? H1]; subst. now apply H1.
Qed.
Lemma solid_lines x : (exists c r, x = c :: r /\ blank_ch c = false) -> Forall (fun l => l <> []) (split_on NL x) -> solid x.
Proof.
  intros (c & r & -> & HB) HL. split; [|split].
  - exists c, r. split; [reflexivity|]. split; [exact HB|]. intros ->. inversion HL as [|? ? H1]; subst. now apply H1.
  - now apply ends_clean_lines.
  - apply strip_no3. now apply lines_no3.
Qed.
Lemma solid_line x : visible x -> ~ In NL x -> solid x.
Proof.
  intros (c & r & -> & HB) HN. apply solid_lines; [eauto|]. rewrite split_on_notin by exact HN. repeat constructor. discriminate.
Qed.

(** ---------------------------------------------------------------- text lines *)
Lemma text_visible l : text_line l -> visible l.
Proof.
  intros (HC & _ & HS). destruct l as [|c r]; [discriminate HC|]. exists c, r. split; [reflexivity|]. unfold blank_ch. apply orb_false_iff.
  destruct (N.eqb c SP) eqn:E1; [apply N.eqb_eq in E1; subst; now destruct (HS r)|]. split; [reflexivity|]. destruct (N.eqb c 9) eqn:E2; [|reflexivity]. exfalso.
  unfold classify in HC. destruct (existsb (N.eqb CR) (c :: r)); [discriminate HC|]. destruct (blank (c :: r)); [discriminate HC|].
  assert (HA : after SP (c :: r) = c :: r) by (unfold after; cbn [leading]; now rewrite E1). assert (HL : leading SP (c :: r) = 0) by (cbn [leading]; now rewrite E1).
  cbv zeta in HC. rewrite HA, HL in HC. cbn [Nat.leb] in HC. rewrite E2 in HC. discriminate HC.
Qed.
Lemma step_text_none l : text_line l -> step ([], ONone) l = ([], ([], OPara [l])).
Proof. intros (HC & HS & _). rewrite step_top by (right; exact HS). cbn [leaf_step]. now rewrite HC. Qed.
Lemma step_text_para ls l : text_line l -> step ([], OPara ls) l = ([], ([], OPara (ls ++ [l]))).
Proof. intros (HC & HS & _). rewrite step_top by (right; exact HS). cbn [leaf_step]. now rewrite HC. Qed.
Lemma run_text more : Forall text_line more -> forall ls, run ([], OPara ls) more = ([], ([], OPara (ls ++ more))).
Proof.
  induction 1 as [|l more HL _ IH]; intros ls; cbn [run]; [now rewrite app_nil_r|]. rewrite step_text_para by exact HL. rewrite IH. now rewrite <- app_assoc.
Qed.
Lemma reading_para t : Forall text_line (split_on NL t) -> block_reading t [EPara (split_on NL t)] /\ solid t.
Proof.
  intros H. split.
  - destruct (split_on NL t) as [|l more] eqn:ES; [now destruct (split_on_nonnil NL t)|]. apply Forall_cons_iff in H as [HL HM].
    apply (block_reading_top t [] (OPara (l :: more))); [|reflexivity]. rewrite ES. cbn [run]. rewrite step_text_none by exact HL. now rewrite run_text.
  - apply solid_lines.
    + destruct (split_on NL t) as [|l more] eqn:ES; [now destruct (split_on_nonnil NL t)|]. apply Forall_cons_iff in H as [HL _]. destruct (text_visible l HL) as (c & r & -> & HC).
      destruct t as [|d t]; [discriminate ES|]. cbn [split_on] in ES. destruct (N.eqb d NL); [discriminate ES|]. exists d, t. split; [reflexivity|]. destruct (split_on NL t); injection ES as -> _ _; exact HC.
    + apply Forall_forall. intros l HI. rewrite Forall_forall in H. destruct (text_visible l (H l HI)) as (c & r & -> & _). discriminate.
Qed.

(** ---------------------------------------------------------------- headings *)
Definition no_char (c : N) (l : str) : Prop := ~ In c l.
Lemma no_existsb c l : ~ In c l -> existsb (N.eqb c) l = false.
Proof.
  intros H. destruct (existsb (N.eqb c) l) eqn:E; [|reflexivity]. apply existsb_exists in E as (d & HI & HE). apply N.eqb_eq in HE. subst. contradiction.
Qed.
Lemma existsb_appc c a b : existsb (N.eqb c) (a ++ b) = existsb (N.eqb c) a || existsb (N.eqb c) b. Proof. apply existsb_app. Qed.
Lemma rstrip_last q d : blank_ch d = false -> rstrip_by blank_ch (q ++ [d]) = q ++ [d].
Proof. intros H. induction q as [|c q IH]; cbn [app rstrip_by]; [now rewrite H|]. rewrite IH. now destruct (q ++ [d]) eqn:E; [destruct q|]. Qed.
(** Starts and ends with a visible character. *)
Definition trimmed (t : str) : Prop := visible t /\ exists q d, t = q ++ [d] /\ blank_ch d = false.
Lemma trim_trimmed t : trimmed t -> trim t = t.
Proof.
  intros [(c & r & -> & HC) (q & d & HE & HD)]. unfold trim. cbn [lstrip_by]. rewrite HC, HE. now apply rstrip_last.
Qed.
Lemma trim_sp t : trimmed t -> trim (SP :: t) = t.
Proof. intros H. rewrite <- (trim_trimmed t H) at 2. reflexivity. Qed.
Lemma heading_text_ok t : trimmed t -> (forall q, t <> q ++ [35%N]) -> heading_text (SP :: t) = t.
Proof.
  intros HT HH. unfold heading_text. cbv zeta. rewrite (trim_sp t HT). destruct HT as [_ (q & d & -> & HD)]. rewrite rev_app_distr. cbn [rev app leading].
  destruct (N.eqb d 35) eqn:E; [apply N.eqb_eq in E; subst; now destruct (HH q)|]. reflexivity.
Qed.
Lemma leading_hashes n t : leading 35 (hashes n ++ SP :: t) = n /\ after 35 (hashes n ++ SP :: t) = SP :: t.
Proof.
  unfold after. assert (H : leading 35 (hashes n ++ SP :: t) = n) by (induction n as [|n IH]; [reflexivity|]; cbn [hashes app]; change (leading 35 ((s "#" ++ hashes n) ++ SP :: t)) with (S (leading 35 (hashes n ++ SP :: t))); now rewrite IH).
  split; [exact H|]. rewrite H. clear H. induction n as [|n IH]; [reflexivity|]. exact IH.
Qed.
Lemma hashes_chars n c : In c (hashes n) -> c = 35%N.
Proof. induction n as [|n IH]; [intros []|]. change (hashes (S n)) with (35%N :: hashes n). intros [<-|H]; [reflexivity|auto]. Qed.
Lemma classify_heading n t : 1 <= n <= 6 -> ~ In CR t -> trimmed t -> (forall q, t <> q ++ [35%N]) -> classify (hashes n ++ SP :: t) = LHead n t.
Proof.
  intros HN HC HT HH. destruct (leading_hashes n t) as [HL HA]. destruct n as [|n]; [lia|]. unfold classify.
  assert (E1 : existsb (N.eqb CR) (hashes (S n) ++ SP :: t) = false).
  { rewrite existsb_app. apply orb_false_iff. split; [apply no_existsb; intros HI; apply hashes_chars in HI; discriminate HI|]. cbn [existsb]. now rewrite (no_existsb CR t HC). }
  rewrite E1. change (blank (hashes (S n) ++ SP :: t)) with false. change (leading SP (hashes (S n) ++ SP :: t)) with 0. cbv zeta. change (after SP (hashes (S n) ++ SP :: t)) with (hashes (S n) ++ SP :: t).
  cbn [Nat.leb]. change (hashes (S n) ++ SP :: t) with (35%N :: (hashes n ++ SP :: t)) at 1. cbn iota. change (N.eqb 35 9) with false. change (is_ch "#" 35) with true. cbn iota.
  rewrite HL, HA. assert (E2 : (S n <=? 6) = true) by (apply Nat.leb_le; lia). rewrite E2. change (blank_ch SP) with true. cbn [andb]. now rewrite heading_text_ok.
Qed.
Lemma reading_heading n t : 1 <= n <= 6 -> ~ In CR t -> ~ In NL t -> trimmed t -> (forall q, t <> q ++ [35%N]) ->
  block_reading (hashes n ++ SP :: t) [EHead n t] /\ solid (hashes n ++ SP :: t).
Proof.
  intros HN HC HNL HT HH. assert (HFREE : ~ In NL (hashes n ++ SP :: t)).
  { intros HI. apply in_app_or in HI as [HI|[HI|HI]]; [apply hashes_chars in HI; discriminate HI|discriminate HI|contradiction]. }
  split.
  - apply (block_reading_top _ [EHead n t] ONone); [|reflexivity]. rewrite split_on_notin by exact HFREE. cbn [run].
    rewrite step_top. 2: { right. destruct n; [lia|]. reflexivity. } cbn [leaf_step]. now rewrite classify_heading.
  - destruct n; [lia|]. apply solid_line; [|exact HFREE]. exists 35%N, (hashes n ++ SP :: t). split; reflexivity.
Qed.

(** ---------------------------------------------------------------- rules *)
Lemma reading_rule : block_reading (s "---") [ERule] /\ solid (s "---").
Proof.
  split; [apply (block_reading_top _ [ERule] ONone); reflexivity|]. apply solid_line; [exists 45%N, (s "--"); split; reflexivity|]. vm_compute. intuition discriminate.
Qed.

(** ---------------------------------------------------------------- code *)
Definition code_line (l : str) : Prop := closes_fence l = false /\ ~ In CR l.
Lemma run_code i more : Forall code_line more -> forall ls, run ([], OCode i ls) more = ([], ([], OCode i (ls ++ more))).
Proof.
  induction 1 as [|l more [HL HC] _ IH]; intros ls; cbn [run]; [now rewrite app_nil_r|]. rewrite step_top by (left; reflexivity). cbn [leaf_step]. rewrite (no_existsb CR l HC), HL. cbn iota. rewrite IH. now rewrite <- app_assoc.
Qed.
Definition info_ok (i : str) : Prop := (i = [] \/ trimmed i) /\ ~ In 96%N i /\ ~ In CR i /\ ~ In NL i.
Lemma classify_fence i : info_ok i -> classify (s "```" ++ i) = LFence i.
Proof.
  intros (HT & HB & HC & _). unfold classify.
  assert (E1 : existsb (N.eqb CR) (s "```" ++ i) = false) by (rewrite existsb_app; rewrite (no_existsb CR i HC); reflexivity).
  rewrite E1. change (blank (s "```" ++ i)) with false. change (leading SP (s "```" ++ i)) with 0. cbv zeta. change (after SP (s "```" ++ i)) with (s "```" ++ i). cbn [Nat.leb].
  assert (HL : leading 96 i = 0) by (destruct i as [|c r]; [reflexivity|]; cbn [leading]; destruct (N.eqb c 96) eqn:E; [apply N.eqb_eq in E; subst; destruct HB; now left|reflexivity]).
  assert (HL3 : leading 96 (s "```" ++ i) = 3) by (change (leading 96 (s "```" ++ i)) with (3 + leading 96 i); now rewrite HL).
  assert (HA : after 96 (s "```" ++ i) = i) by (unfold after; rewrite HL3; reflexivity).
  change (s "```" ++ i) with (96%N :: 96%N :: 96%N :: i) at 1. cbn iota. change (N.eqb 96 9) with false. change (is_ch "#" 96) with false. change (is_ch "`" 96) with true. cbn iota.
  rewrite HL3, HA, (no_existsb 96 i HB). cbn [Nat.leb negb andb]. f_equal. destruct HT as [->|HT]; [reflexivity|now apply trim_trimmed].
Qed.
Lemma reading_code i t : info_ok i -> Forall code_line (split_on NL t) -> ~ contains (nls 3) (nl ++ t ++ nl) ->
  let core := s "```" ++ i ++ nl ++ t ++ nl ++ s "```" in block_reading core [ECode i (split_on NL t)] /\ solid core.
Proof.
  intros HI HL H3 core.
  assert (HS : split_on NL core = (s "```" ++ i) :: split_on NL t ++ [s "```"]).
  { unfold core. replace (s "```" ++ i ++ nl ++ t ++ nl ++ s "```") with ((s "```" ++ i) ++ NL :: (t ++ NL :: s "```")) by (unfold nl; rewrite <- !app_assoc; reflexivity).
    rewrite !split_nl. rewrite split_on_notin; [reflexivity|]. intros H. apply in_app_or in H as [H|H]; [vm_compute in H; intuition discriminate|]. apply HI in H. exact H. }
  split.
  - apply (block_reading_top core [ECode i (split_on NL t)] ONone); [|reflexivity]. rewrite HS. cbn [run]. rewrite step_top by (right; reflexivity). cbn [leaf_step]. rewrite (classify_fence i HI).
    rewrite run_app, (run_code i _ HL). cbn [app run]. rewrite step_top by (left; reflexivity). reflexivity.
  - split; [|split].
    + exists 96%N, (s "``" ++ i ++ nl ++ t ++ nl ++ s "```"). split; [reflexivity|]. split; [reflexivity|discriminate].
    + unfold core. replace (s "```" ++ i ++ nl ++ t ++ nl ++ s "```") with ((s "```" ++ i ++ nl ++ t ++ nl ++ s "``") ++ [96%N]) by (rewrite <- !app_assoc; reflexivity). now apply ends_clean_last.
    + apply strip_no3. unfold core. replace (s "```" ++ i ++ nl ++ t ++ nl ++ s "```") with ((s "```" ++ i) ++ ((nl ++ t ++ nl) ++ s "```")) by (rewrite <- !app_assoc; reflexivity).
      apply no3_prefix; [|apply no3_suffix; [vm_compute; intuition discriminate|exact H3]]. intros H. apply in_app_or in H as [H|H]; [vm_compute in H; intuition discriminate|]. apply HI in H. exact H.
Qed.
