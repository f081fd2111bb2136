(** The Markdown reader on laid out blocks (C75). *)
From Coq Require Import List NArith ZArith Bool String Lia.
From Verif Require Import PyStr Markdown StrFacts Collapse SpecReader.
Import ListNotations.
Open Scope string_scope.
Open Scope list_scope.
Open Scope nat_scope.

Lemma run_app st a b : run st (a ++ b) = let (es, st') := run st a in let (fs, st'') := run st' b in (es ++ fs, st'').
Proof.
  revert st. induction a as [|l a IH]; intros st; cbn [run app].
  - destruct (run st b). reflexivity.
  - destruct (step st l) as [es st1]. rewrite IH. destruct (run st1 a) as [fs st2]. destruct (run st2 b) as [gs st3]. now rewrite app_assoc.
Qed.
Lemma opened_none fuel para l : starts_container l = false -> opened fuel para l = ([], l).
Proof.
  destruct fuel as [|fuel]; [reflexivity|]. unfold starts_container. cbn [opened]. cbv zeta. destruct (4 <=? leading SP l); [reflexivity|].
  destruct (after SP l) as [|c q]; [reflexivity|]. intros H. apply orb_false_iff in H as [-> H]. destruct (thematic (c :: q)); [reflexivity|]. cbn [negb andb] in H.
  now destruct (marker (c :: q)).
Qed.
Definition is_code (o : leaf) : bool := match o with OCode _ _ => true | _ => false end.
Lemma step_top o l : is_code o = true \/ starts_container l = false -> step ([], o) l = let (es, o') := leaf_step o l in (es, ([], o')).
Proof.
  intros H. unfold step. cbn [continued List.length Nat.eqb]. destruct H as [H|H]; [destruct o; try discriminate H; reflexivity|]. rewrite opened_none by exact H. now destruct o.
Qed.
Lemma blank_line_top o : is_code o = false -> step ([], o) [] = (close_leaf o, ([], ONone)).
Proof. intros H. rewrite step_top by (right; reflexivity). destruct o; try discriminate H; reflexivity. Qed.

(** ---------------------------------------------------------------- open list items *)
Definition items (cs : list container) : Prop := Forall (fun c => exists w, c = CItem (S w)) cs.
Lemma continued_blank cs : items cs -> continued cs [] = (List.length cs, []).
Proof. induction 1 as [|c cs [w ->] _ IH]; [reflexivity|]. cbn [continued blank forallb List.length]. now rewrite IH. Qed.
Lemma blank_items cs : items cs -> step (cs, ONone) [] = ([], (cs, ONone)).
Proof.
  intros H. unfold step. rewrite (continued_blank cs H), Nat.eqb_refl. cbn [List.length opened]. cbv zeta. reflexivity.
Qed.
Lemma blanks_items cs k : items cs -> run (cs, ONone) (repeat [] k) = ([], (cs, ONone)).
Proof. intros H. induction k as [|k IH]; [reflexivity|]. cbn [repeat run]. now rewrite (blank_items cs H), IH. Qed.
Lemma skip_blanks cs k r : items cs -> run (cs, ONone) (repeat [] k ++ r) = run (cs, ONone) r.
Proof. intros H. rewrite run_app, (blanks_items cs k H). now destruct (run (cs, ONone) r). Qed.
Definition visible (l : str) : Prop := exists c r, l = c :: r /\ blank_ch c = false.
Lemma visible_lead l : visible l -> leading SP l = 0 /\ blank l = false.
Proof.
  intros (c & r & -> & H). cbn [leading blank forallb]. rewrite H. unfold blank_ch in H. apply orb_false_iff in H as [H _]. rewrite H. split; reflexivity.
Qed.
Lemma continued_visible cs l : items cs -> visible l -> continued cs l = (0, l).
Proof.
  intros H HV. destruct (visible_lead l HV) as [H1 H2]. destruct H as [|c cs [w ->] _]; [reflexivity|]. cbn [continued]. rewrite H1, H2. reflexivity.
Qed.
Lemma step_items cs l : items cs -> visible l ->
  step (cs, ONone) l = (repeat EEnd (List.length cs) ++ fst (step ([], ONone) l), snd (step ([], ONone) l)).
Proof.
  intros H HV. unfold step. rewrite (continued_visible cs l H HV), (continued_visible [] l (Forall_nil _) HV).
  destruct cs as [|c cs]; cbn [List.length Nat.eqb is_para andb negb close_leaf app firstn repeat Nat.sub];
    destruct (opened (S (List.length l)) false l) as [[|a new] inner]; destruct (leaf_step ONone _) as [e o']; cbn [fst snd app]; try reflexivity.
Qed.

(** ---------------------------------------------------------------- one block *)
Definition block_reading (core : str) (es : list event) : Prop :=
  exists es0 cs o es1 cs1,
    run ([], ONone) (split_on NL core) = (es0, (cs, o)) /\ es0 ++ close_leaf o ++ repeat EEnd (List.length cs) = es /\
    step (cs, o) [] = (es1, (cs1, ONone)) /\ items cs1 /\ es0 ++ es1 ++ repeat EEnd (List.length cs1) = es.
(** Blocks that end at top level. *)
Lemma block_reading_top core es0 o : run ([], ONone) (split_on NL core) = (es0, ([], o)) -> is_code o = false -> block_reading core (es0 ++ close_leaf o).
Proof.
  intros H HO. exists es0, [], o, (close_leaf o), []. split; [exact H|]. split; [cbn; now rewrite app_nil_r|]. split; [exact (blank_line_top o HO)|]. split; [constructor|]. cbn. now rewrite app_nil_r.
Qed.
Lemma split_first c r : c <> NL -> exists h t, split_on NL (c :: r) = (c :: h) :: t.
Proof. intros H. cbn [split_on]. apply N.eqb_neq in H. rewrite H. destruct (split_on NL r) as [|h t]; eauto. Qed.

(** A block with nothing to collapse. *)
Definition solid (c : str) : Prop := (exists d r, c = d :: r /\ blank_ch d = false /\ d <> NL) /\ ends_clean c /\ strip_double_empty_line c = c.
Lemma solid_starts c : solid c -> starts_clean c. Proof. intros [(d & r & -> & _ & H) _]. exact H. Qed.
Inductive layout : list str -> nat -> str -> Prop :=
| lay_nil k : layout [] k (nls k)
| lay_cons k c cs k' x : solid c -> (cs <> [] -> 2 <= k') -> layout cs k' x -> layout (c :: cs) k (nls k ++ c ++ x).
Lemma layout_inv cs k x : layout cs k x -> exists b, x = nls k ++ b /\ starts_clean b /\ match cs with [] => b = [] | c :: cs' => exists k' x', solid c /\ (cs' <> [] -> 2 <= k') /\ layout cs' k' x' /\ b = c ++ x' end.
Proof.
  intros [k0|k0 c cs' k' x' HS HK HL]; [exists []; rewrite app_nil_r; repeat split|]. exists (c ++ x'). split; [reflexivity|]. split.
  - destruct HS as [(d & r & -> & _ & H) _]. exact H.
  - exists k', x'. auto.
Qed.
Lemma strip_layout cs : forall k x, layout cs k x -> layout cs (squeeze k) (strip_double_empty_line x).
Proof.
  induction cs as [|c cs IH]; intros k x H; destruct (layout_inv _ _ _ H) as (b & -> & HB & HX).
  - subst b. rewrite strip_run by exact I. change (strip_double_empty_line []) with (@nil N). rewrite app_nil_r. constructor.
  - destruct HX as (k' & x' & HS & HK & HL & ->). rewrite strip_run by exact HB. pose proof (IH k' x' HL) as HI. destruct (layout_inv _ _ _ HL) as (b & -> & HB' & _).
    rewrite strip_context; [|exact (proj1 (proj2 HS))|exact HB']. rewrite (proj2 (proj2 HS)). rewrite strip_run in HI by exact HB'.
    apply lay_cons with (squeeze k'); [exact HS| |exact HI]. intros HN. specialize (HK HN). pose proof (squeeze_mono 2 k' HK) as HM. rewrite (squeeze_small 2) in HM by lia. lia.
Qed.
Lemma split_nl a b : split_on NL (a ++ NL :: b) = split_on NL a ++ split_on NL b.
Proof.
  induction a as [|c a IH]; [reflexivity|]. cbn [app split_on]. destruct (N.eqb c NL) eqn:E; [now rewrite IH|]. rewrite IH. destruct (split_on NL a) as [|h t] eqn:ES; [|reflexivity].
  exfalso. destruct a as [|d a]; [discriminate ES|]. cbn [split_on] in ES. destruct (N.eqb d NL); [discriminate ES|]. now destruct (split_on NL a).
Qed.
Lemma split_nls k b : split_on NL (nls k ++ b) = repeat [] k ++ split_on NL b.
Proof. induction k as [|k IH]; [reflexivity|]. change (nls (S k) ++ b) with ([] ++ NL :: (nls k ++ b)). rewrite split_nl, IH. reflexivity. Qed.
Lemma run_cons_fst st l r es st1 fs st2 : step st l = (es, st1) -> run st1 r = (fs, st2) -> run st (l :: r) = (es ++ fs, st2).
Proof. intros H1 H2. cbn [run]. now rewrite H1, H2. Qed.

Lemma drop_last_app a b : b <> [] -> drop_last_empty (a ++ b) = a ++ drop_last_empty b.
Proof.
  intros HB. induction a as [|l a IH]; [reflexivity|]. cbn [app drop_last_empty]. rewrite IH. destruct l; [|reflexivity]. destruct (a ++ b) eqn:E; [|reflexivity].
  apply app_eq_nil in E as [_ ->]. now destruct HB.
Qed.
Lemma text_lines_clean x : x <> [] -> ends_clean x -> text_lines x = split_on NL x.
Proof.
  intros HX H. unfold text_lines, ends_clean in *. destruct (rev x) as [|d r] eqn:ER; [apply (f_equal (@rev N)) in ER; rewrite rev_involutive in ER; now destruct HX|]. cbn [starts_clean] in H.
  apply (f_equal (@rev N)) in ER. rewrite rev_involutive in ER. cbn [rev] in ER. subst x. clear HX. revert H. generalize (rev r). clear r. intros y HD.
  induction y as [|c y IH]; cbn [app split_on]; [apply N.eqb_neq in HD; rewrite HD; reflexivity|]. destruct (split_on NL (y ++ [d])) as [|h t] eqn:ES; [now destruct (split_on_nonnil NL (y ++ [d]))|].
  destruct (N.eqb c NL).
  - change (drop_last_empty ([] :: h :: t)) with ([] :: drop_last_empty (h :: t)). now rewrite IH.
  - change (drop_last_empty ((c :: h) :: t)) with ((c :: h) :: drop_last_empty t). f_equal. destruct h as [|a h]; [destruct t as [|b t]; [discriminate IH|]|]; exact (f_equal (@List.tl str) IH).
Qed.
(** A blank line at the end changes nothing, unless it belongs to a code block. *)
Lemma blank_total cs o es1 cs1 o1 : step (cs, o) [] = (es1, (cs1, o1)) -> is_code o1 = false ->
  es1 ++ close_leaf o1 ++ repeat EEnd (List.length cs1) = close_leaf o ++ repeat EEnd (List.length cs).
Proof.
  assert (HC : forall cs, exists n, continued cs [] = (n, []) /\ n <= List.length cs).
  { clear. induction cs as [|c cs (n & IH & HN)]; [exists 0; split; [reflexivity|cbn; lia]|]. destruct c; cbn [continued leading after skipn blank forallb]; [exists 0; split; [reflexivity|lia]|].
    rewrite IH. exists (S n). split; [reflexivity|cbn; lia]. }
  unfold step. destruct (HC cs) as (n & -> & HN). change (opened (S (List.length [])) (Nat.eqb n (List.length cs) && is_para o) []) with (@nil (container * event), @nil N).
  cbn iota. change (lazy_line []) with false. rewrite andb_false_r. destruct (Nat.eqb n (List.length cs)) eqn:E.
  - destruct o; cbn; intros [= <- <- <-] HO; try reflexivity; try discriminate HO.
  - assert (HX : leaf_step ONone [] = ([], ONone)) by reflexivity. rewrite HX. intros H _. assert (H' : (close_leaf o ++ repeat EEnd (List.length cs - n) ++ [], (firstn n cs, ONone)) = (es1, (cs1, o1))) by (destruct o; exact H). injection H' as <- <- <-.
    cbn [close_leaf app]. rewrite app_nil_r, <- app_assoc, <- repeat_app. do 2 f_equal. rewrite firstn_length. lia.
Qed.
Lemma read_total x es cs o : run ([], ONone) (split_on NL x) = (es, (cs, o)) -> is_code o = false \/ text_lines x = split_on NL x ->
  read x = es ++ close_leaf o ++ repeat EEnd (List.length cs).
Proof.
  intros HR HT. unfold read. assert (HD : text_lines x = split_on NL x \/ split_on NL x = text_lines x ++ [[]]).
  { unfold text_lines. generalize (split_on NL x). clear. induction l as [|l r IH]; [now left|]. cbn [drop_last_empty]. destruct l as [|c l]; [destruct r as [|h r]|]; [now right| |]; (destruct IH as [IH|IH]; [left; now rewrite IH|right; now rewrite IH at 1]). }
  destruct HD as [HD|HD]; [rewrite HD, HR; reflexivity|]. destruct HT as [HT|HT]; [|rewrite HT, HR; reflexivity].
  rewrite HD, run_app in HR. destruct (run ([], ONone) (text_lines x)) as [es0 [cs0 o0]]. cbn [run] in HR. destruct (step (cs0, o0) []) as [e1 [c1 o1]] eqn:E1. injection HR as <- <- <-.
  cbn [fst snd]. rewrite app_nil_r, <- app_assoc. f_equal. symmetry. exact (blank_total cs0 o0 e1 c1 o1 E1 HT).
Qed.
Theorem read_layout cs : forall k x ess, layout cs k x -> Forall2 block_reading cs ess -> forall open, items open ->
  exists es cs' o', run (open, ONone) (split_on NL x) = (es, (cs', o')) /\ es ++ close_leaf o' ++ repeat EEnd (List.length cs') = repeat EEnd (List.length open) ++ List.concat ess /\
    (is_code o' = false \/ text_lines x = split_on NL x).
Proof.
  induction cs as [|c cs IH]; intros k x ess HL HF open HO; destruct (layout_inv _ _ _ HL) as (b & -> & HB & HX); inversion HF as [|? es ? ess' HE HF']; subst.
  - rewrite split_nls. change (split_on NL []) with (repeat (@nil N) 1). rewrite <- repeat_app. exists [], open, ONone. split; [exact (blanks_items open _ HO)|]. cbn. rewrite app_nil_r. split; [reflexivity|now left].
  - destruct HX as (k' & x' & HS & HK & HL' & ->). enough (HG : exists es2 cs' o', run (open, ONone) (split_on NL (c ++ x')) = (es2, (cs', o')) /\ es2 ++ close_leaf o' ++ repeat EEnd (List.length cs') = repeat EEnd (List.length open) ++ List.concat (es :: ess') /\ (is_code o' = false \/ text_lines (c ++ x') = split_on NL (c ++ x'))).
    { destruct HG as (es2 & cs' & o' & HG1 & HG2 & HG3). exists es2, cs', o'. split; [rewrite split_nls, (skip_blanks open k _ HO); exact HG1|]. split; [exact HG2|]. destruct HG3 as [HG3|HG3]; [now left|right].
      unfold text_lines in *. rewrite split_nls, drop_last_app by apply split_on_nonnil. now rewrite HG3. }
    destruct HE as (es0 & cs0 & o & es1 & cs1 & HR & HE1 & HB1 & HI1 & HE2).
    assert (HST : forall rest, run (open, ONone) (split_on NL c ++ rest) = (repeat EEnd (List.length open) ++ fst (run ([], ONone) (split_on NL c ++ rest)), snd (run ([], ONone) (split_on NL c ++ rest)))).
    { intros rest. destruct HS as [(d & r & -> & HD & HN) _]. destruct (split_first d r HN) as (h & t & ->). cbn [app run].
      assert (HV : visible (d :: h)) by (exists d, h; split; [reflexivity|exact HD]). rewrite (step_items open (d :: h) HO HV). destruct (step ([], ONone) (d :: h)) as [e st]. cbn [fst snd].
      match goal with |- context [run st ?z] => destruct (run st z) as [f st'] end. cbn [fst snd]. now rewrite <- app_assoc. }
    destruct k' as [|k'].
    { destruct cs as [|c' cs]; [|assert (H2 : 2 <= 0) by (apply HK; discriminate); lia]. destruct ess' as [|e0 ess']; [|inversion HF']. destruct (layout_inv _ _ _ HL') as (b & -> & _ & ->). cbn [nls repeat app].
      rewrite app_nil_r. specialize (HST []). rewrite app_nil_r, HR in HST. cbn [fst snd] in HST. exists (repeat EEnd (List.length open) ++ es0), cs0, o. split; [exact HST|].
      cbn [List.concat]. rewrite app_nil_r, <- app_assoc, HE1. split; [reflexivity|right]. apply text_lines_clean; [destruct HS as [(d & r & -> & _) _]; discriminate|exact (proj1 (proj2 HS))]. }
    destruct (layout_inv _ _ _ HL') as (b & HBX & HB' & _). rewrite HBX. change (nls (S k') ++ b) with (NL :: (nls k' ++ b)). rewrite split_nl, HST, run_app, HR.
    assert (HBL : run (cs0, o) (repeat [] (S k')) = (es1, (cs1, ONone))).
    { cbn [repeat run]. rewrite HB1, (blanks_items cs1 k' HI1). now rewrite app_nil_r. }
    destruct cs as [|c' cs].
    + destruct ess' as [|e0 ess']; [|inversion HF']. destruct (layout_inv _ _ _ HL') as (b2 & HB2 & _ & ->). assert (b = []) by (rewrite HBX in HB2; apply app_inv_head in HB2; exact HB2). subst b. rewrite app_nil_r.
      assert (HSP : split_on NL (nls k') = repeat [] (S k')). { rewrite <- (app_nil_r (nls k')), split_nls. change (split_on NL []) with (repeat (@nil N) 1). rewrite <- repeat_app. f_equal. lia. }
      rewrite HSP, HBL. cbn [fst snd]. eexists _, cs1, ONone. split; [reflexivity|]. cbn [close_leaf app List.concat]. rewrite app_nil_r, <- !app_assoc, HE2. split; [reflexivity|now left].
    + assert (H2 : 2 <= S k') by (apply HK; discriminate). destruct k' as [|k']; [lia|].
      assert (HLB : layout (c' :: cs) k' (nls k' ++ b)).
      { destruct (layout_inv _ _ _ HL') as (b2 & HB2 & _ & kk & xx & HS2 & HK2 & HL2 & ->). assert (b = c' ++ xx) by (rewrite HBX in HB2; now apply app_inv_head in HB2). subst b. now apply lay_cons with kk. }
      rewrite split_nls. replace (repeat [] (S k') ++ split_on NL b) with (repeat (@nil N) 1 ++ (repeat [] k' ++ split_on NL b)) by reflexivity. rewrite <- split_nls, run_app.
      assert (HB3 : run (cs0, o) (repeat [] 1) = (es1, (cs1, ONone))). { cbn [repeat run]. rewrite HB1. now rewrite app_nil_r. }
      rewrite HB3. destruct (IH k' (nls k' ++ b) ess' HLB HF' cs1 HI1) as (es' & cs' & o' & HR' & HE' & HT'). rewrite HR'. cbn [fst snd]. eexists _, cs', o'. split; [reflexivity|].
      rewrite <- !app_assoc, HE'. cbn [List.concat]. rewrite <- HE2. split; [now rewrite <- !app_assoc|]. destruct HT' as [HT'|HT']; [now left|right].
      unfold text_lines in *. rewrite split_nl. change (nls (S k') ++ b) with ([] ++ NL :: (nls k' ++ b)). rewrite (split_nl [] (nls k' ++ b)), !drop_last_app by (apply split_on_nonnil || (intros HX; apply app_eq_nil in HX as [_ HX]; revert HX; apply split_on_nonnil)). now rewrite HT'.
Qed.
Corollary read_blocks cs k x ess : layout cs k x -> Forall2 block_reading cs ess -> read x = List.concat ess.
Proof.
  intros HL HF. destruct (read_layout cs k x ess HL HF [] (Forall_nil _)) as (es & cs' & o' & HR & HE & HT). cbn [List.length repeat app] in HE. rewrite <- HE. exact (read_total x es cs' o' HR HT).
Qed.
