(** Task lists and decision lists as the Markdown reader sees them (C75). *)
From Coq Require Import List NArith ZArith Bool String Lia.
From Verif Require Import PyStr Values Schema Parse Date Markdown Basics StrFacts Collapse SpecParse MdFacts SpecMd MdFacts2 LeafFacts LayoutFacts SpecList ListFacts ListFacts2
  SpecReader SpecSeen ReaderFacts ReaderFacts2 ReaderFacts3 ReaderFacts4 ReaderFacts5 ReaderFacts7 ReaderFacts8 QuoteFacts Properties_Quote.
Import ListNotations.
Open Scope string_scope.
Open Scope list_scope.
Open Scope nat_scope.

(** ---------------------------------------------------------------- task lists *)
Scheme tasks_seen_i := Minimality for tasks_seen Sort Prop with nested_tasks_seen_i := Minimality for nested_tasks_seen Sort Prop.
Combined Scheme tasks_seen_both from tasks_seen_i, nested_tasks_seen_i.
Lemma join_split_all (xs : list str) : join nl (flat_map (split_on NL) xs) = join nl xs.
Proof.
  induction xs as [|x xs IH]; [reflexivity|]. cbn [flat_map]. destruct xs as [|y xs]; [cbn [flat_map]; rewrite app_nil_r; exact (join_split NL x)|].
  rewrite join_app; [|apply split_on_nonnil|cbn [flat_map]; destruct (split_on NL y) eqn:EY; [now destruct (split_on_nonnil NL y)|discriminate]].
  rewrite IH, (join_cons nl x) by discriminate. f_equal. exact (join_split NL x).
Qed.
Lemma split_all_free (xs : list str) : Forall (fun l => ~ In NL l) (flat_map (split_on NL) xs).
Proof. induction xs; cbn [flat_map]; [constructor|]. apply Forall_app. split; [apply split_on_free|assumption]. Qed.
Lemma split_task d done x t more : split_on NL x = t :: more -> split_on NL (print_task (Task d done x)) = mark_line d Bullet (box done ++ t) :: more.
Proof.
  intros HS. assert (HE : print_task (Task d done x) = (indentation d ++ s "- " ++ box done) ++ x) by (unfold print_task; rewrite <- !app_assoc; do 1 f_equal; destruct done; reflexivity).
  rewrite HE. assert (HF : ~ In NL (indentation d ++ s "- " ++ box done)).
  { intros HI. apply in_app_or in HI as [HI|HI]; [unfold indentation in HI; apply repeat_spec in HI; discriminate HI|]. destruct done; vm_compute in HI; intuition discriminate. }
  clear HE. assert (HG : forall a, ~ In NL a -> split_on NL (a ++ x) = (a ++ t) :: more).
  { induction a as [|c a IH]; intros HA; [exact HS|]. cbn [app split_on]. destruct (N.eqb c NL) eqn:EC; [apply N.eqb_eq in EC; subst c; destruct HA; now left|]. rewrite IH by (intros H; apply HA; now right). reflexivity. }
  rewrite HG by exact HF. unfold mark_line. cbn [print_mark]. f_equal. unfold indentation, spaces. rewrite <- !app_assoc. reflexivity.
Qed.
Section Tasks.
  Variable E : runtime.
  Definition task_lines (ls : list tline) : list str := flat_map (split_on NL) (map print_task ls).
  Definition P_tasks (cs : list node) (es : list event) : Prop :=
    exists kids, Forall good kids /\ Forall (fun k => tree_mark k = Bullet) kids /\ (cs <> [] -> kids <> []) /\ flat_map tree_events kids = es /\
      forall d, exists ls, entries E d cs ls /\ task_lines ls = flat_map (tree_lines d) kids /\ (cs <> [] -> ls <> []).
  Definition P_nested (cs : list node) (es : list event) : Prop :=
    exists kids, Forall good kids /\ Forall (fun k => tree_mark k = Bullet) kids /\ flat_map tree_events kids = es /\
      forall d, exists ls, (forall rest ls', entries E d rest ls' -> entries E d (cs ++ rest) (ls ++ ls')) /\ task_lines ls = flat_map (tree_lines (S d)) kids.
  Lemma tasks_to_trees : (forall cs es, tasks_seen E cs es -> P_tasks cs es) /\ (forall cs es, nested_tasks_seen E cs es -> P_nested cs es).
  Proof.
    apply (tasks_seen_both E P_tasks P_nested).
    - exists []. split; [constructor|]. split; [constructor|]. split; [intros H; now destruct H|]. split; [reflexivity|]. intros d. exists []. split; [constructor|]. split; [reflexivity|intros H; now destruct H].
    - intros c kids xs st done t more subs es rest es' HK HC HR HS HD HSP HT HM _ (k1 & HG1 & HB1 & HE1 & HX1) _ (k2 & HG2 & HB2 & HN2 & HE2 & HX2).
      exists (Tree Bullet (box done ++ t) more k1 :: k2). split; [|split; [|split; [|split]]].
      + constructor; [|exact HG2]. apply good_tree; [exact I|exact HT|exact HM| |exact HG1]. destruct k1 as [|k k1]; [exact I|]. inversion HB1; subst. split; [cbn; lia|left; assumption].
      + constructor; [reflexivity|exact HB2].
      + discriminate.
      + cbn [flat_map tree_events]. rewrite HE1, HE2. cbn [mark_event app]. rewrite <- app_assoc. reflexivity.
      + intros d. destruct (HX1 d) as (ls1 & H1 & H2). destruct (HX2 d) as (ls2 & H3 & H4 & _). exists (Task d done (rstrip (List.concat xs)) :: ls1 ++ ls2). split; [|split; [|discriminate]].
        * apply e_item with kids st; try assumption. now apply H1.
        * unfold task_lines in *. cbn [map flat_map tree_lines]. rewrite (split_task d done _ t more HSP), map_app, flat_map_app, H2, H4. cbn [app]. now rewrite <- app_assoc.
    - exists []. split; [constructor|]. split; [constructor|]. split; [reflexivity|]. intros d. exists []. split; [intros rest ls' H; exact H|reflexivity].
    - intros n cs es rest es' HK HC HN _ (k1 & HG1 & HB1 & HN1 & HE1 & HX1) _ (k2 & HG2 & HB2 & HE2 & HX2). exists (k1 ++ k2). split; [now apply Forall_app|]. split; [now apply Forall_app|]. split; [rewrite flat_map_app, HE1, HE2; reflexivity|].
      intros d. destruct (HX1 (S d)) as (ls1 & H1 & H2 & H3). destruct (HX2 d) as (ls2 & H4 & H5). exists (ls1 ++ ls2). split.
      + intros rest' ls' HE. cbn [app]. rewrite <- app_assoc. apply e_sub; [exact HK|now apply t_list with cs|now apply H3|now apply H4].
      + unfold task_lines in *. rewrite map_app, flat_map_app, H2, H5, flat_map_app. reflexivity.
  Qed.
  Theorem tasks_reading n cs es : consistent n -> n_kind n = KtaskList -> n_content n = Items cs -> cs <> [] -> tasks_seen E cs es ->
    exists x, renders E n x /\ block_reading x es /\ solid x.
  Proof.
    intros HCO HK HC HN HS. destruct (proj1 tasks_to_trees cs es HS) as (kids & HG & _ & HKN & HE & HX). destruct (HX 0) as (ls & H1 & H2 & _).
    exists (join nl (map print_task ls)). split; [apply (proj1 (tasks_main E) 0 n ls) with (lv := None); [now apply t_list with cs|exact HCO|reflexivity]|].
    rewrite <- join_split_all. unfold task_lines in H2. rewrite H2, <- HE. apply reading_list; [exact HG|now apply HKN|]. rewrite <- H2. apply split_all_free.
  Qed.

  (** ---------------------------------------------------------------- decision lists *)
  Lemma decision_list_renders n cs xs : consistent n -> n_kind n = KdecisionList -> n_content n = Items cs -> Forall (fun c => n_kind c = KdecisionItem) cs -> Forall2 (renders E) cs xs -> renders E n (join (nl ++ nl) xs).
  Proof.
    intros HP HK HI HD HF. pose proof (consistent_items _ _ HP HI) as HC. destruct n as [k ty ve tx a co ma]. cbn [n_kind n_content] in *. subst k co. clear HP.
    unfold renders, to_markdown. cbn [to_md]. unfold decision_list_md, loop.
    assert (HE : for_each (fun item => if is_type_of item [s "decisionItem"] then try_ false (to_md E item None false) else Ok []) cs = Ok (map VStr xs)).
    { revert HD HC. induction HF as [|c x cs xs HR _ IH]; intros HD HC; [reflexivity|]. inversion HD; subst. inversion HC; subst.
      apply (for_each_app _ cs _ [VStr x] (map VStr xs) c); [|now apply IH|reflexivity]. rewrite (is_type_of_name c (n_kind c)) by (now apply consistent_type). match goal with H : n_kind c = _ |- _ => rewrite H end. cbn. unfold renders, to_markdown in HR. rewrite HR. reflexivity. }
    change (for_each _ cs) with (for_each (fun item => if is_type_of item [s "decisionItem"] then try_ false (to_md E item None false) else Ok []) cs). rewrite HE. cbn [rbind]. rewrite join_values_str. reflexivity.
  Qed.
  Lemma quote_plain ls : Forall (fun l => rstrip l <> []) ls -> forall k b, Markdown.quote_lines k b ls = map (fun l => s "> " ++ rstrip l) ls.
  Proof. induction 1 as [|l ls HL _ IH]; intros k b; [reflexivity|]. cbn [Markdown.quote_lines map]. destruct (rstrip l) as [|c r]; [now destruct HL|]. now rewrite IH. Qed.
  Lemma decision_reading c es : decision_seen E c es -> exists x, renders E c x /\ block_reading x es /\ solid x.
  Proof.
    intros (HK & kids & xs & HC & HF & HT & ->). set (ls := map rstrip (split_on NL (rstrip (List.concat xs)))) in *.
    assert (HR : renders E c (join nl (map (fun l => s "> " ++ l) ls))).
    { pose proof (decision_renders E c (List.concat xs) false) as H. rewrite quote_plain in H; [|unfold ls in HT; rewrite Forall_map in HT; eapply Forall_impl; [|exact HT]; intros l Hl; cbn beta in Hl; destruct (text_visible _ Hl) as (d & r & -> & _); discriminate].
      unfold renders. rewrite H; [unfold ls; rewrite map_map; reflexivity|]. split; [exact HK|]. right. exists kids, xs. repeat split; assumption. }
    assert (HN : ls <> []) by (unfold ls; intros H; apply map_eq_nil in H; now apply split_on_nonnil in H).
    assert (HNE : Forall (fun l => l <> []) ls) by (eapply Forall_impl; [|exact HT]; intros l Hl; destruct (text_visible _ Hl) as (d & r & -> & _); discriminate).
    assert (HFR : Forall (fun l => ~ In NL l) ls).
    { unfold ls. rewrite Forall_map. eapply Forall_impl; [|apply split_on_free]. intros l Hl HI. apply Hl. clear -HI. pose proof (trimmed_rstrip (rstrip l) l) as HTR. destruct (proj2 HTR eq_refl) as (w & HW & _). rewrite HW. apply in_or_app. now left. }
    assert (HSP : split_on NL (join nl ls) = ls) by (now apply split_lines).
    assert (HTL : text_lines (join nl ls) = ls).
    { unfold text_lines. rewrite HSP. clear -HNE. induction HNE as [|l r HL _ IH]; [reflexivity|]. cbn [drop_last_empty]. destruct l as [|c l]; [now destruct HL|]. now rewrite IH. }
    assert (HX : join nl ls <> []). { intros H. destruct ls as [|l r]; [now destruct HN|]. inversion HNE; subst. destruct r; [cbn [join] in H; contradiction|]. rewrite join_cons in H by discriminate. apply app_eq_nil in H as [H _]. contradiction. }
    destruct (reading_quote (join nl ls) HX) as [HB HS]. rewrite HTL in HB, HS.
    assert (HRD : read (join nl ls) = [EPara ls]).
    { destruct (reading_para (join nl ls)) as [HB2 HS2]; [rewrite HSP; exact HT|]. rewrite HSP in HB2. pose proof (presents_one _ _ 0 0 0 0 HB2 HS2) as H. cbn [nls repeat app] in H. rewrite app_nil_r in H. exact (presents_read _ 0 _ 0 (H (le_n _) (le_n _) (Nat.le_0_l _) (Nat.le_0_l _))). }
    rewrite HRD in HB. eexists. split; [exact HR|]. split; [exact HB|exact HS].
  Qed.
  Theorem decisions_reading n cs ess : consistent n -> n_kind n = KdecisionList -> n_content n = Items cs -> cs <> [] -> Forall2 (decision_seen E) cs ess ->
    exists x, renders E n x /\ presents x 0 (List.concat ess) 0.
  Proof.
    intros HCO HK HC HN HF. assert (HKS : Forall (fun c => n_kind c = KdecisionItem) cs) by (clear -HF; induction HF as [|c es cs ess (HK & _) _ IH]; constructor; assumption).
    assert (HXS : exists xs, Forall2 (renders E) cs xs /\ presents (join (nl ++ nl) xs) 0 (List.concat ess) 0).
    { clear HCO HC HKS. induction HF as [|c es cs ess HD HF IH]; [now destruct HN|]. destruct (decision_reading c es HD) as (x & HR & HB & HS).
      pose proof (presents_one _ _ 0 0 0 0 HB HS (le_n _) (le_n _) (Nat.le_0_l _) (Nat.le_0_l _)) as HP. cbn [nls repeat app] in HP. rewrite app_nil_r in HP. destruct cs as [|c2 cs].
      - inversion HF; subst. exists [x]. split; [repeat constructor; exact HR|]. cbn [List.concat join]. rewrite app_nil_r. exact HP.
      - destruct IH as (xs & HFX & HPX); [discriminate|]. exists (x :: xs). split; [now constructor|]. cbn [List.concat]. rewrite join_cons by (inversion HFX; discriminate).
        pose proof (presents_join x 0 es 0 (nl ++ join (nl ++ nl) xs) 1 (List.concat ess) 0 HP) as HJ. rewrite <- (app_assoc nl nl). apply HJ; [|lia].
        destruct HPX as [(ys & fs & a' & b' & H1 & H2 & H3 & H4 & H5 & H6 & H7)|(k & -> & HE & _)].
        + left. exists ys, fs, (1 + a'), b'. split; [exact (form_prefix _ _ _ _ 1 H1)|]. repeat split; try assumption; lia.
        + right. exists (S k). repeat split; try assumption; lia. }
    destruct HXS as (xs & HFX & HPX). exists (join (nl ++ nl) xs). split; [now apply decision_list_renders with cs|exact HPX].
  Qed.
End Tasks.
