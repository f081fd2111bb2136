(** Lists as the Markdown reader sees them (C75): whole trees. *)
From Coq Require Import List NArith ZArith Bool String Lia.
From Verif Require Import PyStr Markdown StrFacts Collapse SpecReader ReaderFacts ReaderFacts2 ReaderFacts3 ReaderFacts4.
Import ListNotations.
Open Scope string_scope.
Open Scope list_scope.
Open Scope nat_scope.

Inductive tree := Tree (m : mark) (t : str) (more : list str) (kids : list tree).
Definition tree_mark (x : tree) : mark := match x with Tree m _ _ _ => m end.
Fixpoint tree_events (x : tree) : list event :=
  match x with Tree m t more kids => mark_event m :: EPara (t :: more) :: flat_map tree_events kids ++ [EEnd] end.
Fixpoint tree_lines (d : nat) (x : tree) : list str :=
  match x with Tree m t more kids => mark_line d m t :: more ++ flat_map (tree_lines (S d)) kids end.
Definition interrupts (m : mark) : Prop := m = Bullet \/ m = Number (s "1").
Inductive good : tree -> Prop :=
| good_tree m t more kids : mark_ok m -> text_line t -> Forall text_line more ->
    match kids with [] => True | k :: _ => mark_width m <= 4 /\ interrupts (tree_mark k) end -> Forall good kids -> good (Tree m t more kids).
Fixpoint tree_ind' (P : tree -> Prop) (H : forall m t more kids, Forall P kids -> P (Tree m t more kids)) (x : tree) : P x :=
  match x with Tree m t more kids => H m t more kids ((fix go l : Forall P l := match l with [] => Forall_nil _ | k :: l' => Forall_cons _ (tree_ind' P H k) (go l') end) kids) end.

Definition reads_tree (x : tree) : Prop := forall d anc deeper o, place d anc -> hang d anc deeper -> is_code o = false ->
  (deeper = [] -> is_para o = true -> interrupts (tree_mark x)) ->
  exists es deeper' o', run (anc ++ deeper, o) (tree_lines d x) = (es, (anc ++ deeper', o')) /\
    es ++ close_leaf o' ++ repeat EEnd (List.length deeper') = close_leaf o ++ repeat EEnd (List.length deeper) ++ tree_events x /\
    hang d anc deeper' /\ deeper' <> [] /\ is_code o' = false.
Lemma reads_forest kids : Forall reads_tree kids -> forall d anc deeper o, place d anc -> hang d anc deeper -> is_code o = false ->
  (deeper = [] -> is_para o = true -> match kids with [] => True | k :: _ => interrupts (tree_mark k) end) ->
  exists es deeper' o', run (anc ++ deeper, o) (flat_map (tree_lines d) kids) = (es, (anc ++ deeper', o')) /\
    es ++ close_leaf o' ++ repeat EEnd (List.length deeper') = close_leaf o ++ repeat EEnd (List.length deeper) ++ flat_map tree_events kids /\
    hang d anc deeper' /\ is_code o' = false /\ (kids <> [] -> deeper' <> []).
Proof.
  induction 1 as [|k kids HK HF IH]; intros d anc deeper o HP HH HO HI.
  - exists [], deeper, o. cbn [flat_map run]. repeat split; auto; try (destruct HH; assumption). cbn [app]. now rewrite app_nil_r.
  - destruct (HK d anc deeper o HP HH HO HI) as (es1 & dp1 & o1 & HR1 & HE1 & HH1 & HN1 & HC1).
    destruct (IH d anc dp1 o1 HP HH1 HC1) as (es2 & dp2 & o2 & HR2 & HE2 & HH2 & HC2 & HN2); [intros ->; now destruct HN1|].
    exists (es1 ++ es2), dp2, o2. split; [cbn [flat_map]; rewrite run_app, HR1, HR2; reflexivity|]. split.
    + rewrite <- app_assoc, HE2. cbn [flat_map]. rewrite !app_assoc in *. rewrite HE1. reflexivity.
    + split; [exact HH2|]. split; [exact HC2|]. intros _. destruct kids as [|k2 kids]; [|apply HN2; discriminate].
      cbn [flat_map run] in HR2. injection HR2 as _ HR2 _. apply app_inv_head in HR2. now rewrite <- HR2.
Qed.
Lemma items_app a b : items a -> items b -> items (a ++ b). Proof. intros; now apply Forall_app. Qed.
Theorem reads_good x : good x -> reads_tree x.
Proof.
  induction x as [m t more kids IH] using tree_ind'. intros HG. inversion HG as [? ? ? ? HM HT HMO HK HKG]; subst. intros d anc deeper o HP HH HO HI. cbn [tree_mark] in HI.
  set (w := 4 * d - total anc + mark_width m). assert (HW : 2 <= mark_width m) by (destruct m as [|dd]; cbn [mark_width]; lia).
  assert (HIT : items (anc ++ [CItem w])) by (apply items_app; [exact (proj1 (proj2 HP))|]; constructor; [exists (w - 1); f_equal; unfold w; lia|constructor]).
  assert (HS : step (anc ++ deeper, o) (mark_line d m t) = (close_leaf o ++ repeat EEnd (List.length deeper) ++ [mark_event m], (anc ++ [CItem w], OPara [t]))) by (apply step_mark; assumption).
  assert (HL : run (anc ++ [CItem w], OPara [t]) more = ([], (anc ++ [CItem w], OPara (t :: more)))) by (apply (run_lazy _ more HIT); [destruct anc; discriminate|exact HMO]).
  assert (HFR : exists es deeper' o', run ((anc ++ [CItem w]) ++ [], OPara (t :: more)) (flat_map (tree_lines (S d)) kids) = (es, ((anc ++ [CItem w]) ++ deeper', o')) /\
    es ++ close_leaf o' ++ repeat EEnd (List.length deeper') = [EPara (t :: more)] ++ flat_map tree_events kids /\ items deeper' /\ is_code o' = false).
  { destruct kids as [|k kids].
    - exists [], [], (OPara (t :: more)). cbn [flat_map run]. repeat split; constructor.
    - destruct HK as [HK1 HK2]. destruct (reads_forest (k :: kids)) with (d := S d) (anc := anc ++ [CItem w]) (deeper := @nil container) (o := OPara (t :: more)) as (es & dp & o' & HR & HE & HH' & HC & _).
      + clear -IH HKG. induction IH as [|k0 l H _ IH]; [constructor|]. inversion HKG; subst. constructor; auto.
      + destruct HP as (HP1 & HP2 & HP3). split; [rewrite app_length; cbn; lia|]. split; [exact HIT|]. rewrite total_app. cbn [total width]. unfold w. lia.
      + split; [constructor|exact I].
      + reflexivity.
      + intros _ _. exact HK2.
      + exists es, dp, o'. split; [exact HR|]. split; [exact HE|]. split; [exact (proj1 HH')|exact HC]. }
  destruct HFR as (es2 & dp & o' & HR2 & HE2 & HID & HC2). rewrite app_nil_r, <- app_assoc in HR2. cbn [app] in HR2.
  exists ((close_leaf o ++ repeat EEnd (List.length deeper) ++ [mark_event m]) ++ es2), (CItem w :: dp), o'. split; [|split; [|split; [|split]]].
  - cbn [tree_lines run]. rewrite HS. rewrite run_app, HL, HR2. reflexivity.
  - cbn [List.length tree_events]. replace (repeat EEnd (S (List.length dp))) with (repeat EEnd (List.length dp) ++ [EEnd]) by (clear; induction dp as [|c dp IH]; [reflexivity|]; cbn [List.length repeat app] in *; now rewrite IH).
    rewrite <- !app_assoc. do 2 f_equal. cbn [app]. f_equal. rewrite !app_assoc. rewrite !app_assoc in HE2. rewrite HE2. reflexivity.
  - split; [constructor; [exists (w - 1); f_equal; unfold w; lia|exact HID]|]. cbn [width]. unfold w. lia.
  - discriminate.
  - exact HC2.
Qed.
Lemma tree_line_first d x : exists c r, tree_lines d x = c :: r. Proof. destruct x. eexists. eexists. reflexivity. Qed.
(** A list as a block. *)
Theorem reading_list kids : Forall good kids -> kids <> [] -> Forall (fun l => ~ In NL l) (flat_map (tree_lines 0) kids) ->
  let core := join nl (flat_map (tree_lines 0) kids) in block_reading core (flat_map tree_events kids) /\ solid core.
Proof.
  intros HG HN HF core. set (ls := flat_map (tree_lines 0) kids) in *.
  assert (HLN : ls <> []) by (unfold ls; destruct kids as [|k kids]; [now destruct HN|]; destruct (tree_line_first 0 k) as (c & r & H); cbn [flat_map]; rewrite H; discriminate).
  assert (HS : split_on NL core = ls) by (apply split_lines; assumption).
  assert (HRT : Forall reads_tree kids) by (clear -HG; induction HG; constructor; [apply reads_good|]; assumption).
  split.
  - destruct (reads_forest kids HRT 0 [] [] ONone) as (es & dp & o & HR & HE & [HI _] & HC & _); [repeat split; try constructor; cbn; lia|split; [constructor|exact I]|reflexivity|discriminate|].
    cbn [app close_leaf List.length repeat] in HR, HE. exists es, dp, o, (close_leaf o), dp. rewrite HS. split; [exact HR|]. split; [exact HE|]. split; [|split; [exact HI|exact HE]].
    unfold step. rewrite (continued_blank dp HI), Nat.eqb_refl. change (opened (S (List.length [])) (true && is_para o) []) with (@nil (container * event), @nil N). destruct o; try discriminate HC; reflexivity.
  - assert (HLV : Forall (fun l => l <> []) ls).
    { unfold ls. clear -HG. induction HG as [|k kids HK _ IH]; [constructor|]. cbn [flat_map]. apply Forall_app. split; [|exact IH]. clear IH kids. generalize 0. revert HK.
      induction k as [m t more kids IH] using tree_ind'. intros HG d. inversion HG as [? ? ? ? HM HT HMO HK HKG]; subst. cbn [tree_lines]. constructor.
      - unfold mark_line. destruct (mark_visible m t HM) as (c & r & HE & _). rewrite HE. destruct (spaces (4 * d)); discriminate.
      - apply Forall_app. split; [clear -HMO; induction HMO as [|l more HL _ IH]; constructor; [destruct (text_visible l HL) as (c & r & -> & _); discriminate|exact IH]|].
        clear -IH HKG. induction IH as [|k l H _ IH]; [constructor|]. inversion HKG; subst. cbn [flat_map]. apply Forall_app. split; [now apply H|now apply IH]. }
    apply solid_lines; [|rewrite HS; exact HLV]. unfold core. destruct kids as [|[m t more kk] kids]; [now destruct HN|]. inversion HG as [|? ? HG1 _]; subst. inversion HG1 as [? ? ? ? HM HT _ _ _]; subst.
    destruct (mark_visible m t HM) as (c & r & HE & HB). unfold ls. cbn [flat_map tree_lines]. unfold mark_line. rewrite HE. change (spaces (4 * 0) ++ c :: r) with (c :: r). set (aa := more ++ flat_map (tree_lines 1) kk). set (bb := flat_map (tree_lines 0) kids). change (((c :: r) :: aa) ++ bb) with ((c :: r) :: (aa ++ bb)).
    destruct (aa ++ bb) as [|l2 z2]; [exists c, r; split; [reflexivity|exact HB]|]. rewrite join_cons by discriminate. exists c. eexists. split; [reflexivity|exact HB].
Qed.
