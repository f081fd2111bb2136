(** Where blocks run together (C87): the proofs. *)
From Coq Require Import List NArith ZArith Bool String Lia.
From Verif Require Import PyStr Values Schema Parse Date Markdown Basics StrFacts MarkFacts Collapse SpecParse ParseFacts4 MdFacts SpecMd MdFacts2 LeafFacts LayoutFacts SpecErr ErrFacts SpecList ListFacts ListFacts2 SpecTable TableFacts
  SpecReader SpecSeen ReaderFacts ReaderFacts2 ReaderFacts3 ReaderFacts4 ReaderFacts5 ReaderFacts6 ReaderFacts7 ReaderFacts8 ReaderFacts9 ReaderFacts10 QuoteFacts Properties_Marks Properties_Nodes Properties_Layout Properties_Table Properties_Lists Properties_Size Properties_Quote Properties_Reader Properties_Reader2 SpecFlow.
Import ListNotations.
Open Scope string_scope.
Open Scope list_scope.
Open Scope nat_scope.

(** ---------------------------------------------------------------- extended *)
Lemma extended_last more pre l k : extended more (pre ++ EPara l :: repeat EEnd k) = pre ++ EPara (l ++ more) :: repeat EEnd k.
Proof.
  unfold extended. rewrite rev_app_distr. cbn [rev]. rewrite <- app_assoc. cbn [app].
  assert (HR : rev (repeat EEnd k) = repeat EEnd k).
  { clear. induction k as [|k IH]; [reflexivity|]. cbn [repeat rev]. rewrite IH. clear IH. induction k as [|k IH]; [reflexivity|]. cbn [repeat app]. now rewrite IH. }
  rewrite HR. assert (HB : forall j r, extended_back more (repeat EEnd j ++ EPara l :: r) = repeat EEnd j ++ EPara (l ++ more) :: r) by (induction j as [|j IH]; intros r; [reflexivity|]; cbn [repeat app extended_back]; now rewrite IH).
  rewrite HB, rev_app_distr, HR. cbn [rev]. rewrite rev_involutive, <- app_assoc. reflexivity.
Qed.
Lemma extended_table more pre h rows : extended more (pre ++ [ETable h rows]) = pre ++ [ETable h (rows ++ map (fun l => fit (List.length h) (cells l)) more)].
Proof. unfold extended. rewrite rev_app_distr. cbn [rev app extended_back]. now rewrite rev_involutive. Qed.
(** Events that end with a paragraph. *)
Definition ends_text (es : list event) : Prop := exists pre l k, es = pre ++ EPara l :: repeat EEnd k.
Lemma ends_text_app a es : ends_text es -> ends_text (a ++ es).
Proof. intros (pre & l & k & ->). exists (a ++ pre), l, k. now rewrite <- app_assoc. Qed.
Lemma extended_app more a es : ends_text es -> extended more (a ++ es) = a ++ extended more es.
Proof. intros (pre & l & k & ->). rewrite app_assoc, !extended_last. now rewrite <- app_assoc. Qed.
Lemma ends_text_end es : ends_text es -> ends_text (es ++ [EEnd]).
Proof.
  intros (pre & l & k & ->). exists pre, l, (S k). rewrite <- app_assoc. cbn [app]. do 2 f_equal. induction k as [|k IH]; [reflexivity|]. cbn [repeat app] in *. now rewrite IH.
Qed.
Lemma extended_end more es : ends_text es -> extended more (es ++ [EEnd]) = extended more es ++ [EEnd].
Proof.
  intros (pre & l & k & ->). assert (HR : forall x, (EPara x :: repeat EEnd k) ++ [EEnd] = EPara x :: repeat EEnd (S k)) by (intros x; cbn [app]; f_equal; induction k as [|k IH]; [reflexivity|]; cbn [repeat app] in *; now rewrite IH).
  rewrite <- app_assoc, HR, !extended_last, <- app_assoc, HR. reflexivity.
Qed.

(** ---------------------------------------------------------------- texts *)
Lemma zip_app (l1 l2 : list node) : forall xs1 xs2, List.length l1 = List.length xs1 -> zip_with laid_out (l1 ++ l2) (xs1 ++ xs2) = zip_with laid_out l1 xs1 ++ zip_with laid_out l2 xs2.
Proof. induction l1 as [|n l1 IH]; intros [|x xs1] xs2 H; try discriminate H; [reflexivity|]. cbn [app zip_with]. injection H as H. now rewrite IH. Qed.
Lemma zip_nonempty E l xs : Forall2 (renders E) l xs -> l <> [] -> zip_with laid_out l xs <> [].
Proof. intros [|n x l' xs' _ _]; [intros H; now destruct H|discriminate]. Qed.
Section Flow.
  Variable E : runtime.
  Notation shown l y := (exists xs, Forall2 (renders E) l xs /\ join nl (zip_with laid_out l xs) = y).
  Lemma shown_app l1 l2 y1 y2 : l1 <> [] -> l2 <> [] -> shown l1 y1 -> shown l2 y2 -> shown (l1 ++ l2) (y1 ++ nl ++ y2).
  Proof.
    intros N1 N2 (xs1 & F1 & <-) (xs2 & F2 & <-). exists (xs1 ++ xs2). split; [now apply Forall2_app|]. rewrite zip_app by (apply (Forall2_len _ _ _ F1)).
    apply join_app; [apply (zip_nonempty E _ _ F1 N1)|apply (zip_nonempty E _ _ F2 N2)].
  Qed.
  Lemma shown_one n x : renders E n x -> pads (n_kind n) = false -> shown [n] x.
  Proof. intros HR HP. exists [x]. split; [repeat constructor; exact HR|]. cbn [zip_with join]. now rewrite (pads_kind n (n_kind n) eq_refl HP). Qed.
  Lemma text_shown p ls b : text_block E p ls b -> Forall text_line ls /\ exists t, split_on NL t = ls /\ shown [p] (t ++ nls b) /\ b <= 2.
  Proof.
    intros [cs xs HK HBA HC HF x HT|x k HK HNS HR HT HB].
    - split; [exact HT|]. exists x. split; [reflexivity|]. split; [|lia]. apply shown_one; [change (nls 1) with nl; now apply para_renders with cs|now rewrite HK].
    - split; [exact HT|]. exists x. split; [reflexivity|]. split; [|exact HB]. apply shown_one; [exact HR|now apply structured_pads].
  Qed.
  Lemma texts_nonempty ps ls b : texts E ps ls b -> ps <> []. Proof. intros []; discriminate. Qed.
  Lemma texts_shown ps ls b : texts E ps ls b -> Forall text_line ls /\ exists t, split_on NL t = ls /\ shown ps (t ++ nls b) /\ b <= 2.
  Proof.
    induction 1 as [p ls b H|p ls ps ms b H HT IH]; [now apply text_shown|]. apply text_shown in H as (HL & t1 & HS1 & HX1 & _). destruct IH as (HM & t2 & HS2 & HX2 & HB). split; [now apply Forall_app|].
    exists (t1 ++ nl ++ t2). split; [change (nl ++ t2) with (NL :: t2); now rewrite split_nl, HS1, HS2|]. split; [|exact HB]. cbn [nls repeat] in HX1. rewrite app_nil_r in HX1.
    pose proof (shown_app [p] ps _ _ ltac:(discriminate) (texts_nonempty _ _ _ HT) HX1 HX2) as H. rewrite <- !app_assoc. exact H.
  Qed.
  (** ---------------------------------------------------------------- task lists *)
  Definition add_last (l : list str) (add : list str -> tree -> tree) : list tree -> list tree := fix go (xs : list tree) : list tree := match xs with [] => [] | y :: r => match r with [] => [add l y] | _ => y :: go r end end.
  Fixpoint add_text (l : list str) (x : tree) : tree :=
    match x with Tree m t more kids => match kids with [] => Tree m t (more ++ l) [] | _ => Tree m t more ((fix go (xs : list tree) : list tree := match xs with [] => [] | y :: r => match r with [] => [add_text l y] | _ => y :: go r end end) kids) end end.
  Lemma add_text_eq l m t more kids : add_text l (Tree m t more kids) = match kids with [] => Tree m t (more ++ l) [] | _ => Tree m t more (add_last l add_text kids) end.
  Proof. reflexivity. Qed.
  Lemma add_last_app l xs y : add_last l add_text (xs ++ [y]) = xs ++ [add_text l y].
  Proof. induction xs as [|x xs IH]; [reflexivity|]. cbn [app add_last]. destruct (xs ++ [y]) as [|u r] eqn:EQ; [destruct xs; discriminate EQ|]. cbn [add_last] in IH. now rewrite <- IH. Qed.
  Lemma add_text_app l m t more xs y : add_text l (Tree m t more (xs ++ [y])) = Tree m t more (xs ++ [add_text l y]).
  Proof. rewrite add_text_eq, add_last_app. now destruct xs. Qed.
  Lemma last_or {A} (l : list A) : l = [] \/ exists xs y, l = xs ++ [y].
  Proof. induction l as [|y xs _] using rev_ind; [now left|right; eauto]. Qed.
  Lemma add_text_mark l x : tree_mark (add_text l x) = tree_mark x. Proof. destruct x as [m t more kids]. rewrite add_text_eq. now destruct kids. Qed.
  Lemma add_text_lines l x : forall d, tree_lines d (add_text l x) = tree_lines d x ++ l.
  Proof.
    induction x as [m t more kids IH] using tree_ind'. intros d. destruct (last_or kids) as [->|(xs & y & ->)].
    - cbn [add_text tree_lines flat_map]. now rewrite !app_nil_r.
    - rewrite add_text_app. cbn [tree_lines]. apply Forall_app in IH as [_ IH]. inversion IH as [|? ? IHy _]; subst. rewrite !flat_map_app. cbn [flat_map]. rewrite IHy, !app_nil_r. cbn [app]. now rewrite <- !app_assoc.
  Qed.
  Lemma add_text_good l x : Forall text_line l -> good x -> good (add_text l x).
  Proof.
    intros HL. induction x as [m t more kids IH] using tree_ind'. intros H. inversion H as [? ? ? ? HM HT HMO HW HG]; subst. destruct (last_or kids) as [->|(xs & y & ->)].
    - cbn [add_text]. constructor; try assumption. now apply Forall_app.
    - rewrite add_text_app. apply Forall_app in IH as [_ IH]. inversion IH as [|? ? IHy _]; subst. apply Forall_app in HG as [HG1 HG2]. inversion HG2; subst. constructor; try assumption.
      + destruct xs as [|u xs]; [|exact HW]. cbn [app] in *. now rewrite add_text_mark.
      + apply Forall_app. split; [exact HG1|]. constructor; [now apply IHy|constructor].
  Qed.
  Lemma tree_ends x : ends_text (tree_events x).
  Proof.
    induction x as [m t more kids IH] using tree_ind'. cbn [tree_events]. destruct (last_or kids) as [->|(xs & y & ->)].
    - exists [mark_event m], (t :: more), 1. reflexivity.
    - apply Forall_app in IH as [_ IH]. inversion IH as [|? ? IHy _]; subst. rewrite flat_map_app. cbn [flat_map]. rewrite app_nil_r. rewrite <- app_assoc.
      apply (ends_text_app [mark_event m; EPara (t :: more)]). apply ends_text_app, ends_text_end, IHy.
  Qed.
  Lemma add_text_events l x : tree_events (add_text l x) = extended l (tree_events x).
  Proof.
    induction x as [m t more kids IH] using tree_ind'. destruct (last_or kids) as [->|(xs & y & ->)].
    - cbn [add_text tree_events flat_map app]. symmetry. exact (extended_last l [mark_event m] (t :: more) 1).
    - rewrite add_text_app. cbn [tree_events]. apply Forall_app in IH as [_ IH]. inversion IH as [|? ? IHy _]; subst. rewrite !flat_map_app. cbn [flat_map]. rewrite !app_nil_r, IHy, <- !app_assoc.
      pose proof (extended_app l [mark_event m; EPara (t :: more)] (flat_map tree_events xs ++ tree_events y ++ [EEnd])) as H. cbn [app] in H. rewrite H by (apply ends_text_app, ends_text_end, tree_ends).
      rewrite extended_app by (apply ends_text_end, tree_ends). now rewrite extended_end by apply tree_ends.
  Qed.
  Definition forest (t : str) (es : list event) : Prop :=
    exists kids, Forall good kids /\ Forall (fun k => tree_mark k = Bullet) kids /\ kids <> [] /\ flat_map tree_events kids = es /\ split_on NL t = flat_map (tree_lines 0) kids.
  Lemma forest_solid t es : forest t es -> solid t.
  Proof.
    intros (kids & HG & _ & HN & <- & HS). assert (HT : t = join nl (flat_map (tree_lines 0) kids)) by (rewrite <- HS; symmetry; exact (join_split NL t)).
    rewrite HT. apply (reading_list kids HG HN). rewrite <- HS. apply split_on_free.
  Qed.
  Lemma forest_more t es x : forest t es -> Forall text_line (split_on NL x) -> forest (t ++ nl ++ x) (extended (split_on NL x) es).
  Proof.
    intros (kids & HG & HM & HN & <- & HS) HT. destruct (last_or kids) as [->|(ks & y & ->)]; [now destruct HN|]. exists (ks ++ [add_text (split_on NL x) y]). apply Forall_app in HG as [HG1 HG2]. inversion HG2; subst.
    split; [apply Forall_app; split; [exact HG1|constructor; [now apply add_text_good|constructor]]|].
    split; [apply Forall_app in HM as [HM1 HM2]; inversion HM2; subst; apply Forall_app; split; [exact HM1|constructor; [now rewrite add_text_mark|constructor]]|]. split; [now destruct ks|]. split.
    - rewrite !flat_map_app. cbn [flat_map]. rewrite !app_nil_r, add_text_events. symmetry. apply extended_app, tree_ends.
    - change (nl ++ x) with (NL :: x). rewrite split_nl, HS, !flat_map_app. cbn [flat_map]. now rewrite !app_nil_r, add_text_lines, <- !app_assoc.
  Qed.
  Lemma forest_join t1 e1 t2 e2 : forest t1 e1 -> forest t2 e2 -> forest (t1 ++ nl ++ t2) (e1 ++ e2).
  Proof.
    intros (k1 & G1 & M1 & N1 & <- & S1) (k2 & G2 & M2 & N2 & <- & S2). exists (k1 ++ k2). split; [now apply Forall_app|]. split; [now apply Forall_app|]. split; [now destruct k1|]. split; [apply flat_map_app|].
    change (nl ++ t2) with (NL :: t2). now rewrite split_nl, S1, S2, flat_map_app.
  Qed.
  Lemma forest_one n cs es : consistent n -> n_kind n = KtaskList -> n_content n = Items cs -> cs <> [] -> tasks_seen E cs es -> exists t, renders E n t /\ forest t es.
  Proof.
    intros HCO HK HC HN HS. destruct (proj1 (tasks_to_trees E) cs es HS) as (kids & HG & HBU & HKN & HE & HX). destruct (HX 0) as (ls & H1 & H2 & HLN). exists (join nl (map print_task ls)).
    split; [apply (proj1 (tasks_main E) 0 n ls) with (lv := None); [now apply t_list with cs|exact HCO|reflexivity]|]. exists kids. split; [exact HG|]. split; [exact HBU|]. split; [now apply HKN|]. split; [exact HE|].
    rewrite <- H2, <- join_split_all. unfold task_lines. apply split_lines; [apply split_all_free|]. specialize (HLN HN). destruct ls as [|x ls]; [now destruct HLN|]. cbn [map flat_map]. destruct (split_on NL (print_task x)) eqn:EQ; [now destruct (split_on_nonnil NL (print_task x))|discriminate].
  Qed.
  Lemma task_lists_nonempty ts es : task_lists E ts es -> ts <> []. Proof. intros []; discriminate. Qed.
  Lemma task_lists_shown ts es : task_lists E ts es -> Forall consistent ts -> exists t, shown ts t /\ forest t es.
  Proof.
    induction 1 as [n cs es HK HC HN HS|n cs es ns es' HK HC HN HS HT IH]; intros HCO; inversion HCO as [|? ? HC1 HC2]; subst; destruct (forest_one n cs es HC1 HK HC HN HS) as (t & HR & HF).
    - exists t. split; [apply shown_one; [exact HR|now rewrite HK]|exact HF].
    - destruct (IH HC2) as (t2 & HX2 & HF2). exists (t ++ nl ++ t2). split; [|now apply forest_join]. apply (shown_app [n] ns); [discriminate|now apply task_lists_nonempty with es'| |exact HX2]. apply shown_one; [exact HR|now rewrite HK].
  Qed.

  (** ---------------------------------------------------------------- how a block begins and ends *)
  Definition ended (c : str) (e : list event) (en : ending) : Prop :=
    exists es0 cs o, run ([], ONone) (split_on NL c) = (es0, (cs, o)) /\ es0 ++ close_leaf o ++ repeat EEnd (List.length cs) = e /\ is_code o = false /\
      match en with InQuote => cs = [CQuote] | InItem => items cs | Outside => cs = [] end.
  Definition opens (c : str) (op : opening) : Prop :=
    match op with Marker => exists t r, split_on NL c = mark_line 0 Bullet t :: r /\ text_line t | Quoted => exists l r, split_on NL c = (s "> " ++ l) :: r | Plain => True end.
  Lemma ended_reading c e en : ended c e en -> block_reading c e.
  Proof.
    intros (es0 & cs & o & HR & HE & HO & HC). assert (HI : items cs -> block_reading c e).
    { intros HI. exists es0, cs, o, (close_leaf o), cs. split; [exact HR|]. split; [exact HE|]. split; [|split; [exact HI|exact HE]].
      unfold step. rewrite (continued_blank cs HI), Nat.eqb_refl. change (opened (S (List.length [])) (true && is_para o) []) with (@nil (container * event), @nil N). destruct o; try discriminate HO; reflexivity. }
    destruct en; [exact (HI HC)| |subst cs; apply HI; constructor]. subst cs. exists es0, [CQuote], o, (close_leaf o ++ [EEnd]), []. split; [exact HR|]. split; [exact HE|]. split; [|split; [constructor|]].
    - destruct o; try discriminate HO; reflexivity.
    - cbn [List.length repeat]. rewrite app_nil_r. exact HE.
  Qed.
  (** The first line of a block that ends what is open. *)
  Lemma step_parted cs o l op : is_code o = false -> (items cs \/ cs = [CQuote] /\ op = Marker) ->
    (match op with Marker => exists t, l = mark_line 0 Bullet t /\ text_line t | Quoted => exists x, l = s "> " ++ x | Plain => False end) ->
    step (cs, o) l = (close_leaf o ++ repeat EEnd (List.length cs) ++ fst (step ([], ONone) l), snd (step ([], ONone) l)).
  Proof.
    intros HO HC HL. destruct op; [| |now destruct HL].
    - destruct HL as (t & -> & HT). assert (H0 : step ([], ONone) (mark_line 0 Bullet t) = ([EBullet], ([CItem 2], OPara [t]))).
      { pose proof (step_mark 0 [] [] ONone Bullet t) as H. cbn [app close_leaf List.length repeat mark_event] in H. apply H; try reflexivity; [unfold place; cbn; repeat split; try constructor; lia|split; [constructor|exact I]|exact HT|discriminate]. }
      rewrite H0. cbn [fst snd]. destruct HC as [HI|[-> _]].
      + pose proof (step_mark 0 [] cs o Bullet t) as H. cbn [app mark_event] in H. apply H; [unfold place; cbn; repeat split; try constructor; lia| |exact I|exact HT|exact HO|now left].
        split; [exact HI|]. destruct HI as [|c cs' [w ->] _]; [exact I|]. cbn. lia.
      + unfold step. assert (HQ : continued [CQuote] (mark_line 0 Bullet t) = (0, mark_line 0 Bullet t)) by reflexivity. rewrite HQ. cbn [List.length Nat.eqb andb].
        pose proof (opened_mark (S (List.length (mark_line 0 Bullet t))) false 0 Bullet t) as H. change (spaces 0 ++ print_mark Bullet ++ t) with (mark_line 0 Bullet t) in H. rewrite H; [|lia|lia|exact I|exact HT|discriminate].
        assert (HLF : leaf_step ONone t = ([], OPara [t])) by (destruct HT as (HCL & _); cbn [leaf_step]; now rewrite HCL). rewrite HLF. destruct o; try discriminate HO; reflexivity.
    - destruct HL as (x & ->). destruct HC as [HI|[_ H]]; [|discriminate H]. assert (HV : ReaderFacts.visible (s "> " ++ x)) by (exists 62%N, (SP :: x); split; reflexivity).
      unfold step. rewrite (continued_visible cs _ HI HV). cbn [continued]. destruct cs as [|c cs].
      + cbn [List.length Nat.eqb is_para andb]. assert (HOP : opened (S (List.length (s "> " ++ x))) (is_para o) (s "> " ++ x) = opened (S (List.length (s "> " ++ x))) false (s "> " ++ x)) by reflexivity. rewrite HOP.
        destruct (opened (S (List.length (s "> " ++ x))) false (s "> " ++ x)) as [new inner] eqn:EO. assert (HN : new <> []).
        { intros ->. change (s "> " ++ x) with (62%N :: SP :: x) in EO. cbn [opened] in EO. cbv zeta in EO. change (after SP (62%N :: SP :: x)) with (62%N :: SP :: x) in EO. change (4 <=? leading SP (62%N :: SP :: x)) with false in EO. change (is_ch ">" 62%N) with true in EO. cbn iota in EO. destruct (opened _ false _) in EO; discriminate EO. }
        destruct new as [|a new]; [now destruct HN|]. destruct (leaf_step ONone inner) as [e1 o1]. destruct o; try discriminate HO; reflexivity.
      + cbn [List.length Nat.eqb is_para andb]. destruct (opened (S (List.length (s "> " ++ x))) false (s "> " ++ x)) as [new inner] eqn:EO. assert (HN : new <> []).
        { intros ->. change (s "> " ++ x) with (62%N :: SP :: x) in EO. cbn [opened] in EO. cbv zeta in EO. change (after SP (62%N :: SP :: x)) with (62%N :: SP :: x) in EO. change (4 <=? leading SP (62%N :: SP :: x)) with false in EO. change (is_ch ">" 62%N) with true in EO. cbn iota in EO. destruct (opened _ false _) in EO; discriminate EO. }
        destruct new as [|a new]; [now destruct HN|]. destruct (leaf_step ONone inner) as [e1 o1]. cbn [fst snd Nat.sub firstn close_leaf repeat app List.length]. destruct o; try discriminate HO; reflexivity.
  Qed.
  Lemma run_parted c1 e1 en c2 op : ended c1 e1 en -> opens c2 op -> parted en op -> forall es st, run ([], ONone) (split_on NL c2) = (es, st) ->
    run ([], ONone) (split_on NL (c1 ++ nl ++ c2)) = (e1 ++ es, st).
  Proof.
    intros (es0 & cs & o & HR & HE & HO & HC) HOP HP es st HR2. change (nl ++ c2) with (NL :: c2). rewrite split_nl, run_app, HR.
    assert (HCS : items cs \/ cs = [CQuote] /\ op = Marker).
    { destruct en; [left; exact HC| |left; subst; constructor]. destruct HP as [->|[_ HP]]; [right; split; [exact HC|reflexivity]|now destruct HP]. }
    assert (HST : exists l r, split_on NL c2 = l :: r /\ match op with Marker => exists t, l = mark_line 0 Bullet t /\ text_line t | Quoted => exists x, l = s "> " ++ x | Plain => False end).
    { destruct op; [destruct HOP as (t & r & H & HT); exists (mark_line 0 Bullet t), r; eauto|destruct HOP as (x & r & H); exists (s "> " ++ x), r; eauto|destruct HP as [HP|[HP _]]; discriminate HP]. }
    destruct HST as (l & r & HS & HL). rewrite HS in *. cbn [run] in *. rewrite (step_parted cs o l op HO HCS HL). destruct (step ([], ONone) l) as [a st1]. cbn [fst snd]. destruct (run st1 r) as [fs st2]. injection HR2 as <- <-.
    rewrite <- HE, <- !app_assoc. reflexivity.
  Qed.
  Lemma ended_parted c1 e1 en c2 op e2 en2 : ended c1 e1 en -> opens c2 op -> parted en op -> ended c2 e2 en2 -> ended (c1 ++ nl ++ c2) (e1 ++ e2) en2.
  Proof.
    intros H1 HOP HP (es0 & cs & o & HR & HE & HO & HC). exists (e1 ++ es0), cs, o. split; [now apply (run_parted c1 e1 en c2 op)|]. split; [|split; [exact HO|exact HC]]. now rewrite <- HE, <- app_assoc.
  Qed.
  Lemma reading_parted c1 e1 en c2 op e2 : ended c1 e1 en -> opens c2 op -> parted en op -> block_reading c2 e2 -> block_reading (c1 ++ nl ++ c2) (e1 ++ e2).
  Proof.
    intros H1 HOP HP (es0 & cs & o & es1 & cs1 & HR & HE & HB & HI & HE2). exists (e1 ++ es0), cs, o, es1, cs1. split; [now apply (run_parted c1 e1 en c2 op)|]. rewrite <- !app_assoc, HE, HE2. auto.
  Qed.
  Lemma solid_parted c1 c2 : solid c1 -> solid c2 -> solid (c1 ++ nl ++ c2).
  Proof.
    intros ((d & r & -> & HB & HD) & HE1 & HS1) HC2. pose proof HC2 as ((d2 & r2 & -> & HB2 & HD2) & HE2 & HS2). split; [exists d, (r ++ nl ++ d2 :: r2); split; [reflexivity|split; assumption]|]. split.
    - rewrite app_assoc. apply ends_clean_app; [discriminate|exact HE2].
    - change nl with (nls 1). rewrite strip_context; [|exact HE1|exact HD2]. rewrite HS1, HS2. reflexivity.
  Qed.
  Lemma opens_first c1 x op : opens c1 op -> opens (c1 ++ nl ++ x) op.
  Proof. unfold opens. change (nl ++ x) with (NL :: x). rewrite split_nl. destruct op; [intros (t & r & -> & HT); do 2 eexists; split; [reflexivity|exact HT]|intros (l & r & ->); do 2 eexists; reflexivity|auto]. Qed.
  (** A text made of cores: how it begins and ends. *)
  Definition body (y : str) (op : opening) (es : list event) (en : ending) (b : nat) : Prop :=
    exists cs c ess e, form (cs ++ [c]) 0 b y /\ Forall2 block_reading cs ess /\ ended c e en /\ List.concat ess ++ e = es /\ opens (hd c cs) op /\ b <= 2.
  Lemma form_parted cs1 c1 a y1 c r b y2 : form (cs1 ++ [c1]) a 0 y1 -> form (c :: r) 0 b y2 -> form (cs1 ++ (c1 ++ nl ++ c) :: r) a b (y1 ++ nl ++ y2).
  Proof.
    intros H1 H2. revert a y1 H1. induction cs1 as [|d cs1 IH]; intros a y1 H1; cbn [app] in *.
    - inversion H1 as [? ? ? HS1|? ? ? ? ? ? _ _ HF]; subst; [|inversion HF]. change (nls 0) with (@nil N). rewrite app_nil_r. inversion H2 as [? ? ? HS2|? ? ? g ? x HS2 HG HF]; subst; cbn [nls repeat app].
      + replace ((nls a ++ c1) ++ nl ++ c ++ nls b) with (nls a ++ (c1 ++ nl ++ c) ++ nls b) by (now rewrite <- !app_assoc). apply form_one. now apply solid_parted.
      + replace ((nls a ++ c1) ++ nl ++ c ++ x) with (nls a ++ (c1 ++ nl ++ c) ++ x) by (now rewrite <- !app_assoc). apply form_cons with g; [now apply solid_parted|exact HG|exact HF].
    - inversion H1 as [? ? ? HS1 HX|? ? ? g ? x HS1 HG HF]; subst; [now destruct cs1|]. rewrite <- !app_assoc. apply form_cons with g; [exact HS1|exact HG|now apply IH].
  Qed.
  Lemma body_presents y op es en b : body y op es en b -> presents y 0 es b.
  Proof.
    intros (cs & c & ess & e & HF & HR & HE & <- & _ & HB). left. exists (cs ++ [c]), (ess ++ [e]), 0, b. split; [exact HF|]. split; [apply Forall2_app2; [exact HR|constructor; [now apply ended_reading with en|constructor]]|].
    split; [rewrite concat_app; cbn [List.concat]; now rewrite app_nil_r|]. repeat split; lia.
  Qed.
  Lemma body_then y1 op1 es1 en1 y2 op2 es2 en2 b : body y1 op1 es1 en1 0 -> body y2 op2 es2 en2 b -> parted en1 op2 -> body (y1 ++ nl ++ y2) op1 (es1 ++ es2) en2 b.
  Proof.
    intros (cs1 & c1 & ess1 & e1 & F1 & R1 & E1 & <- & O1 & _) (cs2 & c2 & ess2 & e2 & F2 & R2 & E2 & <- & O2 & HB) HP. destruct cs2 as [|c cs2]; cbn [app hd] in *.
    - inversion R2; subst. exists cs1, (c1 ++ nl ++ c2), ess1, (e1 ++ e2). split; [exact (form_parted cs1 c1 0 y1 c2 [] b y2 F1 F2)|]. split; [exact R1|]. split; [now apply ended_parted with en1 op2|]. split; [cbn [List.concat app]; now rewrite <- app_assoc|].
      split; [|exact HB]. destruct cs1 as [|d cs1]; [|exact O1]. now apply opens_first.
    - inversion R2 as [|? x ? ess2' HR2 HR2']; subst. exists (cs1 ++ (c1 ++ nl ++ c) :: cs2), c2, (ess1 ++ (e1 ++ x) :: ess2'), e2. split; [rewrite <- app_assoc; exact (form_parted cs1 c1 0 y1 c (cs2 ++ [c2]) b y2 F1 F2)|].
      split; [apply Forall2_app2; [exact R1|constructor; [now apply reading_parted with en1 op2|exact HR2']]|]. split; [exact E2|]. split; [rewrite concat_app; cbn [List.concat]; now rewrite <- !app_assoc|]. split; [|exact HB].
      destruct cs1 as [|d cs1]; [|exact O1]. cbn [app hd] in *. now apply opens_first.
  Qed.
  Lemma body_one c e op en b : solid c -> ended c e en -> opens c op -> b <= 2 -> body (c ++ nls b) op e en b.
  Proof. intros HS HE HO HB. exists [], c, [], e. split; [exact (form_one c 0 b HS)|]. repeat split; try assumption. constructor. Qed.
  Lemma body_one0 c e op en : solid c -> ended c e en -> opens c op -> body c op e en 0.
  Proof. intros. rewrite <- (app_nil_r c). now apply (body_one c e op en 0); auto. Qed.
  Lemma ended_text t : Forall text_line (split_on NL t) -> ended t [EPara (split_on NL t)] Outside.
  Proof.
    intros HT. exists [], [], (OPara (split_on NL t)). split; [|repeat split]. destruct (split_on NL t) as [|l more] eqn:ES; [now destruct (split_on_nonnil NL t)|]. inversion HT; subst. cbn [run]. rewrite step_text_none by assumption. now rewrite run_text.
  Qed.
  Lemma forest_ended t es : forest t es -> ended t es InItem /\ opens t Marker.
  Proof.
    intros (kids & HG & HM & HN & <- & HS). assert (HRT : Forall reads_tree kids) by (clear -HG; induction HG; constructor; [apply reads_good|]; assumption). split.
    - destruct (reads_forest kids HRT 0 [] [] ONone) as (es & dp & o & HR & HE & [HI _] & HC & _); [repeat split; try constructor; cbn; lia|split; [constructor|exact I]|reflexivity|discriminate|].
      cbn [app close_leaf List.length repeat] in HR, HE. exists es, dp, o. rewrite HS. auto.
    - destruct kids as [|[m t0 more kk] kids]; [now destruct HN|]. inversion HM as [|? ? HM1 _]; subst. cbn [tree_mark] in HM1. subst m. inversion HG as [|? ? HG1 _]; subst. inversion HG1; subst. cbn [opens]. rewrite HS. cbn [flat_map tree_lines app]. eauto.
  Qed.

  (** ---------------------------------------------------------------- decision lists *)
  Lemma step_lazy_quote ls l : text_line l -> step ([CQuote], OPara ls) l = ([], ([CQuote], OPara (ls ++ [l]))).
  Proof.
    intros HL. destruct (text_visible l HL) as (c & r & -> & HB). destruct HL as (HC & HS & HSP). unfold step.
    assert (HA : after SP (c :: r) = c :: r) by (unfold after; destruct (visible_lead (c :: r) (ex_intro _ c (ex_intro _ r (conj eq_refl HB)))) as [H1 _]; rewrite H1; reflexivity).
    assert (HQ : continued [CQuote] (c :: r) = (0, c :: r)).
    { unfold starts_container in HS. rewrite HA in HS. apply orb_false_iff in HS as [HS _]. cbn [continued]. rewrite HA, HS. now destruct (leading SP (c :: r) <=? 3). }
    rewrite HQ. cbn [List.length Nat.eqb andb]. rewrite opened_none by exact HS. unfold lazy_line. rewrite HC. reflexivity.
  Qed.
  Lemma run_lazy_quote more : Forall text_line more -> forall ls, run ([CQuote], OPara ls) more = ([], ([CQuote], OPara (ls ++ more))).
  Proof. induction 1 as [|l more HL _ IH]; intros ls; cbn [run]; [now rewrite app_nil_r|]. rewrite step_lazy_quote by exact HL. rewrite IH. now rewrite <- app_assoc. Qed.
  Lemma decision_lines c es : decision_seen E c es -> exists ls, renders E c (join nl (quote_lines ls)) /\ es = [EQuote; EPara ls; EEnd] /\ ls <> [] /\ Forall text_line ls /\ Forall (fun l => ~ In NL l) ls.
  Proof.
    intros (HK & kids & xs & HC & HF & HT & ->). set (ls := map rstrip (split_on NL (rstrip (List.concat xs)))) in *. exists ls.
    split; [|split; [reflexivity|split; [unfold ls; intros H; apply map_eq_nil in H; now apply split_on_nonnil in H|split; [exact HT|]]]].
    - pose proof (decision_renders E c (List.concat xs) false) as H. rewrite quote_plain in H; [|unfold ls in HT; rewrite Forall_map in HT; eapply Forall_impl; [|exact HT]; intros l Hl; cbn beta in Hl; destruct (text_visible _ Hl) as (d & r & -> & _); discriminate].
      unfold renders. rewrite H; [unfold ls, quote_lines; rewrite map_map; reflexivity|]. split; [exact HK|]. right. exists kids, xs. repeat split; assumption.
    - unfold ls. rewrite Forall_map. eapply Forall_impl; [|apply split_on_free]. intros l Hl HI. apply Hl. clear -HI. pose proof (trimmed_rstrip (rstrip l) l) as HTR. destruct (proj2 HTR eq_refl) as (w & HW & _). rewrite HW. apply in_or_app. now left.
  Qed.
  Lemma quote_split ls more : ls <> [] -> Forall (fun l => ~ In NL l) ls -> forall t, split_on NL t = more -> split_on NL (join nl (quote_lines ls) ++ nl ++ t) = quote_lines ls ++ more.
  Proof.
    intros HN HF t <-. change (nl ++ t) with (NL :: t). rewrite split_nl, split_lines; [reflexivity| |unfold quote_lines; intros H; now apply map_eq_nil in H]. unfold quote_lines. rewrite Forall_map. eapply Forall_impl; [|exact HF].
    intros l Hl [H|[H|H]]; [discriminate H|discriminate H|contradiction].
  Qed.
  Lemma quote_ended c ls more : ls <> [] -> Forall text_line ls -> Forall text_line more -> split_on NL c = quote_lines ls ++ more -> ended c [EQuote; EPara (ls ++ more); EEnd] InQuote /\ opens c Quoted /\ solid c.
  Proof.
    intros HN HT HM HS. split; [|split].
    - exists [EQuote], [CQuote], (OPara (ls ++ more)). rewrite HS. split; [|repeat split].
      destruct ls as [|l ls]; [now destruct HN|]. inversion HT as [|? ? HT1 HT2]; subst. rewrite run_app. unfold quote_lines. cbn [map run]. rewrite step_quote_first, (step_text_none l HT1). unfold in_quote at 1. cbn [fst snd].
      rewrite run_quote, (run_text ls HT2). unfold in_quote. cbn [app fst snd]. rewrite (run_lazy_quote _ HM). reflexivity.
    - destruct ls as [|l ls]; [now destruct HN|]. cbn [opens]. rewrite HS. cbn [quote_lines map app]. eauto.
    - apply solid_lines.
      + destruct ls as [|l ls]; [now destruct HN|]. destruct c as [|d c]; [cbn in HS; discriminate HS|]. cbn [split_on] in HS. destruct (N.eqb d NL); [cbn in HS; discriminate HS|]. exists d, c. split; [reflexivity|].
        destruct (split_on NL c); cbn in HS; injection HS as -> _; reflexivity.
      + rewrite HS. apply Forall_app. split; [unfold quote_lines; apply Forall_map; apply Forall_forall; discriminate|]. eapply Forall_impl; [|exact HM]. intros l Hl. destruct (text_visible l Hl) as (d & r & -> & _). discriminate.
  Qed.
  Lemma decisions_ends cs ess : Forall2 (decision_seen E) cs ess -> cs <> [] -> exists pre ls, List.concat ess = pre ++ [EQuote; EPara ls; EEnd].
  Proof.
    induction 1 as [|c es cs ess HD HF IH]; intros HN; [now destruct HN|]. apply decision_lines in HD as (ls & _ & -> & _). destruct cs as [|c2 cs].
    - inversion HF; subst. exists [], ls. reflexivity.
    - destruct IH as (pre & l2 & HE); [discriminate|]. exists ([EQuote; EPara ls; EEnd] ++ pre), l2. cbn [List.concat]. rewrite HE. now rewrite <- app_assoc.
  Qed.
  Definition extends (y : str) (op : opening) (es : list event) (en : ending) : Prop :=
    body y op es en 0 /\ forall t b, Forall text_line (split_on NL t) -> b <= 2 -> body (y ++ nl ++ t ++ nls b) op (extended (split_on NL t) es) en b.
  Lemma join_app2 sep (a b : list str) : a <> [] -> b <> [] -> join sep (a ++ b) = join sep a ++ sep ++ join sep b.
  Proof.
    intros HA HB. induction a as [|x a IH]; [now destruct HA|]. cbn [app]. destruct a as [|y a]; [cbn [app]; now rewrite join_cons|]. rewrite !join_cons by discriminate. rewrite IH by discriminate. now rewrite <- !app_assoc.
  Qed.
  Lemma quotes_end lss : lss <> [] -> exists pre ls, flat_map quoted lss = pre ++ [EQuote; EPara ls; EEnd].
  Proof.
    intros HN. destruct (exists_last HN) as (pre & l & ->). exists (flat_map quoted pre), l. now rewrite flat_map_app.
  Qed.
  Definition quotable (ls : list str) : Prop := ls <> [] /\ Forall text_line ls /\ Forall (fun l => ~ In NL l) ls.
  Definition quote_text (ls : list str) : str := join nl (quote_lines ls).
  Lemma quotes_extend lss : lss <> [] -> Forall quotable lss -> extends (join (nl ++ nl) (map quote_text lss)) Quoted (flat_map quoted lss) InQuote.
  Proof.
    intros HN HF. induction HF as [|ls lss (HLN & HLT & HLF) HF IH]; [now destruct HN|].
    assert (HQ : split_on NL (join nl (quote_lines ls)) = quote_lines ls ++ []).
    { rewrite app_nil_r. apply split_lines; [|unfold quote_lines; intros H; now apply map_eq_nil in H]. unfold quote_lines. rewrite Forall_map. eapply Forall_impl; [|exact HLF]. intros l Hl [H|[H|H]]; [discriminate H|discriminate H|contradiction]. }
    destruct (quote_ended _ ls [] HLN HLT (Forall_nil _) HQ) as (HE1 & HO1 & HS1). rewrite app_nil_r in HE1. destruct lss as [|ls2 lss].
    - cbn [flat_map map join]. rewrite app_nil_r. split; [now apply body_one0|]. intros t b HT HB. unfold quote_text.
      destruct (quote_ended _ ls _ HLN HLT HT (quote_split ls _ HLN HLF t eq_refl)) as (HE2 & HO2 & HS2). unfold quoted. rewrite (extended_last (split_on NL t) [EQuote] ls 1 : extended _ [EQuote; EPara ls; EEnd] = _).
      rewrite !app_assoc, <- (app_assoc (join nl (quote_lines ls))). now apply body_one.
    - destruct IH as (HPX & HPT); [discriminate|]. cbn [map] in HPX, HPT |- *. rewrite join_cons by discriminate. change (flat_map quoted (ls :: ls2 :: lss)) with ([EQuote; EPara ls; EEnd] ++ flat_map quoted (ls2 :: lss)).
      assert (HADD : forall z es' b', body z Quoted es' InQuote b' -> body (join nl (quote_lines ls) ++ (nl ++ nl) ++ z) Quoted ([EQuote; EPara ls; EEnd] ++ es') InQuote b').
      { intros z es' b' (cs' & c' & ess' & e' & F' & R' & E' & <- & O' & B'). exists (join nl (quote_lines ls) :: cs'), c', ([EQuote; EPara ls; EEnd] :: ess'), e'. split.
        - apply (form_cons (join nl (quote_lines ls)) (cs' ++ [c']) 0 2 b'); [exact HS1|apply le_n|]. exact (form_prefix _ _ _ _ 2 F').
        - split; [constructor; [now apply ended_reading with InQuote|exact R']|]. split; [exact E'|]. split; [cbn [List.concat]; now rewrite <- app_assoc|]. split; [exact HO1|exact B']. }
      split; [now apply HADD|]. intros t b HT HB. destruct (quotes_end (ls2 :: lss)) as (pre & l2 & HE); [discriminate|]. rewrite extended_app by (rewrite HE; exists (pre ++ [EQuote]), l2, 1; rewrite <- app_assoc; reflexivity).
      unfold quote_text at 1. rewrite <- (app_assoc (join nl (quote_lines ls))), <- (app_assoc (nl ++ nl)). apply HADD. now apply HPT.
  Qed.
  Lemma quote_texts_join xs x y ys : join (nl ++ nl) (xs ++ [x]) ++ nl ++ join (nl ++ nl) (y :: ys) = join (nl ++ nl) (xs ++ (x ++ nl ++ y) :: ys).
  Proof.
    induction xs as [|z xs IH]; cbn [app].
    - destruct ys as [|y2 ys]; [reflexivity|]. rewrite !(join_cons (nl ++ nl) _ (y2 :: ys)) by discriminate. cbn [join]. now rewrite <- !app_assoc.
    - rewrite !(join_cons (nl ++ nl) z) by (now destruct xs). rewrite <- IH. now rewrite <- !app_assoc.
  Qed.
  Lemma quote_text_app a b : a <> [] -> b <> [] -> quote_text a ++ nl ++ quote_text b = quote_text (a ++ b).
  Proof. intros HA HB. unfold quote_text, quote_lines. rewrite map_app, join_app2; [reflexivity| |]; intros H; now apply map_eq_nil in H. Qed.
  Lemma decision_list_shown d lss : consistent d -> decision_list E d lss -> shown [d] (join (nl ++ nl) (map quote_text lss)) /\ lss <> [] /\ Forall quotable lss.
  Proof.
    intros HCO (HK & cs & HC & HN & HF). assert (HKS : Forall (fun c => n_kind c = KdecisionItem) cs) by (clear -HF; remember (map quoted lss) as ess; clear Heqess; induction HF as [|c es cs ess (HK & _) _ IH]; constructor; assumption).
    assert (HX : Forall2 (renders E) cs (map quote_text lss) /\ Forall quotable lss).
    { clear -HF. revert lss HF. induction cs as [|c cs IH]; intros [|ls lss] HF; inversion HF as [|? ? ? ? HD HF2]; subst; [split; constructor|]. destruct (IH lss HF2) as [H1 H2].
      destruct (decision_lines c _ HD) as (ls' & HR & HE & HQ). injection HE as <-. split; constructor; assumption. }
    destruct HX as [HX HQ]. split; [|split; [intros ->; inversion HF; subst; now destruct HN|exact HQ]]. apply shown_one; [now apply decision_list_renders with cs|now rewrite HK].
  Qed.
  Lemma decision_lists_nonempty ds lss : decision_lists E ds lss -> ds <> []. Proof. intros []; discriminate. Qed.
  Lemma decision_lists_shown ds lss : decision_lists E ds lss -> Forall consistent ds -> shown ds (join (nl ++ nl) (map quote_text lss)) /\ lss <> [] /\ Forall quotable lss.
  Proof.
    induction 1 as [d lss HD|d lss l ds m mss HD HDS IH]; intros HCO; inversion HCO as [|? ? HC1 HC2]; subst; [now apply decision_list_shown|].
    destruct (decision_list_shown d _ HC1 HD) as (HX1 & _ & HQ1). destruct (IH HC2) as (HX2 & _ & HQ2). apply Forall_app in HQ1 as [HQ1 HQL]. inversion HQL as [|? ? (HL1 & HL2 & HL3) _]; subst. inversion HQ2 as [|? ? (HM1 & HM2 & HM3) HQ3]; subst.
    split; [|split; [now destruct lss|apply Forall_app; split; [exact HQ1|constructor; [|exact HQ3]]]].
    - rewrite map_app in *. cbn [map] in *. rewrite <- (quote_text_app l m HL1 HM1), <- quote_texts_join. apply (shown_app [d] ds); [discriminate|now apply decision_lists_nonempty with (m :: mss)|exact HX1|exact HX2].
    - split; [now destruct l|]. split; apply Forall_app; split; assumption.
  Qed.
  (** ---------------------------------------------------------------- tables *)
  Lemma join_text ls t : ls <> [] -> Forall (fun l => ~ In NL l) ls -> split_on NL (join nl ls ++ nl ++ t) = ls ++ split_on NL t.
  Proof. intros HN HF. change (nl ++ t) with (NL :: t). now rewrite split_nl, split_lines. Qed.
  Lemma rows_and_text ls t : ls <> [] -> Forall (fun l => exists xs, l = row_line xs) ls -> Forall (fun l => ~ In NL l) ls -> Forall text_line (split_on NL t) -> solid (join nl ls ++ nl ++ t).
  Proof.
    intros HN HR HF HT. apply solid_lines.
    - destruct ls as [|l ls]; [now destruct HN|]. inversion HR as [|? ? [xs ->] _]; subst. exists PIPE. destruct ls as [|m ms]; [eexists; split; reflexivity|]. rewrite join_cons by discriminate. eexists. split; reflexivity.
    - rewrite join_text by assumption. apply Forall_app. split; [eapply Forall_impl; [|exact HR]; intros l (xs & ->); apply row_nonempty|]. eapply Forall_impl; [|exact HT]. intros l Hl. destruct (text_visible l Hl) as (d & r & -> & _). discriminate.
  Qed.
  Lemma headless_lines n xss : consistent n -> headless_table E n xss -> renders E n (join nl (map row_line xss)) /\ xss <> [] /\ Forall fine_row xss.
  Proof.
    intros HC (HK & rows & cellss & HI & HNE & HR & HN & HX & HCR & HD). pose proof (table_renders' E n rows _ _ HC HK HI HR HX) as HM. rewrite (no_header_rows E cellss xss HN HX) in HM. split; [exact HM|].
    split; [destruct HR; [now destruct HNE|]; inversion HX; discriminate|exact (rows_fine E rows _ _ HR HX HCR)].
  Qed.
  Lemma more_rows_shown ts rs : more_rows E ts rs -> Forall consistent ts -> ts = [] /\ rs = [] \/ shown ts (join nl (map row_line rs)) /\ rs <> [] /\ ts <> [] /\ Forall fine_row rs.
  Proof.
    assert (HADD : forall t us r qs, n_kind t = Ktable -> renders E t (join nl (map row_line r)) -> r <> [] -> Forall fine_row r ->
      (us = [] /\ qs = [] \/ shown us (join nl (map row_line qs)) /\ qs <> [] /\ us <> [] /\ Forall fine_row qs) -> shown (t :: us) (join nl (map row_line (r ++ qs))) /\ r ++ qs <> [] /\ t :: us <> [] /\ Forall fine_row (r ++ qs)).
    { intros t us r qs HK HR HN HF HTS. assert (H1 : shown [t] (join nl (map row_line r))) by (apply shown_one; [exact HR|now rewrite HK]). split; [|split; [now destruct r|split; [discriminate|]]].
      - destruct HTS as [[-> ->]|(HX & HN2 & HTN & _)]; [now rewrite app_nil_r|]. rewrite map_app. replace (join nl (map row_line r ++ map row_line qs)) with (join nl (map row_line r) ++ nl ++ join nl (map row_line qs)).
        + apply (shown_app [t] us); [discriminate|exact HTN|exact H1|exact HX].
        + symmetry. apply join_app2; intros H; now apply map_eq_nil in H.
      - apply Forall_app. split; [exact HF|]. destruct HTS as [[_ ->]|(_ & _ & _ & H)]; [constructor|exact H]. }
    induction 1 as [|t c1 cellss x1 xss us qs HT HM IH|t xss us qs HT HM IH]; intros HCO; [now left| |]; right; inversion HCO as [|? ? HC1 HC2]; subst.
    - destruct (headed_lines E t _ _ _ _ HC1 HT) as (HR & HF1 & HF2 & _). apply (HADD t us (x1 :: repeat (s "---") (List.length x1) :: body_rows cellss xss) qs); [now destruct HT|exact HR|discriminate| |now apply IH].
      constructor; [exact HF1|]. constructor; [apply delim_fine_row; destruct HF1 as (HN & _); destruct x1; [now destruct HN|cbn; lia]|exact HF2].
    - destruct (headless_lines t xss HC1 HT) as (HR & HN & HF). apply HADD; try assumption; [now destruct HT|now apply IH].
  Qed.
  Lemma table_shown n c1 cellss x1 xss ts rs : consistent n -> Forall consistent ts -> headed_table E n c1 cellss x1 xss -> more_rows E ts rs ->
    exists x, shown (n :: ts) x /\ extends x Plain [table_event x1 (body_rows cellss xss ++ rs)] Outside.
  Proof.
    intros HC HCS HT HMR. destruct (headed_lines E n _ _ _ _ HC HT) as (HR & HF1 & HFB & _). pose proof (more_rows_shown ts rs HMR HCS) as HTS.
    assert (HF2 : Forall fine_row (body_rows cellss xss ++ rs)) by (apply Forall_app; split; [exact HFB|]; destruct HTS as [[_ ->]|(_ & _ & _ & H)]; [constructor|exact H]).
    assert (HSH : shown (n :: ts) (join nl (row_line x1 :: delimiter_line (List.length x1) :: map row_line (body_rows cellss xss ++ rs)))).
    { assert (HS1 : shown [n] (join nl (row_line x1 :: delimiter_line (List.length x1) :: map row_line (body_rows cellss xss)))) by (apply shown_one; [exact HR|destruct HT as (HK & _); now rewrite HK]).
      destruct HTS as [[-> ->]|(HX & HN2 & HTN & _)]; [now rewrite app_nil_r|]. rewrite map_app.
      change (row_line x1 :: delimiter_line (List.length x1) :: map row_line (body_rows cellss xss) ++ map row_line rs) with ((row_line x1 :: delimiter_line (List.length x1) :: map row_line (body_rows cellss xss)) ++ map row_line rs).
      rewrite join_app2; [|discriminate|intros H; now apply map_eq_nil in H]. apply (shown_app [n] ts); [discriminate|exact HTN|exact HS1|exact HX]. }
    clear HR HFB HTS. set (body0 := body_rows cellss xss ++ rs) in *. set (ls := row_line x1 :: delimiter_line (List.length x1) :: map row_line body0) in *. exists (join nl ls). split; [exact HSH|].
    assert (HPOS : 0 < List.length x1) by (destruct HF1 as (HN & _); destruct x1; [now destruct HN|cbn; lia]).
    assert (HALL : Forall fine_row (x1 :: repeat (s "---") (List.length x1) :: body0)) by (constructor; [exact HF1|]; constructor; [now apply delim_fine_row|exact HF2]).
    destruct (fine_map _ HALL) as [HRL HNL]. assert (HNE : ls <> []) by discriminate. set (rows := map (fun xs => fit (List.length x1) (map trim xs)) body0).
    assert (HRUN : run ([], ONone) ls = ([], ([], OTable (map trim x1) rows))).
    { unfold ls. cbn [run]. rewrite (step_header x1 HF1), (step_delim x1 HF1), (run_rows _ _ HF2 []). cbn [app]. rewrite map_length. reflexivity. }
    split.
    - apply body_one0; [apply (reading_table x1 _ HF1 HF2)| |exact I]. exists [], [], (OTable (map trim x1) rows). rewrite (split_lines ls HNL HNE). split; [exact HRUN|]. repeat split.
    - intros t b HTX HBB. rewrite !app_assoc, <- (app_assoc (join nl ls)). rewrite (extended_table (split_on NL t) [] (map trim x1) rows : extended _ [table_event x1 body0] = _). cbn [app].
      apply body_one; [now apply rows_and_text| |exact I|exact HBB]. eexists [], [], (OTable (map trim x1) _). rewrite (join_text ls t HNE HNL), run_app, HRUN, (run_text_rows _ _ HTX). repeat split.
  Qed.
  Lemma headless_tables_lines ts xss : headless_tables E ts xss -> Forall consistent ts ->
    shown ts (join nl (map row_line xss)) /\ ts <> [] /\ xss <> [] /\ Forall fine_row xss /\ Forall (fun xs => delimiter_row (row_line xs) = false) xss.
  Proof.
    assert (H1 : forall t rs, consistent t -> headless_table E t rs -> shown [t] (join nl (map row_line rs)) /\ [t] <> [] /\ rs <> [] /\ Forall fine_row rs /\ Forall (fun xs => delimiter_row (row_line xs) = false) rs).
    { intros t rs HC HT. destruct (headless_lines t rs HC HT) as (HR & HN & HF). destruct HT as (HK & _ & _ & _ & _ & _ & _ & _ & _ & HD). split; [apply shown_one; [exact HR|now rewrite HK]|]. split; [discriminate|auto]. }
    induction 1 as [t rs HT|t rs us qs HT HTS IH]; intros HCO; inversion HCO as [|? ? HC1 HC2]; subst; [now apply H1|]. destruct (H1 t rs HC1 HT) as (HX1 & _ & HN1 & HF1 & HD1). destruct (IH HC2) as (HX2 & HT2 & HN2 & HF2 & HD2).
    split; [|split; [discriminate|split; [now destruct rs|split; apply Forall_app; split; assumption]]]. rewrite map_app, join_app2; [apply (shown_app [t] us); [discriminate|exact HT2|exact HX1|exact HX2]| |]; intros H; now apply map_eq_nil in H.
  Qed.
  Lemma headless_shown ts xss : Forall consistent ts -> headless_tables E ts xss -> exists x, shown ts x /\ extends x Plain [EPara (map row_line xss)] Outside.
  Proof.
    intros HCO HT. destruct (headless_tables_lines ts xss HT HCO) as (HSH & _ & HXN & HF & HD). clear HT. exists (join nl (map row_line xss)). split; [exact HSH|].
    destruct (fine_map _ HF) as [HRL HNL]. assert (HLN : map row_line xss <> []) by (intros H; now apply map_eq_nil in H).
    assert (HRUN : exists o, run ([], ONone) (map row_line xss) = ([], ([], o)) /\ (o = OPara (map row_line xss) \/ exists x, xss = [x] /\ o = OHeader (row_line x))).
    { destruct xss as [|x xss]; [now destruct HXN|]. inversion HF as [|? ? HF1 HF2]; subst. inversion HD as [|? ? HD1 HD2]; subst. cbn [map run]. rewrite (step_header x HF1). destruct xss as [|y xss]; [exists (OHeader (row_line x)); split; [reflexivity|right; eauto]|].
      inversion HF2 as [|? ? (_ & _ & HB2) HF3]; subst. inversion HD2 as [|? ? HD3 HD4]; subst. cbn [map run].
      assert (HST : step ([], OHeader (row_line x)) (row_line y) = ([], ([], OPara [row_line x; row_line y]))) by (rewrite step_top by (right; apply row_not_container); cbn [leaf_step]; now rewrite (classify_row y HB2), HD3).
      rewrite HST, (run_para_rows xss HF3 HD4). eexists. split; [reflexivity|now left]. }
    destruct HRUN as (o & HRUN & HO). split.
    - apply body_one0; [apply (reading_no_header xss HXN HF HD)| |exact I]. exists [], [], o. rewrite (split_lines _ HNL HLN). split; [exact HRUN|]. destruct HO as [->|(x & -> & ->)]; repeat split.
    - intros t b HT HBB. rewrite !app_assoc, <- (app_assoc (join nl (map row_line xss))). rewrite (extended_last (split_on NL t) [] (map row_line xss) 0 : extended _ [EPara (map row_line xss)] = _). cbn [app repeat].
      apply body_one; [now apply rows_and_text| |exact I|exact HBB]. exists [], [], (OPara (map row_line xss ++ split_on NL t)). rewrite (join_text _ t HLN HNL), run_app, HRUN. split; [|repeat split].
      destruct HO as [->|(x & -> & ->)]; [now rewrite (run_text _ HT)|]. destruct (split_on NL t) as [|l more] eqn:EQ; [now destruct (split_on_nonnil NL t)|]. clear EQ. inversion HT as [|? ? HT1 HT2]; subst. cbn [run]. assert (HST : step ([], OHeader (row_line x)) l = ([], ([], OPara [row_line x; l]))) by (destruct HT1 as (HC1 & HS1 & _); rewrite step_top by (right; exact HS1); cbn [leaf_step]; now rewrite HC1).
        rewrite HST, (run_text more HT2). reflexivity.
  Qed.
  (** ---------------------------------------------------------------- whole documents *)
  Lemma base_nonempty l es o e : base E l es o e -> l <> [].
  Proof. intros []; try discriminate; [now apply task_lists_nonempty with es0|now apply decision_lists_nonempty with lss|destruct H; discriminate]. Qed.
  Lemma base_shown l es o e : base E l es o e -> Forall consistent l -> exists y, shown l y /\ extends y o es e.
  Proof.
    intros [ts es' H|ds lss HD|t c1 cellss x1 xss ts rs HT HMR|ts xss HT] HCO.
    - destruct (task_lists_shown ts es' H HCO) as (t & HX & HF). exists t. split; [exact HX|]. destruct (forest_ended t es' HF) as [HE HO]. split; [apply body_one0; try assumption; now apply forest_solid with es'|].
      intros x b HT HB. pose proof (forest_more t es' x HF HT) as HF2. destruct (forest_ended _ _ HF2) as [HE2 HO2]. rewrite !app_assoc, <- (app_assoc t). apply body_one; try assumption. now apply forest_solid with (extended (split_on NL x) es').
    - destruct (decision_lists_shown ds lss HD HCO) as (HX & HN & HQ). exists (join (nl ++ nl) (map quote_text lss)). split; [exact HX|now apply quotes_extend].
    - inversion HCO as [|? ? HC1 HC2]; subst. exact (table_shown t _ _ _ _ _ _ HC1 HC2 HT HMR).
    - exact (headless_shown ts xss HCO HT).
  Qed.
  Lemma part_nonempty l es b o e : part E l es b o e -> l <> [].
  Proof. intros [l' es' o' e' H|l' es' o' e' ps ls b' H _|ps ls b' H]; [now apply base_nonempty in H|apply base_nonempty in H; now destruct l'|now apply texts_nonempty in H]. Qed.
  Lemma part_shown l es b o e : part E l es b o e -> Forall consistent l -> exists y, shown l y /\ body y o es e b.
  Proof.
    intros [l' es' o' e' H|l' es' o' e' ps ls b' H HP|ps ls b' H] HCO.
    - destruct (base_shown _ _ _ _ H HCO) as (y & HX & HB & _). eauto.
    - apply Forall_app in HCO as [HC1 _]. destruct (base_shown _ _ _ _ H HC1) as (y & HX & _ & HB). pose proof (texts_nonempty _ _ _ HP) as HPN. apply texts_shown in HP as (HT & t & <- & HX2 & HB2). exists (y ++ nl ++ t ++ nls b'). split; [|now apply HB].
      apply shown_app; try assumption. now apply base_nonempty in H.
    - apply texts_shown in H as (HT & t & <- & HX & HB). exists (t ++ nls b'). split; [exact HX|]. apply body_one; [apply (reading_para t HT)|now apply ended_text|exact I|exact HB].
  Qed.
  Lemma close_nonempty l es b e : close_run E l es b e -> l <> [].
  Proof. intros [l' es' b' o e' H|l' es' e1 l2 es2 b' o e' _ H _]; apply part_nonempty in H; [exact H|now destruct l']. Qed.
  Lemma close_shown l es b e : close_run E l es b e -> Forall consistent l -> exists y o, shown l y /\ body y o es e b.
  Proof.
    induction 1 as [l es b o e H|l es e l' es' b o e' H IH HP HPA]; intros HCO.
    - destruct (part_shown _ _ _ _ _ H HCO) as (y & HX & HB). eauto.
    - apply Forall_app in HCO as [HC1 HC2]. destruct (IH HC1) as (y1 & o1 & HX1 & HB1). destruct (part_shown _ _ _ _ _ HP HC2) as (y2 & HX2 & HB2). exists (y1 ++ nl ++ y2), o1. split; [|now apply body_then with e o].
      apply shown_app; try assumption; [now apply close_nonempty in H|now apply part_nonempty in HP].
  Qed.
  Lemma flow_nonempty l a es b : flow E l a es b -> l <> [].
  Proof. induction 1 as [l a es b H|l es b e H|l1 a1 e1 b1 l2 a2 e2 b2 _ IH _ _ _]; [destruct H; discriminate|now apply close_nonempty in H|now destruct l1]. Qed.
  Theorem flow_presents l a es b : flow E l a es b -> Forall consistent l -> exists y, shown l y /\ presents y a es b.
  Proof.
    induction 1 as [l a es b H|l es b e H|l1 a1 e1 b1 l2 a2 e2 b2 H1 IH1 H2 IH2 HB]; intros HCO.
    - destruct (proj2 (seen_presents E) l a es b H HCO) as (xs & HF & HP). exists (join nl (zip_with laid_out l xs)). split; [exists xs; split; [exact HF|reflexivity]|exact HP].
    - destruct (close_shown _ _ _ _ H HCO) as (y & o & HX & HP). exists y. split; [exact HX|now apply body_presents with o e].
    - apply Forall_app in HCO as [HC1 HC2]. destruct (IH1 HC1) as (y1 & HX1 & HP1). destruct (IH2 HC2) as (y2 & HX2 & HP2). exists (y1 ++ nl ++ y2). split; [|now apply presents_join with b1 a2].
      apply shown_app; try assumption; eapply flow_nonempty; eassumption.
  Qed.
End Flow.
(** Task lists end in a text inside an item. *)
Lemma tasks_end E : (forall cs es, tasks_seen E cs es -> cs <> [] -> exists pre l k, es = pre ++ EPara l :: repeat EEnd k /\ 0 < k) /\
  (forall cs es, nested_tasks_seen E cs es -> cs <> [] -> exists pre l k, es = pre ++ EPara l :: repeat EEnd k /\ 0 < k).
Proof.
  apply (tasks_seen_both E (fun cs es => cs <> [] -> exists pre l k, es = pre ++ EPara l :: repeat EEnd k /\ 0 < k) (fun cs es => cs <> [] -> exists pre l k, es = pre ++ EPara l :: repeat EEnd k /\ 0 < k)).
  - intros H. now destruct H.
  - intros c kids xs st done t more subs es rest es' _ _ _ _ _ _ _ _ HSU IH1 HRE IH2 _. destruct rest as [|r rest].
    + inversion HRE; subst. destruct subs as [|u subs].
      * inversion HSU; subst. exists [EBullet], ((box done ++ t) :: more), 1. split; [reflexivity|lia].
      * destruct IH1 as (pre & l & k & -> & _); [discriminate|]. exists (EBullet :: EPara ((box done ++ t) :: more) :: pre), l, (S k). split; [|lia]. cbn [app]. do 2 f_equal. rewrite <- app_assoc. cbn [app]. do 2 f_equal. clear. induction k as [|k IH]; [reflexivity|]. cbn [repeat app] in *. now rewrite IH.
    + destruct IH2 as (pre & l & k & -> & HK); [discriminate|]. exists ((EBullet :: EPara ((box done ++ t) :: more) :: es ++ [EEnd]) ++ pre), l, k. split; [|exact HK]. cbn [app]. now rewrite <- !app_assoc.
  - intros H. now destruct H.
  - intros n cs es rest es' _ _ HN _ IH1 HRE IH2 _. destruct rest as [|r rest].
    + inversion HRE; subst. rewrite app_nil_r. now apply IH1.
    + destruct IH2 as (pre & l & k & -> & HK); [discriminate|]. exists (es ++ pre), l, k. split; [now rewrite app_assoc|exact HK].
Qed.
Lemma task_lists_end E ts es : task_lists E ts es -> exists pre l k, es = pre ++ EPara l :: repeat EEnd k /\ 0 < k.
Proof.
  induction 1 as [n cs es _ _ HN HS|n cs es ns es' _ _ HN HS _ (pre & l & k & -> & HK)]; [now apply (proj1 (tasks_end E) cs)|]. exists (es ++ pre), l, k. split; [now rewrite app_assoc|exact HK].
Qed.
