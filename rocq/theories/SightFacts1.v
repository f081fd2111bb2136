(** The blocks are seen as they should be, with the text inside them (C81). *)
From Coq Require Import List NArith ZArith Bool String Lia.
From Verif Require Import PyStr Values Schema Parse Date Markdown Basics StrFacts MarkFacts SpecParse ParseFacts4 SpecMd MdFacts2 SpecErr ErrFacts SpecList SpecTable SpecReader SpecSeen
  ReaderFacts7 ReaderFacts9 ReaderFacts10 SpecInline SpecLook SpecSight InlineFacts1 InlineFacts2 InlineFacts3 InlineFacts4 InlineFacts5 InlineFacts6 InlineFacts8
  Properties_Marks Properties_Nodes Properties_Inline.
Import ListNotations.
Open Scope string_scope.
Open Scope list_scope.
Open Scope nat_scope.

Lemma renders_same E n x y : renders E n x -> renders E n y -> x = y.
Proof. unfold renders. intros -> H. now injection H. Qed.
Lemma all_renders_same E ns xs ys : Forall2 (renders E) ns xs -> Forall2 (renders E) ns ys -> xs = ys.
Proof. intros H. revert ys. induction H as [|n x ns xs H _ IH]; intros ys HY; inversion HY; subst; [reflexivity|]. f_equal; [now apply (renders_same E n)|now apply IH]. Qed.
Section S.
Variables (E : runtime) (up : N -> bool).
Lemma inline_sight cs x gs : inline_looks E up NL cs x gs -> shown up x = gs.
Proof. intros (xs & HR & -> & HS & _). now apply (C79_nodes E up cs xs). Qed.
Lemma inline_writes p cs x gs xs : inline_looks E up p cs x gs -> Forall2 (renders E) cs xs -> List.concat xs = x.
Proof. intros (ys & HR & -> & _) HX. now rewrite (all_renders_same E cs xs ys HX HR). Qed.
Lemma sight_para ls : sight_of up (EPara ls) = SightPara (shown up (join nl ls)). Proof. reflexivity. Qed.
Lemma join_lines x : join nl (split_on NL x) = x. Proof. change nl with [NL]. apply join_split. Qed.
Lemma solid_rstrip x : solid_end x -> rstrip x = x.
Proof.
  unfold solid_end, rstrip. induction x as [|c x IH]; [reflexivity|]. cbn [rstrip_by last]. destruct x as [|d x]; [cbn [rstrip_by]; intros ->; reflexivity|].
  intros H. rewrite (IH H). reflexivity.
Qed.
(** ---------------------------------------------------------------- lists *)
Lemma list_sights own : own = KbulletList \/ own = KorderedList ->
  (forall z n es, list_seen E own z n es -> forall ss, list_looks E up own z n ss -> map (sight_of up) es = ss) /\
  (forall z l es, items_seen E own z l es -> forall ss, items_look E up own z l ss -> map (sight_of up) es = ss) /\
  (forall l es, subs_seen E own l es -> forall ss, subs_look E up own l ss -> map (sight_of up) es = ss).
Proof.
  intros HO. apply (seen_lists E own (fun z n es => forall ss, list_looks E up own z n ss -> map (sight_of up) es = ss)
    (fun z l es => forall ss, items_look E up own z l ss -> map (sight_of up) es = ss) (fun l es => forall ss, subs_look E up own l ss -> map (sight_of up) es = ss)).
  - intros z n cs es _ HC _ _ IH ss HL. inversion HL as [? ? cs' ? HC' HI]; subst. rewrite HC in HC'. injection HC' as <-. now apply IH.
  - intros z ss HL. now inversion HL.
  - intros z item p subs x t more es rest es' HC _ HB HS _ _ _ _ _ IH1 _ IH2 ss HL. inversion HL as [|? ? p' subs' cs y gs s1 ? s2 HC' HK HBa HCp HI HSo HSub HIt]; subst.
    rewrite HC in HC'. injection HC' as <- <-. assert (HX : x = y).
    { destruct HB as [cs' xs _ _ HC2 HR|x [HB|HB] _]; [|now destruct HB|now destruct HB]. rewrite HCp in HC2. injection HC2 as <-. now apply (inline_writes NL cs _ gs). }
    subst y. rewrite (solid_rstrip x HSo) in HS. cbn [map]. rewrite map_app. cbn [map]. rewrite sight_para, <- HS, join_lines, (inline_sight cs x gs HI). rewrite (IH1 _ HSub), (IH2 _ HIt).
    f_equal. destruct HO as [->| ->]; reflexivity.
  - intros ss HL. now inversion HL.
  - intros n rest es es' _ IH1 _ IH2 ss HL. inversion HL as [|? ? s1 s2 H1 H2]; subst. rewrite map_app. f_equal; auto.
Qed.
(** ---------------------------------------------------------------- tasks *)
Definition plain_text (t : str) : node := Node Ktext VNone None (Some (VStr t)) NoAttrs NoField SOpt.
Lemma box_sight done cs x gs : inline_looks E up SP cs x gs -> is_ws (hd SP x) = false -> shown up (box done ++ x) = in_plain (box done) ++ gs.
Proof.
  intros (xs & HR & -> & HS & _) HW. change (box done ++ List.concat xs) with (List.concat (box done :: xs)).
  apply (C79_nodes E up (plain_text (box done) :: cs)); [constructor; [reflexivity|exact HR]|].
  exists (in_plain (box done)), gs. split; [|split; [destruct done; exact HS|reflexivity]].
  apply (ns_text up _ _ _ _ (box done) (Format false [] None [])); [split; [reflexivity|]; split; [reflexivity|]; left; split; [discriminate|reflexivity]|].
  split; [constructor|]. split; [reflexivity|]. split; [|split; [discriminate|split; [intros [X|X]; [discriminate X|now destruct X]|split; [intros _ X; now destruct X|split; [intros X; now destruct X|split; intros X; now destruct X]]]]].
  cbn [f_code f_link f_inner f_outer]. remember (List.concat xs) as y. destruct y as [|c y]; [discriminate HW|].
  assert (HC : N.eqb c SP = false) by (destruct (N.eqb_spec c SP) as [->|]; [discriminate HW|reflexivity]).
  assert (HN : N.eqb c NL = false) by (destruct (N.eqb_spec c NL) as [->|]; [discriminate HW|reflexivity]).
  destruct done; unfold front, back; cbn [f_inner f_outer f_link signs_before signs_after rev map List.concat app last];
  match goal with |- ordinary up ?p (box ?d) _ = true => let b := eval vm_compute in (box d) in change (box d) with b end;
  cbn [ordinary app]; rewrite ?Bool.andb_true_r; repeat (apply andb_true_intro; split); try (vm_compute; reflexivity);
  unfold literal; cbn [hd];
  change (match skipn (leading SP (c :: y)) (c :: y) with [] => false | d :: _ => negb (d =? NL)%N end = true);
  cbn [leading]; rewrite HC; cbn [skipn]; rewrite HN; reflexivity.
Qed.
Lemma tasks_split (subs subs' rest rest' : list node) :
  Forall (fun n => n_kind n = KtaskList) subs -> Forall (fun n => n_kind n = KtaskList) subs' ->
  (forall n r, rest = n :: r -> n_kind n = KtaskItem) -> (forall n r, rest' = n :: r -> n_kind n = KtaskItem) ->
  subs ++ rest = subs' ++ rest' -> subs = subs' /\ rest = rest'.
Proof.
  intros H. revert subs'. induction H as [|n l H _ IH]; intros subs' H' HR HR' HE.
  - destruct H' as [|n' l' H' _]; [split; [reflexivity|exact HE]|]. cbn [app] in HE. specialize (HR _ _ HE). congruence.
  - destruct H' as [|n' l' H' HL']; cbn [app] in HE; [specialize (HR' _ _ (eq_sym HE)); congruence|]. injection HE as -> HE. destruct (IH l' HL' HR HR' HE) as [-> ->]. now split.
Qed.
Lemma nested_kinds l es : nested_tasks_seen E l es -> Forall (fun n => n_kind n = KtaskList) l.
Proof. induction 1; constructor; assumption. Qed.
Lemma nested_kinds' l ss : nested_tasks_look E up l ss -> Forall (fun n => n_kind n = KtaskList) l.
Proof. induction 1; constructor; assumption. Qed.
Lemma tasks_head l es : tasks_seen E l es -> forall n r, l = n :: r -> n_kind n = KtaskItem.
Proof. intros H n r ->. now inversion H. Qed.
Lemma tasks_head' l ss : tasks_look E up l ss -> forall n r, l = n :: r -> n_kind n = KtaskItem.
Proof. intros H n r ->. now inversion H. Qed.
Lemma task_sights : (forall l es, tasks_seen E l es -> forall ss, tasks_look E up l ss -> map (sight_of up) es = ss) /\
  (forall l es, nested_tasks_seen E l es -> forall ss, nested_tasks_look E up l ss -> map (sight_of up) es = ss).
Proof.
  apply (tasks_seen_both E (fun l es => forall ss, tasks_look E up l ss -> map (sight_of up) es = ss) (fun l es => forall ss, nested_tasks_look E up l ss -> map (sight_of up) es = ss)).
  - intros ss HL. now inversion HL.
  - intros c kids xs st done t more subs es rest es' HK HC HR HST HD HS _ _ HSub IH1 HRest IH2 ss HL.
    remember (c :: subs ++ rest) as whole eqn:EW. destruct HL as [|c' kids' st' done' x gs subs' s1 rest' s2 HK' HC' HST' HD' HI HW HSo HSub' HRest']; [discriminate EW|]. injection EW as -> HE.
    destruct (tasks_split _ _ _ _ (nested_kinds' _ _ HSub') (nested_kinds _ _ HSub) (tasks_head' _ _ HRest') (tasks_head _ _ HRest) HE) as [-> ->].
    rewrite HC in HC'. injection HC' as <-. rewrite (inline_writes _ _ _ _ _ HI HR), (solid_rstrip _ HSo) in HS.
    assert (HDD : done' = done).
    { destruct HST as (l & HA & HL1), HST' as (l' & HA' & HL2). rewrite HA in HA'. injection HA' as <-. rewrite HL1 in HL2. injection HL2 as <-.
      destruct done, done'; try reflexivity; [apply HD'; now apply HD|symmetry; apply HD; now apply HD']. }
    subst done'. cbn [map]. rewrite map_app. cbn [map]. rewrite (IH1 _ HSub'), (IH2 _ HRest'), sight_para.
    assert (HJ : join nl ((box done ++ t) :: more) = box done ++ x). { rewrite <- (join_lines x), HS. destruct more; [reflexivity|]. rewrite !join_cons by discriminate. now rewrite <- app_assoc. }
    rewrite HJ, (box_sight done kids x gs HI HW). reflexivity.
  - intros ss HL. now inversion HL.
  - intros n cs es rest es' _ HC _ _ IH1 _ IH2 ss HL. inversion HL as [|? cs' s1 ? s2 _ HC' H1 H2]; subst. rewrite HC in HC'. injection HC' as <-. rewrite map_app. f_equal; auto.
Qed.
(** ---------------------------------------------------------------- decisions *)
Lemma split_last x : solid_end (last (split_on NL x) []) -> solid_end x.
Proof.
  intros H. rewrite <- (join_lines x). revert H. generalize (split_on NL x). induction l as [|a l IH]; [intros H; exact H|]. destruct l as [|b l]; [intros H; exact H|]. intros H. rewrite join_cons by discriminate.
  specialize (IH H). unfold solid_end in *. destruct (join nl (b :: l)) as [|c y] eqn:EJ; [discriminate IH|]. rewrite <- EJ in *. 
  rewrite app_assoc. rewrite EJ in *. clear -IH. generalize (a ++ nl). intros z. induction z as [|d z IHz]; [exact IH|]. cbn [app last]. destruct (z ++ c :: y) eqn:EZ; [destruct z; discriminate|exact IHz].
Qed.
Lemma decision_sight c es ss : decision_seen E c es -> decision_looks E up c ss -> map (sight_of up) es = ss.
Proof.
  intros (_ & kids & xs & HC & HR & _ & ->) (kids' & x & gs & HC' & HI & HS & ->). rewrite HC in HC'. injection HC' as <-. rewrite (inline_writes _ _ _ _ _ HI HR).
  assert (HX : solid_end x). { apply split_last. rewrite Forall_forall in HS. apply HS. generalize (split_on_nonnil NL x). generalize (split_on NL x). clear. intros l H. destruct l as [|a l]; [now destruct H|].
    clear H. revert a. induction l as [|b l IH]; intros a; [now left|]. right. apply IH. }
  rewrite (solid_rstrip x HX). assert (HM : map rstrip (split_on NL x) = split_on NL x). { clear -HS. induction HS as [|l ls H _ IH]; [reflexivity|]. cbn [map]. now rewrite (solid_rstrip l H), IH. }
  rewrite HM. cbn [map sight_of]. rewrite join_lines, (inline_sight kids x gs HI). reflexivity.
Qed.
End S.
