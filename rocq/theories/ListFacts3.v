(** Uniqueness of outlines, numbering, completeness for task lists. *)
From Coq Require Import List NArith ZArith Bool String Lia.
From Verif Require Import PyStr Values Schema Parse Date Markdown Basics StrFacts SpecParse ParseFacts4
  MdFacts SpecMd MdFacts2 LeafFacts SpecErr ErrFacts MarkFacts SpecList ListFacts ListFacts2.
Import ListNotations.
Open Scope string_scope.
Open Scope list_scope.
Open Scope nat_scope.

Section U.
Variable E : runtime.
Lemma renders_fun n x y : renders E n x -> renders E n y -> x = y.
Proof. unfold renders. intros H1 H2. rewrite H1 in H2. now apply okstr_inj in H2. Qed.
Lemma outline_unique_all own :
  (forall d n ls, outline E own d n ls -> forall ls', outline E own d n ls' -> ls = ls') /\
  (forall d i its ls, items E own d i its ls -> forall ls', items E own d i its ls' -> ls = ls') /\
  (forall d bs ls, blocks E own d bs ls -> forall ls', blocks E own d bs ls' -> ls = ls').
Proof.
  apply outline_mutind.
  - intros d n cs ls HK HI _ IH ls' H. inversion H as [? ? cs' ? ? HI' HIt]; subst. apply IH. assert (cs' = cs) by congruence. now subst.
  - intros d i ls' H. now inversion H.
  - intros d i item b bs x t more ls rest ls1 HI HB HR HS _ IHb _ IHi ls' H.
    inversion H as [|? ? ? b' bs' x' t' more' l' ? l1' HI' HB' HR' HS' HBl HIt]; subst.
    rewrite HI in HI'. injection HI' as <- <-. assert (x' = x) by (eapply renders_fun; eauto). subst x'.
    rewrite HS in HS'. injection HS' as <- <-. now rewrite (IHb _ HBl), (IHi _ HIt).
  - intros d ls' H. now inversion H.
  - intros d b bs ls ls1 HK _ IHo HN _ IHb ls' H. inversion H as [|? ? ? l l' HK' HO HN' HB|? ? ? x l HK' HR HB]; subst; [|congruence].
    now rewrite (IHo _ HO), (IHb _ HB).
  - intros d b bs x ls HK HR _ IHb ls' H. inversion H as [|? ? ? l l' HK' HO HN' HB|? ? ? x' l HK' HR' HB]; subst; [congruence|].
    assert (x' = x) by (eapply renders_fun; eauto). subst x'. now rewrite (IHb _ HB).
Qed.
Lemma outline_unique own d n ls ls' : outline E own d n ls -> outline E own d n ls' -> ls = ls'.
Proof. intros H. now apply (proj1 (outline_unique_all own)). Qed.

Definition tops (d : nat) (ls : list oline) : list nat :=
  flat_map (fun l => match l with Item d' i _ => if Nat.eqb d' d then [i] else [] | _ => [] end) ls.
Lemma tops_app d a b : tops d (a ++ b) = tops d a ++ tops d b.
Proof. apply flat_map_app. Qed.
Lemma tops_cont d more : tops d (map Cont more) = [].
Proof. induction more; cbn; auto. Qed.
Lemma tops_all own :
  (forall d n ls, outline E own d n ls -> (forall e, e < d -> tops e ls = []) /\
      forall cs, n_content n = Items cs -> tops d ls = seq 0 (List.length (filter is_item cs))) /\
  (forall d i its ls, items E own d i its ls -> (forall e, e < d -> tops e ls = []) /\ tops d ls = seq i (List.length its)) /\
  (forall d bs ls, blocks E own d bs ls -> forall e, e <= d -> tops e ls = []).
Proof.
  apply outline_mutind.
  - intros d n cs ls HK HI _ [IH1 IH2]. split; [exact IH1|]. intros cs' HI'. assert (cs' = cs) by congruence. now subst.
  - intros d i. split; reflexivity.
  - intros d i item b bs x t more ls rest ls1 HI HB HR HS _ IHb _ [IH1 IH2].
    change (Item d i t :: map Cont more ++ ls ++ ls1) with ([Item d i t] ++ map Cont more ++ ls ++ ls1). split.
    + intros e He. rewrite !tops_app, tops_cont, IHb, IH1 by lia. cbn. replace (Nat.eqb d e) with false; [reflexivity|].
      symmetry. apply Nat.eqb_neq. lia.
    + rewrite !tops_app, tops_cont, IHb, IH2 by lia. cbn. now rewrite Nat.eqb_refl.
  - reflexivity.
  - intros d b bs ls ls1 HK _ [IH1 _] HN _ IHb e He. rewrite tops_app, IH1, IHb by lia. reflexivity.
  - intros d b bs x ls HK HR _ IHb e He. rewrite tops_app, tops_cont, IHb by lia. reflexivity.
Qed.
Lemma outline_top_numbers own n cs ls : outline E own 0 n ls -> n_content n = Items cs ->
  flat_map (fun l => match l with Item 0 i _ => [i] | _ => [] end) ls = seq 0 (List.length (filter is_item cs)).
Proof.
  intros HO HI. rewrite <- (proj2 (proj1 (tops_all own) 0 n ls HO) cs HI). unfold tops. apply flat_map_ext. intros [[|d] i t|t]; reflexivity.
Qed.
Lemma outline_item_blocks own d item b bs : n_content item = Items (b :: bs) -> forall i its ls, items E own d i its ls -> In item its ->
  exists pre l post, ls = pre ++ l ++ post /\ blocks E own d bs l.
Proof.
  intros HI i its. revert i. induction its as [|it its IH]; intros i ls HIt HIn; [destruct HIn|].
  inversion HIt as [|? ? ? b' bs' x t more l ? l' HI' HB HR HS HBl HR']; subst. destruct HIn as [->|HIn].
  - rewrite HI in HI'. injection HI' as <- <-. exists (Item d i t :: map Cont more), l, l'. split; [reflexivity|exact HBl].
  - destruct (IH (S i) l' HR' HIn) as (pre & m & post & -> & HM). exists (Item d i t :: map Cont more ++ l ++ pre), m, post. split; [|exact HM].
    cbn [app]. now rewrite <- !app_assoc.
Qed.
Lemma blocks_in own d bs l f : blocks E own d bs l -> In f bs ->
  exists p q m, l = p ++ m ++ q /\
    ((n_kind f = own /\ outline E own (S d) f m) \/ (n_kind f <> own /\ exists x, renders E f x /\ m = map Cont (split_on NL (rstrip x)))).
Proof.
  revert l. induction bs as [|b bs IH]; intros l HB HIn; [destruct HIn|].
  inversion HB as [|? ? ? l1 l2 HK HO HN HB'|? ? ? x l1 HK HR HB']; subst.
  - destruct HIn as [->|HIn].
    + exists [], l2, l1. split; [reflexivity|]. left. now split.
    + destruct (IH l2 HB' HIn) as (p & q & m & -> & H). exists (l1 ++ p), q, m. split; [now rewrite <- !app_assoc|exact H].
  - destruct HIn as [->|HIn].
    + exists [], l1, (map Cont (split_on NL (rstrip x))). split; [reflexivity|]. right. split; [assumption|eauto].
    + destruct (IH l1 HB' HIn) as (p & q & m & -> & H). exists (map Cont (split_on NL (rstrip x)) ++ p), q, m. split; [now rewrite <- !app_assoc|exact H].
Qed.

(** ---------------------------------------------------------------- task lists *)
Lemma renders_fun_all cs : forall xs ys, Forall2 (renders E) cs xs -> Forall2 (renders E) cs ys -> xs = ys.
Proof.
  induction cs as [|c cs IH]; intros xs ys H1 H2; inversion H1; inversion H2; subst; [reflexivity|]. f_equal; [eapply renders_fun; eauto|eauto].
Qed.
Lemma tasks_unique_all :
  (forall d n ls, tasks E d n ls -> forall ls', tasks E d n ls' -> ls = ls') /\
  (forall d cs ls, entries E d cs ls -> forall ls', entries E d cs ls' -> ls = ls').
Proof.
  apply tasks_mutind.
  - intros d n cs ls HK HI _ IH ls' H. inversion H as [? ? cs' ? ? HI' HIt]; subst. apply IH. assert (cs' = cs) by congruence. now subst.
  - intros d ls' H. now inversion H.
  - intros d c cs kids xs st done ls HK HI HF HS HD _ IH ls' H.
    inversion H as [|? ? ? kids' xs' st' done' l HK' HI' HF' HS' HD' HE|? ? ? l l' HK' HT HN HE|? ? ? l HK1 HK2 HE]; subst; try congruence.
    rewrite HI in HI'. injection HI' as <-. rewrite (renders_fun_all _ _ _ HF HF'), (IH _ HE). do 2 f_equal.
    destruct HS as (a & HA & HL), HS' as (a' & HA' & HL'). rewrite HA in HA'. injection HA' as <-. rewrite HL in HL'. injection HL' as <-.
    destruct done, done'; intuition congruence.
  - intros d c cs ls ls1 HK _ IHt HN _ IH ls' H.
    inversion H as [|? ? ? kids' xs' st' done' l HK' HI' HF' HS' HD' HE|? ? ? l l' HK' HT HN' HE|? ? ? l HK1 HK2 HE]; subst; try congruence.
    now rewrite (IHt _ HT), (IH _ HE).
  - intros d c cs ls HK1 HK2 _ IH ls' H.
    inversion H as [|? ? ? kids' xs' st' done' l HK' HI' HF' HS' HD' HE|? ? ? l l' HK' HT HN' HE|? ? ? l HK1' HK2' HE]; subst; try congruence.
    now apply IH.
Qed.
Lemma tasks_unique d n ls ls' : tasks E d n ls -> tasks E d n ls' -> ls = ls'.
Proof. intros H. now apply (proj1 tasks_unique_all). Qed.

Lemma mapM_strs vs : forall xs, mapM as_str vs = Ok xs -> vs = map VStr xs.
Proof.
  induction vs as [|v vs IH]; intros xs H; cbn in H; [injection H as <-; reflexivity|].
  destruct v; try discriminate. cbn in H. apply rbind_ok in H as (ys & H & HX). injection HX as <-. cbn [map]. f_equal. now apply IH.
Qed.
Lemma join_values_inv sep vs x : join_values sep vs = Ok x -> exists xs, vs = map VStr xs /\ x = join sep xs.
Proof.
  unfold join_values. intros H. apply rbind_ok in H as (xs & H & HX). injection HX as <-. exists xs. split; [now apply mapM_strs|reflexivity].
Qed.
Lemma task_claim n : forall lv x, consistent n -> task_shaped n -> n_kind n = KtaskList -> to_md E n lv false = Ok x ->
  exists ls, tasks E (match lv with Some l => l | None => 0 end) n ls.
Proof.
  induction n as [k ty ve tx a co ma IH] using node_ind'. intros lv x HC HS HK H. cbn [n_kind] in HK. subst k.
  inversion HS as [n cs HI HIt HSub Hn]; subst. cbn [n_content] in HI. subst co. pose proof (consistent_items _ _ HC eq_refl) as HCC.
  cbn [to_md] in H. set (d := match lv with Some l => l | None => 0 end) in *. clearbody d. unfold task_list_md, loop in H.
  apply rbind_ok in H as (ls & H & _). change (for_each (task_fun E d false) cs = Ok ls) in H.
  assert (HE : exists l, entries E d cs l); [|destruct HE as [l HE]; exists l; now apply (t_list E d _ cs)].
  clear HS HC. revert ls H. induction cs as [|c cs IHc]; intros ls H; [exists []; constructor|].
  apply for_each_cons_inv in H as (p & q & H1 & H2 & ->). apply Forall_cons_iff in IH as [IHc1 IHc2]. apply Forall_cons_iff in HCC as [HC1 HC2].
  destruct (IHc IHc2) with (ls := q) as [l HL]; try assumption; [intros; apply HIt; [now right|assumption]|intros; apply HSub; [now right|assumption]|].
  unfold task_fun in H1. rewrite (type_is c "taskItem" KtaskItem) in H1 by (assumption || reflexivity).
  rewrite (type_is c "taskList" KtaskList) in H1 by (assumption || reflexivity).
  destruct (nk_eq_dec (n_kind c) KtaskItem) as [HK|HK].
  - destruct (HIt c (or_introl eq_refl) HK) as [kids HKi]. apply rbind_ok in H1 as (y & H1 & _). unfold task_item_line in H1.
    rewrite HKi in H1. unfold loop in H1. apply rbind_ok in H1 as (parts & H1 & H3). apply rbind_ok in H3 as (z & H3 & H4).
    apply rbind_ok in H4 as (st & H4 & _). apply join_values_inv in H3 as (xs & -> & _).
    assert (HS : state_of c st).
    { unfold attr in H4. destruct (n_attrs c) as [| |l0] eqn:EA; try discriminate. exists l0. split; [assumption|].
      destruct (lookup (s "state") l0); congruence. }
    assert (HF : Forall2 (renders E) kids xs).
    { clear - H1. revert xs H1. induction kids as [|c kids IH]; intros xs H1; cbn in H1; [destruct xs; [constructor|discriminate]|].
      apply rbind_ok in H1 as (p & H1 & H2). fold (for_each (fun nd => try_ false (to_md E nd None false))) in H2. apply rbind_ok in H2 as (q & H2 & H3).
      destruct (to_md E c None false) as [v|] eqn:EV; [|discriminate]. cbn [try_] in H1. injection H1 as <-. destruct xs as [|x xs]; [discriminate|].
      cbn [map app] in H3. injection H3 as -> ->. constructor; [exact EV|]. apply IH. exact H2. }
    assert (HD : exists done, done = true <-> st = VStr (s "DONE")).
    { destruct st; try (exists false; split; discriminate). destruct (str_eqb x0 (s "DONE")) eqn:EQ.
      - apply str_eqb_eq in EQ. subst. exists true. split; reflexivity.
      - exists false. split; [discriminate|]. intros K. assert (x0 = s "DONE") as -> by congruence. rewrite str_eqb_refl in EQ. discriminate. }
    destruct HD as [done HD]. eexists. eapply e_item; eauto.
  - destruct (nk_eq_dec (n_kind c) KtaskList) as [HK2|HK2]; [|exists l; now apply e_other].
    destruct (to_md E c (Some (S d)) false) as [y|] eqn:EY; [|discriminate]. destruct (HSub c (or_introl eq_refl) HK2) as [HS1 HS2].
    destruct (IHc1 (Some (S d)) y HC1 HS1 HK2 EY) as [ls1 HO]. exists (ls1 ++ l). apply e_sub; try assumption.
    intros ->. apply (proj1 (tasks_depths E)) in HO. cbn in HO.
    assert (HG : forall n' e e', task_depths e n' = [] -> task_depths e' n' = []).
    { clear. intros n'. induction n' as [k ty ve tx a co ma IH] using node_ind'. intros e e' H. cbn [task_depths] in *.
      destruct co as [| |l|]; try reflexivity. induction IH as [|c l Hc Hl IHl]; [reflexivity|]. cbn [flat_map] in *.
      apply app_eq_nil in H as [H1 H2]. rewrite IHl by exact H2. rewrite app_nil_r.
      destruct (nk_eq_dec (n_kind c) KtaskItem); [discriminate|]. destruct (nk_eq_dec (n_kind c) KtaskList); [|reflexivity]. now apply (Hc (S e)). }
    apply HS2. apply (HG c (S d)). now rewrite <- HO.
Qed.
Lemma tasks_complete n x : consistent n -> task_shaped n -> n_kind n = KtaskList -> to_md E n None false = Ok x -> exists ls, tasks E 0 n ls.
Proof. intros HC HS HK H. exact (task_claim n None x HC HS HK H). Qed.
End U.
