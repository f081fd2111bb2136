(** Proofs about list rendering. *)
From Coq Require Import List NArith ZArith Bool String Lia.
From Verif Require Import PyStr Values Schema Parse Date Markdown Basics StrFacts SpecParse ParseFacts4
  MdFacts SpecMd MdFacts2 LeafFacts SpecErr ErrFacts SpecList.
Import ListNotations.
Open Scope string_scope.
Open Scope list_scope.
Open Scope nat_scope.

Scheme outline_m := Minimality for outline Sort Prop
  with items_m := Minimality for items Sort Prop
  with blocks_m := Minimality for blocks Sort Prop.
Combined Scheme outline_mutind from outline_m, items_m, blocks_m.
Scheme tasks_m := Minimality for tasks Sort Prop with entries_m := Minimality for entries Sort Prop.
Combined Scheme tasks_mutind from tasks_m, entries_m.

Lemma indent_indentation d : indent_of d = indentation d.
Proof.
  unfold indent_of, indentation. induction d as [|d IH]; [reflexivity|]. cbn [repeat_nat]. rewrite IH.
  replace (4 * S d) with (4 + 4 * d) by lia. reflexivity.
Qed.

Lemma for_each_app {A B} (f : A -> res (list B)) l y ys zs x : f x = Ok ys -> for_each f l = Ok zs -> y = ys ++ zs ->
  for_each f (x :: l) = Ok y.
Proof. intros H1 H2 ->. cbn. rewrite H1. cbn. fold (for_each f). now rewrite H2. Qed.

Section Lists.
Variable E : runtime.
Variable own : nkind.
Variable name : string.
Hypothesis own_name : s name = nk_name own.


Variable mk : nat -> nat -> str.
Hypothesis mk_free : forall d i, ~ In NL (mk d i).
Definition pr (l : oline) : str := match l with Item d i t => mk d i ++ t | Cont t => t end.
Fixpoint marked (d i : nat) (lss : list (list str)) : list str :=
  match lss with
  | [] => []
  | ls :: r => ((mk d i ++ hd [] ls) :: tl ls) ++ marked d (S i) r
  end.
Hypothesis render_sub : forall d n lss, n_kind n = own ->
  list_items (to_md E) (s name) (n_content n) (S d) false = Ok lss ->
  to_md E n (Some (S d)) false = Ok (VStr (join nl (marked (S d) 0 lss))).

Definition free (ls : list oline) : Prop := Forall (fun l => ~ In NL l) (map pr ls).
Definition block_fun (d : nat) (nd : node) : res (list value) :=
  if is_type_of nd [s name] then try_ false (to_md E nd (Some (S d)) false)
  else try_ false (do v <- to_md E nd None false; rstrip_value v).
Definition item_fun (d : nat) (item : node) : res (list (list str)) :=
  do ls <- item_lines (to_md E) (s name) d false item; Ok [ls].

Lemma type_own n : consistent n -> is_type_of n [s name] = if nk_eq_dec (n_kind n) own then true else false.
Proof. intros H. now apply type_is. Qed.
Lemma map_cont more : map pr (map Cont more) = more.
Proof. rewrite map_map. cbn. apply map_id. Qed.
Lemma list_items_filter cs d lss : Forall consistent cs ->
  for_each (item_fun d) (filter is_item cs) = Ok lss -> list_items (to_md E) (s name) (Items cs) d false = Ok lss.
Proof.
  intros HC. unfold list_items, loop. revert lss. induction HC as [|c cs H HC IH]; intros lss; cbn [filter]; [auto|].
  unfold is_item at 1. cbn [for_each]. rewrite (type_is c "listItem" KlistItem) by (assumption || reflexivity).
  destruct (nk_eq_dec (n_kind c) KlistItem).
  - cbn. fold (for_each (item_fun d)). unfold item_fun at 1. destruct (item_lines (to_md E) (s name) d false c) as [l|]; [|discriminate].
    cbn [rbind]. destruct (for_each (item_fun d) (filter is_item cs)) as [r|]; [|discriminate]. cbn [rbind]. intros [= <-].
    fold (for_each (fun item => if is_type_of item [s "listItem"] then do ls <- item_lines (to_md E) (s name) d false item; Ok [ls] else Ok [])).
    rewrite (IH r eq_refl). reflexivity.
  - intros HF. fold (for_each (fun item => if is_type_of item [s "listItem"] then do ls <- item_lines (to_md E) (s name) d false item; Ok [ls] else Ok [])).
    cbn [rbind]. rewrite (IH lss HF). reflexivity.
Qed.
Lemma concat_split_free ls : free ls -> ls <> [] -> split_on NL (join nl (map pr ls)) = map pr ls.
Proof. intros HF HN. apply split_join_free; [|exact HF]. destruct ls; [congruence|discriminate]. Qed.

Lemma outline_main : (
  (forall d n ls, outline E own d n ls -> consistent n ->
     free ls /\ exists lss, list_items (to_md E) (s name) (n_content n) d false = Ok lss /\ map pr ls = marked d 0 lss) /\
  (forall d i its ls, items E own d i its ls -> Forall consistent its ->
     free ls /\ exists lss, for_each (item_fun d) its = Ok lss /\ map pr ls = marked d i lss) /\
  (forall d bs ls, blocks E own d bs ls -> Forall consistent bs ->
     free ls /\ exists ys, for_each (block_fun d) bs = Ok (map VStr ys) /\ List.concat (map (split_on NL) ys) = map pr ls))%type.
Proof.
  apply outline_mutind.
  - intros d n cs ls HK HI _ IH HC. pose proof (consistent_items _ _ HC HI) as HCC.
    destruct IH as (HF & lss & H1 & H2).
    { rewrite Forall_forall in *. intros x Hx. apply filter_In in Hx as [Hx _]. auto. }
    split; [exact HF|]. exists lss. split; [|exact H2]. rewrite HI. now apply list_items_filter.
  - intros d i _. split; [constructor|]. exists []. split; reflexivity.
  - intros d i item b bs x t more ls rest ls' HI HB HR HS _ IHb _ IHi HC. apply Forall_cons_iff in HC as [HCi HCr].
    pose proof (consistent_items _ _ HCi HI) as HCb. apply Forall_cons_iff in HCb as [HCb1 HCb2].
    destruct (IHb HCb2) as (HF1 & ys & H1 & H2). destruct (IHi HCr) as (HF2 & lss & H3 & H4). clear IHb IHi.
    pose proof (split_on_free NL (rstrip x)) as HFx. rewrite HS in HFx. apply Forall_cons_iff in HFx as [HFx1 HFx2].
    split.
    + unfold free in *. cbn [map]. constructor.
      * cbn. intros K. apply in_app_or in K as [K|K]; [now apply mk_free in K|auto].
      * rewrite !map_app, map_cont. repeat (apply Forall_app; split); assumption.
    + exists ((t :: more ++ map pr ls) :: lss). split.
      * cbn. fold (for_each (item_fun d)). rewrite H3. unfold item_fun, item_lines. rewrite HI. unfold loop.
        change (for_each _ (b :: bs)) with (for_each (block_fun d) (b :: bs)).
        rewrite (for_each_app (block_fun d) bs (VStr (rstrip x) :: map VStr ys) [VStr (rstrip x)] (map VStr ys) b).
        -- cbn [rbind]. change (VStr (rstrip x) :: map VStr ys) with (map VStr (rstrip x :: ys)). rewrite join_values_str.
           cbn [rbind]. rewrite split_join by discriminate. cbn [map List.concat]. now rewrite HS, H2.
        -- unfold block_fun. rewrite type_own by assumption. destruct (nk_eq_dec (n_kind b) own); [congruence|].
           unfold renders, to_markdown in HR. rewrite HR. reflexivity.
        -- exact H1.
        -- reflexivity.
      * cbn [map marked hd tl]. cbn [pr]. rewrite !map_app, map_cont, H4. cbn [app]. now rewrite <- app_assoc.
  - intros d _. split; [constructor|]. exists []. split; reflexivity.
  - intros d b bs ls ls' HK _ IHo HN _ IHb HC. apply Forall_cons_iff in HC as [HC1 HC2].
    destruct (IHo HC1) as (HF1 & lss & H1 & H2). destruct (IHb HC2) as (HF2 & ys & H3 & H4).
    split; [unfold free in *; rewrite map_app; apply Forall_app; now split|].
    exists (join nl (map pr ls) :: ys). split.
    + cbn [map]. apply (for_each_app (block_fun d) bs _ [VStr (join nl (map pr ls))] (map VStr ys) b).
      * unfold block_fun. rewrite type_own by assumption. destruct (nk_eq_dec (n_kind b) own); [|congruence].
        rewrite (render_sub d b lss HK H1), <- H2. reflexivity.
      * exact H3.
      * reflexivity.
    + cbn [map List.concat]. rewrite concat_split_free, H4, map_app by assumption. reflexivity.
  - intros d b bs x ls HK HR _ IHb HC. apply Forall_cons_iff in HC as [HC1 HC2]. destruct (IHb HC2) as (HF & ys & H3 & H4).
    split; [unfold free in *; rewrite map_app, map_cont; apply Forall_app; split; [apply split_on_free|exact HF]|].
    exists (rstrip x :: ys). split.
    + cbn [map]. apply (for_each_app (block_fun d) bs _ [VStr (rstrip x)] (map VStr ys) b).
      * unfold block_fun. rewrite type_own by assumption. destruct (nk_eq_dec (n_kind b) own); [congruence|].
        unfold renders, to_markdown in HR. rewrite HR. reflexivity.
      * exact H3.
      * reflexivity.
    + cbn [map List.concat]. now rewrite H4, map_app, map_cont.
Qed.

(** ---------------------------------------------------------------- completeness *)
Hypothesis sub_inv : forall d n v, n_kind n = own -> to_md E n (Some (S d)) false = Ok v ->
  exists lss, list_items (to_md E) (s name) (n_content n) (S d) false = Ok lss.
Hypothesis own_not_item : own <> KlistItem.

Lemma for_each_cons_inv {A B} (f : A -> res (list B)) x l y : for_each f (x :: l) = Ok y ->
  exists a b, f x = Ok a /\ for_each f l = Ok b /\ y = a ++ b.
Proof.
  cbn. fold (for_each f). intros H. apply rbind_ok in H as (a & H1 & H). apply rbind_ok in H as (b & H2 & H).
  exists a, b. repeat split; try assumption. congruence.
Qed.
Lemma list_items_inv cs d lss : Forall consistent cs -> list_items (to_md E) (s name) (Items cs) d false = Ok lss ->
  for_each (item_fun d) (filter is_item cs) = Ok lss.
Proof.
  intros HC. unfold list_items, loop. revert lss. induction HC as [|c cs H HC IH]; intros lss HL; [exact HL|].
  apply for_each_cons_inv in HL as (a & b & H1 & H2 & ->). cbn [filter]. unfold is_item at 1.
  rewrite (type_is c "listItem" KlistItem) in H1 by (assumption || reflexivity).
  destruct (nk_eq_dec (n_kind c) KlistItem).
  - apply (for_each_app (item_fun d) _ _ a b); [exact H1|exact (IH b H2)|reflexivity].
  - assert (a = []) by congruence. subst a. exact (IH b H2).
Qed.
Definition claim (n : node) : Prop := forall d lss, consistent n -> shaped own n -> n_kind n = own ->
  list_items (to_md E) (s name) (n_content n) d false = Ok lss -> exists ls, outline E own d n ls.
Definition kids (n : node) : list node := match n_content n with Items l => l | _ => [] end.
Lemma blocks_complete d bs ys : Forall consistent bs -> Forall claim bs ->
  (forall c, In c bs -> n_kind c = own -> shaped own c /\ exists l i, n_content c = Items l /\ In i l /\ n_kind i = KlistItem) ->
  for_each (block_fun d) bs = Ok ys -> exists ls, blocks E own d bs ls.
Proof.
  intros HC HQ. revert ys. induction HC as [|b bs H HC IH]; intros ys HS HF; [exists []; constructor|].
  apply for_each_cons_inv in HF as (a & r & H1 & H2 & ->). apply Forall_cons_iff in HQ as [HQ1 HQ2].
  destruct (IH HQ2 r) as [ls HB]; [intros c Hc; apply HS; now right|exact H2|].
  unfold block_fun in H1. rewrite type_own in H1 by assumption. destruct (nk_eq_dec (n_kind b) own) as [HK|HK].
  - destruct (to_md E b (Some (S d)) false) as [v|] eqn:EM; [|discriminate].
    destruct (sub_inv d b v HK EM) as [lss HL]. destruct (HS b (or_introl eq_refl) HK) as (HSb & l & i & Hl & Hi & Hik).
    destruct (HQ1 (S d) lss H HSb HK HL) as [ls' HO]. exists (ls' ++ ls). apply b_sub; try assumption.
    destruct HO as [d' n cs ls' HK' HI HIt]. intros ->. assert (K : filter is_item cs = []) by (inversion HIt; congruence).
    assert (In i (filter is_item cs)) as HIn.
    { apply filter_In. split; [congruence|]. unfold is_item. destruct (nk_eq_dec (n_kind i) KlistItem); congruence. }
    rewrite K in HIn. destruct HIn.
  - destruct (to_md E b None false) as [v|] eqn:EM; [|discriminate]. cbn [rbind] in H1.
    destruct v; try discriminate. exists (map Cont (split_on NL (rstrip x)) ++ ls). apply b_text; assumption.
Qed.
Lemma complete n : claim n /\ Forall claim (kids n).
Proof.
  induction n as [k ty ve tx a co ma IH] using node_ind'.
  assert (HK : Forall (fun c => claim c /\ Forall claim (kids c)) (kids (Node k ty ve tx a co ma))).
  { unfold kids at 2. cbn [n_content]. destruct co as [| |l|]; try constructor. exact IH. }
  split; [|rewrite Forall_forall in *; intros c Hc; now apply HK].
  intros d lss HC HS HO HL. inversion HS as [n cs HI HSh Hn]. clear HS n Hn. rename HSh into HS.
  pose proof (consistent_items _ _ HC HI) as HCC. cbn [n_content n_kind] in HI, HO, HL. rewrite HI in HL.
  apply list_items_inv in HL; [|assumption]. unfold kids in HK at 2. cbn [n_content] in HK. rewrite HI in HK.
  assert (HG : exists ls, items E own d 0 (filter is_item cs) ls); [|destruct HG as [ls HG]; exists ls; exact (o_list E own d (Node k ty ve tx a co ma) cs ls HO HI HG)].
  assert (HZ : Forall (fun c => consistent c /\ In c cs /\ n_kind c = KlistItem /\ Forall claim (kids c)) (filter is_item cs)).
  { rewrite Forall_forall in *. intros c Hc. apply filter_In in Hc as [Hc HT]. unfold is_item in HT.
    destruct (nk_eq_dec (n_kind c) KlistItem); [|discriminate]. repeat split; auto. now apply HK. }
  clear HC HCC HK IH HI HO. revert lss HL. generalize 0 as i. induction HZ as [|c l (HC & HIn & HKc & HQ) HZ IHZ]; intros i lss HL.
  - exists []. constructor.
  - apply for_each_cons_inv in HL as (x & y & H1 & H2 & ->). destruct (IHZ (S i) y H2) as [ls' HL'].
    destruct (HS c HIn HKc) as (b & bs & HI & HB & HSub).
    unfold item_fun, item_lines in H1. rewrite HI in H1. unfold loop in H1.
    apply rbind_ok in H1 as (il & H1 & _). apply rbind_ok in H1 as (cl & H1 & _).
    change (for_each (block_fun d) (b :: bs) = Ok cl) in H1.
    apply for_each_cons_inv in H1 as (p & q & H1 & H3 & ->).
    pose proof (consistent_items _ _ HC HI) as HCb. apply Forall_cons_iff in HCb as [HC1 HC2].
    unfold kids in HQ. rewrite HI in HQ. apply Forall_cons_iff in HQ as [_ HQ2].
    destruct (blocks_complete d bs q HC2 HQ2 HSub H3) as [ls HBl].
    unfold block_fun in H1. rewrite type_own in H1 by assumption. destruct (nk_eq_dec (n_kind b) own); [congruence|].
    destruct (to_md E b None false) as [v|] eqn:EM; [|discriminate]. cbn [rbind] in H1. destruct v; try discriminate.
    pose proof (split_on_nonnil NL (rstrip x0)) as HNN. destruct (split_on NL (rstrip x0)) as [|t more] eqn:ES; [congruence|].
    eexists. eapply i_cons; eauto.
Qed.
End Lists.
