(** Proofs about the API generator. *)
From Coq Require Import List NArith Bool String Arith Lia Sorting Permutation.
From Verif Require Import PyStr Values Basics LeafFacts SerFacts2 GenCode SpecApi.
Import ListNotations.
Open Scope string_scope.
Open Scope list_scope.

(** ---------------------------------------------------------------- strings *)
Lemma prefixb_iff p x : prefixb p x = true <-> exists y, x = p ++ y.
Proof.
  revert x. induction p as [|a p IH]; intros x; cbn.
  - split; [intros _; now exists x|auto].
  - destruct x as [|b x]; [split; [discriminate|intros [y HY]; discriminate]|]. rewrite andb_true_iff, N.eqb_eq, IH. split.
    + intros [-> [y ->]]. now exists y.
    + intros [y [= -> ->]]. split; [reflexivity|now exists y].
Qed.
Lemma suffixb_iff p x : suffixb p x = true <-> exists y, x = y ++ p.
Proof.
  unfold suffixb. rewrite prefixb_iff. split; intros [y HY].
  - exists (rev y). rewrite <- (rev_involutive x), HY, rev_app_distr, rev_involutive. reflexivity.
  - exists (rev y). rewrite HY. apply rev_app_distr.
Qed.
Lemma glob_iff prefix name : glob_match prefix name = true <-> exists x, name = (prefix ++ x) ++ s ".py".
Proof.
  unfold glob_match. rewrite !andb_true_iff, prefixb_iff, suffixb_iff, Nat.leb_le. split.
  - intros [[[y ->] [z HZ]] HL]. rewrite app_length in HL.
    assert (HY : List.length z = (List.length prefix + (List.length y - 3))%nat).
    { apply (f_equal (@List.length N)) in HZ. rewrite !app_length in HZ. change (List.length (s ".py")) with 3%nat in HZ. lia. }
    exists (firstn (List.length y - 3) y). rewrite HZ. f_equal.
    apply (f_equal (firstn (List.length z))) in HZ. rewrite (firstn_app (List.length z) z), firstn_all, Nat.sub_diag, firstn_O, app_nil_r in HZ. rewrite <- HZ, HY.
    rewrite firstn_app, firstn_all2 by lia. f_equal. f_equal. lia.
  - intros [x ->]. split; [split|].
    + exists (x ++ s ".py"). now rewrite app_assoc.
    + now exists (prefix ++ x).
    + rewrite !app_length. change (List.length (s ".py")) with 3%nat. lia.
Qed.
Lemma stem_py m : stem (m ++ s ".py") = m.
Proof.
  unfold stem. rewrite app_length. change (List.length (s ".py")) with 3%nat.
  replace (List.length m + 3 - 3)%nat with (List.length m) by lia. rewrite firstn_app, firstn_all, Nat.sub_diag. cbn. apply app_nil_r.
Qed.

Lemma str_leb_refl a : str_leb a a = true.
Proof. induction a as [|x a IH]; cbn; [reflexivity|]. now rewrite N.eqb_refl. Qed.
Lemma str_leb_total a b : str_leb a b = true \/ str_leb b a = true.
Proof.
  revert b. induction a as [|x a IH]; intros [|y b]; cbn; auto. rewrite (N.eqb_sym y x). destruct (N.eqb_spec x y); [apply IH|].
  destruct (N.ltb_spec x y); [now left|]. right. apply N.ltb_lt. lia.
Qed.
Lemma str_leb_antisym a b : str_leb a b = true -> str_leb b a = true -> a = b.
Proof.
  revert b. induction a as [|x a IH]; intros [|y b]; cbn; try discriminate; auto. rewrite (N.eqb_sym y x).
  destruct (N.eqb_spec x y) as [->|N]; [intros H1 H2; f_equal; auto|]. rewrite !N.ltb_lt. lia.
Qed.
Lemma str_leb_trans a b c : str_leb a b = true -> str_leb b c = true -> str_leb a c = true.
Proof.
  revert b c. induction a as [|x a IH]; intros [|y b] [|z c]; cbn; try discriminate; auto.
  destruct (N.eqb_spec x y) as [->|N1].
  - destruct (N.eqb_spec y z) as [->|N2]; [apply IH|auto].
  - destruct (N.eqb_spec y z) as [->|N2].
    + intros H1 _. destruct (N.eqb_spec x z); [congruence|]. exact H1.
    + rewrite !N.ltb_lt. intros H1 H2. destruct (N.eqb_spec x z) as [->|N3]; [lia|]. apply N.ltb_lt. lia.
Qed.

Lemma strictly_iff a b : strictly_before a b <-> str_leb a b = true /\ a <> b.
Proof.
  revert b. induction a as [|c a IH]; intros b.
  - split.
    + intros (p & x & y & E1 & E2 & H). symmetry in E1. apply app_eq_nil in E1. destruct E1 as [-> ->]. cbn in E2. subst y. split; [reflexivity|]. intros <-. exact H.
    + intros [_ N]. exists [], [], b. repeat split. destruct b; [congruence|exact I].
  - split.
    + intros (p & x & y & E1 & E2 & H). destruct p as [|p0 p].
      * cbn in E1, E2. subst x y. destruct b as [|d b]; [destruct H|]. cbn. destruct (N.eqb_spec c d); [lia|]. split; [now apply N.ltb_lt|congruence].
      * cbn in E1. assert (p0 = c) by congruence. assert (a = p ++ x) by congruence. subst p0 b. cbn. rewrite N.eqb_refl.
        destruct (IH (p ++ y)) as [HI _]. destruct HI as [HI1 HI2]; [now exists p, x, y|]. split; [assumption|congruence].
    + intros [HL HN]. destruct b as [|d b]; [discriminate|]. cbn in HL. destruct (N.eqb_spec c d) as [->|NE].
      * destruct (proj2 (IH b)) as (p & x & y & -> & -> & H); [split; [assumption|congruence]|]. now exists (d :: p), x, y.
      * exists [], (c :: a), (d :: b). repeat split. now apply N.ltb_lt.
Qed.

(** ---------------------------------------------------------------- sorting *)
Section Sort.
  Context {A : Type} (key : A -> str).
  Definition le_key (x y : A) : Prop := str_leb (key x) (key y) = true.
  Lemma insert_perm x l : Permutation (x :: l) (insert key x l).
  Proof.
    induction l as [|y l IH]; cbn; [reflexivity|]. destruct (str_leb (key x) (key y)); [reflexivity|].
    rewrite perm_swap. now constructor.
  Qed.
  Lemma sorted_perm l : Permutation l (sorted_by key l).
  Proof. induction l as [|x l IH]; cbn; [reflexivity|]. rewrite <- insert_perm. now constructor. Qed.
  Lemma insert_sorted x l : StronglySorted le_key l -> StronglySorted le_key (insert key x l).
  Proof.
    induction 1 as [|y l HS IH HF]; cbn; [repeat constructor|]. destruct (str_leb (key x) (key y)) eqn:E.
    - constructor; [now constructor|]. constructor; [exact E|]. eapply Forall_impl; [|exact HF]. intros z HZ. unfold le_key in *. eapply str_leb_trans; eauto.
    - constructor; [exact IH|]. rewrite Forall_forall in *. intros z HZ. apply (Permutation_in _ (Permutation_sym (insert_perm x l))) in HZ.
      destruct HZ as [<-|HZ]; [|now apply HF]. unfold le_key. destruct (str_leb_total (key x) (key y)); [congruence|assumption].
  Qed.
  Lemma sorted_sorted l : StronglySorted le_key (sorted_by key l).
  Proof. induction l as [|x l IH]; cbn; [constructor|]. now apply insert_sorted. Qed.
  Lemma sorted_unique l l' : (forall x y, In x l -> In y l -> key x = key y -> x = y) ->
    StronglySorted le_key l -> StronglySorted le_key l' -> Permutation l l' -> l = l'.
  Proof.
    intros HK HS. revert l'. induction HS as [|x l HS IH HF]; intros l' HS' HP.
    - apply Permutation_nil in HP. now subst.
    - destruct l' as [|y l']; [apply Permutation_sym, Permutation_nil in HP; discriminate|].
      inversion HS' as [|? ? HS'' HF']; subst.
      assert (HXY : x = y).
      { assert (HX : In x (y :: l')) by (eapply Permutation_in; [exact HP|now left]).
        assert (HY : In y (x :: l)) by (eapply Permutation_in; [apply Permutation_sym, HP|now left]).
        destruct HX as [->|HX]; [reflexivity|]. destruct HY as [->|HY]; [reflexivity|].
        rewrite Forall_forall in HF, HF'. apply HK; [now left|now right|]. apply str_leb_antisym; [now apply HF|now apply HF']. }
      subst y. f_equal. apply IH; [|exact HS''|eapply Permutation_cons_inv; exact HP]. intros a b Ha Hb. apply HK; now right.
  Qed.
End Sort.
Lemma sorted_by_perm {A} (key : A -> str) l l' : (forall x y, In x l -> In y l -> key x = key y -> x = y) ->
  Permutation l l' -> sorted_by key l = sorted_by key l'.
Proof.
  intros HK HP. apply (sorted_unique key).
  - intros x y Hx Hy. apply HK; eapply Permutation_in; [apply Permutation_sym, sorted_perm|exact Hx|apply Permutation_sym, sorted_perm|exact Hy].
  - apply sorted_sorted.
  - apply sorted_sorted.
  - rewrite <- !sorted_perm. exact HP.
Qed.
(** Without duplicates the order is strict. *)
Lemma sorted_strict {A} (key : A -> str) l : NoDup (map key l) ->
  StronglySorted (fun x y => strictly_before (key x) (key y)) (sorted_by key l).
Proof.
  intros HN. assert (HN' : NoDup (map key (sorted_by key l))) by (eapply Permutation_NoDup; [apply Permutation_map, sorted_perm|exact HN]).
  revert HN'. generalize (sorted_sorted key l). generalize (sorted_by key l). clear. induction 1 as [|x l HS IH HF]; intros HN; constructor.
  - apply IH. now inversion HN.
  - rewrite Forall_forall in *. intros y HY. apply strictly_iff. split; [now apply HF|]. intros E. inversion HN as [|? ? HI _]; subst. apply HI. rewrite E. now apply in_map.
Qed.

(** ---------------------------------------------------------------- one module *)
Definition pair_of (a : api) : str * str := (a_module a, a_class a).
Lemma is_alias_iff c : is_alias c = true <-> exists x, c = s "T_NODE_" ++ x \/ c = s "T_MARK_" ++ x.
Proof.
  unfold is_alias. rewrite orb_true_iff, !prefixb_iff. split.
  - intros [[x H]|[x H]]; exists x; auto.
  - intros [x [H|H]]; [left|right]; exists x; auto.
Qed.
Lemma member_pair m full e a : In a (member_apis m full e) -> pair_of a = (m, fst e).
Proof.
  destruct e as [c o]. cbn. destruct (prefixb (s "_") c); [intros []|]. intros HA. apply in_app_iff in HA as [HA|HA].
  - destruct o as [mm [|]|]; try destruct HA. destruct (str_eqb mm full); [|destruct HA]. destruct HA as [<-|[]]. reflexivity.
  - destruct (is_alias c); [destruct HA as [<-|[]]; reflexivity|destruct HA].
Qed.
Lemma member_nonempty m full c o : member_apis m full (c, o) <> [] <->
  ~ is_private c /\ (o = AClass full true \/ exists x, c = s "T_NODE_" ++ x \/ c = s "T_MARK_" ++ x).
Proof.
  cbn. unfold is_private. destruct (prefixb (s "_") c) eqn:EP.
  - apply prefixb_iff in EP. split; [congruence|]. intros [H _]. contradiction.
  - assert (HP : ~ exists x, c = s "_" ++ x) by (rewrite <- prefixb_iff; congruence).
    rewrite <- is_alias_iff. destruct (is_alias c) eqn:EA.
    + split; [intros _; split; [exact HP|now right]|]. intros _ HX. apply app_eq_nil in HX as [_ HX]. discriminate.
    + rewrite app_nil_r. split.
      * intros HX. split; [exact HP|left]. destruct o as [mm [|]|]; try congruence. destruct (str_eqb mm full) eqn:E; [|congruence].
        apply str_eqb_eq in E. now subst.
      * intros [_ [->|HX]]; [|discriminate]. rewrite str_eqb_refl. discriminate.
Qed.
Lemma member_single m full c o : (o = AClass full true -> forall x, c <> s "T_NODE_" ++ x /\ c <> s "T_MARK_" ++ x) ->
  (List.length (member_apis m full (c, o)) <= 1)%nat.
Proof.
  intros HC. cbn. destruct (prefixb (s "_") c); [cbn; lia|]. destruct (is_alias c) eqn:EA.
  - apply is_alias_iff in EA as [x HX]. destruct o as [mm [|]|]; try (cbn; lia). destruct (str_eqb mm full) eqn:E; [|cbn; lia].
    apply str_eqb_eq in E. subst mm. destruct (HC eq_refl x) as [H1 H2]. destruct HX; contradiction.
  - rewrite app_nil_r. destruct o as [mm [|]|]; cbn; try lia. destruct (str_eqb mm full); cbn; lia.
Qed.
Definition module_apis (m full : str) (ms : list (str * member)) : list api := flat_map (member_apis m full) (sorted_by fst ms).
Lemma module_pairs m full ms e : In e (map pair_of (module_apis m full ms)) <->
  fst e = m /\ ~ is_private (snd e) /\ exists o, In (snd e, o) ms /\ (o = AClass full true \/ exists x, snd e = s "T_NODE_" ++ x \/ snd e = s "T_MARK_" ++ x).
Proof.
  unfold module_apis. rewrite in_map_iff. split.
  - intros (a & <- & HA). apply in_flat_map in HA as ([c o] & HC & HA). pose proof (member_pair m full _ _ HA) as HE. cbn [fst] in HE. rewrite HE.
    cbn [fst snd]. apply (Permutation_in _ (Permutation_sym (sorted_perm fst ms))) in HC.
    assert (HN : member_apis m full (c, o) <> []) by (intros E; rewrite E in HA; destruct HA).
    apply member_nonempty in HN as [H1 H2]. split; [reflexivity|]. split; [exact H1|]. exists o. auto.
  - intros (HM & HP & o & HI & HO). destruct e as [m' c]. cbn [fst snd] in *. subst m'.
    assert (HN : member_apis m full (c, o) <> []) by (apply member_nonempty; auto).
    destruct (member_apis m full (c, o)) as [|a l] eqn:E; [congruence|].
    assert (HA : In a (member_apis m full (c, o))) by (rewrite E; now left).
    exists a. split; [apply (member_pair m full _ _ HA)|]. apply in_flat_map. exists (c, o). split; [|exact HA].
    eapply Permutation_in; [apply sorted_perm|exact HI].
Qed.
Lemma module_sorted m full ms : NoDup (map fst ms) ->
  (forall c, In (c, AClass full true) ms -> forall x, c <> s "T_NODE_" ++ x /\ c <> s "T_MARK_" ++ x) ->
  StronglySorted in_order (map pair_of (module_apis m full ms)).
Proof.
  intros HN HC. pose proof (sorted_strict fst ms HN) as HS. unfold module_apis.
  assert (HC' : forall c o, In (c, o) (sorted_by fst ms) -> (List.length (member_apis m full (c, o)) <= 1)%nat).
  { intros c o HI. apply member_single. intros ->. apply HC. eapply Permutation_in; [apply Permutation_sym, sorted_perm|exact HI]. }
  clear HN HC. revert HS HC'. generalize (sorted_by fst ms). clear ms. induction 1 as [|e l HS IH HF]; intros HC; cbn [flat_map map]; [constructor|].
  specialize (IH (fun c o H => HC c o (or_intror H))). rewrite map_app.
  assert (HL : (List.length (member_apis m full e) <= 1)%nat) by (destruct e as [c o]; apply HC; now left).
  destruct (member_apis m full e) as [|a [|a' r]] eqn:E; cbn in HL |- *; [exact IH| |lia].
  assert (HP : pair_of a = (m, fst e)) by (apply (member_pair m full); rewrite E; now left).
  constructor; [exact IH|]. apply Forall_forall. intros f Hf. apply in_map_iff in Hf as (b & <- & Hb). apply in_flat_map in Hb as (e' & He' & Hb).
  rewrite HP, (member_pair m full _ _ Hb). right. split; [reflexivity|]. rewrite Forall_forall in HF. now apply HF.
Qed.

(** ---------------------------------------------------------------- grouping by module *)
Lemma add_group k l : Forall (fun a => a_module a = k) l -> forall d, ~ In k (map fst d) ->
  fold_left (fun d a => add_to a d) l d = d ++ match l with [] => [] | _ => [(k, l)] end.
Proof.
  intros HK d HD.
  assert (HG : forall l', Forall (fun a => a_module a = k) l' -> forall l0, fold_left (fun d a => add_to a d) l' (d ++ [(k, l0)]) = d ++ [(k, l0 ++ l')]).
  { induction l' as [|a l' IH]; intros HF l0; cbn [fold_left]; [now rewrite app_nil_r|]. apply Forall_cons_iff in HF as [HA HF].
    assert (HT : add_to a (d ++ [(k, l0)]) = d ++ [(k, l0 ++ [a])]).
    { clear -HA HD. induction d as [|[k' l'] d IH]; cbn.
      - rewrite HA, str_eqb_refl. reflexivity.
      - cbn in HD. destruct (str_eqb k' (a_module a)) eqn:E; [apply str_eqb_eq in E; exfalso; apply HD; left; congruence|].
        f_equal. apply IH. tauto. }
    rewrite HT, IH by exact HF. now rewrite <- app_assoc. }
  destruct l as [|a l]; [cbn; now rewrite app_nil_r|]. apply Forall_cons_iff in HK as [HA HK]. cbn [fold_left].
  assert (HT : add_to a d = d ++ [(k, [a])]).
  { clear -HA HD. induction d as [|[k' l'] d IH]; cbn; [now rewrite HA|]. cbn in HD.
    destruct (str_eqb k' (a_module a)) eqn:E; [apply str_eqb_eq in E; exfalso; apply HD; left; congruence|]. f_equal. apply IH. tauto. }
  rewrite HT, HG by exact HK. reflexivity.
Qed.
Lemma by_module_groups gs : NoDup (map fst gs) -> Forall (fun g : str * list api => Forall (fun a => a_module a = fst g) (snd g)) gs ->
  List.concat (map snd (by_module (List.concat (map snd gs)))) = List.concat (map snd gs).
Proof.
  intros HN HF. unfold by_module.
  assert (HG : forall d, (forall k, In k (map fst d) -> ~ In k (map fst gs)) ->
    fold_left (fun d a => add_to a d) (List.concat (map snd gs)) d = d ++ filter (fun g => match snd g with [] => false | _ => true end) gs).
  { induction gs as [|[k l] gs IH]; intros d HD; cbn [map List.concat fold_left filter]; [now rewrite app_nil_r|].
    cbn [map fst] in HN. apply Forall_cons_iff in HF as [HL HF]. inversion HN as [|? ? HK HN']; subst. cbn [snd fst] in *.
    rewrite fold_left_app, (add_group k l HL) by (intros HX; apply (HD k HX); now left).
    destruct l as [|a l]; cbn [app].
    - rewrite app_nil_r. apply IH; auto. intros k' Hk' HX. apply (HD k' Hk'). now right.
    - rewrite IH; auto; [now rewrite <- app_assoc|]. intros k' Hk' HX. rewrite map_app, in_app_iff in Hk'. destruct Hk' as [Hk'|[<-|[]]].
      + apply (HD k' Hk'). now right.
      + contradiction. }
  rewrite HG by (intros k []). cbn [app]. clear. induction gs as [|[k l] gs IH]; [reflexivity|]. cbn [filter map List.concat snd].
  destruct l as [|a l]; [exact IH|]. cbn [map List.concat snd]. now rewrite IH.
Qed.
Lemma mapM_concat {A} (f : A -> res str) (gs : list (str * list A)) ys : mapM f (List.concat (map snd gs)) = Ok ys ->
  (do l <- mapM (fun e => do ls <- mapM f (snd e); Ok (List.concat ls)) gs; Ok (List.concat l)) = Ok (List.concat ys).
Proof.
  revert ys. induction gs as [|[k l] gs IH]; intros ys; cbn [map List.concat snd]; [intros [= <-]; reflexivity|].
  intros HM. assert (HS : exists y1 y2, mapM f l = Ok y1 /\ mapM f (List.concat (map snd gs)) = Ok y2 /\ ys = y1 ++ y2).
  { clear IH. revert ys HM. induction l as [|a l IHl]; intros ys HM; [exists [], ys; auto|]. cbn in HM. fold (mapM f) in HM.
    apply rbind_ok in HM as (b & HB & HM). apply rbind_ok in HM as (bs & HB2 & HM). injection HM as <-.
    destruct (IHl bs HB2) as (y1 & y2 & H1 & H2 & ->). exists (b :: y1), y2. cbn. fold (mapM f). rewrite HB. cbn. rewrite H1. auto. }
  destruct HS as (y1 & y2 & H1 & H2 & ->). specialize (IH y2 H2). cbn. fold (mapM (fun e : str * list A => do ls <- mapM f (snd e); Ok (List.concat ls))).
  rewrite H1. cbn. destruct (mapM _ gs) as [l2|]; [|discriminate]. cbn in IH |- *. injection IH as IH. rewrite IH. now rewrite List.concat_app.
Qed.
Lemma loop_concat l ys : List.concat (map snd (by_module l)) = l -> mapM import_line l = Ok ys -> loop (by_module l) = Ok (List.concat ys).
Proof. intros HC HM. unfold loop. apply mapM_concat. now rewrite HC. Qed.

(** ---------------------------------------------------------------- one directory *)
Section Dir.
  Context (p : project) (sub prefix : str) (pre : str) (package : string) (names : list str).
  Hypothesis SCAN : forall name, glob_match prefix name = true ->
    scan_module p sub name = match import_module p (pre ++ stem name) with
                             | Loaded ms => Ok (module_apis (stem name) (pre ++ stem name) ms)
                             | NoImport => Ok []
                             | Crashes e => Err e
                             end.
  Hypothesis PATH : forall a, (exists x, a_module a = prefix ++ x) -> relative_import_path a = Ok (s package ++ a_module a).
  Hypothesis ND : NoDup names.
  Definition files : list str := sorted_by (fun x => x) (filter (glob_match prefix) names).
  Definition apis_of (name : str) : list api :=
    match import_module p (pre ++ stem name) with Loaded ms => module_apis (stem name) (pre ++ stem name) ms | _ => [] end.
  Definition dir_pairs : list (str * str) := map pair_of (flat_map apis_of files).

  Lemma files_in name : In name files <-> In name names /\ glob_match prefix name = true.
  Proof using. unfold files. rewrite <- filter_In. split; apply Permutation_in; [apply Permutation_sym|]; apply sorted_perm. Qed.
  Lemma files_module name : In name files -> exists x, stem name = prefix ++ x /\ name = stem name ++ s ".py".
  Proof using. intros HI. apply files_in in HI as [_ HG]. apply glob_iff in HG as [x ->]. exists x. rewrite stem_py. auto. Qed.
  Lemma files_nodup : NoDup files.
  Proof using ND. eapply Permutation_NoDup; [apply sorted_perm|]. now apply NoDup_filter. Qed.
  Lemma stems_nodup : NoDup (map stem files).
  Proof using ND.
    assert (HI : forall n, In n files -> n = stem n ++ s ".py") by (intros n HN; now destruct (files_module n HN) as (x & _ & H)).
    pose proof files_nodup as HN. revert HN HI. generalize files. induction 1 as [|n l HX HN IH]; intros HI; cbn; constructor; [|apply IH; intros; apply HI; now right].
    intros HY. apply in_map_iff in HY as (n' & HE & HY). apply HX. rewrite (HI n (or_introl eq_refl)), <- HE, <- (HI n' (or_intror HY)). exact HY.
  Qed.
  Lemma files_sorted : StronglySorted (fun x y => strictly_before x y) files.
  Proof using ND. apply (sorted_strict (fun x => x)). rewrite map_id. now apply NoDup_filter. Qed.

  Lemma scan_dir_ok l : scan_dir p sub prefix names = Ok l -> l = flat_map apis_of files.
  Proof using SCAN.
    unfold scan_dir. fold files. intros HS. apply rbind_ok in HS as (ls & HM & HL). injection HL as <-. apply mapM_forall2 in HM.
    assert (HG : forall n, In n files -> glob_match prefix n = true) by (intros n HN; now apply files_in in HN).
    induction HM as [|n ap fs ls H HM IH]; [reflexivity|]. cbn [List.concat flat_map]. rewrite IH by (intros; apply HG; now right). f_equal.
    rewrite SCAN in H by (apply HG; now left). unfold apis_of. destruct (import_module p (pre ++ stem n)); congruence.
  Qed.
  Lemma scan_dir_total : (forall m e, has_module names prefix m -> import_module p (pre ++ m) <> Crashes e) ->
    scan_dir p sub prefix names = Ok (flat_map apis_of files).
  Proof using SCAN.
    intros HC. assert (HG : forall n, In n files -> scan_module p sub n = Ok (apis_of n)).
    { intros n HN. rewrite SCAN by (now apply files_in in HN). unfold apis_of.
      destruct (import_module p (pre ++ stem n)) eqn:E; try reflexivity. exfalso.
      apply (HC (stem n) e); [|exact E]. destruct (files_module n HN) as (x & HX & HE). split; [|now exists x]. rewrite <- HE. now apply files_in in HN. }
    unfold scan_dir. fold files. revert HG. generalize files. intros fs HG.
    assert (HM : mapM (scan_module p sub) fs = Ok (map apis_of fs)).
    { induction fs as [|n fs IH]; [reflexivity|]. cbn. fold (mapM (scan_module p sub)). rewrite HG by now left. cbn. rewrite IH by (intros; apply HG; now right). reflexivity. }
    rewrite HM. cbn. now rewrite flat_map_concat_map.
  Qed.
  Lemma scan_dir_err e : scan_dir p sub prefix names = Err e -> exists m, has_module names prefix m /\ import_module p (pre ++ m) = Crashes e.
  Proof using SCAN.
    unfold scan_dir. fold files. intros HS.
    assert (HM : mapM (scan_module p sub) files = Err e) by (destruct (mapM (scan_module p sub) files); cbn in HS; congruence). clear HS.
    assert (HX : exists n, In n files /\ scan_module p sub n = Err e).
    { revert HM. generalize files. intros fs. induction fs as [|n fs IH]; [discriminate|]. cbn. fold (mapM (scan_module p sub)).
      destruct (scan_module p sub n) eqn:E.
      - cbn. destruct (mapM (scan_module p sub) fs); [discriminate|]. cbn. intros HE. destruct IH as (n' & H1 & H2); [congruence|]. exists n'. split; [now right|exact H2].
      - cbn. intros HE. exists n. split; [now left|congruence]. }
    destruct HX as (n & HN & HE). exists (stem n). destruct (files_module n HN) as (x & HX & HP). split.
    - split; [|now exists x]. rewrite <- HP. now apply files_in in HN.
    - rewrite SCAN in HE by (now apply files_in in HN). destruct (import_module p (pre ++ stem n)); congruence.
  Qed.

  Lemma dir_pairs_in e : In e dir_pairs <-> has_module names prefix (fst e) /\ exported p (pre ++ fst e) (snd e).
  Proof using.
    unfold dir_pairs. split.
    - intros HI. apply in_map_iff in HI as (a & <- & HA). apply in_flat_map in HA as (n & HN & HA). unfold apis_of in HA.
      destruct (import_module p (pre ++ stem n)) as [ms| |] eqn:E; try destruct HA.
      assert (HP : In (pair_of a) (map pair_of (module_apis (stem n) (pre ++ stem n) ms))) by (now apply in_map).
      apply module_pairs in HP as (H1 & H2 & o & H3 & H4). destruct (files_module n HN) as (x & HX & HE). rewrite H1. split.
      + split; [|now exists x]. rewrite <- HE. now apply files_in in HN.
      + split; [exact H2|]. destruct H4 as [->|H4]; [left; exists ms; auto|right]. split; [exact H4|]. exists ms, o. auto.
    - intros [[HM [x HX]] [HP HE]]. destruct e as [m c]. cbn [fst snd] in *.
      assert (HF : In (m ++ s ".py") files).
      { apply files_in. split; [exact HM|]. apply glob_iff. exists x. now rewrite <- HX. }
      assert (HL : exists ms o, import_module p (pre ++ m) = Loaded ms /\ In (c, o) ms /\ (o = AClass (pre ++ m) true \/ exists x, c = s "T_NODE_" ++ x \/ c = s "T_MARK_" ++ x)).
      { destruct HE as [(ms & H1 & H2)|(HA & ms & o & H1 & H2)]; [exists ms, (AClass (pre ++ m) true); auto|exists ms, o; auto]. }
      destruct HL as (ms & o & HL & HI & HO).
      assert (HP2 : In (m, c) (map pair_of (module_apis m (pre ++ m) ms))) by (apply module_pairs; cbn [fst snd]; split; [reflexivity|]; split; [exact HP|]; exists o; auto).
      apply in_map_iff in HP2 as (a & HA1 & HA2). apply in_map_iff. exists a. split; [exact HA1|]. apply in_flat_map. exists (m ++ s ".py").
      split; [exact HF|]. unfold apis_of. rewrite stem_py, HL. exact HA2.
  Qed.
  Lemma dir_pairs_sorted :
    (forall full ms, import_module p full = Loaded ms -> NoDup (map fst ms)) ->
    (forall full c, defines p full c -> forall x, c <> s "T_NODE_" ++ x /\ c <> s "T_MARK_" ++ x) ->
    StronglySorted in_order dir_pairs.
  Proof using ND.
    intros HN HD. unfold dir_pairs. assert (HI : forall n, In n files -> n = stem n ++ s ".py") by (intros n HX; now destruct (files_module n HX) as (x & _ & H)).
    pose proof files_sorted as HS. revert HS HI. generalize files. induction 1 as [|n l HS IH HF]; intros HI; cbn [flat_map map]; [constructor|].
    rewrite map_app. specialize (IH (fun m H => HI m (or_intror H))).
    assert (H1 : StronglySorted in_order (map pair_of (apis_of n))).
    { unfold apis_of. destruct (import_module p (pre ++ stem n)) as [ms| |] eqn:E; try constructor.
      apply module_sorted; [eapply HN; eauto|]. intros c HC. apply (HD (pre ++ stem n)). exists ms. auto. }
    assert (H2 : forall e f, In e (map pair_of (apis_of n)) -> In f (map pair_of (flat_map apis_of l)) -> in_order e f).
    { assert (HFST : forall n0 e, In e (map pair_of (apis_of n0)) -> fst e = stem n0).
      { intros n0 e He. unfold apis_of in He. destruct (import_module p (pre ++ stem n0)); try destruct He. now apply module_pairs in He as [He _]. }
      intros e f He Hf. apply in_map_iff in Hf as (b & <- & Hb). apply in_flat_map in Hb as (n2 & Hn2 & Hb). left.
      rewrite (HFST n e He), (HFST n2 (pair_of b) (in_map pair_of _ _ Hb)), <- (HI n (or_introl eq_refl)), <- (HI n2 (or_intror Hn2)).
      rewrite Forall_forall in HF. now apply HF. }
    revert H1 H2. generalize (map pair_of (apis_of n)). induction 1 as [|e r HS' IHr HF']; intros H2; cbn [app]; [exact IH|].
    constructor; [apply IHr; intros; apply H2; [now right|assumption]|]. apply Forall_app. split; [exact HF'|]. apply Forall_forall. intros f Hf. apply H2; [now left|exact Hf].
  Qed.
  Lemma dir_text l : scan_dir p sub prefix names = Ok l -> loop (by_module l) = Ok (lines package dir_pairs).
  Proof using SCAN PATH ND.
    intros HS. apply scan_dir_ok in HS. subst l. unfold dir_pairs, lines. rewrite map_map.
    apply loop_concat.
    - pose proof (by_module_groups (map (fun n => (stem n, apis_of n)) files)) as HB. rewrite !map_map in HB. cbn [fst snd] in HB.
      rewrite flat_map_concat_map. rewrite (map_ext _ _ (fun n => eq_refl : snd (stem n, apis_of n) = apis_of n)) in HB. apply HB; [apply stems_nodup|].
      apply Forall_map, Forall_forall. intros n _. cbn [fst snd]. unfold apis_of. destruct (import_module p (pre ++ stem n)) as [ms| |]; try constructor.
      apply Forall_forall. intros a Ha. apply (in_map pair_of) in Ha. apply module_pairs in Ha as [Ha _]. exact Ha.
    - assert (HP : forall a, In a (flat_map apis_of files) -> exists x, a_module a = prefix ++ x).
      { intros a Ha. apply (in_map pair_of) in Ha. fold dir_pairs in Ha. apply dir_pairs_in in Ha as [[_ HX] _]. exact HX. }
      revert HP. generalize (flat_map apis_of files). induction l as [|a l IH]; intros HP; [reflexivity|]. cbn. fold (mapM import_line).
      unfold import_line at 1. rewrite PATH by (apply HP; now left). cbn [rbind]. rewrite IH by (intros; apply HP; now right). cbn [rbind].
      unfold line, pair_of. cbn [fst snd]. now rewrite <- !app_assoc.
  Qed.
End Dir.

(** ---------------------------------------------------------------- the two directories *)
Lemma scan_marks p name : scan_module p (s "marks") name =
  match import_module p (s "atlas_doc_parser.marks." ++ stem name) with
  | Loaded ms => Ok (module_apis (stem name) (s "atlas_doc_parser.marks." ++ stem name) ms) | NoImport => Ok [] | Crashes e => Err e end.
Proof.
  unfold scan_module. rewrite existsb_app. cbn [existsb]. change (str_eqb (s "marks") (s "marks")) with true. rewrite orb_true_r. reflexivity.
Qed.
Lemma scan_nodes p name : sane_path p -> glob_match (s "node_") name = true -> scan_module p (s "nodes") name =
  match import_module p (s "atlas_doc_parser.nodes." ++ stem name) with
  | Loaded ms => Ok (module_apis (stem name) (s "atlas_doc_parser.nodes." ++ stem name) ms) | NoImport => Ok [] | Crashes e => Err e end.
Proof.
  intros HS HG. unfold scan_module. rewrite !existsb_app. cbn [existsb].
  assert (H1 : existsb (str_eqb (s "marks")) (pkg_parts p) = false).
  { destruct (existsb (str_eqb (s "marks")) (pkg_parts p)) eqn:E; [|reflexivity]. exfalso. apply HS. apply existsb_exists in E as (x & HX & HE).
    apply str_eqb_eq in HE. now subst. }
  rewrite H1. change (str_eqb (s "marks") (s "nodes")) with false. change (str_eqb (s "nodes") (s "nodes")) with true.
  assert (H2 : str_eqb (s "marks") name = false).
  { apply str_eqb_neq. intros <-. vm_compute in HG. discriminate. }
  rewrite H2. rewrite orb_true_r. reflexivity.
Qed.
Lemma path_marks a : (exists x, a_module a = s "mark_" ++ x) -> relative_import_path a = Ok (s ".marks." ++ a_module a).
Proof. intros HX. unfold relative_import_path. apply prefixb_iff in HX. now rewrite HX. Qed.
Lemma path_nodes a : (exists x, a_module a = s "node_" ++ x) -> relative_import_path a = Ok (s ".nodes." ++ a_module a).
Proof.
  intros HX. unfold relative_import_path. destruct HX as [x HX]. rewrite HX.
  assert (H1 : prefixb (s "mark_") (s "node_" ++ x) = false) by reflexivity.
  assert (H2 : prefixb (s "node_") (s "node_" ++ x) = true) by (apply prefixb_iff; now exists x). now rewrite H1, H2.
Qed.
