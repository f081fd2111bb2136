From Coq Require Import List NArith ZArith Bool String Arith Lia Sorted Permutation Relations.
From Verif Require Import PyStr Values Basics GenCode SpecApi ApiFacts Analyze SpecAnalyze AnalyzeFacts AnalyzeFacts2 AnalyzeFacts3 SpecEqual EqualFacts SerFacts2.
Import ListNotations.
Open Scope string_scope.
Open Scope list_scope.

(** ---------------------------------------------------------------- base types *)
Lemma before_spec sub x : sub <> [] ->
  (~ (exists a b, x = a ++ sub ++ b) /\ before sub x = x) \/
  (exists y, x = before sub x ++ sub ++ y /\ ~ exists a b, x = a ++ sub ++ b /\ (List.length a < List.length (before sub x))%nat).
Proof.
  intros HS. induction x as [|c x IH].
  - left. cbn. destruct (prefixb sub []) eqn:EP; [apply prefixb_iff in EP as [y HY]; symmetry in HY; apply app_eq_nil in HY as [HY _]; contradiction|].
    split; [|reflexivity]. intros (a & b & HE). symmetry in HE. apply app_eq_nil in HE as [_ HE]. apply app_eq_nil in HE as [HE _]. contradiction.
  - cbn [before]. destruct (prefixb sub (c :: x)) eqn:EP.
    + right. apply prefixb_iff in EP as [y HY]. exists y. split; [exact HY|]. intros (a & b & _ & HL). cbn in HL. lia.
    + assert (NP : forall y, c :: x <> sub ++ y). { intros y HY. assert (prefixb sub (c :: x) = true) by (apply prefixb_iff; eauto). congruence. }
      destruct IH as [[HN HE]|(y & HE & HN)].
      * left. split; [|now rewrite HE]. intros (a & b & HX). destruct a as [|a0 a]; [exact (NP _ HX)|]. apply HN. exists a, b. cbn in HX. congruence.
      * right. exists y. split; [cbn; now rewrite <- HE|]. intros (a & b & HX & HL). destruct a as [|a0 a]; [exact (NP _ HX)|].
        apply HN. exists a, b. cbn in HX, HL. split; [congruence|lia].
Qed.
Lemma drop5_app x y : List.length y = 5%nat -> drop5 (x ++ y) = x.
Proof. intros HL. unfold drop5. rewrite app_length, HL. replace (List.length x + 5 - 5)%nat with (List.length x) by lia. rewrite firstn_app, firstn_all, Nat.sub_diag. cbn. apply app_nil_r. Qed.
Lemma is_node_iff n : is_node n = true <-> exists x, n = x ++ s "_node".
Proof. apply suffixb_iff. Qed.
Lemma is_mark_iff n : is_mark n = true <-> exists x, n = x ++ s "_mark".
Proof. apply suffixb_iff. Qed.
Lemma node_not_mark x y : x ++ s "_node" <> y ++ s "_mark".
Proof. intros H. apply (f_equal (@rev N)) in H. rewrite !rev_app_distr in H. discriminate. Qed.
Lemma base_type_iff name b : get_base_type name = Some b <-> base_type name b.
Proof.
  unfold get_base_type, base_type. destruct (is_node name) eqn:EN; [|destruct (is_mark name) eqn:EM].
  - apply is_node_iff in EN as [x ->]. rewrite drop5_app by reflexivity.
    assert (HS : s "_with_" <> []) by discriminate. pose proof (before_spec (s "_with_") x HS) as HB. set (bf := before (s "_with_") x) in *.
    assert (HX : forall x', x ++ s "_node" = x' ++ s "_node" -> x' = x) by (intros x' HE; now apply app_inv_tail in HE).
    split.
    + intros HE. assert (HE' : bf = b /\ b <> []) by (destruct bf; [discriminate|split; congruence]). destruct HE' as [<- HN]. split; [assumption|]. left. exists x. split; [reflexivity|].
      destruct HB as [[HB HE']|(y & HY & HB)]; [left; split; [congruence|assumption]|right; exists y; split; assumption].
    + intros [HN [(x' & HE & HC)|HE]]; [|now destruct (node_not_mark _ _ HE)]. apply HX in HE. subst x'.
      assert (bf = b).
      { destruct HC as [[<- HC]|(y & HY & HC)]; destruct HB as [[HB HE']|(y' & HY' & HB)].
        - assumption.
        - destruct HC. exists bf, y'. assumption.
        - destruct HB. exists b, y. assumption.
        - assert (HL : List.length bf = List.length b).
          { destruct (Nat.lt_trichotomy (List.length bf) (List.length b)) as [H|[H|H]]; [destruct HC; exists bf, y'; auto|assumption|destruct HB; exists b, y; auto]. }
          rewrite HY in HY'. apply app_eq_app in HY' as [l [[H1 H2]|[H1 H2]]].
          + rewrite H1, app_length in HL. destruct l; [now rewrite app_nil_r in H1|cbn in HL; lia].
          + rewrite H1, app_length in HL. destruct l; [now rewrite app_nil_r in H1|cbn in HL; lia]. }
      subst b. destruct bf; [contradiction|reflexivity].
  - apply is_mark_iff in EM as [x ->]. rewrite drop5_app by reflexivity. split.
    + intros HE. assert (HE' : x = b /\ b <> []) by (destruct x; [discriminate|split; congruence]). destruct HE' as [<- HN]. auto.
    + intros [HN [(x' & HE & _)|HE]]; [symmetry in HE; now destruct (node_not_mark _ _ HE)|]. apply app_inv_tail in HE. subst. destruct b; [contradiction|reflexivity].
  - split; [discriminate|]. intros [_ [(x & HE & _)|HE]]; [assert (is_node name = true) by (apply is_node_iff; eauto)|assert (is_mark name = true) by (apply is_mark_iff; eauto)]; congruence.
Qed.

(** ---------------------------------------------------------------- loops that add some of what they meet *)
Lemma fold_some {A} (f : A -> option str) (as_ : list A) : forall l,
  let r := fold_left (fun acc a => match f a with Some x => add x acc | None => acc end) as_ l in
  (forall x, In x r <-> In x l \/ exists a, In a as_ /\ f a = Some x) /\ (NoDup l -> NoDup r).
Proof.
  induction as_ as [|a as_ IH]; intros l; cbn.
  - split; [|auto]. intros x. split; [now left|]. intros [H|(a & [] & _)]; assumption.
  - destruct (f a) as [y|] eqn:EF.
    + destruct (IH (add y l)) as [HI HN]. split; [|intros H; apply HN; now apply add_nodup]. intros x. rewrite HI, add_in. split.
      * intros [[->|H]|(b & HB & HE)]; [right; exists a; auto|now left|right; exists b; auto].
      * intros [H|(b & [<-|HB] & HE)]; [tauto|left; left; congruence|]. right. now exists b.
    + destruct (IH l) as [HI HN]. split; [|exact HN]. intros x. rewrite HI. split.
      * intros [H|(b & HB & HE)]; [now left|right; exists b; auto].
      * intros [H|(b & [<-|HB] & HE)]; [tauto|congruence|]. right. now exists b.
Qed.
Lemma fold_ext {A B} (f g : B -> A -> B) as_ : (forall b a, f b a = g b a) -> forall b, fold_left f as_ b = fold_left g as_ b.
Proof. intros H. induction as_ as [|a r IH]; intros b; cbn; [reflexivity|]. rewrite H. apply IH. Qed.

Section Walk.
  Variable E : env.
  Hypothesis W : walks E.
  Lemma walk_in k l x : In x (walk E k l) <-> In x l.
  Proof using W. split; apply Permutation_in; [apply Permutation_sym|]; apply W. Qed.

  Lemma node_refs_spec name v : distinct_keys v ->
    match node_refs E (name, v) with
    | Ok (n, l) => n = name /\ refs_are_strings v /\ NoDup l /\ forall r, In r l <-> refers v r /\ (is_node r = true \/ is_mark r = true)
    | Err e => e = AttributeError /\ ~ refs_are_strings v
    end.
  Proof using W.
    intros DK. unfold node_refs. cbn [snd fst]. pose proof (extract_refs_spec v DK []) as HS. destruct (extract_refs v []) as [refs|e]; cbn [rbind]; [|exact HS].
    destruct HS as (HG & HI & HN). split; [reflexivity|]. split; [assumption|].
    rewrite (fold_ext _ (fun acc a => match (if is_node a || is_mark a then Some a else None) with Some x => add x acc | None => acc end))
      by (intros b a; destruct (is_node a || is_mark a); reflexivity).
    destruct (fold_some (fun a => if is_node a || is_mark a then Some a else None) (walk E 3 refs) []) as [HI' HN'].
    split; [apply HN'; constructor|]. intros r. rewrite HI'. cbn [In]. split.
    - intros [[]|(a & HA & HE)]. destruct (is_node a || is_mark a) eqn:EB; [|discriminate]. assert (a = r) by congruence. subst a.
      apply walk_in in HA. apply HI in HA as [[]|HA]. apply orb_true_iff in EB. auto.
    - intros [HR HB]. right. exists r. split; [apply walk_in, HI; now right|]. apply orb_true_iff in HB. now rewrite HB.
  Qed.

  (** by_base *)
  Lemma group_keys base name d : forall k, In k (map fst (group base name d)) <-> k = base \/ In k (map fst d).
  Proof using.
    induction d as [|[k0 l] r IH]; intros k; cbn.
    - intuition.
    - destruct (str_eqb k0 base) eqn:EQ; cbn; [|rewrite IH; tauto]. apply str_eqb_eq in EQ. subst. intuition.
  Qed.
  Lemma group_nodup base name d : NoDup (map fst d) -> NoDup (map fst (group base name d)).
  Proof using.
    induction d as [|[k0 l] r IH]; intros HN; cbn; [repeat constructor; intros []|]. inversion HN as [|? ? HX HR]; subst.
    destruct (str_eqb k0 base) eqn:EQ; cbn; [exact HN|]. constructor; [|now apply IH]. rewrite group_keys. apply str_eqb_neq in EQ. intros [H|H]; [congruence|contradiction].
  Qed.
  Lemma group_in base name d b n : NoDup (map fst d) ->
    (exists l, In (b, l) (group base name d) /\ In n l) <-> (b = base /\ n = name) \/ (exists l, In (b, l) d /\ In n l).
  Proof using.
    induction d as [|[k0 l0] r IH]; intros HN; cbn.
    - split.
      + intros (l & [HE|[]] & HI). assert (base = b) by congruence. assert ([name] = l) by congruence. subst. destruct HI as [<-|[]]. auto.
      + intros [[-> ->]|(l & [] & _)]. exists [name]. split; [now left|now left].
    - inversion HN as [|? ? HX HR]; subst. destruct (str_eqb k0 base) eqn:EQ; cbn.
      + apply str_eqb_eq in EQ. subst k0. split.
        * intros (l & [HE|HE] & HI); [|right; exists l; auto]. assert (base = b) by congruence. assert (l0 ++ [name] = l) by congruence. subst.
          apply in_app_iff in HI as [HI|[<-|[]]]; [right; exists l0; auto|now left].
        * intros [[-> ->]|(l & [HE|HE] & HI)].
          -- exists (l0 ++ [name]). split; [now left|]. apply in_app_iff. right. now left.
          -- assert (base = b) by congruence. assert (l0 = l) by congruence. subst. exists (l ++ [name]). split; [now left|]. apply in_app_iff. now left.
          -- exists l. auto.
      + split.
        * intros (l & [HE|HE] & HI); [right; exists l; auto|]. destruct (proj1 (IH HR) (ex_intro _ l (conj HE HI))) as [H|(l' & H1 & H2)]; [now left|right; exists l'; auto].
        * intros [H|(l & [HE|HE] & HI)].
          -- destruct (proj2 (IH HR) (or_introl H)) as (l & H1 & H2). exists l. auto.
          -- exists l. auto.
          -- destruct (proj2 (IH HR) (or_intror (ex_intro _ l (conj HE HI)))) as (l' & H1 & H2). exists l'. auto.
  Qed.
  Lemma by_base_spec names_ :
    NoDup (map fst (by_base names_)) /\
    (forall b, In b (map fst (by_base names_)) <-> exists n, In n names_ /\ base_type n b) /\
    (forall b n, (exists l, In (b, l) (by_base names_) /\ In n l) <-> In n names_ /\ base_type n b).
  Proof using.
    unfold by_base. set (step := fun d n => match get_base_type n with Some b => group b n d | None => d end).
    assert (G : forall d, NoDup (map fst d) ->
      NoDup (map fst (fold_left step names_ d)) /\
      (forall b, In b (map fst (fold_left step names_ d)) <-> In b (map fst d) \/ exists n, In n names_ /\ base_type n b) /\
      (forall b n, (exists l, In (b, l) (fold_left step names_ d) /\ In n l) <-> (exists l, In (b, l) d /\ In n l) \/ In n names_ /\ base_type n b)).
    { induction names_ as [|m r IH]; intros d HN; cbn.
      - split; [assumption|]. split; [intros b|intros b n]; (split; [now left|]); [intros [H|(n & [] & _)]|intros [H|[[] _]]]; assumption.
      - assert (HS : NoDup (map fst (step d m)) /\ (forall b, In b (map fst (step d m)) <-> In b (map fst d) \/ base_type m b) /\
                     (forall b n, (exists l, In (b, l) (step d m) /\ In n l) <-> (exists l, In (b, l) d /\ In n l) \/ (n = m /\ base_type m b))).
        { unfold step. destruct (get_base_type m) as [b0|] eqn:EB.
          - assert (HB : forall b, base_type m b <-> b = b0) by (intros b; rewrite <- base_type_iff, EB; split; congruence).
            split; [now apply group_nodup|]. split; [intros b; rewrite group_keys, HB; tauto|]. intros b n. rewrite group_in, HB by assumption. tauto.
          - assert (HB : forall b, ~ base_type m b) by (intros b HB; apply base_type_iff in HB; congruence).
            split; [assumption|]. split; [intros b|intros b n]; (split; [now left|]); intros [H|H]; try assumption; [destruct (HB b H)|destruct H as [_ H]; destruct (HB b H)]. }
        destruct HS as (S1 & S2 & S3). destruct (IH (step d m) S1) as (I1 & I2 & I3). split; [assumption|]. split.
        + intros b. rewrite I2, S2. split.
          * intros [[H|H]|(n & HN' & HB)]; [now left|right; exists m; auto|right; exists n; auto].
          * intros [H|(n & [<-|HN'] & HB)]; [tauto|tauto|right; now exists n].
        + intros b n. rewrite I3, S3. split.
          * intros [[H|[-> H]]|[HN' HB]]; [now left|right; auto|right; auto].
          * intros [H|[[<-|HN'] HB]]; tauto. }
    destruct (G [] (NoDup_nil _)) as (G1 & G2 & G3). split; [assumption|]. split.
    - intros b. rewrite G2. cbn. split; [intros [[]|H]; assumption|now right].
    - intros b n. rewrite G3. split; [intros [(l & [] & _)|H]; assumption|now right].
  Qed.

  (** base_deps *)
  Lemma base_deps_spec node_deps groups : NoDup (map fst groups) ->
    let g := base_deps E node_deps groups in
    sets_ok g /\ (forall b, node_of g b <-> In b (map fst groups)) /\
    (forall b c, (exists l, In (b, l) g /\ In c l) <->
       exists variants v dep, In (b, variants) groups /\ In v variants /\ In dep (deps_of node_deps v) /\ base_type dep c /\ c <> b).
  Proof using W.
    intros HN g. set (set_of := fun b variants => fold_left (fun l variant =>
        fold_left (fun l' dep => match get_base_type dep with Some b' => if str_eqb b' b then l' else add b' l' | None => l' end)
          (walk E 4 (deps_of node_deps variant)) l) variants []).
    assert (HG : g = map (fun e => (fst e, set_of (fst e) (snd e))) groups) by reflexivity.
    assert (HS : forall b variants, NoDup (set_of b variants) /\ forall c, In c (set_of b variants) <->
                   exists v dep, In v variants /\ In dep (deps_of node_deps v) /\ base_type dep c /\ c <> b).
    { intros b variants. unfold set_of.
      assert (G : forall vs l, (NoDup l -> NoDup (fold_left (fun l variant =>
          fold_left (fun l' dep => match get_base_type dep with Some b' => if str_eqb b' b then l' else add b' l' | None => l' end)
            (walk E 4 (deps_of node_deps variant)) l) vs l)) /\
        forall c, In c (fold_left (fun l variant =>
          fold_left (fun l' dep => match get_base_type dep with Some b' => if str_eqb b' b then l' else add b' l' | None => l' end)
            (walk E 4 (deps_of node_deps variant)) l) vs l) <-> In c l \/ exists v dep, In v vs /\ In dep (deps_of node_deps v) /\ base_type dep c /\ c <> b).
      { induction vs as [|v vs IH]; intros l; cbn [fold_left].
        - split; [auto|]. intros c. split; [now left|]. intros [H|(v & dep & [] & _)]; assumption.
        - set (f := fun dep => match get_base_type dep with Some b' => if str_eqb b' b then None else Some b' | None => None end).
          set (l1 := fold_left _ (walk E 4 (deps_of node_deps v)) l).
          assert (H1 : l1 = fold_left (fun acc a => match f a with Some x => add x acc | None => acc end) (walk E 4 (deps_of node_deps v)) l).
          { unfold l1. apply fold_ext. intros acc a. unfold f. destruct (get_base_type a) as [b'|]; [|reflexivity]. destruct (str_eqb b' b); reflexivity. }
          destruct (fold_some f (walk E 4 (deps_of node_deps v)) l) as [HI HN']. cbv zeta in HI, HN'. rewrite <- H1 in HI, HN'.
          assert (HF : forall dep c, f dep = Some c <-> base_type dep c /\ c <> b).
          { intros dep c. rewrite <- base_type_iff. unfold f. destruct (get_base_type dep) as [b'|]; [|split; [discriminate|intros [H _]; discriminate]].
            destruct (str_eqb b' b) eqn:EQ; [apply str_eqb_eq in EQ|apply str_eqb_neq in EQ]; split; try discriminate.
            - intros [H1' H2]. congruence.
            - intros H. split; congruence.
            - intros [H _]. assumption. }
          destruct (IH l1) as [J1 J2]. split; [intros H; apply J1; now apply HN'|]. intros c. rewrite J2, HI. split.
          + intros [[H|(dep & HD & HE)]|(v' & dep & HV & H)]; [now left|right|right; exists v', dep; split; [now right|assumption]].
            exists v, dep. apply HF in HE as [HE1 HE2]. split; [now left|]. split; [now apply walk_in in HD|]. auto.
          + intros [H|(v' & dep & [<-|HV] & HD & HB & HC)]; [tauto| |right; exists v', dep; auto]. left. right. exists dep. split; [now apply walk_in|]. now apply HF. }
      destruct (G variants []) as [G1 G2]. split; [apply G1; constructor|]. intros c. rewrite G2. split; [intros [[]|H]; assumption|now right]. }
    rewrite HG. split; [split|split].
    - rewrite map_map. cbn. exact HN.
    - intros n l HI. apply in_map_iff in HI as ([b vs] & HE & HI). cbn [fst snd] in HE. assert (l = set_of b vs) by congruence. subst. apply HS.
    - intros b. unfold node_of. rewrite in_map_iff. split.
      + intros (l & HI). apply in_map_iff in HI as ([b' vs] & HE & HI). cbn in HE. exists (b', vs). split; [cbn; now injection HE|assumption].
      + intros ([b' vs] & HE & HI). cbn in HE. subst. exists (set_of b vs). apply in_map_iff. exists (b, vs). auto.
    - intros b c. split.
      + intros (l & HI & HC). apply in_map_iff in HI as ([b' vs] & HE & HI). cbn [fst snd] in HE. assert (b' = b) by congruence. assert (l = set_of b' vs) by congruence. subst.
        apply HS in HC as (v & dep & H). exists vs, v, dep. auto.
      + intros (vs & v & dep & HI & H). exists (set_of b vs). split; [apply in_map_iff; exists (b, vs); auto|]. apply HS. now exists v, dep.
  Qed.

  (** analysis *)
  Definition all_refs_strings (defs : list (str * value)) : Prop :=
    forall x v, In (x ++ s "_node", v) defs -> refs_are_strings v.
  Theorem analysis_spec defs : distinct_keys (VDict defs) ->
    match analysis E defs with
    | Ok (enums, g, order) =>
        enums_are_names (VDict defs) /\ all_refs_strings defs /\
        NoDup enums /\ (forall t, In t enums <-> type_value (VDict defs) t) /\
        sets_ok g /\ (forall b, node_of g b <-> base_node defs b) /\
        (forall b c, (exists l, In (b, l) g /\ In c l) <-> base_refers defs b c) /\
        order = topological_sort E g
    | Err e => (e = TypeError /\ ~ enums_are_names (VDict defs)) \/
               (e = AttributeError /\ enums_are_names (VDict defs) /\ ~ all_refs_strings defs)
    end.
  Proof using W.
    intros DK. unfold analysis. pose proof (extract_type_enums_spec _ DK []) as HE. destruct (extract_type_enums (VDict defs) []) as [enums|e]; cbn [rbind]; [|left; exact HE].
    destruct HE as (EG & EI & EN).
    assert (DN : NoDup (map fst defs)) by (inversion DK; subst; [discriminate|assumption]).
    assert (DV : forall n v, In (n, v) defs -> distinct_keys v).
    { inversion DK as [? HA| |? _ HD]; subst; [discriminate|]. rewrite Forall_forall in HD. intros n v HI. exact (HD _ HI). }
    assert (NI : forall e, In e (node_defs defs) <-> In e defs /\ exists x, fst e = x ++ s "_node").
    { intros e. unfold node_defs, dict_names. rewrite filter_In, is_node_iff. reflexivity. }
    assert (HM : forall ds, (forall e, In e ds -> distinct_keys (snd e)) ->
      match mapM (node_refs E) ds with
      | Ok nd => map fst nd = map fst ds /\ (forall n v, In (n, v) ds -> refs_are_strings v) /\
                 (NoDup (map fst ds) -> forall n v, In (n, v) ds -> forall r, In r (deps_of nd n) <-> refers v r /\ (is_node r = true \/ is_mark r = true))
      | Err ex => ex = AttributeError /\ ~ (forall n v, In (n, v) ds -> refs_are_strings v)
      end).
    { induction ds as [|[n v] ds IH]; intros HD; cbn; [split; [reflexivity|]; split; [intros n v []|intros _ n v []]|].
      fold (mapM (node_refs E)). pose proof (node_refs_spec n v (HD (n, v) (or_introl eq_refl))) as HR. destruct (node_refs E (n, v)) as [[n' l]|ex]; cbn [rbind].
      - destruct HR as (-> & HR1 & HR2 & HR3). specialize (IH (fun e H => HD e (or_intror H))). destruct (mapM (node_refs E) ds) as [nd|ex]; cbn [rbind].
        + destruct IH as (I1 & I2 & I3). split; [cbn; now rewrite I1|]. split.
          * intros m w [HI|HI]; [assert (v = w) by congruence; now subst|now apply (I2 m)].
          * intros HN m w HI r. inversion HN as [|? ? HX HN']; subst. unfold deps_of. cbn [lookup]. destruct HI as [HI|HI].
            -- assert (n = m) by congruence. assert (v = w) by congruence. subst. rewrite str_eqb_refl. apply HR3.
            -- assert (HNE : n <> m). { intros ->. apply HX. apply in_map_iff. now exists (m, w). } apply str_eqb_neq in HNE. rewrite HNE. fold (deps_of nd m). now apply I3.
        + destruct IH as [-> HI]. split; [reflexivity|]. intros H. apply HI. intros m w HW. apply (H m). now right.
      - destruct HR as [-> HR]. split; [reflexivity|]. intros H. apply HR. apply (H n). now left. }
    specialize (HM (node_defs defs)). assert (HD : forall e, In e (node_defs defs) -> distinct_keys (snd e)).
    { intros [n v] HI. apply NI in HI as [HI _]. now apply (DV n). }
    specialize (HM HD). assert (AR : (forall n v, In (n, v) (node_defs defs) -> refs_are_strings v) <-> all_refs_strings defs).
    { split; intros H.
      - intros x v HI. apply (H (x ++ s "_node")). apply NI. split; [assumption|]. now exists x.
      - intros n v HI. apply NI in HI as [HI [x HX]]. cbn in HX. subst. now apply (H x). }
    destruct (mapM (node_refs E) (node_defs defs)) as [nd|ex]; cbn [rbind].
    2: { destruct HM as [-> HM]. right. rewrite <- AR. auto. }
    destruct HM as (M1 & M2 & M3). apply AR in M2.
    assert (ND : NoDup (map fst (node_defs defs))).
    { unfold node_defs, dict_names. clear -DN. induction defs as [|[k v] r IH]; [constructor|]. inversion DN as [|? ? HX HR]; subst. cbn. destruct (is_node k); [|now apply IH].
      cbn. constructor; [|now apply IH]. intros HI. apply HX. apply in_map_iff in HI as (e & HE & HI). apply filter_In in HI as [HI _]. apply in_map_iff. now exists e. }
    specialize (M3 ND). destruct (by_base_spec (map fst (node_defs defs))) as (B1 & B2 & B3).
    destruct (base_deps_spec nd (by_base (map fst (node_defs defs))) B1) as (G1 & G2 & G3).
    split; [assumption|]. split; [assumption|]. split; [apply EN; constructor|]. split; [intros t; rewrite EI; split; [intros [[]|H]; assumption|now right]|].
    split; [assumption|]. split; [|split; [|reflexivity]].
    - intros b. rewrite G2, B2. split.
      + intros (n & HN & HB). apply in_map_iff in HN as ([n' v] & HE & HN). cbn in HE. subst n'. apply NI in HN as [HN [x HX]]. exists n, v, x. auto.
      + intros (n & v & x & HI & HX & HB). exists n. split; [|assumption]. apply in_map_iff. exists (n, v). split; [reflexivity|]. apply NI. split; [assumption|]. now exists x.
    - intros b c. rewrite G3. split.
      + intros (vs & n & dep & HI & HV & HDp & HB & HC). destruct (proj1 (B3 b n) (ex_intro _ vs (conj HI HV))) as [HN HBn].
        apply in_map_iff in HN as ([n' v] & HE & HN). cbn in HE. subst n'. apply (M3 n v HN) in HDp as [HR _]. apply NI in HN as [HN [x HX]]. exists n, v, x, dep. repeat (split; [assumption|]). assumption.
      + intros (n & v & x & ref & HI & HX & HB & HR & HBr & HC).
        assert (HN : In (n, v) (node_defs defs)) by (apply NI; split; [assumption|now exists x]).
        destruct (proj2 (B3 b n)) as (vs & HG1 & HG2). { split; [apply in_map_iff; now exists (n, v)|assumption]. }
        exists vs, n, ref. split; [assumption|]. split; [assumption|]. split; [|auto]. apply (M3 n v HN). split; [assumption|].
        destruct HBr as [_ [(y & HY & _)|HY]]; [left; apply is_node_iff; eauto|right; apply is_mark_iff; eauto].
  Qed.
End Walk.
