From Coq Require Import List NArith ZArith Bool String Arith Lia Sorted Permutation Relations.
From Verif Require Import PyStr Values Basics GenCode SpecApi ApiFacts Analyze SpecAnalyze.
Import ListNotations.
Open Scope string_scope.
Open Scope list_scope.

Lemma member_iff x l : member x l = true <-> In x l.
Proof.
  unfold member. rewrite existsb_exists. split.
  - intros (y & HI & HE). apply str_eqb_eq in HE. now subst.
  - intros HI. exists x. split; [assumption|apply str_eqb_refl].
Qed.
Lemma member_false x l : member x l = false <-> ~ In x l.
Proof. rewrite <- member_iff. destruct (member x l); intuition congruence. Qed.
Lemma add_in x y l : In y (add x l) <-> y = x \/ In y l.
Proof.
  unfold add. destruct (member x l) eqn:E.
  - apply member_iff in E. split; [auto|]. intros [->|H]; assumption.
  - rewrite in_app_iff. cbn. intuition.
Qed.
Lemma add_nodup x l : NoDup l -> NoDup (add x l).
Proof.
  intros HN. unfold add. destruct (member x l) eqn:E; [assumption|]. apply member_false in E.
  eapply Permutation_NoDup; [apply Permutation_cons_append|]. now constructor.
Qed.

(** ---------------------------------------------------------------- sort *)
Lemma sort_perm l : Permutation l (sort l).
Proof. apply sorted_perm. Qed.
Lemma sort_in x l : In x (sort l) <-> In x l.
Proof. split; apply Permutation_in; [apply Permutation_sym|]; apply sort_perm. Qed.
Lemma sort_eq l l' : Permutation l l' -> sort l = sort l'.
Proof. intros HP. apply sorted_by_perm; auto. Qed.
Lemma sort_strict l : NoDup l -> StronglySorted strictly_before (sort l).
Proof. intros HN. apply (sorted_strict (fun x => x)). now rewrite map_id. Qed.
Lemma strict_irrefl a : ~ strictly_before a a.
Proof. intros H. apply strictly_iff in H. now apply H. Qed.
Lemma strict_asym a b : strictly_before a b -> strictly_before b a -> False.
Proof. rewrite !strictly_iff. intros [H1 N] [H2 _]. apply N. now apply str_leb_antisym. Qed.
Lemma strict_nodup l : StronglySorted strictly_before l -> NoDup l.
Proof.
  induction 1 as [|x l HS IH HF]; constructor; [|assumption]. intros HI. rewrite Forall_forall in HF. exact (strict_irrefl x (HF x HI)).
Qed.
Lemma strict_ext l l' : StronglySorted strictly_before l -> StronglySorted strictly_before l' -> (forall x, In x l <-> In x l') -> l = l'.
Proof.
  intros H1 H2 HE. apply (sorted_unique (fun x => x)); auto.
  - eapply StronglySorted_ind with (P := StronglySorted (le_key (fun x => x))); [constructor| |exact H1].
    intros a m _ IH HF. constructor; [assumption|]. eapply Forall_impl; [|exact HF]. intros z HZ. apply strictly_iff in HZ. apply HZ.
  - eapply StronglySorted_ind with (P := StronglySorted (le_key (fun x => x))); [constructor| |exact H2].
    intros a m _ IH HF. constructor; [assumption|]. eapply Forall_impl; [|exact HF]. intros z HZ. apply strictly_iff in HZ. apply HZ.
  - apply NoDup_Permutation; [now apply strict_nodup|now apply strict_nodup|assumption].
Qed.
Lemma sort_sorted_id l : StronglySorted strictly_before l -> sort l = l.
Proof.
  intros HS. apply strict_ext; [|assumption|intros; apply sort_in]. apply sort_strict. now apply strict_nodup.
Qed.

(** ---------------------------------------------------------------- the specification determines the order *)
Lemma smallest_first_unique g : forall out l, smallest_first g out l -> forall out' l', (forall x, In x out <-> In x out') ->
  smallest_first g out' l' -> l = l'.
Proof.
  assert (HR : forall out out' n, (forall x, In x out <-> In x out') -> ready g out n -> ready g out' n).
  { intros out out' n HE (H1 & H2 & H3). repeat split; [assumption|now rewrite <- HE|]. intros d HD. apply HE. now apply H3. }
  induction 1 as [out n rest HN HM HS IH|out rest HB HS HI]; intros out' l' HE HS'.
  - destruct HS' as [out' n' rest' HN' HM' HS'|out' rest' HB' _ _].
    + assert (n = n').
      { destruct (HM n') as [->|H1]; [apply (HR out'); [intros; now rewrite HE|assumption]|reflexivity|].
        destruct (HM' n) as [->|H2]; [now apply (HR out)|reflexivity|]. destruct (strict_asym _ _ H1 H2). }
      subst n'. f_equal. apply (IH (n :: out')); [|assumption]. intros x. cbn. now rewrite HE.
    + destruct (HB' n). now apply (HR out).
  - destruct HS' as [out' n' rest' HN' HM' HS'|out' rest' HB' HS' HI'].
    + destruct (HB n'). apply (HR out'); [intros; now rewrite HE|assumption].
    + apply strict_ext; try assumption. intros x. rewrite HI, HI', HE. reflexivity.
Qed.

(** ---------------------------------------------------------------- the algorithm *)
Definition walks (E : env) : Prop := forall k l, Permutation l (walk E k l).

Section Topo.
  Variables (E : env) (g : graph).
  Hypothesis (W : walks E) (OK : sets_ok g).

  Lemma keys_node n : In n (keys g) <-> node_of g n.
  Proof using.
    unfold keys, node_of. rewrite in_map_iff. split.
    - intros ([k l] & <- & HI). now exists l.
    - intros (l & HI). now exists (n, l).
  Qed.
  Lemma deps_in n l : In (n, l) g -> deps_of g n = l.
  Proof using OK.
    destruct OK as [HN _]. unfold deps_of. intros HI. assert (HL : lookup n g = Some l).
    { revert HN HI. clear. induction g as [|[k v] r IH]; [intros _ []|]. cbn. intros HN [HI|HI].
      - assert (k = n) by congruence. assert (v = l) by congruence. subst. now rewrite str_eqb_refl.
      - inversion HN as [|? ? HX HR]; subst. destruct (str_eqb k n) eqn:EQ; [|now apply IH]. apply str_eqb_eq in EQ. subst. destruct HX. apply in_map_iff. now exists (n, l). }
    now rewrite HL.
  Qed.
  Lemma deps_nodup n : NoDup (deps_of g n).
  Proof using OK.
    unfold deps_of. destruct (lookup n g) eqn:EL; [|constructor]. apply lookup_In in EL. destruct OK as [_ H]. now apply (H n).
  Qed.
  Lemma deps_node n d : In d (deps_of g n) -> node_of g n.
  Proof using. unfold deps_of. destruct (lookup n g) eqn:EL; [|intros []]. apply lookup_In in EL. intros _. now exists l. Qed.
  Lemma needs_iff n d : needs g n d <-> In d (deps_of g n) /\ In d (keys g).
  Proof using OK.
    unfold needs. rewrite keys_node. split.
    - intros [(l & HI & HD) HN]. split; [|assumption]. now rewrite (deps_in n l HI).
    - intros [HD HN]. split; [|assumption]. destruct (deps_node n d HD) as [l HL]. exists l. split; [assumption|]. now rewrite <- (deps_in n l HL).
  Qed.
  Lemma keys_nodup : NoDup (keys g).
  Proof using OK. apply OK. Qed.

  (** how many dependencies are still missing *)
  Definition missing (out : list str) (n : str) : list str :=
    filter (fun x => member x (keys g) && negb (member x out)) (deps_of g n).
  Lemma missing_in out n x : In x (missing out n) <-> needs g n x /\ ~ In x out.
  Proof using OK.
    unfold missing. rewrite filter_In, needs_iff, andb_true_iff, member_iff, negb_true_iff, member_false. tauto.
  Qed.
  Lemma ready_iff out n : In n (keys g) -> ~ In n out -> (ready g out n <-> missing out n = []).
  Proof using OK.
    intros HK HO. unfold ready. rewrite keys_node in HK. split.
    - intros (_ & _ & H). destruct (missing out n) as [|x l] eqn:EM; [reflexivity|]. assert (HX : In x (missing out n)) by (rewrite EM; now left).
      apply missing_in in HX as [HX HY]. destruct (HY (H x HX)).
    - intros HM. repeat split; try assumption. intros d HD. destruct (member d out) eqn:EM; [now apply member_iff|]. apply member_false in EM.
      assert (HX : In d (missing out n)) by (now apply missing_in). rewrite HM in HX. destruct HX.
  Qed.

  Lemma bump_same d n k : bump d n k n = (d n + k)%Z.
  Proof using. unfold bump. now rewrite str_eqb_refl. Qed.
  Lemma bump_other d n k x : x <> n -> bump d n k x = d x.
  Proof using. intros H. unfold bump. apply str_eqb_neq in H. now rewrite H. Qed.

  (** in_degree *)
  Lemma degree_inner l (p : str -> bool) m : forall d x,
    fold_left (fun d' dep => if p dep then bump d' m 1 else d') l d x =
    (d x + (if str_eqb x m then Z.of_nat (List.length (filter p l)) else 0))%Z.
  Proof using.
    induction l as [|y l IH]; intros d x; cbn [fold_left filter List.length].
    - destruct (str_eqb x m); lia.
    - rewrite IH. destruct (p y); cbn [List.length]; [|reflexivity]. unfold bump. destruct (str_eqb x m); lia.
  Qed.
  Lemma filter_perm {A} (p : A -> bool) l l' : Permutation l l' -> Permutation (filter p l) (filter p l').
  Proof using.
    induction 1 as [|x l l' HP IH|x y l|l m r HP IH HP' IH']; cbn.
    - constructor.
    - destruct (p x); [now constructor|assumption].
    - destruct (p x), (p y); try reflexivity. apply perm_swap.
    - now transitivity (filter p m).
  Qed.
  Lemma degree_outer r : NoDup (map fst r) -> forall d x,
    fold_left (fun d e => fold_left (fun d' dep => if member dep (keys g) then bump d' (fst e) 1 else d') (walk E 0 (snd e)) d) r d x =
    (d x + match lookup x r with Some l => Z.of_nat (List.length (filter (fun y => member y (keys g)) l)) | None => 0 end)%Z.
  Proof using W.
    induction r as [|[k l] r IH]; intros HN d x; cbn [fold_left fst snd lookup]; [lia|].
    inversion HN as [|? ? HX HR]; subst. rewrite IH by assumption. rewrite degree_inner.
    rewrite (Permutation_length (filter_perm _ _ _ (Permutation_sym (W 0%nat l)))). rewrite (str_eqb_sym k x).
    destruct (str_eqb x k) eqn:EQ; [|lia]. apply str_eqb_eq in EQ. subst k.
    destruct (lookup x r) eqn:EL; [|lia]. apply lookup_In in EL. destruct HX. apply in_map_iff. now exists (x, l0).
  Qed.
  Lemma in_degrees_missing n : in_degrees E g n = Z.of_nat (List.length (missing [] n)).
  Proof using W OK.
    unfold in_degrees. rewrite degree_outer by apply OK. unfold missing, deps_of. destruct (lookup n g) as [l|]; [|reflexivity].
    cbn [Z.add]. f_equal. f_equal. apply filter_ext. intros y. cbn [member existsb negb]. now rewrite andb_true_r.
  Qed.

  (** one release *)
  Lemma release_loop node ws : NoDup ws -> forall d q, StronglySorted strictly_before q -> (forall x, In x ws -> In x q -> d x = 0%Z) ->
    let step st other :=
      if member node (deps_of g other) then
        let d := bump (fst st) other (-1) in
        if (d other =? 0)%Z then (d, sort (snd st ++ [other])) else (d, snd st)
      else st in
    let st := fold_left step ws (d, q) in
    (forall x, fst st x = (d x - (if member node (deps_of g x) && member x ws then 1 else 0))%Z) /\
    StronglySorted strictly_before (snd st) /\
    (forall x, In x (snd st) <-> In x q \/ (In x ws /\ member node (deps_of g x) = true /\ d x = 1%Z)).
  Proof using.
    intros HN. induction HN as [|w ws HX HN IH]; intros d q HS HQ step.
    - cbn. split; [|split; [assumption|]]. + intros x. rewrite andb_false_r. lia. + intros x. tauto.
    - cbn [fold_left]. set (st0 := step (d, q) w).
      assert (H0 : (forall x, fst st0 x = (d x - (if member node (deps_of g x) && str_eqb x w then 1 else 0))%Z) /\
                   StronglySorted strictly_before (snd st0) /\
                   (forall x, In x (snd st0) <-> In x q \/ (x = w /\ member node (deps_of g x) = true /\ d x = 1%Z))).
      { unfold st0, step. cbn [fst snd]. destruct (member node (deps_of g w)) eqn:EM.
        - assert (HD : forall x, bump d w (-1) x = (d x - (if member node (deps_of g x) && str_eqb x w then 1 else 0))%Z).
          { intros x. unfold bump. destruct (str_eqb x w) eqn:EQ; [|rewrite andb_false_r; lia]. apply str_eqb_eq in EQ. subst. rewrite EM. cbn. lia. }
          destruct (bump d w (-1) w =? 0)%Z eqn:EZ; cbn [fst snd].
          + apply Z.eqb_eq in EZ. rewrite bump_same in EZ. split; [assumption|]. split.
            * apply sort_strict. eapply Permutation_NoDup; [apply Permutation_cons_append|]. constructor; [|now apply strict_nodup].
              intros HI. rewrite (HQ w (or_introl eq_refl) HI) in EZ. lia.
            * intros x. rewrite sort_in, in_app_iff. cbn. split; [intros [H|[<-|[]]]; [now left|right]|intros [H|[-> _]]; [now left|right; now left]].
              repeat split; [assumption|lia].
          + apply Z.eqb_neq in EZ. rewrite bump_same in EZ. split; [assumption|]. split; [assumption|]. intros x. split; [now left|].
            intros [H|(-> & _ & H)]; [assumption|]. lia.
        - cbn [fst snd]. split; [|split; [assumption|]].
          + intros x. destruct (str_eqb x w) eqn:EQ; [|rewrite andb_false_r; lia]. apply str_eqb_eq in EQ. subst. rewrite EM. cbn. lia.
          + intros x. split; [now left|]. intros [H|(-> & H & _)]; [assumption|congruence]. }
      destruct st0 as [d0 q0]. cbn [fst snd] in H0. destruct H0 as (D0 & S0 & Q0).
      assert (NW : forall x, In x ws -> x <> w) by (intros x HI ->; exact (HX HI)).
      assert (E0 : forall x, In x ws -> d0 x = d x).
      { intros x HI. rewrite D0. pose proof (NW x HI) as HW. apply str_eqb_neq in HW. rewrite HW, andb_false_r. lia. }
      destruct (IH d0 q0 S0) as (D1 & S1 & Q1).
      { intros x HI HI0. rewrite E0 by assumption. apply Q0 in HI0 as [HI0|(-> & _)]; [|now destruct (NW w HI)]. apply HQ; [now right|assumption]. }
      fold step in D1, S1, Q1. split; [|split; [assumption|]].
      + intros x. rewrite D1, D0. change (member x (w :: ws)) with (str_eqb x w || member x ws). destruct (member node (deps_of g x)); cbn [andb]; [|lia].
        destruct (str_eqb x w) eqn:EQ; cbn [orb]; [|lia]. apply str_eqb_eq in EQ. subst. apply member_false in HX. rewrite HX. lia.
      + intros x. rewrite Q1, Q0. split.
        * intros [[H|(-> & H1 & H2)]|(HI & H1 & H2)]; [now left| |]; right; cbn; [tauto|]. rewrite E0 in H2 by assumption. tauto.
        * intros [H|([<-|HI] & H1 & H2)]; [tauto|tauto|]. right. rewrite E0 by assumption. tauto.
  Qed.

  Lemma missing_step out node n : In node (keys g) -> ~ In node out ->
    Z.of_nat (List.length (missing (node :: out) n)) =
    (Z.of_nat (List.length (missing out n)) - (if member node (deps_of g n) then 1 else 0))%Z.
  Proof using OK.
    intros HK HO. unfold missing. pose proof (deps_nodup n) as HN. revert HN. generalize (deps_of g n). apply member_iff in HK. apply member_false in HO.
    induction l as [|x l IH]; intros HN; [reflexivity|]. inversion HN as [|? ? HX HN']; subst. specialize (IH HN').
    cbn [filter]. change (member x (node :: out)) with (str_eqb x node || member x out). change (member node (x :: l)) with (str_eqb node x || member node l).
    rewrite (str_eqb_sym x node). destruct (str_eqb node x) eqn:EQ.
    - apply str_eqb_eq in EQ. subst x. rewrite HK, HO. cbn [andb orb negb List.length]. apply member_false in HX. rewrite HX in IH. lia.
    - cbn [orb]. destruct (member x (keys g) && negb (member x out)); cbn [List.length]; lia.
  Qed.

  (** the state of the loop *)
  Record good (d : degrees) (queue result : list str) : Prop := {
    g_deg : forall n, In n (keys g) -> d n = Z.of_nat (List.length (missing result n));
    g_sorted : StronglySorted strictly_before queue;
    g_queue : forall n, In n queue <-> ready g result n;
    g_result : NoDup result;
    g_keys : incl result (keys g);
    g_closed : forall n, In n result -> missing result n = []
  }.

  Lemma good_release k d node rest result : good d (node :: rest) result ->
    let st := release E g k node (d, rest) in good (fst st) (snd st) (result ++ [node]).
  Proof using W OK.
    intros [HD HS HQ HR HK HC] st.
    assert (RN : ready g result node) by (apply HQ; now left). destruct RN as (N1 & N2 & N3). apply keys_node in N1.
    assert (HM : forall n, missing (result ++ [node]) n = missing (node :: result) n).
    { intros n. unfold missing. apply filter_ext. intros x. f_equal. f_equal. unfold member. rewrite existsb_app. cbn. rewrite orb_false_r. apply orb_comm. }
    assert (WP : Permutation (keys g) (walk E k (keys g))) by apply W.
    assert (WI : forall x, In x (walk E k (keys g)) <-> In x (keys g)).
    { intros x. split; apply Permutation_in; [now apply Permutation_sym|assumption]. }
    inversion HS as [|? ? HS' HF]; subst.
    assert (RD : forall x, In x rest -> missing result x = []).
    { intros x HI. assert (RX : ready g result x) by (apply HQ; now right). apply ready_iff; [apply keys_node, RX|apply RX|exact RX]. }
    destruct (release_loop node (walk E k (keys g))) with (d := d) (q := rest) as (D1 & S1 & Q1).
    { eapply Permutation_NoDup; [exact WP|apply keys_nodup]. } { assumption. }
    { intros x HI HI'. rewrite HD by (now apply WI). now rewrite RD. }
    unfold st, release. constructor.
    - intros n HN. rewrite D1, HM, missing_step, HD by assumption. f_equal. assert (HW : member n (walk E k (keys g)) = true) by (now apply member_iff, WI).
      now rewrite HW, andb_true_r.
    - exact S1.
    - intros n. rewrite Q1.
      assert (NN : ~ In node rest). { intros HI. rewrite Forall_forall in HF. exact (strict_irrefl _ (HF node HI)). }
      split.
      + intros [HI|(HI & HN & HO)].
        * assert (RX : ready g result n) by (apply HQ; now right). destruct RX as (X1 & X2 & X3). repeat split; [assumption| |].
          -- rewrite in_app_iff. cbn. intros [H|[<-|[]]]; [exact (X2 H)|exact (NN HI)].
          -- intros dd HH. rewrite in_app_iff. left. now apply X3.
        * apply WI in HI. assert (RN : n <> node).
          { intros ->. apply member_iff in HN. apply N2. apply N3. apply needs_iff. now split. }
          assert (NO : ~ In n result).
          { intros HR'. rewrite HD in HO by assumption. destruct (missing result n) as [|m [|]] eqn:EM; cbn in HO; try lia.
            rewrite (HC n HR') in EM. discriminate. }
          apply ready_iff; [assumption|rewrite in_app_iff; cbn; intros [H|[<-|[]]]; [exact (NO H)|now apply RN]|].
          rewrite HM. pose proof (missing_step result node n N1 N2) as MS. rewrite HN, <- HD, HO in MS by assumption.
          destruct (missing (node :: result) n); [reflexivity|cbn [List.length] in MS; lia].
      + intros (X1 & X2 & X3). rewrite in_app_iff in X2. cbn in X2. apply keys_node in X1. assert (NO : ~ In n result) by tauto.
        destruct (member node (deps_of g n)) eqn:EM.
        * right. rewrite WI. repeat split; [assumption|]. rewrite HD by assumption.
          pose proof (missing_step result node n N1 N2) as MS. rewrite EM in MS.
          assert (HZ : missing (node :: result) n = []). { rewrite <- HM. apply ready_iff; [assumption|rewrite in_app_iff; cbn; tauto|]. repeat split; [now apply keys_node|rewrite in_app_iff; cbn; tauto|assumption]. }
          rewrite HZ in MS. cbn [List.length] in MS. lia.
        * left. assert (RX : In n (node :: rest)).
          { apply HQ. repeat split; [now apply keys_node|assumption|]. intros dd HH. specialize (X3 dd HH). rewrite in_app_iff in X3. destruct X3 as [X3|[<-|[]]]; [assumption|].
            apply needs_iff in HH as [HH _]. apply member_false in EM. destruct (EM HH). }
          destruct RX as [<-|RX]; [|assumption]. destruct X2. right. now left.
    - eapply Permutation_NoDup; [apply Permutation_cons_append|]. now constructor.
    - intros x HI. apply in_app_iff in HI as [HI|[<-|[]]]; [now apply HK|assumption].
    - intros n HI. destruct (missing (result ++ [node]) n) as [|x l] eqn:EM; [reflexivity|]. exfalso.
      assert (HX : In x (missing (result ++ [node]) n)) by (rewrite EM; now left). apply missing_in in HX as [HX HY]. rewrite in_app_iff in HY.
      apply in_app_iff in HI as [HI|[<-|[]]]; [|apply HY; left; now apply N3].
      assert (HZ : In x (missing result n)) by (apply missing_in; tauto). rewrite (HC n HI) in HZ. destruct HZ.
  Qed.

  Definition rest_of (result : list str) : list str := sort (filter (fun n => negb (member n result)) (walk E 2 (keys g))).
  Lemma rest_in result n : In n (rest_of result) <-> node_of g n /\ ~ In n result.
  Proof using W.
    unfold rest_of. rewrite sort_in, filter_In, negb_true_iff, member_false, <- keys_node.
    assert (HI : In n (walk E 2 (keys g)) <-> In n (keys g)) by (split; apply Permutation_in; [apply Permutation_sym|]; apply W). now rewrite HI.
  Qed.
  Lemma rest_sorted result : StronglySorted strictly_before (rest_of result).
  Proof using W OK. apply sort_strict. apply NoDup_filter. eapply Permutation_NoDup; [apply W|apply keys_nodup]. Qed.

  Lemma kahn_spec : forall fuel d queue result, good d queue result -> (List.length g <= fuel + List.length result)%nat ->
    exists tail, kahn E g fuel d queue result = Some (result ++ tail) /\
      forall out, (forall x, In x out <-> In x result) -> smallest_first g out (tail ++ rest_of (result ++ tail)).
  Proof using W OK.
    assert (KL : List.length (keys g) = List.length g) by apply map_length.
    induction fuel as [|fuel IH]; intros d queue result HG HF; (destruct queue as [|node rest];
      [exists []; rewrite app_nil_r; split; [reflexivity|]; intros out HO; cbn [app]; apply sf_blocked;
         [intros n HN; apply (g_queue _ _ _ HG n); destruct HN as (H1 & H2 & H3); repeat split; [assumption|now rewrite <- HO|intros dd HD; apply HO; now apply H3]
         |apply rest_sorted
         |intros n; rewrite rest_in, HO; reflexivity]|]).
    - exfalso. destruct HG as [_ _ HQ HR HK _]. assert (RN : ready g result node) by (apply HQ; now left). destruct RN as (N1 & N2 & _). apply keys_node in N1.
      assert (HL : (List.length (node :: result) <= List.length (keys g))%nat).
      { apply NoDup_incl_length; [now constructor|]. intros x [<-|HX]; [assumption|now apply HK]. }
      cbn in HL. lia.
    - cbn [kahn]. pose proof (good_release (10 + S fuel) d node rest result HG) as HG'. cbv zeta in HG'.
      destruct (IH _ _ _ HG') as (tail & HK & HS). { rewrite app_length. cbn. lia. }
      exists (node :: tail). rewrite <- app_assoc in HK. split; [exact HK|]. intros out HO. rewrite <- app_assoc in HS. cbn [app] in HS |- *.
      assert (RE : forall n, ready g out n <-> ready g result n).
      { intros n. split; intros (H1 & H2 & H3); repeat split; try assumption.
        - now rewrite <- HO.
        - intros dd HD. apply HO. now apply H3.
        - now rewrite HO.
        - intros dd HD. apply HO. now apply H3. }
      destruct HG as [_ HSo HQ _ _ _]. inversion HSo as [|? ? _ HFo]; subst. apply sf_next.
      + apply RE, HQ. now left.
      + intros m HM. apply RE, HQ in HM as [<-|HM]; [now left|]. right. rewrite Forall_forall in HFo. now apply HFo.
      + apply HS. intros x. rewrite in_app_iff. cbn. rewrite HO. tauto.
  Qed.

  Theorem topological_sort_spec : exists out, topological_sort E g = Some out /\ smallest_first g [] out.
  Proof using W OK.
    unfold topological_sort. set (queue := sort (filter (fun n => (in_degrees E g n =? 0)%Z) (walk E 1 (keys g)))).
    assert (HG : good (in_degrees E g) queue []).
    { assert (HI : forall n, In n (walk E 1 (keys g)) <-> In n (keys g)) by (intros n; split; apply Permutation_in; [apply Permutation_sym|]; apply W).
      constructor.
      - intros n _. apply in_degrees_missing.
      - apply sort_strict, NoDup_filter. eapply Permutation_NoDup; [apply W|apply keys_nodup].
      - intros n. unfold queue. rewrite sort_in, filter_In, HI, Z.eqb_eq, in_degrees_missing. split.
        + intros [HK HM]. apply ready_iff; [assumption|intros []|]. destruct (missing [] n); [reflexivity|cbn in HM; lia].
        + intros HR. assert (HK : In n (keys g)) by (apply keys_node, HR). split; [assumption|]. apply ready_iff in HR; [|assumption|intros []]. now rewrite HR.
      - constructor.
      - intros x [].
      - intros x []. }
    destruct (kahn_spec (List.length g) _ _ _ HG) as (tail & HK & HS); [cbn; lia|]. cbn [app] in HK, HS. rewrite HK.
    exists (tail ++ rest_of tail). split; [reflexivity|]. apply HS. reflexivity.
  Qed.
End Topo.
