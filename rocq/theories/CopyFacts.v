(** copy.deepcopy of acyclic data gives a reference to the same value, whatever the sharing. *)
From Coq Require Import List NArith ZArith Bool String Arith Lia.
From Verif Require Import PyStr Values Schema Parse Basics Heap SpecHeap HeapFacts DenFacts.
Import ListNotations.
Open Scope string_scope.
Open Scope list_scope.
Open Scope nat_scope.

Definition grows (h h' : heap) : Prop := List.length h <= List.length h' /\ forall a, a < List.length h -> nth_error h' a = nth_error h a.
Lemma grows_refl h : grows h h.
Proof. split; auto. Qed.
Lemma grows_trans h1 h2 h3 : grows h1 h2 -> grows h2 h3 -> grows h1 h3.
Proof. intros [L1 H1] [L2 H2]. split; [lia|]. intros a Ha. rewrite H2 by lia. now apply H1. Qed.
Lemma grows_snoc h o : grows h (h ++ [o]).
Proof. split; [rewrite app_length; lia|]. intros a Ha. now apply nth_error_app1. Qed.
Lemma nth_lt {A} (h : list A) a o : nth_error h a = Some o -> a < List.length h.
Proof. intros H. apply nth_error_Some. congruence. Qed.
Lemma grows_sub h h' : grows h h' -> sub (nth_error h) (nth_error h').
Proof. intros [L H] a o HN. rewrite H; [exact HN|]. eapply nth_lt; eauto. Qed.
Lemma grows_hide h h' B : grows h h' -> sub (hide (nth_error h) B) (hide (nth_error h') B).
Proof. intros HG a o HN. apply hide_spec in HN as [H1 H2]. apply hide_spec. split; [exact H1|]. now apply (grows_sub h h'). Qed.

(** The objects being copied: (original, unfinished copy). *)
Definition pend := list (addr * addr).
Section Copy.
  Context (h0 : heap).
  Definition pend_ok (h : heap) (P : pend) (sz : nat) : Prop :=
    forall a b, In (a, b) P -> b < List.length h /\ exists u, denotes h0 u (Ref a) /\ sz < size u.
  Definition inv (h : heap) (P : pend) (m : memo) : Prop :=
    forall a b, memo_get a m = Some b ->
      In (a, b) P \/ exists u, denotes h0 u (Ref a) /\ den (hide (nth_error h) (map snd P)) u (Ref b).
  Lemma inv_grows h h' P m : grows h h' -> inv h P m -> inv h' P m.
  Proof. intros HG HI a b HM. destruct (HI a b HM) as [H|(u & H1 & H2)]; [now left|right]. exists u. split; [exact H1|]. eapply den_mono; [apply grows_hide, HG|exact H2]. Qed.

  Definition copied (f : nat) (v : value) : Prop := forall x m h P sz,
    denotes h0 v x -> size v <= f -> size v <= sz -> grows h0 h -> pend_ok h P sz -> inv h P m ->
    exists h' m' x', deepcopy f x m h = (h', [], Val (x', m')) /\ grows h h' /\ inv h' P m' /\ den (hide (nth_error h') (map snd P)) v x'.

  Lemma hide_snoc h o B : (forall b, In b B -> b < List.length h) ->
    sub (hide (nth_error h) B) (hide (nth_error (h ++ [o])) (List.length h :: B)).
  Proof.
    intros HB a o' HN. apply hide_spec in HN as [H1 H2]. apply nth_lt in H2 as HL. apply hide_spec. split.
    - intros [E|E]; [lia|auto].
    - now rewrite nth_error_app1.
  Qed.
  Lemma hide_write h b o B : sub (hide (nth_error h) (b :: B)) (hide (nth_error (set_nth h b o)) B).
  Proof.
    intros a o' HN. apply hide_spec in HN as [H1 H2]. apply hide_spec. split; [intros E; apply H1; now right|].
    rewrite nth_error_set. destruct (Nat.eqb_spec a b) as [->|N]; [exfalso; apply H1; now left|exact H2].
  Qed.

  Lemma copy_list f : forall vs xs, Forall (copied f) vs -> forall m h P sz,
    all2 (denotes h0) vs xs -> (forall v, In v vs -> size v <= f /\ size v <= sz) -> grows h0 h -> pend_ok h P sz -> inv h P m ->
    exists h' m' xs', copy_items (deepcopy f) xs m h = (h', [], Val (xs', m')) /\ grows h h' /\ inv h' P m' /\
                      all2 (den (hide (nth_error h') (map snd P))) vs xs'.
  Proof.
    induction vs as [|v vs IH]; intros [|x xs] HC m h P sz HD HS HG HP HI; try (destruct HD; fail).
    - exists h, m, []. cbn. split; [reflexivity|]. split; [apply grows_refl|]. auto.
    - destruct HD as [HD1 HD2]. apply Forall_cons_iff in HC as [HC1 HC2]. cbn [copy_items]. fold (copy_items (deepcopy f)).
      destruct (HC1 x m h P sz) as (h1 & m1 & x1 & E1 & G1 & I1 & D1); auto; try (apply HS; now left).
      destruct (IH xs HC2 m1 h1 P sz) as (h2 & m2 & x2 & E2 & G2 & I2 & D2); auto.
      { intros u Hu. apply HS. now right. }
      { eapply grows_trans; eauto. }
      { intros a b H. destruct (HP a b H) as [HB HU]. split; [destruct G1; lia|exact HU]. }
      exists h2, m2, (x1 :: x2). unfold hbind. rewrite E1, E2. cbn. split; [reflexivity|]. split; [eapply grows_trans; eauto|].
      split; [exact I2|]. split; [|exact D2]. eapply den_mono; [apply grows_hide, G2|exact D1].
  Qed.

  Lemma pend_lt h P sz b : pend_ok h P sz -> In b (map snd P) -> b < List.length h.
  Proof. intros HP HB. apply in_map_iff in HB as ([a c] & <- & HB). now destruct (HP a c HB). Qed.

  (** The step for one object [o] with items denoting [vs]. *)
  Lemma copy_obj f v o vs a m h P sz :
    nth_error h0 a = Some o -> denotes h0 v (Ref a) -> all2 (denotes h0) vs (items_of o) -> (forall u, In u vs -> size u < size v) ->
    (forall l, all2 (fun _ _ => True) vs l -> forall g b, g b = Some (with_items o l) -> all2 (den g) vs l -> den g v (Ref b)) ->
    Forall (copied f) vs -> size v <= S f -> size v <= sz -> grows h0 h -> pend_ok h P sz -> inv h P m ->
    exists h' m' x', deepcopy (S f) (Ref a) m h = (h', [], Val (x', m')) /\ grows h h' /\ inv h' P m' /\ den (hide (nth_error h') (map snd P)) v x'.
  Proof.
    intros HO HV HI HS HW HC HF HZ HG HP HM. cbn [deepcopy]. destruct (memo_get a m) as [b|] eqn:EM.
    - exists h, m, (Ref b). split; [reflexivity|]. split; [apply grows_refl|]. split; [exact HM|].
      destruct (HM a b EM) as [H|(u & H1 & H2)].
      + destruct (HP a b H) as (_ & u & H1 & H2). rewrite (den_functional _ _ _ _ H1 HV) in H2. lia.
      + now rewrite <- (den_functional _ _ _ _ H1 HV).
    - assert (HN : nth_error h a = Some o) by (now apply (grows_sub h0 h)).
      set (b := List.length h). set (h1 := h ++ [with_items o []]).
      destruct (copy_list f vs (items_of o) HC ((a, b) :: m) h1 ((a, b) :: P) (size v - 1)) as (h2 & m2 & l & E2 & G2 & I2 & D2).
      { exact HI. }
      { intros u Hu. specialize (HS u Hu). lia. }
      { eapply grows_trans; [exact HG|apply grows_snoc]. }
      { intros a' b' [[= <- <-]|H].
        - split; [unfold h1, b; rewrite app_length; cbn; lia|]. exists v. split; [exact HV|]. pose proof (size_pos v). lia.
        - destruct (HP a' b' H) as (HB & u & H1 & H2). split; [unfold h1; rewrite app_length; cbn; lia|]. exists u. split; [exact H1|]. lia. }
      { intros a' b'. cbn [memo_get]. destruct (Nat.eqb_spec a a') as [->|N].
        - intros [= <-]. left. now left.
        - intros HX. destruct (HM a' b' HX) as [H|(u & H1 & H2)]; [left; now right|right]. exists u. split; [exact H1|].
          eapply den_mono; [apply hide_snoc|exact H2]. intros b1. eapply pend_lt, HP. }
      unfold hbind, get_obj, alloc. rewrite HN. cbn beta iota. fold b h1. match goal with |- context [copy_items ?x ?y ?z ?w] => change (copy_items x y z w) with (copy_items (deepcopy f) (items_of o) ((a, b) :: m) h1) end. rewrite E2. cbn beta iota delta [write hret app].
      exists (set_nth h2 b (with_items o l)), m2, (Ref b). split; [reflexivity|].
      assert (HB2 : b < List.length h2). { destruct G2 as [L2 _]. unfold h1 in L2. rewrite app_length in L2. cbn in L2. unfold b. lia. }
      assert (HBP : ~ In b (map snd P)). { intros H. apply (pend_lt h P sz b HP) in H. unfold b in H. lia. }
      assert (HDV : den (hide (nth_error (set_nth h2 b (with_items o l))) (map snd P)) v (Ref b)).
      { apply (HW l).
        - eapply all2_impl; [|exact D2]. auto.
        - apply hide_spec. split; [exact HBP|]. rewrite nth_error_set, Nat.eqb_refl. apply Nat.ltb_lt in HB2. now rewrite HB2.
        - eapply all2_impl; [|exact D2]. intros u x _ _ HX. eapply den_mono; [apply hide_write|exact HX]. }
      split; [|split; [|exact HDV]].
      + destruct G2 as [L2 G2]. unfold h1 in L2. rewrite app_length in L2. cbn in L2. split; [rewrite set_nth_length; lia|].
        intros c Hc. rewrite nth_error_set. destruct (Nat.eqb_spec c b) as [->|N]; [unfold b in Hc; lia|].
        rewrite G2 by (unfold h1; rewrite app_length; lia). unfold h1. now rewrite nth_error_app1.
      + intros a' b' HX. destruct (I2 a' b' HX) as [[[= <- <-]|H]|(u & H1 & H2)].
        * right. exists v. auto.
        * now left.
        * right. exists u. split; [exact H1|]. eapply den_mono; [apply hide_write|exact H2].
  Qed.

  Lemma all2_map_snd g d e : all2 (edge g) d e -> all2 (den g) (map snd d) (map snd e).
  Proof. revert e. induction d as [|[k y] d IH]; intros [|[k' x] e]; cbn; try tauto. intros [[_ H] H2]. auto. Qed.
  Lemma all2_combine g d e l : all2 (edge g) d e -> forall g', all2 (den g') (map snd d) l -> all2 (edge g') d (combine (map fst e) l).
  Proof.
    intros H g'. revert e l H. induction d as [|[k y] d IH]; intros [|[k' x] e] [|z l]; cbn; try tauto.
    intros [[H1 _] H2] [H3 H4]. auto.
  Qed.

  Lemma copy_spec f : forall v, copied f v.
  Proof.
    induction f as [|f IH]; intros v x m h P sz HV HF HZ HG HP HM.
    { pose proof (size_pos v). lia. }
    assert (HALL : forall vs, Forall (copied f) vs) by (intros vs; apply Forall_forall; intros u _; apply IH).
    destruct v as [|b|z|fl|y|vs|vs|]; cbn in HV;
      try (subst x; exists h, m; eexists; split; [reflexivity|]; split; [apply grows_refl|]; split; [exact HM|reflexivity]).
    - destruct HV as (a & l & -> & HA & H).
      apply (copy_obj f (VList vs) (OList l) vs a m h P sz HA); auto.
      + exists a, l. auto.
      + intros u Hu. now apply size_list.
      + intros l' _ g b HB HD. exists b, l'. auto.
    - destruct HV as (a & d & -> & HA & H).
      apply (copy_obj f (VDict vs) (ODict d) (map snd vs) a m h P sz HA); auto.
      + exists a, d. auto.
      + cbn [items_of]. apply all2_map_snd. exact H.
      + intros u Hu. apply in_map_iff in Hu as ([k y] & <- & Hu). eapply size_dict, Hu.
      + intros l _ g b HB HD. exists b, (combine (map fst d) l). split; [reflexivity|]. split; [exact HB|].
        eapply all2_combine; [exact H|exact HD].
  Qed.
End Copy.

Theorem deepcopy_same_value h v x f : denotes h v x -> size v <= f ->
  exists h' x' m', deepcopy f x [] h = (h', [], Val (x', m')) /\ grows h h' /\ denotes h' v x'.
Proof.
  intros HV HF. destruct (copy_spec h f v x [] h [] (size v)) as (h' & m' & x' & E & G & _ & D); auto.
  - apply grows_refl.
  - intros a b [].
  - intros a b. discriminate.
  - exists h', x', m'. split; [exact E|]. split; [exact G|]. eapply den_mono; [apply hide_sub|exact D].
Qed.
