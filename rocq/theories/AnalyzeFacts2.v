From Coq Require Import List NArith ZArith Bool String Arith Lia Sorted Permutation Relations.
From Verif Require Import PyStr Values Basics GenCode SpecApi ApiFacts Analyze SpecAnalyze AnalyzeFacts.
Import ListNotations.
Open Scope string_scope.
Open Scope list_scope.

Section Order.
  Variable g : dep_graph.
  Hypothesis OK : sets_ok g.

  Lemma sf_nodup : forall out l, smallest_first g out l -> NoDup l /\ forall n, In n l <-> node_of g n /\ ~ In n out.
  Proof using.
    induction 1 as [out n rest HR HM HS [IN II]|out rest HB HS HI].
    - split.
      + constructor; [|assumption]. intros HN. apply II in HN as [_ HN]. apply HN. now left.
      + intros x. cbn. rewrite II. cbn. destruct HR as (H1 & H2 & _). split.
        * intros [<-|[H3 H4]]; [now split|]. split; [assumption|]. tauto.
        * intros [H3 H4]. destruct (str_eq_dec n x) as [->|HD]; [now left|]. right. split; [assumption|]. intros [H|H]; tauto.
    - split; [now apply strict_nodup|assumption].
  Qed.

  (** Everything that is output while something is ready is accessible. *)
  Definition closed (out : list str) : Prop := forall n, In n out -> Acc (fun d n => needs g n d) n.
  Lemma sf_split : forall out l, smallest_first g out l -> closed out ->
    exists a b, l = a ++ b /\ closed (a ++ out) /\ (forall n, ~ ready g (a ++ out) n) /\ StronglySorted strictly_before b /\
      (forall n, In n b <-> node_of g n /\ ~ In n (a ++ out)) /\
      (forall a1 n a2 d, a = a1 ++ n :: a2 -> needs g n d -> In d (a1 ++ out)).
  Proof using.
    induction 1 as [out n rest HR HM HS IH|out rest HB HS HI]; intros HC.
    - destruct IH as (a & b & -> & C & NR & SS & HB & HD).
      { intros x [<-|HX]; [|now apply HC]. constructor. intros d HD. apply HC. now apply HR. }
      assert (IE : forall x, In x (a ++ n :: out) <-> In x ((n :: a) ++ out)).
      { intros x. rewrite !in_app_iff. cbn. tauto. }
      exists (n :: a), b. split; [reflexivity|]. split; [|split; [|split; [assumption|split]]].
      + intros x HX. apply C. now apply IE.
      + intros x (X1 & X2 & X3). apply (NR x). repeat split; [assumption|now rewrite IE|]. intros d HX. apply IE. now apply X3.
      + intros x. rewrite HB. now rewrite IE.
      + intros a1 x a2 d HE HX. destruct a1 as [|y a1].
        * cbn in HE. assert (x = n) by congruence. subst. cbn. now apply HR.
        * cbn in HE. assert (y = n) by congruence. assert (a = a1 ++ x :: a2) by congruence. subst y a.
          pose proof (HD a1 x a2 d eq_refl HX) as H. rewrite in_app_iff in H. cbn in *. rewrite in_app_iff. tauto.
    - exists [], rest. cbn [app]. split; [reflexivity|]. split; [assumption|]. split; [assumption|]. split; [assumption|]. split; [assumption|].
      intros a1 x a2 d HE. destruct a1; discriminate.
  Qed.

  Lemma acc_no_cycle n : Acc (fun d n => needs g n d) n -> ~ blocked g n.
  Proof using.
    intros HA (_ & m & HM & HC).
    assert (AM : Acc (fun d n => needs g n d) m).
    { destruct HM as [->|HM]; [assumption|]. clear HC. induction HM as [x y H|x y z H1 IH1 H2 IH2]; [exact (Acc_inv HA H)|]. apply IH2. now apply IH1. }
    assert (TI : forall x y, needs_all g x y -> exists z, needs g x z /\ (z = y \/ needs_all g z y)).
    { intros x y H. apply clos_trans_t1n in H. inversion H; subst; [exists y; auto|]. exists y0. split; [assumption|]. right. now apply clos_t1n_trans. }
    clear HM HA n. induction AM as [m _ IH]. destruct (TI m m HC) as (z & HZ & [->|HR]); [apply (IH m HZ); exact HC|].
    apply (IH z HZ). eapply t_trans; [exact HR|]. now apply t_step.
  Qed.

  (** Among nodes none of which is ready, following missing dependencies ends in a cycle. *)
  Lemma stuck_blocked out : (forall n, ~ ready g out n) -> closed out ->
    forall n, node_of g n -> ~ In n out -> blocked g n.
  Proof using OK.
    intros NR HC n HN HO. split; [assumption|].
    assert (NX : forall x, node_of g x -> ~ In x out -> exists y, needs g x y /\ ~ In y out).
    { intros x HX HY. destruct (missing g out x) as [|y l] eqn:EM.
      - destruct (NR x). apply (ready_iff g OK); [now apply keys_node|assumption|assumption].
      - exists y. apply (missing_in g OK). rewrite EM. now left. }
    (* path: visited nodes, each of which reaches x *)
    assert (MAIN : forall k x path, (List.length (keys g) <= k + List.length path)%nat -> node_of g x -> ~ In x out ->
              (x = n \/ needs_all g n x) -> NoDup path -> incl path (keys g) -> (forall y, In y path -> needs_all g y x) ->
              exists m, (m = n \/ needs_all g n m) /\ needs_all g m m).
    { induction k as [|k IH]; intros x path HL HX HY HR HD HI HP.
      - destruct (in_dec str_eq_dec x path) as [HI'|HI']; [exists x; split; [assumption|now apply HP]|].
        exfalso. assert (HL' : (List.length (x :: path) <= List.length (keys g))%nat).
        { apply NoDup_incl_length; [now constructor|]. intros y [<-|HY']; [now apply keys_node|now apply HI]. }
        cbn in HL'. lia.
      - destruct (in_dec str_eq_dec x path) as [HI'|HI']; [exists x; split; [assumption|now apply HP]|].
        destruct (NX x HX HY) as (y & HN1 & HN2). apply (IH y (x :: path)).
        + cbn. lia.
        + apply HN1.
        + assumption.
        + right. destruct HR as [->|HR]; [now apply t_step|]. eapply t_trans; [exact HR|now apply t_step].
        + now constructor.
        + intros z [<-|HZ]; [now apply keys_node|now apply HI].
        + intros z [<-|HZ]; [now apply t_step|]. eapply t_trans; [now apply HP|now apply t_step]. }
    apply (MAIN (List.length (keys g)) n []); [cbn; lia|assumption|assumption|now left|apply NoDup_nil|intros y []|intros y []].
  Qed.

  Lemma sf_blocked_tail out : smallest_first g [] out ->
    exists a b, out = a ++ b /\ (forall n, In n b <-> blocked g n) /\ StronglySorted strictly_before b /\
      (forall n d, In n a -> needs g n d -> earlier a d n).
  Proof using OK.
    intros HS. destruct (sf_split [] out HS) as (a & b & -> & C & NR & SS & HB & HD); [intros n []|].
    rewrite app_nil_r in C, NR. assert (HB' : forall n, In n b <-> node_of g n /\ ~ In n a) by (intros n; rewrite HB, app_nil_r; reflexivity).
    exists a, b. split; [reflexivity|]. split; [|split; [assumption|]].
    - intros n. rewrite HB'. split.
      + intros [H1 H2]. now apply (stuck_blocked a).
      + intros HX. split; [apply HX|]. intros HI. apply (acc_no_cycle n); [now apply C|assumption].
    - intros n d HI HX. destruct (in_split n a HI) as (a1 & a2 & ->). specialize (HD a1 n a2 d eq_refl HX). rewrite app_nil_r in HD.
      apply in_split in HD as (x & y & ->). exists x, y, a2. now rewrite <- app_assoc.
  Qed.
End Order.

Lemma sf_same g g' : same_graph g g' -> forall out l, smallest_first g out l -> smallest_first g' out l.
Proof.
  intros [HN HD]. assert (HR : forall out n, ready g out n <-> ready g' out n).
  { intros out n. unfold ready. rewrite HN. setoid_rewrite HD. reflexivity. }
  induction 1 as [out n rest R M S IH|out rest B S I].
  - apply sf_next; [now apply HR| |assumption]. intros m HM. apply M. now apply HR.
  - apply sf_blocked; [|assumption|]. + intros n R. apply (B n). now apply HR. + intros n. rewrite I, HN. reflexivity.
Qed.
