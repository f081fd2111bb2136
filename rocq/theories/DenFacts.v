(** What a reference denotes: monotone in the store, functional, and independent of unreachable objects. *)
From Coq Require Import List NArith ZArith Bool String Arith Lia.
From Verif Require Import PyStr Values Schema Parse Basics Heap SpecHeap HeapFacts.
Import ListNotations.
Open Scope string_scope.
Open Scope list_scope.
Open Scope nat_scope.

Definition sub (g g' : store) : Prop := forall a o, g a = Some o -> g' a = Some o.
Lemma sub_refl g : sub g g.
Proof. intros a o H. exact H. Qed.
Lemma sub_trans g1 g2 g3 : sub g1 g2 -> sub g2 g3 -> sub g1 g3.
Proof. intros H1 H2 a o H. auto. Qed.

(** all2. *)
Lemma all2_impl {A B} (R Q : A -> B -> Prop) l m : (forall a b, In a l -> In b m -> R a b -> Q a b) -> all2 R l m -> all2 Q l m.
Proof.
  revert m. induction l as [|a l IH]; intros [|b m] H; cbn; auto. intros [H1 H2]. split; [apply H; cbn; auto|].
  apply IH; [|exact H2]. intros x y Hx Hy. apply H; cbn; auto.
Qed.
Lemma all2_length {A B} (R : A -> B -> Prop) l m : all2 R l m -> List.length l = List.length m.
Proof. revert m. induction l as [|a l IH]; intros [|b m]; cbn; try tauto. intros [_ H]. f_equal. auto. Qed.
Definition edge (g : store) : str * value -> str * hval -> Prop := fun e f => match e with (k, y) => k = fst f /\ den g y (snd f) end.
Lemma all2_lookup g d e k : all2 (edge g) d e ->
  match lookup k d with Some y => exists x, lookup k e = Some x /\ den g y x | None => lookup k e = None end.
Proof.
  revert e. induction d as [|[k1 y1] d IH]; intros [|[k2 x2] e]; cbn; try tauto.
  intros [[-> HD] H]. cbn [fst snd] in *. destruct (str_eqb k2 k); [eauto|]. apply IH, H.
Qed.
Lemma all2_lookup_in g d e k y : all2 (edge g) d e -> lookup k d = Some y -> exists x, lookup k e = Some x /\ den g y x.
Proof. intros H HL. pose proof (all2_lookup g d e k H) as HX. now rewrite HL in HX. Qed.

(** Unfolding. *)
Lemma den_dict g vs x : den g (VDict vs) x <-> exists a d, x = Ref a /\ g a = Some (ODict d) /\ all2 (edge g) vs d.
Proof. reflexivity. Qed.

Lemma den_mono g g' : sub g g' -> forall v x, den g v x -> den g' v x.
Proof.
  intros HG v. induction v as [|b|z|f|y| |l IH|d IH] using value_ind'; intros x; try (cbn; auto; fail).
  - cbn. intros (a & m & -> & HA & H). exists a, m. split; [reflexivity|]. split; [now apply HG|].
    eapply all2_impl; [|exact H]. rewrite Forall_forall in IH. intros u w Hu _ HR. now apply (IH u Hu).
  - cbn. intros (a & m & -> & HA & H). exists a, m. split; [reflexivity|]. split; [now apply HG|].
    eapply all2_impl; [|exact H]. rewrite Forall_forall in IH. intros [k u] w Hu _ [HK HR]. split; [exact HK|]. now apply (IH _ Hu).
Qed.
Lemma edge_mono g g' e f : sub g g' -> edge g e f -> edge g' e f.
Proof. intros HG. destruct e as [k y]. intros [H1 H2]. split; [exact H1|]. eapply den_mono; eauto. Qed.
Lemma den_attrs_mono g g' l x : sub g g' -> den_attrs g l x -> den_attrs g' l x.
Proof.
  intros HG (a & fs & -> & HA & H). exists a, fs. split; [reflexivity|]. split; [now apply HG|].
  eapply all2_impl; [|exact H]. intros e f _ _ HE. apply (edge_mono g g' e f HG HE).
Qed.
Lemma attrs_field_mono g g' a o : sub g g' -> attrs_field_den g a o -> attrs_field_den g' a o.
Proof. intros HG. destruct a; cbn; auto. intros (x & H1 & H2). exists x. split; [exact H1|]. eapply den_attrs_mono; eauto. Qed.
Lemma field_mono g g' v o : sub g g' -> field_den g v o -> field_den g' v o.
Proof. intros HG. destruct v; cbn; auto. intros (x & H1 & H2). exists x. split; [exact H1|]. eapply den_mono; eauto. Qed.
Lemma slot_mono {A} g g' (R Q : A -> hval -> Prop) c o : sub g g' ->
  (forall l, c = Items l -> forall a x, In a l -> R a x -> Q a x) -> slot_den g R c o -> slot_den g' Q c o.
Proof.
  intros HG HR. destruct c as [| |l|v]; cbn; auto.
  - intros (b & xs & H1 & H2 & H3). exists b, xs. split; [exact H1|]. split; [now apply HG|].
    eapply all2_impl; [|exact H3]. intros a x Ha _ HX. eapply HR; eauto.
  - intros (HN & x & H1 & H2). split; [exact HN|]. exists x. split; [exact H1|]. eapply den_mono; eauto.
Qed.
Lemma den_mark_mono g g' m x : sub g g' -> den_mark g m x -> den_mark g' m x.
Proof.
  intros HG (a & fs & -> & HA & H1 & H2 & H3). exists a, fs. split; [reflexivity|]. split; [now apply HG|].
  split; [eapply field_mono; eauto|]. split; [eapply attrs_field_mono; eauto|exact H3].
Qed.
Lemma den_node_mono g g' : sub g g' -> forall n x, den_node g n x -> den_node g' n x.
Proof.
  intros HG n. induction n as [k ty ve tx at_ co ma IH] using node_ind'. intros x.
  cbn [den_node]. intros (a & fs & -> & HA & H1 & H2 & H3 & H4 & H5 & H6 & H7). exists a, fs.
  split; [reflexivity|]. split; [now apply HG|]. split; [eapply field_mono; eauto|]. split; [eapply field_mono; eauto|].
  split; [eapply field_mono; eauto|]. split; [eapply attrs_field_mono; eauto|]. split; [|split].
  - eapply slot_mono; [exact HG| |exact H5]. intros l -> b y Hb HY. cbn [on_items] in IH. rewrite Forall_forall in IH. now apply (IH b Hb).
  - eapply slot_mono; [exact HG| |exact H6]. intros l -> b y Hb HY. eapply den_mark_mono; eauto.
  - exact H7.
Qed.

(** A reference denotes at most one value. *)
Lemma all2_functional {A B} (R Q : A -> B -> Prop) l l' m :
  (forall a a' b, In a l -> R a b -> Q a' b -> a = a') -> all2 R l m -> all2 Q l' m -> l = l'.
Proof.
  revert l' m. induction l as [|a l IH]; intros [|a' l'] [|b m] H; cbn; try tauto. intros [H1 H2] [H3 H4].
  f_equal; [eapply H; cbn; eauto|]. eapply IH; eauto. intros x x' y Hx. apply H. now right.
Qed.
Lemma den_functional g : forall v w x, den g v x -> den g w x -> v = w.
Proof.
  induction v as [|b|z|f|y| |l IH|d IH] using value_ind'; intros w x HV HW; cbn in HV;
    try (subst x; destruct w; cbn in HW; try congruence; destruct HW as (? & ? & ? & _); discriminate).
  - destruct HV as (a & m & -> & HA & H). destruct w; cbn in HW; try discriminate.
    + destruct HW as (a' & m' & [= <-] & HA' & H'). assert (m' = m) by congruence. subst m'. f_equal.
      eapply all2_functional; [|exact H|exact H']. rewrite Forall_forall in IH. intros u u' y Hu. now apply IH.
    + destruct HW as (a' & m' & [= <-] & HA' & H'). congruence.
  - destruct HV as (a & m & -> & HA & H). destruct w; cbn in HW; try discriminate.
    + destruct HW as (a' & m' & [= <-] & HA' & H'). congruence.
    + destruct HW as (a' & m' & [= <-] & HA' & H'). assert (m' = m) by congruence. subst m'. f_equal.
      eapply all2_functional; [|exact H|exact H']. rewrite Forall_forall in IH.
      intros [k u] [k' u'] y Hu [K1 D1] [K2 D2]. f_equal; [congruence|]. exact (IH _ Hu _ _ D1 D2).
Qed.

(** Sizes. *)
Lemma sum_with_In {A} (f : A -> nat) l a : In a l -> f a <= sum_with f l.
Proof. induction l as [|b l IH]; cbn; [tauto|]. intros [->|H]; [lia|]. specialize (IH H). lia. Qed.
Lemma size_list l y : In y l -> size y < size (VList l).
Proof. intros H. cbn [size]. pose proof (sum_with_In size l y H). lia. Qed.
Lemma size_dict d k y : In (k, y) d -> size y < size (VDict d).
Proof. intros H. cbn [size]. pose proof (sum_with_In (fun e => match e with (_, y) => size y end) d (k, y) H). cbn in *. lia. Qed.
Lemma size_pos v : 1 <= size v.
Proof. destruct v; cbn; lia. Qed.
Lemma size_lookup d k y : lookup k d = Some y -> size y < size (VDict d).
Proof. intros H. eapply size_dict, lookup_In, H. Qed.

(** The store without some addresses. *)
Definition hide (g : store) (B : list addr) : store := fun a => if existsb (Nat.eqb a) B then None else g a.
Lemma hide_in B a : existsb (Nat.eqb a) B = true <-> In a B.
Proof.
  rewrite existsb_exists. split.
  - intros (x & H1 & H2). apply Nat.eqb_eq in H2. now subst.
  - intros H. exists a. split; [exact H|apply Nat.eqb_refl].
Qed.
Lemma hide_spec g B a o : hide g B a = Some o <-> ~ In a B /\ g a = Some o.
Proof.
  unfold hide. destruct (existsb (Nat.eqb a) B) eqn:E.
  - apply hide_in in E. split; [discriminate|tauto].
  - assert (~ In a B) by (rewrite <- hide_in; congruence). tauto.
Qed.
Lemma hide_sub g B : sub (hide g B) g.
Proof. intros a o H. now apply hide_spec in H. Qed.

(** A value strictly smaller than what is at [a] is denoted without [a]. *)
Lemma den_avoid g a w : den g w (Ref a) -> forall v x, den g v x -> size v < size w -> den (hide g [a]) v x.
Proof.
  intros HW v. induction v as [|b|z|f|y| |l IH|d IH] using value_ind'; intros x HV HS; try (exact HV).
  - destruct HV as (c & m & -> & HA & H).
    assert (HN : c <> a).
    { intros ->. assert (HE : w = VList l). { eapply den_functional; [exact HW|]. exists a, m. auto. } rewrite HE in HS. lia. }
    exists c, m. split; [reflexivity|]. split; [apply hide_spec; split; [cbn; intuition|exact HA]|].
    eapply all2_impl; [|exact H]. rewrite Forall_forall in IH. intros u z Hu _ HR. apply (IH u Hu); [exact HR|].
    pose proof (size_list l u Hu). lia.
  - destruct HV as (c & m & -> & HA & H).
    assert (HN : c <> a).
    { intros ->. assert (HE : w = VDict d). { eapply den_functional; [exact HW|]. exists a, m. auto. } rewrite HE in HS. lia. }
    exists c, m. split; [reflexivity|]. split; [apply hide_spec; split; [cbn; intuition|exact HA]|].
    eapply all2_impl; [|exact H]. rewrite Forall_forall in IH. intros [k u] z Hu _ [HK HR]. split; [exact HK|].
    apply (IH _ Hu); [exact HR|]. pose proof (size_dict d k u Hu). cbn [snd]. lia.
Qed.

(** Only reachable objects matter. *)
Definition from (h : heap) (x : hval) (g' : store) : Prop := forall a o, reaches h x a -> nth_error h a = Some o -> g' a = Some o.
Lemma from_item h a o x g' : from h (Ref a) g' -> nth_error h a = Some o -> In x (items_of o) -> from h x g'.
Proof. intros HF HN HI b o' HR HB. apply HF; [|exact HB]. eapply r_step; eauto. Qed.
Lemma from_root h a o g' : from h (Ref a) g' -> nth_error h a = Some o -> g' a = Some o.
Proof. intros HF. apply HF. constructor. Qed.
Lemma den_from h g' : forall v x, from h x g' -> den (nth_error h) v x -> den g' v x.
Proof.
  induction v as [|b|z|f|y| |l IH|d IH] using value_ind'; intros x HF HV; try (exact HV).
  - destruct HV as (a & m & -> & HA & H). exists a, m. split; [reflexivity|]. split; [eapply from_root; eauto|].
    eapply all2_impl; [|exact H]. rewrite Forall_forall in IH. intros u z Hu Hz HR. apply (IH u Hu); [|exact HR].
    eapply from_item; eauto.
  - destruct HV as (a & m & -> & HA & H). exists a, m. split; [reflexivity|]. split; [eapply from_root; eauto|].
    eapply all2_impl; [|exact H]. rewrite Forall_forall in IH. intros [k u] z Hu Hz [HK HR]. split; [exact HK|]. apply (IH _ Hu); [|exact HR].
    eapply from_item; eauto. cbn [items_of]. now apply in_map.
Qed.
Lemma lookup_snd {A} k (d : list (str * A)) x : lookup k d = Some x -> In x (map snd d).
Proof. intros H. apply lookup_In in H. apply (in_map snd) in H. exact H. Qed.
Lemma den_attrs_from h g' l x : from h x g' -> den_attrs (nth_error h) l x -> den_attrs g' l x.
Proof.
  intros HF (a & fs & -> & HA & H). exists a, fs. split; [reflexivity|]. split; [eapply from_root; eauto|].
  eapply all2_impl; [|exact H]. intros [k y] z _ Hz [H1 H2]. split; [exact H1|]. eapply den_from; [|exact H2].
  eapply from_item; eauto. cbn [items_of]. now apply in_map.
Qed.
Section Fields.
  Context (h : heap) (g' : store) (a : addr) (t : tag) (fs : list (str * hval)).
  Hypothesis HF : from h (Ref a) g'.
  Hypothesis HA : nth_error h a = Some (OInst t fs).
  Lemma from_field k x : lookup k fs = Some x -> from h x g'.
  Proof using HF HA. intros HL. eapply from_item; [exact HF|exact HA|]. cbn [items_of]. eapply lookup_snd; eauto. Qed.
  Lemma field_from k v : field_den (nth_error h) v (lookup k fs) -> field_den g' v (lookup k fs).
  Proof using HF HA.
    destruct v; cbn; auto. intros (x & H1 & H2). exists x. split; [exact H1|]. eapply den_from; [eapply from_field; eauto|exact H2].
  Qed.
  Lemma attrs_field_from k v : attrs_field_den (nth_error h) v (lookup k fs) -> attrs_field_den g' v (lookup k fs).
  Proof using HF HA.
    destruct v; cbn; auto. intros (x & H1 & H2). exists x. split; [exact H1|]. eapply den_attrs_from; [eapply from_field; eauto|exact H2].
  Qed.
  Lemma slot_from {A} (R Q : A -> hval -> Prop) c k :
    (forall l, c = Items l -> forall b x, In b l -> from h x g' -> R b x -> Q b x) ->
    slot_den (nth_error h) R c (lookup k fs) -> slot_den g' Q c (lookup k fs).
  Proof using HF HA.
    intros HR. destruct c as [| |l|v]; cbn; auto.
    - intros (b & xs & H1 & H2 & H3). pose proof (from_field _ _ H1) as HB. exists b, xs. split; [exact H1|]. split; [eapply from_root; eauto|].
      eapply all2_impl; [|exact H3]. intros c x Hc Hx HX. eapply HR; eauto. eapply from_item; eauto.
    - intros (HN & x & H1 & H2). split; [exact HN|]. exists x. split; [exact H1|]. eapply den_from; [eapply from_field; eauto|exact H2].
  Qed.
End Fields.
Lemma den_mark_from h g' m x : from h x g' -> den_mark (nth_error h) m x -> den_mark g' m x.
Proof.
  intros HF (a & fs & -> & HA & H1 & H2 & H3). exists a, fs. split; [reflexivity|]. split; [eapply from_root; eauto|].
  split; [eapply field_from; eauto|]. split; [eapply attrs_field_from; eauto|exact H3].
Qed.
Lemma den_node_from h g' : forall n x, from h x g' -> den_node (nth_error h) n x -> den_node g' n x.
Proof.
  intros n. induction n as [k ty ve tx at_ co ma IH] using node_ind'. intros x HF.
  cbn [den_node]. intros (a & fs & -> & HA & H1 & H2 & H3 & H4 & H5 & H6 & H7). exists a, fs.
  split; [reflexivity|]. split; [eapply from_root; eauto|]. split; [eapply field_from; eauto|]. split; [eapply field_from; eauto|].
  split; [eapply field_from; eauto|]. split; [eapply attrs_field_from; eauto|]. split; [|split].
  - eapply slot_from; [exact HF|exact HA| |exact H5]. intros l -> b y Hb HY HR. cbn [on_items] in IH. rewrite Forall_forall in IH. now apply (IH b Hb).
  - eapply slot_from; [exact HF|exact HA| |exact H6]. intros l -> b y Hb HY HR. eapply den_mark_from; eauto.
  - exact H7.
Qed.
(** What a fresh reference denotes, it denotes in the fresh part alone. *)
Definition above (base : nat) (h : heap) : store := fun a => if Nat.leb base a then nth_error h a else None.
Lemma from_above base h x : sep base h -> fresh base x -> from h x (above base h).
Proof.
  intros HS HF a o HR HN. unfold above. pose proof (reaches_fresh base h HS x a HR HF) as HL. apply Nat.leb_le in HL. now rewrite HL.
Qed.
