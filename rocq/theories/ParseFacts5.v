(** The specification functions [prune] and [known_node] do what they are for. *)
From Coq Require Import List NArith ZArith Bool String Lia.
From Verif Require Import PyStr Values Schema Parse Markdown Basics SpecParse ParseFacts ParseFacts2 ParseFacts3 ParseFacts4.
Import ListNotations.
Open Scope string_scope.
Open Scope list_scope.

Lemma elem_type_prune v : elem_type (prune v) = elem_type v.
Proof.
  destruct v; try reflexivity. rewrite prune_dict. cbn [elem_type]. apply lookup_prune_same. cbn. tauto.
Qed.
Lemma unregistered_prune names v : unregistered names (prune v) = unregistered names v.
Proof. unfold unregistered. now rewrite elem_type_prune. Qed.

Lemma pruned_prune v : pruned (prune v) = [].
Proof.
  induction v as [v HX|d IH] using doc_ind.
  - destruct v; try reflexivity. exfalso. eapply HX. reflexivity.
  - rewrite prune_dict, pruned_dict. unfold list_at. rewrite !lookup_pruned.
    unfold prune_entry. change (str_eqb (s "content") (s "content")) with true.
    change (str_eqb (s "marks") (s "content")) with false. change (str_eqb (s "marks") (s "marks")) with true. cbn iota.
    match goal with |- ?a ++ ?b = [] => assert (Ha : a = []); [|assert (Hb : b = []); [|now rewrite Ha, Hb]] end.
    + destruct (lookup (s "content") d) as [v|] eqn:L; [|reflexivity]. destruct v; try reflexivity.
      specialize (IH _ _ L). apply flat_map_nil. intros y HY. apply in_flat_map in HY as (x & HX & HY).
      destruct (unregistered node_names x) eqn:U; [contradiction|]. destruct HY as [<-|[]].
      rewrite unregistered_prune, U. rewrite Forall_forall in IH. now apply IH.
    + destruct (lookup (s "marks") d) as [v|]; [|reflexivity]. destruct v; try reflexivity.
      apply flat_map_nil. intros y HY. apply filter_In in HY as [_ HY]. now destruct (unregistered mark_names y).
Qed.

Lemma known_node_keys d ty k d' :
  lookup (s "type") d = Some ty -> node_class_of ty = Found k -> known_node (VDict d) = VDict d' ->
  forall key x, In (key, x) d' -> In key (node_keys k).
Proof.
  intros L R H key x HI. rewrite known_node_dict, L, R in H. cbn in H. injection H as <-.
  unfold restrict in HI. apply filter_In in HI as [_ HI]. now apply mem_In.
Qed.

Lemma registries_ok :
  NoDup node_names /\ NoDup mark_names /\ List.length node_names = 35%nat /\ List.length mark_names = 16%nat /\
  (forall x, In x node_names -> In x type_enum) /\ (forall x, In x mark_names -> In x type_enum).
Proof.
  assert (ND : forall l, (fix go l := match l with [] => true | x :: r => negb (mem x r) && go r end) l = true -> NoDup l).
  { induction l as [|x l IH]; intros H; constructor.
    - apply andb_true_iff in H as [H _]. intros HI. apply mem_In in HI. now rewrite HI in H.
    - apply andb_true_iff in H as [_ H]. auto. }
  split; [apply ND; vm_compute; reflexivity|]. split; [apply ND; vm_compute; reflexivity|].
  split; [reflexivity|]. split; [reflexivity|]. split; intros x HX; apply mem_In;
  [assert (H : forallb (fun x => mem x type_enum) node_names = true) by (vm_compute; reflexivity)
  |assert (H : forallb (fun x => mem x type_enum) mark_names = true) by (vm_compute; reflexivity)];
  rewrite forallb_forall in H; now apply H.
Qed.

Lemma is_type_of_kind n k : consistent n -> is_type_of n [nk_name k] = true <-> n_kind n = k.
Proof.
  intros H. inversion H; subst. unfold is_type_of, check_type_match. cbn [n_type n_kind existsb].
  rewrite orb_false_r, str_eqb_eq. split; [apply nk_name_inj|congruence].
Qed.
