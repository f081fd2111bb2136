(** Basic facts: string equality, lookup, induction principles, unfolding equations. *)
From Coq Require Import List NArith ZArith Bool String Lia.
From Verif Require Import PyStr Values Schema Parse Serialize.
Import ListNotations.
Open Scope string_scope.
Open Scope list_scope.

Lemma str_eqb_eq a b : str_eqb a b = true <-> a = b.
Proof.
  revert b. induction a as [|x a IH]; intros [|y b]; cbn; split; intros H; try congruence; try discriminate.
  - apply andb_true_iff in H as [H1 H2]. apply N.eqb_eq in H1. apply IH in H2. congruence.
  - injection H as -> ->. rewrite N.eqb_refl. cbn. now apply IH.
Qed.
Lemma str_eqb_refl a : str_eqb a a = true.
Proof. now apply str_eqb_eq. Qed.
Lemma str_eqb_neq a b : str_eqb a b = false <-> a <> b.
Proof.
  split.
  - intros H E. apply str_eqb_eq in E. congruence.
  - intros H. destruct (str_eqb a b) eqn:E; [|reflexivity]. apply str_eqb_eq in E. contradiction.
Qed.
Lemma str_eqb_sym a b : str_eqb a b = str_eqb b a.
Proof.
  destruct (str_eqb a b) eqn:E; symmetry.
  - apply str_eqb_eq in E. subst. apply str_eqb_refl.
  - apply str_eqb_neq in E. apply str_eqb_neq. congruence.
Qed.
Lemma str_eq_dec (a b : str) : {a = b} + {a <> b}.
Proof.
  destruct (str_eqb a b) eqn:E.
  - left. now apply str_eqb_eq.
  - right. now apply str_eqb_neq.
Qed.

(** Decide equality of two literals by computation. *)
Ltac seq :=
  repeat match goal with
         | |- context [str_eqb ?a ?b] =>
             let v := eval vm_compute in (str_eqb a b) in
             match v with
             | true => change (str_eqb a b) with true
             | false => change (str_eqb a b) with false
             end
         end.

Lemma lookup_app {A} k (d d' : list (str * A)) :
  lookup k (d ++ d') = match lookup k d with Some v => Some v | None => lookup k d' end.
Proof. induction d as [|[k' v] d IH]; cbn; [reflexivity|]. destruct (str_eqb k' k); auto. Qed.

Lemma lookup_In {A} k (d : list (str * A)) v : lookup k d = Some v -> In (k, v) d.
Proof.
  induction d as [|[k' v'] d IH]; cbn; [discriminate|].
  destruct (str_eqb k' k) eqn:E.
  - intros [= ->]. apply str_eqb_eq in E. subst. now left.
  - intros H. right. auto.
Qed.

Lemma lookup_map {A B} (f : str -> A -> B) k (d : list (str * A)) :
  lookup k (map (fun e => (fst e, f (fst e) (snd e))) d) =
  match lookup k d with Some v => Some (f k v) | None => None end.
Proof.
  induction d as [|[k' v] d IH]; cbn; [reflexivity|].
  destruct (str_eqb k' k) eqn:E; [|exact IH].
  apply str_eqb_eq in E. now subst.
Qed.

Lemma lookup_filter {A} (p : str -> bool) k (d : list (str * A)) :
  lookup k (filter (fun e => p (fst e)) d) = if p k then lookup k d else None.
Proof.
  induction d as [|[k' v] d IH]; cbn; [now destruct (p k)|].
  destruct (p k') eqn:P; cbn.
  - destruct (str_eqb k' k) eqn:E; [|exact IH].
    apply str_eqb_eq in E. subst. now rewrite P.
  - rewrite IH. destruct (str_eqb k' k) eqn:E; [|reflexivity].
    apply str_eqb_eq in E. subst. now rewrite P.
Qed.

(** ---------------------------------------------------------------- induction *)
Section ValueInd.
  Variable P : value -> Prop.
  Hypothesis HN : P VNone.
  Hypothesis HB : forall b, P (VBool b).
  Hypothesis HI : forall z, P (VInt z).
  Hypothesis HF : forall f, P (VFloat f).
  Hypothesis HS : forall x, P (VStr x).
  Hypothesis HO : P VOpt.
  Hypothesis HL : forall l, Forall P l -> P (VList l).
  Hypothesis HD : forall d, Forall (fun e => P (snd e)) d -> P (VDict d).
  Fixpoint value_ind' (v : value) : P v :=
    match v with
    | VNone => HN
    | VBool b => HB b
    | VInt z => HI z
    | VFloat f => HF f
    | VStr x => HS x
    | VOpt => HO
    | VList l => HL l ((fix go l : Forall P l :=
                          match l with [] => Forall_nil P | x :: r => Forall_cons x (value_ind' x) (go r) end) l)
    | VDict d => HD d ((fix go d : Forall (fun e => P (snd e)) d :=
                          match d with
                          | [] => Forall_nil _
                          | e :: r => Forall_cons e (value_ind' (snd e)) (go r)
                          end) d)
    end.
End ValueInd.

(** A property of the elements of a slot. *)
Definition on_items {A} (P : A -> Prop) (c : slot A) : Prop :=
  match c with Items l => Forall P l | _ => True end.

Section NodeInd.
  Variable P : node -> Prop.
  Hypothesis H : forall k ty ve tx a co ma, on_items P co -> P (Node k ty ve tx a co ma).
  Fixpoint node_ind' (n : node) : P n :=
    match n with
    | Node k ty ve tx a co ma =>
        H k ty ve tx a co ma
          match co with
          | Items l => (fix go l : Forall P l :=
                          match l with [] => Forall_nil P | x :: r => Forall_cons x (node_ind' x) (go r) end) l
          | NoField | SOpt | Raw _ => I
          end
    end.
End NodeInd.

(** Induction following [content] lists of a dictionary. *)
Lemma Forall_lookup {A} (P : A -> Prop) k (d : list (str * A)) v :
  Forall (fun e => P (snd e)) d -> lookup k d = Some v -> P v.
Proof. intros HF HL. apply lookup_In in HL. rewrite Forall_forall in HF. exact (HF _ HL). Qed.

(** Elements of a list stored in a dictionary: one step below the two constructors. *)
Section DocInd.
  Variable P : value -> Prop.
  Hypothesis HX : forall v, (forall d, v <> VDict d) -> P v.
  Hypothesis HD : forall d, (forall k l, lookup k d = Some (VList l) -> Forall P l) -> P (VDict d).
  Definition Q (v : value) : Prop := P v /\ match v with VList l => Forall P l | _ => True end.
  Lemma doc_ind_Q v : Q v.
  Proof.
    induction v as [| | | | | |l IH|d IH] using value_ind'; split; try exact I;
      try (apply HX; intros; discriminate).
    - eapply Forall_impl; [|exact IH]. intros a [Ha _]. exact Ha.
    - apply HD. intros k l HL. apply (Forall_lookup Q k d _ IH) in HL. exact (proj2 HL).
  Qed.
  Lemma doc_ind v : P v.
  Proof. exact (proj1 (doc_ind_Q v)). Qed.
End DocInd.

(** ---------------------------------------------------------------- unfolding *)
Lemma parse_node_dict w d :
  parse_node w (VDict d) =
  match lookup (s "type") d with
  | None => raise KeyError
  | Some ty =>
      match node_class_of ty with
      | Found k => from_dict w k (VDict d)
      | Missing => raise (Unimplemented CNode ty)
      | Unhashable => raise TypeError
      end
  end.
Proof.
  cbn [parse_node]. destruct (lookup (s "type") d) as [ty|]; [|reflexivity].
  destruct (node_class_of ty) as [k| |]; try reflexivity.
  unfold from_dict. f_equal. unfold content_entry.
  induction d as [|[k' x] d IH]; [reflexivity|]. cbn [lookup].
  destruct (str_eqb k' (s "content")); [destruct x; reflexivity | exact IH].
Qed.

Lemma parse_node_nondict w v : (forall d, v <> VDict d) -> parse_node w v = raise TypeError.
Proof. intros H. destruct v; try reflexivity. exfalso. eapply H. reflexivity. Qed.

Lemma bind_ret {A} (m : M A) : bind m ret = m.
Proof. destruct m as [w [a|e]]; cbn; [now rewrite app_nil_r|reflexivity]. Qed.

Lemma lift_ok {A} (a : A) : lift (Ok a) = ret a.
Proof. reflexivity. Qed.

(** ---------------------------------------------------------------- finite kinds *)
Definition nk_eq_dec (a b : nkind) : {a = b} + {a <> b}.
Proof. decide equality. Defined.
Definition mk_eq_dec (a b : mkind) : {a = b} + {a <> b}.
Proof. decide equality. Defined.

Lemma all_nkinds_all k : In k all_nkinds.
Proof. destruct k; cbn; tauto. Qed.
Lemma all_mkinds_all k : In k all_mkinds.
Proof. destruct k; cbn; tauto. Qed.

Lemma nk_name_inj a b : nk_name a = nk_name b -> a = b.
Proof.
  intros H. destruct (nk_eq_dec a b) as [E|E]; [exact E|exfalso].
  apply (f_equal (fun x => str_eqb x (nk_name b))) in H. rewrite str_eqb_refl in H.
  assert (C : forallb (fun a => forallb (fun b => if nk_eq_dec a b then true else negb (str_eqb (nk_name a) (nk_name b)))
                                  all_nkinds) all_nkinds = true) by (vm_compute; reflexivity).
  rewrite forallb_forall in C. specialize (C a (all_nkinds_all a)).
  rewrite forallb_forall in C. specialize (C b (all_nkinds_all b)).
  destruct (nk_eq_dec a b); [contradiction|]. rewrite H in C. discriminate.
Qed.
Lemma mk_name_inj a b : mk_name a = mk_name b -> a = b.
Proof.
  intros H. destruct (mk_eq_dec a b) as [E|E]; [exact E|exfalso].
  apply (f_equal (fun x => str_eqb x (mk_name b))) in H. rewrite str_eqb_refl in H.
  assert (C : forallb (fun a => forallb (fun b => if mk_eq_dec a b then true else negb (str_eqb (mk_name a) (mk_name b)))
                                  all_mkinds) all_mkinds = true) by (vm_compute; reflexivity).
  rewrite forallb_forall in C. specialize (C a (all_mkinds_all a)).
  rewrite forallb_forall in C. specialize (C b (all_mkinds_all b)).
  destruct (mk_eq_dec a b); [contradiction|]. rewrite H in C. discriminate.
Qed.

Lemma registry_found {A} (name : A -> str) all ty k :
  registry_get name all ty = Found k -> ty = VStr (name k) /\ In k all.
Proof.
  destruct ty; cbn; try discriminate.
  destruct (find _ all) as [k'|] eqn:F; [|discriminate]. intros [= ->].
  apply find_some in F as [HI HE]. apply str_eqb_eq in HE. subst. auto.
Qed.
Lemma registry_get_name {A} (name : A -> str) all k :
  (forall a b, name a = name b -> a = b) -> In k all -> registry_get name all (VStr (name k)) = Found k.
Proof.
  intros HJ HI. cbn. destruct (find _ all) as [k'|] eqn:F.
  - apply find_some in F as [_ HE]. apply str_eqb_eq in HE. apply HJ in HE. now subst.
  - apply (find_none _ _ F) in HI. rewrite str_eqb_refl in HI. discriminate.
Qed.
Lemma node_class_of_found ty k : node_class_of ty = Found k -> ty = VStr (nk_name k).
Proof. intros H. exact (proj1 (registry_found _ _ _ _ H)). Qed.
Lemma node_class_of_name k : node_class_of (VStr (nk_name k)) = Found k.
Proof. apply registry_get_name; [apply nk_name_inj|apply all_nkinds_all]. Qed.
Lemma mark_class_of_found ty k : mark_class_of ty = Found k -> ty = VStr (mk_name k).
Proof. intros H. exact (proj1 (registry_found _ _ _ _ H)). Qed.
Lemma mark_class_of_name k : mark_class_of (VStr (mk_name k)) = Found k.
Proof. apply registry_get_name; [apply mk_name_inj|apply all_mkinds_all]. Qed.
