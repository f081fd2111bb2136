(** The modelled [==] decides the specified equality. *)
From Coq Require Import List NArith ZArith QArith Qpower Bool String Lia.
From Verif Require Import PyStr Values Schema Parse Serialize Basics SpecParse ParseFacts SerFacts2 Equal SpecEqual EqualFacts.
Import ListNotations.
Open Scope list_scope.
Open Scope string_scope.

Lemma two_nz : ~ (inject_Z 2 == 0)%Q.
Proof. intros H. discriminate H. Qed.
Lemma pow_split lo e : (lo <= e)%Z -> (Qpower (inject_Z 2) e == inject_Z (2 ^ (e - lo)) * Qpower (inject_Z 2) lo)%Q.
Proof.
  intros H. replace e with ((e - lo) + lo)%Z at 1 by lia. rewrite Qpower_plus by apply two_nz.
  rewrite Zpower_Qpower by lia. reflexivity.
Qed.
Lemma num_eqb_Q a b : num_eqb a b = true <-> (qvalue a == qvalue b)%Q.
Proof.
  destruct a as [m e], b as [m' e']. unfold num_eqb, qvalue. cbn [fst snd]. set (lo := Z.min e e').
  rewrite (pow_split lo e), (pow_split lo e') by lia. rewrite !Qmult_assoc, <- !inject_Z_mult. rewrite Z.eqb_eq. split; [now intros ->|].
  intros H. apply Qmult_inj_r in H; [now apply inject_Z_injective|]. apply Qpower_not_0. apply two_nz.
Qed.
Lemma num_is_number v q : num_is v q -> exists p, number v = Some p /\ (qvalue p == q)%Q.
Proof.
  assert (H1 : forall z, (inject_Z z * 1 == inject_Z z)%Q) by (intros z; apply Qmult_1_r).
  intros []; (eexists; split; [reflexivity|]); unfold qvalue; cbn [fst snd Qpower]; rewrite ?H1; reflexivity.
Qed.
Lemma number_num_is v p : number v = Some p -> exists q, num_is v q /\ (qvalue p == q)%Q.
Proof.
  assert (H1 : forall z, (inject_Z z * 1 == inject_Z z)%Q) by (intros z; apply Qmult_1_r).
  intros H. destruct v as [|b|z|[m e| |]| | | |]; try discriminate H; injection H as <-.
  - destruct b; (eexists; split; [constructor|]); unfold qvalue; cbn [fst snd Qpower]; rewrite ?H1; reflexivity.
  - eexists; split; [constructor|]. unfold qvalue; cbn [fst snd Qpower]; rewrite ?H1; reflexivity.
  - eexists; split; [constructor|]. unfold qvalue; reflexivity.
Qed.
Lemma atom_eqb_iff same a b : is_atom a = true -> is_atom b = true -> atom_eqb same a b = true <-> python_atom same a b.
Proof.
  intros Ha Hb. split.
  - unfold atom_eqb. destruct (number a) as [p|] eqn:E1, (number b) as [q|] eqn:E2.
    + intros H. apply num_eqb_Q in H. apply number_num_is in E1 as (x & N1 & H1). apply number_num_is in E2 as (y & N2 & H2).
      apply (pa_num same a b x y N1 N2). now rewrite <- H1, <- H2.
    + destruct a as [|x|x|[x y|x|]|x| | |], b as [|u|u|[u v|u|]|u| | |]; try discriminate.
    + destruct a as [|x|x|[x y|x|]|x| | |], b as [|u|u|[u v|u|]|u| | |]; try discriminate.
    + destruct a as [|x|x|[x y|x|]|x| | |], b as [|u|u|[u v|u|]|u| | |]; try discriminate; intros H.
      * apply pa_refl. discriminate.
      * apply Bool.eqb_prop in H. subst. apply pa_refl. discriminate.
      * now apply pa_nan.
      * apply str_eqb_eq in H. subst. apply pa_refl. discriminate.
      * apply pa_refl. discriminate.
  - intros HP. revert Ha. destruct HP as [x y p q N1 N2 HQ|HS|x HN]; intros Ha.
    + apply num_is_number in N1 as (p' & E1 & H1). apply num_is_number in N2 as (q' & E2 & H2). unfold atom_eqb. rewrite E1, E2.
      apply num_eqb_Q. now rewrite H1, H2.
    + exact HS.
    + unfold atom_eqb. destruct (number x) as [p|] eqn:E; [apply num_eqb_Q; reflexivity|].
      destruct x as [|?|?|[? ?|?|]|?| | |]; try discriminate E; try reflexivity; try discriminate Ha; try (now destruct HN);
        try apply Bool.eqb_reflx; try apply str_eqb_refl.
Qed.

(** Properties of the atoms' equality. *)
Lemma pa_str same x b : python_atom same (VStr x) b -> b = VStr x.
Proof. intros H. inversion H as [? ? ? ? N1| |]; subst; [inversion N1|reflexivity]. Qed.
Lemma pa_str' same x a : python_atom same a (VStr x) -> a = VStr x.
Proof. intros H. inversion H as [? ? ? ? N1 N2| |]; subst; [inversion N2|reflexivity]. Qed.
Lemma pa_opt same b : python_atom same VOpt b -> b = VOpt.
Proof. intros H. inversion H as [? ? ? ? N1| |]; subst; [inversion N1|reflexivity]. Qed.
Lemma pa_opt' same a : python_atom same a VOpt -> a = VOpt.
Proof. intros H. inversion H as [? ? ? ? N1 N2| |]; subst; [inversion N2|reflexivity]. Qed.
Lemma pa_sym same a b : python_atom same a b -> python_atom same b a.
Proof. intros [x y p q N1 N2 HQ|HS|x HN]; [apply (pa_num same y x q p N2 N1); now symmetry|now apply pa_nan|now apply pa_refl]. Qed.
Lemma num_is_fun v p q : num_is v p -> num_is v q -> p = q.
Proof. intros H1 H2. inversion H1; subst; inversion H2; subst; reflexivity. Qed.
Lemma pa_trans same a b c : python_atom same a b -> python_atom same b c -> python_atom same a c.
Proof.
  intros H1 H2. inversion H1 as [x y p q N1 N2 HQ|HS|x HN]; subst; try exact H2.
  inversion H2 as [x y p' q' N3 N4 HQ'|HS|x HN]; subst; try exact H1.
  rewrite (num_is_fun _ _ _ N3 N2) in HQ'. apply (pa_num same a c p q' N1 N4). now rewrite HQ.
Qed.
Lemma pa_refl_any same a : same = true \/ a <> VFloat FNaN -> python_atom same a a.
Proof.
  intros [H|H]; [|now apply pa_refl]. destruct a as [| | |[| |]| | | |]; try (now apply pa_refl). now apply pa_nan.
Qed.

(** ---------------------------------------------------------------- values *)
Lemma list_eqb_iff {A} (eqb : A -> A -> bool) (R : A -> A -> Prop) l : forall l', (forall x y, In x l -> In y l' -> eqb x y = true <-> R x y) ->
  list_eqb eqb l l' = true <-> Forall2 R l l'.
Proof.
  induction l as [|x l IH]; intros [|y l'] H; cbn [list_eqb]; try (split; [intros; constructor|reflexivity]); try (split; [discriminate|intros HF; inversion HF]).
  rewrite andb_true_iff, (H x y (or_introl eq_refl) (or_introl eq_refl)), IH by (intros; apply H; now right).
  split; [intros []; now constructor|intros HF; inversion HF; auto].
Qed.
Lemma value_eqb_iff same v : forall v', distinct_keys v -> distinct_keys v' -> value_eqb same v v' = true <-> python_equal same v v'.
Proof.
  unfold python_equal. assert (HAT : forall a b, is_atom a = true -> is_atom b = true -> atom_eqb same a b = true <-> same_data (python_atom same) a b).
  { intros a b Ha Hb. rewrite (atom_eqb_iff same a b Ha Hb). split; [now apply sd_atom|]. intros H. inversion H; subst; [assumption|discriminate|discriminate]. }
  assert (HNO : forall a b, is_atom a = true -> is_atom b = false -> ~ same_data (python_atom same) a b).
  { intros a b Ha Hb H. inversion H; subst; [congruence|discriminate|discriminate]. }
  assert (HNO' : forall a b, is_atom a = false -> is_atom b = true -> ~ same_data (python_atom same) a b).
  { intros a b Ha Hb H. inversion H; subst; [congruence|discriminate|discriminate]. }
  assert (HF : forall a b, is_atom a = true -> is_atom b = false -> atom_eqb same a b = false).
  { intros a b Ha Hb. destruct b; try discriminate Hb; destruct a as [| | |[| |]| | | |]; try discriminate Ha; reflexivity. }
  assert (HF' : forall a b, is_atom a = false -> is_atom b = true -> atom_eqb same a b = false).
  { intros a b Ha Hb. destruct a; try discriminate Ha; destruct b as [| | |[| |]| | | |]; try discriminate Hb; reflexivity. }
  induction v as [| | | |x| |l IH|d IH] using value_ind'; intros v' D1 D2;
    try (cbn [value_eqb]; destruct (is_atom v') eqn:EA; [apply HAT; auto|rewrite HF by auto; split; [discriminate|intros H; now apply HNO in H]]; fail).
  - destruct (is_atom v') eqn:EA.
    { assert (E : value_eqb same (VList l) v' = atom_eqb same (VList l) v') by (destruct v'; reflexivity || discriminate EA).
      rewrite E, HF' by auto. split; [discriminate|intros H; now apply HNO' in H]. }
    destruct v' as [| | | | |l'|d'|]; try discriminate EA; [|split; [discriminate|intros H; inversion H; discriminate]].
    cbn [value_eqb]. inversion D1 as [|? L1|]; subst; [discriminate|]. inversion D2 as [|? L2|]; subst; [discriminate|].
    rewrite (list_eqb_iff _ (same_data (python_atom same))).
    + split; [now apply sd_list|]. intros H. inversion H; subst; [discriminate|assumption].
    + intros x y Hx Hy. rewrite Forall_forall in *. auto.
  - destruct (is_atom v') eqn:EA.
    { assert (E : value_eqb same (VDict d) v' = atom_eqb same (VDict d) v') by (destruct v'; reflexivity || discriminate EA).
      rewrite E, HF' by auto. split; [discriminate|intros H; now apply HNO' in H]. }
    destruct v' as [| | | | |l'|d'|]; try discriminate EA; [split; [discriminate|intros H; inversion H; discriminate]|].
    cbn [value_eqb]. inversion D1 as [| |? N1 F1]; subst; [discriminate|]. inversion D2 as [| |? N2 F2]; subst; [discriminate|].
    rewrite Forall_forall in *. rewrite andb_true_iff, Nat.eqb_eq, forallb_forall. split.
    + intros [HL HA].
      assert (HI : incl (map fst d) (map fst d')).
      { intros k Hk. apply in_map_iff in Hk as ([k' x] & HE & HX). cbn in HE. subst k'. specialize (HA _ HX). cbn in HA.
        destruct (lookup k d') as [y|] eqn:E; [|discriminate HA]. apply lookup_in in E. apply in_map_iff. now exists (k, y). }
      assert (HI' : incl (map fst d') (map fst d)).
      { apply NoDup_length_incl; [exact N1|rewrite !map_length; lia|exact HI]. }
      apply sd_dict; [exact N1|exact N2|intros k; split; [apply HI|apply HI']|].
      intros k x y HX HY. specialize (HA _ HX). cbn in HA. rewrite (in_lookup k d' y N2 HY) in HA.
      apply (IH (k, x) HX y); [apply (F1 (k, x) HX)|apply (F2 (k, y) HY)|exact HA].
    + intros H. inversion H as [| |d0 d0' _ _ HK HV]; subst; [discriminate|]. split.
      * rewrite <- (map_length fst d), <- (map_length fst d'). apply Nat.le_antisymm; apply NoDup_incl_length; auto; intros k Hk; now apply HK.
      * intros [k x] HX. assert (HY : In k (map fst d')) by (apply HK; apply in_map_iff; now exists (k, x)).
        apply in_map_iff in HY as ([k' y] & HE & HY). cbn in HE. subst k'. rewrite (in_lookup k d' y N2 HY).
        apply (IH (k, x) HX y); [apply (F1 (k, x) HX)|apply (F2 (k, y) HY)|eauto].
Qed.

(** ---------------------------------------------------------------- objects *)
(** All the values in the object come from Python: dictionaries have distinct keys, attrs objects the declared names. *)
Definition ok_attrs (fs : option (list str)) (a : attrs) : Prop :=
  forall l, a = AObj l -> fs = Some (map fst l) /\ NoDup (map fst l) /\ Forall (fun e => distinct_keys (snd e)) l.
Definition ok_mark (m : mark) : Prop := distinct_keys (m_type m) /\ ok_attrs (option_map (map fst) (mk_attrs (m_kind m))) (m_attrs m).
Definition ok_slot {A} (R : A -> Prop) (sl : slot A) : Prop :=
  match sl with Items l => Forall R l | Raw v => distinct_keys v | _ => True end.
Definition ok_opt (o : option value) : Prop := match o with Some v => distinct_keys v | None => True end.
Inductive ok_node : node -> Prop :=
| okn k ty ve tx a co ma : distinct_keys ty -> ok_opt ve -> ok_opt tx ->
    ok_attrs (option_map (fun p => map fst (snd p)) (nc_attrs (nk_class k))) a ->
    (forall l, co = Items l -> Forall ok_node l) -> (forall v, co = Raw v -> distinct_keys v) -> ok_slot ok_mark ma ->
    ok_node (Node k ty ve tx a co ma).

Section Obj.
Context (same : bool).
Let P := python_atom same.
Lemma attrs_eqb_iff fs a b : ok_attrs fs a -> ok_attrs fs b -> attrs_eqb same a b = true <-> same_attrs P a b.
Proof.
  intros Ha Hb. destruct a as [| |l], b as [| |l']; cbn [attrs_eqb]; try (split; [discriminate|intros H; inversion H]); try (split; [constructor|reflexivity]).
  destruct (Ha l eq_refl) as (E1 & N1 & D1), (Hb l' eq_refl) as (E2 & N2 & D2). rewrite Forall_forall in *.
  rewrite (list_eqb_iff _ (fun x y => same_data P (snd x) (snd y))) by (intros x y Hx Hy; apply value_eqb_iff; auto).
  split; [constructor; auto; congruence|intros H; inversion H; auto].
Qed.
Lemma kind_eqb_iff k k' : nkind_eqb k k' = true <-> k = k'.
Proof. unfold nkind_eqb. rewrite str_eqb_eq. split; [|now intros ->]. apply nk_name_inj. Qed.
Lemma mkind_eqb_iff k k' : mkind_eqb k k' = true <-> k = k'.
Proof. unfold mkind_eqb. rewrite str_eqb_eq. split; [|now intros ->]. apply mk_name_inj. Qed.
Lemma mark_eqb_iff a b : ok_mark a -> ok_mark b -> mark_eqb same a b = true <-> same_mark P a b.
Proof.
  destruct a as [k t x], b as [k' t' x']. intros [T1 A1] [T2 A2]. unfold mark_eqb. cbn [m_kind m_type m_attrs] in *. rewrite !andb_true_iff, mkind_eqb_iff.
  split.
  - intros [[-> HT] HA]. constructor; [now apply value_eqb_iff|]. now apply (attrs_eqb_iff _ x x' A1 A2).
  - intros H. inversion H; subst. split; [split; [reflexivity|now apply value_eqb_iff]|]. now apply (attrs_eqb_iff _ x x' A1 A2).
Qed.
Lemma opt_eqb_iff a b : ok_opt a -> ok_opt b -> opt_eqb same a b = true <-> same_opt P a b.
Proof.
  destruct a as [x|], b as [y|]; cbn [ok_opt opt_eqb]; intros Ha Hb; try (split; [discriminate|intros H; inversion H]); [|split; [constructor|reflexivity]].
  rewrite value_eqb_iff by assumption. split; [now constructor|intros H; now inversion H].
Qed.
Lemma node_eqb_iff a : forall b, ok_node a -> ok_node b -> node_eqb same a b = true <-> same_node P a b.
Proof.
  induction a as [k ty ve tx at_ co ma IH] using node_ind'. intros [k' ty' ve' tx' at' co' ma'] Ha Hb.
  inversion Ha as [? ? ? ? ? ? ? T1 V1 X1 A1 C1 R1 M1]; inversion Hb as [? ? ? ? ? ? ? T2 V2 X2 A2 C2 R2 M2]; subst.
  cbn [node_eqb]. rewrite !andb_true_iff, kind_eqb_iff, value_eqb_iff, !opt_eqb_iff by assumption.
  set (CE := match co, co' with NoField, NoField => true | _, _ => _ end).
  assert (HC : CE = true <-> same_slot P (same_node P) co co').
  { unfold CE. destruct co as [| |l|v], co' as [| |l'|v']; try (split; [discriminate|intros H; inversion H]); try (split; [constructor|reflexivity]).
    - specialize (C1 l eq_refl). specialize (C2 l' eq_refl). cbn [on_items] in IH. rewrite Forall_forall in *.
      rewrite (list_eqb_iff _ (same_node P)) by (intros; auto). split; [now constructor|intros H; now inversion H].
    - rewrite value_eqb_iff by auto. split; [now constructor|intros H; now inversion H]. }
  assert (HM : slot_eqb same (mark_eqb same) ma ma' = true <-> same_slot P (same_mark P) ma ma').
  { unfold slot_eqb. destruct ma as [| |l|v], ma' as [| |l'|v']; try (split; [discriminate|intros H; inversion H]); try (split; [constructor|reflexivity]).
    - cbn [ok_slot] in *. rewrite Forall_forall in *. rewrite (list_eqb_iff _ (same_mark P)) by (intros; apply mark_eqb_iff; auto).
      split; [now constructor|intros H; now inversion H].
    - rewrite value_eqb_iff by auto. split; [now constructor|intros H; now inversion H]. }
  rewrite HC, HM. split.
  - intros ((((((-> & HT) & HV) & HX) & HA) & HCC) & HMM). constructor; auto. now apply (attrs_eqb_iff _ at_ at' A1 A2).
  - intros H. inversion H; subst. repeat (split; [|assumption]). split; [|now apply (attrs_eqb_iff _ at_ at' A1 A2)]. auto.
Qed.
End Obj.
