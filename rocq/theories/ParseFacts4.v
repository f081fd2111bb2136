(** Proofs about parsing, fourth part: what the object holds; the warning flag. *)
From Coq Require Import List NArith ZArith Bool String Lia.
From Verif Require Import PyStr Values Schema Parse Basics SpecParse ParseFacts ParseFacts2 ParseFacts3.
Import ListNotations.
Open Scope string_scope.
Open Scope list_scope.

Lemma lookup_declared (fs : list (str * fkind)) (g : str -> value) f :
  In f (map fst fs) -> lookup f (map (fun x => (fst x, g (fst x))) fs) = Some (g f).
Proof.
  induction fs as [|[f' k] fs IH]; [contradiction|]. cbn. intros [->|H].
  - now rewrite str_eqb_refl.
  - destruct (str_eqb f' f) eqn:E; [|auto]. apply str_eqb_eq in E. now subst.
Qed.
Lemma attrs_from_dict_holds fs v l :
  attrs_from_dict fs v = Ok l -> exists d, v = VDict d /\ holds_attrs fs d l.
Proof.
  unfold attrs_from_dict. destruct v; try discriminate.
  destruct (missing is_Pos fs d); [discriminate|]. destruct (missing is_Req fs d); [discriminate|].
  intros [= <-]. exists d. split; [reflexivity|]. split.
  - rewrite map_map. reflexivity.
  - intros f HF. exact (lookup_declared fs (fun f => match lookup f d with Some v => v | None => VOpt end) f HF).
Qed.
Lemma parse_mark_represents v m : parse_mark v = Ok m -> represents_mark v m.
Proof.
  unfold parse_mark. destruct v; try discriminate.
  destruct (lookup (s "type") d) as [ty|] eqn:L; [|discriminate].
  destruct (mark_class_of ty) as [k| |] eqn:R; try discriminate.
  apply mark_class_of_found in R. subst. unfold mark_from_dict, type_field. rewrite L.
  destruct (mk_attrs k) as [fs|] eqn:A.
  - destruct (lookup (s "attrs") d) as [a|] eqn:LA; [|discriminate].
    destruct (attrs_from_dict fs a) as [l|] eqn:E; [|discriminate]. intros [= <-].
    apply attrs_from_dict_holds in E as (ad & -> & H).
    eapply represents_mark_attrs; [exact L|exact A| |discriminate]. rewrite LA. now constructor.
  - intros [= <-]. now apply represents_mark_plain.
Qed.

Lemma collect_forall2 {A} w l (p : value -> M A) (u : value -> bool) (R : value -> A -> Prop) lg xs :
  (forall y, In y l -> u y = true -> exists c ty, snd (p y) = Err (Unimplemented c ty)) ->
  (forall y, In y l -> u y = false -> not_unimpl (snd (p y))) ->
  (forall y a, In y l -> snd (p y) = Ok a -> R y a) ->
  collect w (map p l) = (lg, Ok xs) -> Forall2 R (filter (fun y => negb (u y)) l) xs.
Proof.
  intros H1 H2 H3. revert lg xs. induction l as [|y l IH]; intros lg xs H.
  - cbn in H. injection H as <- <-. constructor.
  - cbn [map] in H. rewrite collect_cons in H.
    assert (IH' : forall lg xs, collect w (map p l) = (lg, Ok xs) -> Forall2 R (filter (fun y => negb (u y)) l) xs)
      by (apply IH; intros; [apply H1|apply H2|apply H3]; cbn; auto). clear IH.
    specialize (H1 y (or_introl eq_refl)). specialize (H2 y (or_introl eq_refl)).
    specialize (H3 y). destruct (p y) as [lg1 r]. cbn [snd] in *. cbn [filter].
    destruct (u y) eqn:U; cbn [negb].
    + destruct (H1 eq_refl) as (c & ty & ->). destruct (collect w (map p l)) as [lg' r'] eqn:E.
      injection H as <- ->. eapply IH'. reflexivity.
    + specialize (H2 eq_refl). destruct r as [a|e].
      * destruct (collect w (map p l)) as [lg' [l'|e]] eqn:E; [|discriminate].
        injection H as <- <-. constructor; [apply H3; cbn; auto|]. eapply IH'. reflexivity.
      * destruct e; try discriminate. exfalso. exact (H2 _ _ eq_refl).
Qed.

Definition represents_claim (v : value) : Prop := forall w n, snd (parse_node w v) = Ok n -> represents v n.

Lemma slot_field_from {A} skip (R : value -> A -> Prop) w (fk : option fkind) e lg o x (inp : option value) :
  run_entry w e = (lg, Ok o) -> slot_field fk o = Ok x ->
  match inp with
  | None => e = EAbsent
  | Some (VList l) => exists ms, e = EList ms /\
        (forall lg xs, collect w ms = (lg, Ok xs) -> Forall2 R (filter (fun y => negb (skip y)) l) xs)
  | Some v => e = EOther v
  end ->
  slot_from skip R (declares fk) inp x.
Proof.
  intros HR HS HI. unfold slot_field in HS. destruct fk as [fk|]; [|injection HS as <-; now constructor].
  cbn [declares].
  destruct inp as [v|].
  2:{ subst e. cbn in HR. injection HR as <- <-. destruct fk; try discriminate. injection HS as <-. now constructor. }
  assert (HO : (forall l, v <> VList l) -> slot_from skip R true (Some v) x).
  { intros NL. assert (e = EOther v) as -> by (destruct v; auto; exfalso; eapply NL; reflexivity).
    destruct v; cbn in HR; injection HR as <- <-; injection HS as <-; try (constructor; auto; discriminate). }
  destruct v; try (apply HO; discriminate). destruct HI as (ms & -> & HC).
  rewrite run_entry_list in HR. destruct (collect w ms) as [lg' [xs|]] eqn:E; [|discriminate].
  injection HR as <- <-. injection HS as <-. constructor; [reflexivity|]. eapply HC. reflexivity.
Qed.

Lemma from_dict_fields w k d n :
  (forall l, lookup (s "content") d = Some (VList l) -> Forall represents_claim l) ->
  snd (from_dict w k (VDict d)) = Ok n ->
  exists ve tx a co ma, n = Node k (type_field (nk_name k) d) ve tx a co ma /\ represents_fields k d ve tx a co ma.
Proof.
  intros HF H. cbn [from_dict] in H. unfold node_from_entry in H.
  destruct (attrs_entry (nk_class k) d) as [oa|] eqn:EA; [|discriminate]. unfold lift in H. cbn [bind] in H.
  destruct (run_entry w (content_entry w d)) as [lg [oc|]] eqn:EC; [|discriminate]. cbn [bind] in H.
  destruct (run_entry w (marks_entry d)) as [lg' [om|]] eqn:EM; [|discriminate]. cbn [bind snd app] in H.
  unfold construct in H.
  destruct (if nc_text (nk_class k) then _ else _) as [tx|] eqn:ET; [|discriminate]. cbn [rbind] in H.
  destruct (attrs_field (nk_class k) oa) as [a|] eqn:EF; [|discriminate]. cbn [rbind] in H.
  destruct (slot_field (nc_content (nk_class k)) oc) as [co|] eqn:ES; [|discriminate]. cbn [rbind] in H.
  destruct (slot_field (nc_marks (nk_class k)) om) as [ma|] eqn:EN; [|discriminate]. cbn [rbind] in H.
  injection H as <-. do 5 eexists. split; [reflexivity|]. constructor.
  - reflexivity.
  - destruct (nc_text (nk_class k)); [|congruence]. destruct (lookup (s "text") d); congruence.
  - unfold attrs_entry, attrs_field in *. destruct (nc_attrs (nk_class k)) as [[fk fs]|]; [|congruence].
    destruct (lookup (s "attrs") d) as [v|].
    + destruct (attrs_from_dict fs v) as [l|] eqn:E; [|discriminate]. injection EA as <-. injection EF as <-.
      apply attrs_from_dict_holds in E as (ad & -> & H). now constructor.
    + injection EA as <-. destruct fk; try discriminate. injection EF as <-. constructor.
  - eapply slot_field_from; [exact EC|exact ES|]. unfold content_entry.
    destruct (lookup (s "content") d) as [v|]; [|reflexivity].
    destruct v; try reflexivity. eexists. split; [reflexivity|]. intros lg1 xs HC.
    specialize (HF _ eq_refl). rewrite Forall_forall in HF.
    eapply collect_forall2; [| | |exact HC]; cbv beta.
    + intros y _ U. rewrite (parse_node_unregistered _ _ U). cbn. eauto.
    + intros y _ U. now apply parse_node_nu.
    + intros y b HI HP. eapply HF; eassumption.
  - eapply slot_field_from; [exact EM|exact EN|]. unfold marks_entry.
    destruct (lookup (s "marks") d) as [v|]; [|reflexivity].
    destruct v; try reflexivity. eexists. split; [reflexivity|]. intros lg1 xs HC.
    eapply collect_forall2; [| | |exact HC]; cbv beta.
    + intros y _ U. rewrite (parse_mark_unregistered _ U). cbn. eauto.
    + intros y _ U. now apply parse_mark_nu.
    + intros y b HI HP. now apply parse_mark_represents.
Qed.

Lemma parse_represents v : represents_claim v.
Proof.
  induction v as [v HX|d IH] using doc_ind; intros w n H.
  - rewrite parse_node_nondict in H by exact HX. discriminate.
  - rewrite parse_node_dict in H. destruct (lookup (s "type") d) as [ty|] eqn:L; [|discriminate].
    destruct (node_class_of ty) as [k| |] eqn:R; try discriminate.
    apply from_dict_fields in H; [|intros l HL; exact (IH _ _ HL)].
    destruct H as (ve & tx & a & co & ma & -> & HR). unfold type_field. rewrite L.
    apply represents_intro; [now rewrite L|exact R|exact HR].
Qed.
Lemma from_dict_represents w k d n :
  snd (from_dict w k (VDict d)) = Ok n ->
  exists ve tx a co ma, n = Node k (type_field (nk_name k) d) ve tx a co ma /\ represents_fields k d ve tx a co ma.
Proof. apply from_dict_fields. intros l _. apply Forall_forall. intros y _. apply parse_represents. Qed.

(** ---------------------------------------------------------------- consistency *)
Lemma represents_mark_consistent v m : represents_mark v m -> mark_consistent m.
Proof. intros []; reflexivity. Qed.

Lemma Forall2_Forall {A B} (R : A -> B -> Prop) (P : A -> Prop) (Q : B -> Prop) l l' :
  Forall2 R l l' -> Forall P l -> (forall a b, P a -> R a b -> Q b) -> Forall Q l'.
Proof.
  intros H HF HPQ. revert HF. induction H; intros HF; [constructor|]. inversion_clear HF. constructor; eauto.
Qed.
Lemma Forall_filter {A} (P : A -> Prop) f l : Forall P l -> Forall P (filter f l).
Proof. rewrite !Forall_forall. intros H x HX. apply filter_In in HX. apply H. tauto. Qed.

Lemma represents_consistent v : forall n, represents v n -> consistent n.
Proof.
  induction v as [v HX|d IH] using doc_ind; intros n H.
  - inversion H; subst. exfalso. eapply HX. reflexivity.
  - inversion H as [d' k ty ve tx a co ma HT HC HF]; subst. apply node_class_of_found in HC.
    rewrite HC. inversion HF as [? ? ? ? ? ? ? _ _ _ HCO HMA]; subst. constructor.
    + intros l ->. inversion HCO as [| | |l0 xs _ HF2 EQ|]; subst. symmetry in EQ.
      specialize (IH _ _ EQ). eapply Forall2_Forall; [exact HF2|apply Forall_filter; exact IH|].
      intros a0 b Ha Hr. now apply Ha.
    + intros l ->. inversion HMA as [| | |l0 xs _ HF2 EQ|]; subst.
      eapply Forall2_Forall; [exact HF2|apply Forall_forall; intros x _; exact I|].
      intros a0 b _ Hr. eapply represents_mark_consistent. exact Hr.
Qed.
Lemma parse_consistent w v n : snd (parse_node w v) = Ok n -> consistent n.
Proof. intros H. eapply represents_consistent. eapply parse_represents. exact H. Qed.
Lemma parse_mark_consistent v m : parse_mark v = Ok m -> mark_consistent m.
Proof. intros H. eapply represents_mark_consistent. apply parse_mark_represents. exact H. Qed.

(** from_dict on a class: the root takes whatever type the input has, the children are consistent. *)
Lemma from_dict_children w k v n :
  snd (from_dict w k v) = Ok n -> n_kind n = k /\
  (forall l, n_content n = Items l -> Forall consistent l) /\
  (forall l, n_marks n = Items l -> Forall mark_consistent l).
Proof.
  destruct v; try discriminate. intros H. apply from_dict_represents in H as (ve & tx & a & co & ma & -> & HF).
  inversion HF as [? ? ? ? ? ? ? _ _ _ HCO HMA]; subst. cbn. repeat split.
  - intros l ->. inversion HCO as [| | |l0 xs _ HF2 EQ|]; subst.
    eapply Forall2_Forall; [exact HF2|apply Forall_forall; intros x _; exact I|].
    intros a0 b _ Hr. eapply represents_consistent. exact Hr.
  - intros l ->. inversion HMA as [| | |l0 xs _ HF2 EQ|]; subst.
    eapply Forall2_Forall; [exact HF2|apply Forall_forall; intros x _; exact I|].
    intros a0 b _ Hr. eapply represents_mark_consistent. exact Hr.
Qed.

(** ---------------------------------------------------------------- the flag *)
Lemma parse_flag w w' v : snd (parse_node w v) = snd (parse_node w' v).
Proof.
  destruct (parse_node w v) as [lg r] eqn:E. destruct (parse_node w' v) as [lg' r'] eqn:E'.
  destruct (prune_correct v w true lg r E) as [H _]. destruct (prune_correct v w' true lg' r' E') as [H' _].
  cbn. congruence.
Qed.
Lemma parse_flag_off v : fst (parse_node false v) = [].
Proof. destruct (parse_node false v) as [lg r] eqn:E. exact (proj2 (prune_correct v false true lg r E)). Qed.
Lemma from_dict_flag w w' k v : snd (from_dict w k v) = snd (from_dict w' k v).
Proof.
  destruct (from_dict w k v) as [lg r] eqn:E. destruct (from_dict w' k v) as [lg' r'] eqn:E'.
  destruct (from_dict_prune_all k v w true lg r E) as [H _]. destruct (from_dict_prune_all k v w' true lg' r' E') as [H' _].
  cbn. congruence.
Qed.
Lemma from_dict_flag_off k v : fst (from_dict false k v) = [].
Proof. destruct (from_dict false k v) as [lg r] eqn:E. exact (proj2 (from_dict_prune_all k v false true lg r E)). Qed.
