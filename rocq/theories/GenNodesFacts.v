(** Proofs about the class generator: actions and disks. *)
From Coq Require Import List NArith ZArith Bool String Arith Lia Sorted Permutation.
From Verif Require Import PyStr Values Basics LeafFacts SerFacts2 GenCode SpecApi ApiFacts Analyze SpecAnalyze AnalyzeFacts AnalyzeFacts3 AnalyzeFacts4 GenNodes SpecGenNodes.
Import ListNotations.
Open Scope string_scope.
Open Scope list_scope.

Lemma path_eqb_iff p q : path_eqb p q = true <-> p = q.
Proof.
  destruct p as [d x], q as [d' y]. unfold path_eqb. cbn [fst snd]. rewrite andb_true_iff, str_eqb_eq. split.
  - intros [H ->]. f_equal. destruct d, d'; cbn in H; try discriminate; try reflexivity. apply str_eqb_eq in H. now subst.
  - intros [= -> ->]. split; [|reflexivity]. destruct d'; cbn; try reflexivity. apply str_eqb_refl.
Qed.
Lemma put_same p c h : file (put p c h) p = Some c.
Proof. cbn. now rewrite (proj2 (path_eqb_iff p p) eq_refl). Qed.
Lemma put_other p q c h : q <> p -> file (put p c h) q = file h q.
Proof. intros N. cbn. destruct (path_eqb q p) eqn:K; [|reflexivity]. apply path_eqb_iff in K. congruence. Qed.

(** ---------------------------------------------------------------- what actions touch *)
Definition at_ (a : action) : path := match a with Write p _ | WriteIfAbsent p _ => p end.
Lemma act_other a h h' q : act a h = Some h' -> q <> at_ a -> file h' q = file h q.
Proof.
  destruct a as [p c|p c]; cbn [act at_]; unfold write.
  - destruct (has_dir h (fst p)); [|discriminate]. intros [= <-] N. now apply put_other.
  - destruct (file h p); [now intros [= <-]|]. destruct (has_dir h (fst p)); [|discriminate]. intros [= <-] N. now apply put_other.
Qed.
Lemma cut_other a h h' q : cut a h h' -> q <> at_ a -> file h' q = file h q.
Proof. intros []; cbn [at_]; apply put_other. Qed.
Lemma act_dirs a h h' : act a h = Some h' -> has_dir h' = has_dir h.
Proof.
  destruct a as [p c|p c]; cbn [act]; unfold write; [|destruct (file h p); [now intros [= <-]|]];
  destruct (has_dir h (fst p)); try discriminate; now intros [= <-].
Qed.
Lemma cut_dirs a h h' : cut a h h' -> has_dir h' = has_dir h.
Proof. now intros []. Qed.
Lemma ends_dirs last l h e h' : ends last l h e h' -> has_dir h' = has_dir h.
Proof.
  induction 1; try reflexivity; [now apply (cut_dirs a)|]. etransitivity; [eassumption|now apply (act_dirs a)].
Qed.
Lemma ends_other last l h e h' q : ends last l h e h' -> (forall a, In a l -> q <> at_ a) -> file h' q = file h q.
Proof.
  induction 1 as [h|l h|a l h h' C|a l h N|a l h h1 e h2 A H IH]; intros HQ; try reflexivity.
  - apply (cut_other a h h' q C). apply HQ. now left.
  - rewrite IH by (intros; apply HQ; now right). apply (act_other a h h1 q A). apply HQ. now left.
Qed.
(** A file is never deleted. *)
Lemma act_keeps a h h' p c : act a h = Some h' -> file h p = Some c -> exists c', file h' p = Some c'.
Proof.
  intros A F. destruct (path_eqb p (at_ a)) eqn:K.
  - apply path_eqb_iff in K. subst p. destruct a as [p x|p x]; cbn [act at_] in *; unfold write in A.
    + destruct (has_dir h (fst p)); [|discriminate]. injection A as <-. exists x. apply put_same.
    + rewrite F in A. injection A as <-. now exists c.
  - exists c. rewrite (act_other a h h' p A); [assumption|]. intros ->. rewrite (proj2 (path_eqb_iff _ _) eq_refl) in K. discriminate.
Qed.
Lemma cut_keeps a h h' p c : cut a h h' -> file h p = Some c -> exists c', file h' p = Some c'.
Proof.
  intros C F. destruct (path_eqb p (at_ a)) eqn:K.
  - apply path_eqb_iff in K. subst p. destruct C; cbn [at_] in *; exists x; apply put_same.
  - exists c. rewrite (cut_other a h h' p C); [assumption|]. intros ->. rewrite (proj2 (path_eqb_iff _ _) eq_refl) in K. discriminate.
Qed.
Lemma ends_keeps last l h e h' : ends last l h e h' -> forall p c, file h p = Some c -> exists c', file h' p = Some c'.
Proof.
  induction 1 as [h|l h|a l h h' C|a l h N|a l h h1 e h2 A H IH]; intros p c F; eauto.
  - eapply cut_keeps; eauto.
  - destruct (act_keeps _ _ _ _ _ A F) as [c1 F1]. eauto.
Qed.
(** A file that is only written when absent is not changed. *)
Definition only_absent (p : path) (l : list action) : Prop := forall a, In a l -> at_ a = p -> exists c, a = WriteIfAbsent p c.
Lemma ends_absent last l h e h' p c : ends last l h e h' -> only_absent p l -> file h p = Some c -> file h' p = Some c.
Proof.
  induction 1 as [h|l h|a l h h' C|a l h N|a l h h1 e h2 A H IH]; intros HA F; try assumption.
  - destruct C as [q x y h D|q x y h G D].
    + destruct (path_eqb p q) eqn:K.
      * apply path_eqb_iff in K. subst q. destruct (HA (Write p (x ++ y)) (or_introl eq_refl) eq_refl) as [c' E']. discriminate.
      * rewrite put_other; [assumption|]. intros ->. rewrite (proj2 (path_eqb_iff _ _) eq_refl) in K. discriminate.
    + rewrite put_other; [assumption|]. congruence.
  - apply IH; [intros b HB; apply HA; now right|]. destruct (path_eqb p (at_ a)) eqn:K.
    + apply path_eqb_iff in K. destruct (HA a (or_introl eq_refl) (eq_sym K)) as [c' ->]. cbn in A. rewrite F in A. now injection A as <-.
    + rewrite (act_other a h h1 p A); [assumption|]. intros ->. rewrite (proj2 (path_eqb_iff _ _) eq_refl) in K. discriminate.
Qed.

(** ---------------------------------------------------------------- complete runs *)
(** What the list leaves in the file [p]: the last unconditional write. *)
Fixpoint written (p : path) (l : list action) : option str :=
  match l with
  | [] => None
  | a :: r => match written p r with
              | Some c => Some c
              | None => match a with Write q c => if path_eqb p q then Some c else None | WriteIfAbsent _ _ => None end
              end
  end.
(** The first conditional one. *)
Fixpoint stubbed (p : path) (l : list action) : option str :=
  match l with
  | [] => None
  | a :: r => match a with
              | WriteIfAbsent q c => if path_eqb p q then Some c else stubbed p r
              | Write _ _ => stubbed p r
              end
  end.
Definition only_write (p : path) (l : list action) : Prop := forall a, In a l -> at_ a = p -> exists c, a = Write p c.
Lemma path_dec (p q : path) : {p = q} + {p <> q}.
Proof. destruct (path_eqb p q) eqn:K; [left; now apply path_eqb_iff|right; intros ->]. rewrite (proj2 (path_eqb_iff q q) eq_refl) in K. discriminate. Qed.
Lemma path_eqb_refl p : path_eqb p p = true.
Proof. now apply path_eqb_iff. Qed.
Lemma path_eqb_neq p q : p <> q -> path_eqb p q = false.
Proof. intros N. destruct (path_eqb p q) eqn:K; [|reflexivity]. apply path_eqb_iff in K. contradiction. Qed.

Definition finished (e : ending) : Prop := e <> Killed.
Lemma ends_written last l h e h' p : ends last l h e h' -> e = last -> last <> Killed -> last <> NoDirectory -> only_write p l ->
  file h' p = match written p l with Some c => Some c | None => file h p end.
Proof.
  induction 1 as [h|l h|a l h h' C|a l h N|a l h h1 e h2 A H IH]; intros HE N1 N2 HW; try congruence; cbn [written].
  - reflexivity.
  - rewrite IH by (assumption || (intros b HB; apply HW; now right)). destruct (written p l) as [c|]; [reflexivity|].
    destruct (path_dec p (at_ a)) as [->|NE].
    + destruct (HW a (or_introl eq_refl) eq_refl) as [c E']. destruct a as [q x|q x]; cbn [at_] in *; [|discriminate].
      rewrite path_eqb_refl. cbn [act] in A. unfold write in A. destruct (has_dir h (fst q)); [|discriminate]. injection A as <-. apply put_same.
    + rewrite (act_other _ _ _ _ A NE). destruct a as [q x|q x]; cbn [at_] in NE; [|reflexivity]. now rewrite path_eqb_neq.
Qed.
Lemma ends_stubbed last l h e h' p : ends last l h e h' -> e = last -> last <> Killed -> last <> NoDirectory -> only_absent p l ->
  file h' p = match file h p with Some c => Some c | None => stubbed p l end.
Proof.
  induction 1 as [h|l h|a l h h' C|a l h N|a l h h1 e h2 A H IH]; intros HE N1 N2 HW; try congruence; cbn [stubbed].
  - now destruct (file h p).
  - rewrite IH by (assumption || (intros b HB; apply HW; now right)).
    destruct (path_dec p (at_ a)) as [->|NE].
    + destruct (HW a (or_introl eq_refl) eq_refl) as [c E']. destruct a as [q x|q x]; cbn [at_] in *; [discriminate|].
      rewrite path_eqb_refl. cbn [act] in A. destruct (file h q) eqn:F.
      * injection A as <-. now rewrite F.
      * unfold write in A. destruct (has_dir h (fst q)); [|discriminate]. injection A as <-. now rewrite put_same.
    + rewrite (act_other _ _ _ _ A NE). destruct a as [q x|q x]; cbn [at_] in NE; [reflexivity|]. now rewrite path_eqb_neq.
Qed.
(** With both directories the program reaches its own end. *)
Lemma act_some a h : has_dir h (fst (at_ a)) = true -> exists h', act a h = Some h'.
Proof.
  intros D. destruct a as [p c|p c]; cbn [act at_] in *; unfold write; rewrite D; [eauto|]. destruct (file h p); eauto.
Qed.
Lemma ends_exists last l : forall h, (forall a, In a l -> has_dir h (fst (at_ a)) = true) -> exists h', ends last l h last h'.
Proof.
  induction l as [|a l IH]; intros h HD; [exists h; constructor|].
  destruct (act_some a h (HD a (or_introl eq_refl))) as [h1 A]. destruct (IH h1) as [h2 H2].
  { intros b HB. rewrite (act_dirs _ _ _ A). apply HD. now right. }
  exists h2. econstructor; eassumption.
Qed.
Lemma ends_reached last l h e h' : ends last l h e h' -> (forall a, In a l -> has_dir h (fst (at_ a)) = true) -> e = last \/ e = Killed.
Proof.
  induction 1 as [h|l h|a l h h' C|a l h N|a l h h1 e h2 A H IH]; intros HD; auto.
  - destruct (act_some a h (HD a (or_introl eq_refl))) as [h1 A]. congruence.
  - apply IH. intros b HB. rewrite (act_dirs _ _ _ A). apply HD. now right.
Qed.

(** ---------------------------------------------------------------- programs *)
Definition acts {A} (P : action -> Prop) (m : prog A) (Q : A -> Prop) : Prop :=
  forall ds, Forall P (fst (m ds)) /\ forall a ds', snd (m ds) = Ok (a, ds') -> Q a.
Lemma acts_ret {A} P (Q : A -> Prop) a : Q a -> acts P (ret a) Q.
Proof. intros H ds. split; [constructor|]. cbn. intros b ds' [= <- <-]. assumption. Qed.
Lemma acts_bind {A B} P (Q : A -> Prop) (R : B -> Prop) m k : acts P m Q -> (forall a, Q a -> acts P (k a) R) -> acts P (bind m k) R.
Proof.
  intros HM HK ds. unfold bind. destruct (HM ds) as [H1 H2]. destruct (m ds) as [l [[a ds']|e]]; cbn [fst snd] in *.
  - destruct (HK a (H2 a ds' eq_refl) ds') as [H3 H4]. destruct (k a ds') as [l' r]. cbn [fst snd] in *. split; [now apply Forall_app|assumption].
  - split; [assumption|discriminate].
Qed.
Lemma acts_call {A} P (Q : A -> Prop) f : (forall ds a ds', f ds = Ok (a, ds') -> Q a) -> acts P (call f) Q.
Proof. intros H ds. split; [constructor|]. cbn. eauto. Qed.
Lemma acts_emit (P : action -> Prop) a : P a -> acts P (emit a) (fun _ => True).
Proof. intros H ds. split; [now constructor|auto]. Qed.
Lemma acts_each {A B} P (Q : B -> Prop) (f : A -> prog B) l : (forall a, In a l -> acts P (f a) Q) -> acts P (each f l) (Forall Q).
Proof.
  induction l as [|a l IH]; intros HF; cbn [each]; [apply acts_ret; constructor|].
  eapply acts_bind; [apply HF; now left|]. intros b HB. eapply acts_bind; [apply IH; intros; apply HF; now right|].
  intros bs HBS. apply acts_ret. now constructor.
Qed.

(** The names of a definition. *)
Lemma drop5_kind x t : drop5 (x ++ s t) = x \/ List.length (s t) <> 5%nat.
Proof. destruct (Nat.eq_dec (List.length (s t)) 5); [left; now apply drop5_app|now right]. Qed.
Definition name_ok (E : genv) (n : names) : Prop :=
  (exists name, module_of E name (n_module n) /\ (name = n_type n ++ s "_mark" \/ name = n_type n ++ s "_node")).
Lemma names_spec E ds name n ds' : def_name_to_names E ds name = Ok (n, ds') ->
  module_of E name (n_module n) /\ (name = n_type n ++ s "_mark" \/ name = n_type n ++ s "_node").
Proof.
  unfold def_name_to_names. destruct (is_mark name) eqn:KM; [|destruct (is_node name) eqn:KN]; cbn [rbind]; try discriminate.
  - apply is_mark_iff in KM. destruct KM as [x ->]. rewrite (drop5_app x (s "_mark") eq_refl).
    destruct (get_type_enum E ds (x ++ s "_mark")) as [[enum ds1]|]; cbn [rbind]; [|discriminate]. intros [= <- <-]. cbn. split; [|auto].
    exists x. auto.
  - apply is_node_iff in KN. destruct KN as [x ->]. rewrite (drop5_app x (s "_node") eq_refl).
    destruct (get_type_enum E ds (x ++ s "_node")) as [[enum ds1]|]; cbn [rbind]; [|discriminate]. intros [= <- <-]. cbn. split; [|auto].
    exists x. auto.
Qed.
Lemma module_unique E n m m' : module_of E n m -> module_of E n m' -> m = m'.
Proof.
  intros (x & [[-> ->]|[-> ->]]) (y & [[HE ->]|[HE ->]]).
  - apply app_inv_tail in HE. now subst.
  - now apply eq_sym, node_not_mark in HE.
  - now apply node_not_mark in HE.
  - apply app_inv_tail in HE. now subst.
Qed.
Lemma module_kind E n m : module_of E n m -> exists x, m = s "mark_" ++ x \/ m = s "node_" ++ x.
Proof. intros (x & [[_ ->]|[_ ->]]); eauto. Qed.

(** The definitions. *)
Lemma containsb_iff sub x : containsb sub x = true <-> exists a b, x = a ++ sub ++ b.
Proof.
  induction x as [|c x IH]; cbn [containsb]; rewrite orb_true_iff, prefixb_iff.
  - split.
    + intros [[y HY]|H]; [|discriminate]. exists [], y. exact HY.
    + intros (a & b & HE). left. exists b. destruct a; [exact HE|discriminate].
  - rewrite IH. split.
    + intros [[y HY]|(a & b & ->)]; [exists [], y; exact HY|exists (c :: a), b; reflexivity].
    + intros ([|a0 a] & b & HE); [left; exists b; exact HE|right]. cbn in HE. assert (x = a ++ sub ++ b) by congruence. eauto.
Qed.
Lemma not_true b : b = false <-> ~ b = true.
Proof. destruct b; split; congruence. Qed.
Lemma skipped_iff n : skipped_definition n = false <-> base_definition n.
Proof.
  unfold skipped_definition, base_definition, ends_with. rewrite !orb_false_iff, !not_true, containsb_iff, !suffixb_iff, !str_eqb_eq, member_iff.
  split.
  - intros [[[[[[[H1 H2] H3] H4] H5] H6] H7] H8]. repeat split; auto; intros ->; apply H8; cbn; auto.
  - intros (H1 & H2 & H3 & H4 & H5 & H6 & H7 & H8). repeat split; auto.
    + intros ->. apply H4. now exists (s "non_nestable_block").
    + intros ->. apply H4. now exists (s "block").
    + intros [<-|[<-|[<-|[]]]]; auto.
Qed.
Lemma all_definitions_spec ds : let (ms, ns) := get_all_definitions ds in (forall n, In n ms <-> a_mark ds n) /\ (forall n, In n ns <-> a_node ds n).
Proof.
  unfold get_all_definitions. split; intros n; rewrite sort_in, filter_In, filter_In, negb_true_iff, skipped_iff.
  - rewrite is_mark_iff. unfold a_mark, ends_with. tauto.
  - rewrite andb_true_iff, negb_true_iff, not_true, is_mark_iff, is_node_iff. unfold a_node, ends_with. split; [tauto|].
    intros (H1 & [x H2] & H3). split; [split; assumption|]. split; [|now exists x]. intros [y HY]. subst n. now apply node_not_mark in HY.
Qed.
Lemma all_definitions_same ds ds' : Permutation (map fst ds) (map fst ds') -> get_all_definitions ds = get_all_definitions ds'.
Proof.
  intros P. unfold get_all_definitions.
  assert (PF : forall (f : str -> bool) l l', Permutation l l' -> Permutation (filter f l) (filter f l')).
  { intros f l l' PP. induction PP as [| |x y l0|]; cbn; try constructor.
    - destruct (f x); [now constructor|assumption].
    - destruct (f x), (f y); try reflexivity. constructor.
    - etransitivity; eassumption. }
  f_equal; apply sort_eq; now repeat apply PF.
Qed.

(** The actions of the program. *)
Definition expected (E : genv) (ds : defs) (a : action) : Prop :=
  (exists c, a = Write (Nodes, s "parse.py") c) \/
  exists n m c, wanted E ds n m /\ (a = Write (Nodes, py m) c \/ a = WriteIfAbsent (Mixins, py m) c).
Lemma class_step_acts E ds content name : a_mark ds name \/ a_node ds name ->
  acts (expected E ds) (class_step E content name) (fun n => wanted E ds name (n_module n) /\ (name = n_type n ++ s "_mark" \/ name = n_type n ++ s "_node")).
Proof.
  intros HN. unfold class_step. eapply acts_bind.
  { apply acts_call with (Q := fun n => wanted E ds name (n_module n) /\ (name = n_type n ++ s "_mark" \/ name = n_type n ++ s "_node")).
    intros ds0 n ds' HE. apply names_spec in HE. destruct HE. now repeat split. }
  intros n [HW HT]. eapply acts_bind; [apply acts_call with (Q := fun _ => True); auto|]. intros i _.
  eapply acts_bind; [apply acts_emit; right; eauto 6|]. intros _ _. now apply acts_ret.
Qed.
Lemma stub_step_acts E ds content suffix n name : wanted E ds name (n_module n) -> acts (expected E ds) (stub_step E content suffix n) (fun _ => True).
Proof.
  intros HW. unfold stub_step. eapply acts_bind; [apply acts_call with (Q := fun _ => True); auto|]. intros n' _. apply acts_emit. right. eauto 6.
Qed.
Lemma main_expected E ds : Forall (expected E ds) (fst (main E ds)).
Proof.
  unfold main. pose proof (all_definitions_spec ds) as HD. destruct (get_all_definitions ds) as [ms ns]. destruct HD as [HM HN].
  set (Q := fun n => exists name, wanted E ds name (n_module n)).
  match goal with |- Forall _ (fst (?m ds)) => cut (acts (expected E ds) m (fun _ => True)) end; [intros H; apply (H ds)|].
  eapply acts_bind with (Q := Forall Q).
  { apply acts_each. intros a HA ds0. apply HM in HA. destruct (class_step_acts E ds mark_file a (or_introl HA) ds0) as [H1 H2].
    split; [assumption|]. intros n ds' HE. exists a. now apply (H2 n ds'). }
  intros ms' HMS. eapply acts_bind with (Q := Forall Q).
  { apply acts_each. intros a HA ds0. apply HN in HA. destruct (class_step_acts E ds node_file a (or_intror HA) ds0) as [H1 H2].
    split; [assumption|]. intros n ds' HE. exists a. now apply (H2 n ds'). }
  intros ns' HNS. eapply acts_bind; [apply acts_emit; left; eauto|]. intros _ _.
  rewrite Forall_forall in HMS, HNS.
  eapply acts_bind with (Q := fun _ => True).
  { intros ds0. split; [|auto]. apply (acts_each (expected E ds) (fun _ => True)). intros n HI. destruct (HMS n HI) as [name HW]. now apply stub_step_acts with (name := name). }
  intros _ _. eapply acts_bind with (Q := fun _ => True).
  { intros ds0. split; [|auto]. apply (acts_each (expected E ds) (fun _ => True)). intros n HI. destruct (HNS n HI) as [name HW]. now apply stub_step_acts with (name := name). }
  intros _ _. now apply acts_ret.
Qed.
Lemma run_ends E ds h e h' : run E ds h e h' <->
  ends (match snd (main E ds) with Ok _ => Complete | Err x => Raised x end) (fst (main E ds)) h e h'.
Proof. unfold run. destruct (main E ds) as [l [|]]; reflexivity. Qed.
