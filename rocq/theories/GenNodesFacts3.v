(** Proofs about the class generator: the actions of a run, names, properties. *)
From Coq Require Import List NArith ZArith Bool String Arith Lia Sorted Permutation.
From Verif Require Import PyStr Values Basics LeafFacts SerFacts2 GenCode SpecApi ApiFacts Analyze SpecEqual SpecAnalyze AnalyzeFacts AnalyzeFacts3 AnalyzeFacts4 GenNodes SpecGenNodes GenNodesFacts GenNodesFacts2.
Import ListNotations.
Open Scope string_scope.
Open Scope list_scope.

(** ---------------------------------------------------------------- the actions *)
Definition describes (E : genv) (ds : defs) (name : str) (e : names * info) : Prop :=
  (exists ds1, def_name_to_names E ds name = Ok (fst e, ds1)) /\ (exists ds2, extract_schema_info ds name = Ok (snd e, ds2)).
Lemma stateful_same {A} (f : defs -> res (A * defs)) ds ds' a ds1 : stateful f -> sees ds ds' -> f ds' = Ok (a, ds1) -> exists ds2, f ds = Ok (a, ds2).
Proof.
  intros HF HS HE. destruct (HF ds) as [_ H]. specialize (H ds' HS). rewrite HE in H. cbn in H.
  destruct (f ds) as [[b ds2]|]; cbn in H; [|contradiction]. subst. now exists ds2.
Qed.
Definition class_write (content : names -> info -> str) (e : names * info) : action := Write (Nodes, py (n_module (fst e))) (content (fst e) (snd e)).
Lemma each_class E content ds l : forall ds0 ns ds1, sees ds ds0 -> snd (each (class_step E content) l ds0) = Ok (ns, ds1) ->
  sees ds ds1 /\ exists es, Forall2 (describes E ds) l es /\ ns = map fst es /\ fst (each (class_step E content) l ds0) = map (class_write content) es.
Proof.
  induction l as [|name l IH]; intros ds0 ns ds1 HS HE.
  - cbn in *. injection HE as <- <-. split; [assumption|]. exists []. repeat split. constructor.
  - cbn [each] in *. unfold class_step at 1 in HE. unfold class_step at 1. unfold bind, call, emit, ret in *.
    destruct (def_name_to_names E ds0 name) as [[n dsa]|] eqn:KN; [|discriminate].
    assert (HSa : sees ds dsa) by (eapply sees_trans; [exact HS|]; now apply (names_stateful E name ds0) in KN).
    destruct (extract_schema_info dsa name) as [[i dsb]|] eqn:KI; [|discriminate].
    assert (HSb : sees ds dsb) by (eapply sees_trans; [exact HSa|]; now apply (extract_stateful name dsa) in KI).
    cbn [fst snd app] in *.
    match type of HE with context [each ?f l dsb] => change f with (class_step E content) in *; destruct (each (class_step E content) l dsb) as [la [[ns' ds']|]] eqn:KE end;
      [|discriminate]. cbn [snd] in HE. injection HE as <- <-.
    destruct (IH dsb ns' ds' HSb) as (HS' & es & HF & HN & HA); [now rewrite KE|]. split; [assumption|].
    exists ((n, i) :: es). split; [|split].
    + constructor; [|assumption]. split; [now apply (stateful_same _ ds ds0 n dsa (names_stateful E name))|now apply (stateful_same _ ds dsa i dsb (extract_stateful name))].
    + cbn. now rewrite HN.
    + rewrite KE in HA. cbn in *. now rewrite app_nil_r, HA.
Qed.
Definition stub_write (content : names -> str) (n : names) : action := WriteIfAbsent (Mixins, py (n_module n)) (content n).
Lemma each_stub E content suffix ds ns : (forall n, In n ns -> exists ds1, def_name_to_names E ds (n_type n ++ suffix) = Ok (n, ds1)) ->
  forall ds0, sees ds ds0 -> exists us ds1, each (stub_step E content suffix) ns ds0 = (map (stub_write content) ns, Ok (us, ds1)) /\ sees ds ds1.
Proof.
  induction ns as [|n ns IH]; intros HN ds0 HS.
  - exists [], ds0. now split.
  - cbn [each map]. unfold stub_step at 1. unfold bind at 1 2. unfold call.
    destruct (HN n (or_introl eq_refl)) as [ds1 HE].
    pose proof (names_stateful E (n_type n ++ suffix)) as ST. destruct (stateful_same _ ds0 ds n ds1 ST (sees_sym _ _ HS) HE) as [ds2 H2]. rewrite H2.
    assert (HS2 : sees ds ds2) by (eapply sees_trans; [exact HS|]; now apply (ST ds0) in H2).
    cbn [emit app]. destruct (IH (fun m HM => HN m (or_intror HM)) ds2 HS2) as (us & ds3 & H3 & HS3).
    unfold bind. rewrite H3. exists (tt :: us), ds3. split; [|assumption]. cbn. now rewrite app_nil_r.
Qed.
Lemma describes_type E ds name e suffix : describes E ds name e -> (suffix = s "_mark" /\ is_mark name = true \/ suffix = s "_node" /\ is_node name = true) ->
  name = n_type (fst e) ++ suffix.
Proof.
  intros [[ds1 H] _] HK. apply names_spec in H. destruct H as [_ HT].
  destruct HK as [[-> HM]|[-> HM]], HT as [->| ->]; try reflexivity.
  - apply is_mark_iff in HM. destruct HM as [x HX]. now apply node_not_mark in HX.
  - apply is_node_iff in HM. destruct HM as [x HX]. symmetry in HX. now apply node_not_mark in HX.
Qed.
Lemma Forall2_in_r {A B} (R : A -> B -> Prop) l l' b : Forall2 R l l' -> In b l' -> exists a, In a l /\ R a b.
Proof. induction 1 as [|a b' l l' H HF IH]; intros []; [subst; exists a; cbn; auto|]. destruct IH as (x & HX & HR); auto. exists x. cbn. auto. Qed.
Lemma Forall2_in_l {A B} (R : A -> B -> Prop) l l' a : Forall2 R l l' -> In a l -> exists b, In b l' /\ R a b.
Proof. induction 1 as [|a' b l l' H HF IH]; intros []; [subst; exists b; cbn; auto|]. destruct IH as (x & HX & HR); auto. exists x. cbn. auto. Qed.
Lemma mark_suffix ds n : In n (fst (get_all_definitions ds)) -> is_mark n = true.
Proof. pose proof (all_definitions_spec ds) as H. destruct (get_all_definitions ds) as [ms ns]. intros HI. apply (proj1 H) in HI. apply is_mark_iff. apply HI. Qed.
Lemma node_suffix ds n : In n (snd (get_all_definitions ds)) -> is_node n = true.
Proof. pose proof (all_definitions_spec ds) as H. destruct (get_all_definitions ds) as [ms ns]. intros HI. apply (proj2 H) in HI. apply is_node_iff. apply HI. Qed.

Theorem main_actions E ds u ds' : snd (main E ds) = Ok (u, ds') ->
  exists es fs, Forall2 (describes E ds) (fst (get_all_definitions ds)) es /\ Forall2 (describes E ds) (snd (get_all_definitions ds)) fs /\
  fst (main E ds) = map (class_write mark_file) es ++ map (class_write node_file) fs ++
    [Write (Nodes, s "parse.py") (parse_file (map fst es) (map fst fs))] ++
    map (stub_write mark_stub) (map fst es) ++ map (stub_write node_stub) (map fst fs).
Proof.
  rewrite main_eq. unfold main_of. set (M := fst (get_all_definitions ds)). set (NN := snd (get_all_definitions ds)). intros HE.
  unfold bind at 1 in HE. unfold bind at 1.
  pose proof (each_class E mark_file ds M ds) as H1.
  destruct (each (class_step E mark_file) M ds) as [la [[ms dsa]|]]; [|discriminate].
  destruct (H1 ms dsa (sees_refl ds) eq_refl) as (SA & es & F1 & N1 & A1). clear H1. cbn [fst] in A1.
  unfold bind at 1 in HE. unfold bind at 1.
  pose proof (each_class E node_file ds NN dsa) as H2.
  destruct (each (class_step E node_file) NN dsa) as [lb [[ns dsb]|]]; [|discriminate].
  destruct (H2 ns dsb SA eq_refl) as (SB & fs & F2 & N2 & A2). clear H2. cbn [fst] in A2.
  unfold bind at 1 in HE. unfold bind at 1. cbn [emit].
  unfold bind at 1 in HE. unfold bind at 1.
  destruct (each_stub E mark_stub (s "_mark") ds ms) with (ds0 := dsb) as (us & dsc & H3 & SC); [|assumption|].
  { intros n HI. subst ms. apply in_map_iff in HI. destruct HI as (e & <- & HI). destruct (Forall2_in_r _ _ _ _ F1 HI) as (name & HM & HD).
    rewrite <- (describes_type E ds name e (s "_mark") HD); [apply HD|]. left. split; [reflexivity|]. now apply (mark_suffix ds). }
  rewrite H3 in *. unfold bind at 1 in HE. unfold bind at 1.
  destruct (each_stub E node_stub (s "_node") ds ns) with (ds0 := dsc) as (us' & dsd & H4 & SD); [|assumption|].
  { intros n HI. subst ns. apply in_map_iff in HI. destruct HI as (e & <- & HI). destruct (Forall2_in_r _ _ _ _ F2 HI) as (name & HM & HD).
    rewrite <- (describes_type E ds name e (s "_node") HD); [apply HD|]. right. split; [reflexivity|]. now apply (node_suffix ds). }
  rewrite H4. cbn [ret fst]. exists es, fs. split; [assumption|]. split; [assumption|]. rewrite A1, A2, N1, N2, app_nil_r. reflexivity.
Qed.

(** The last write decides; when all writes to a file agree there is no question. *)
Lemma written_all p l c : In (Write p c) l -> (forall c', In (Write p c') l -> c' = c) -> written p l = Some c.
Proof.
  induction l as [|a l IH]; intros HI HA; [destruct HI|]. cbn [written].
  destruct (written p l) as [c'|] eqn:K.
  - f_equal. apply HA. right. clear -K. induction l as [|a l IH]; [discriminate|]. cbn [written] in K. destruct (written p l) as [c0|].
    + right. now apply IH.
    + left. destruct a as [q x|q x]; [|discriminate]. destruct (path_eqb p q) eqn:KP; [|discriminate]. apply path_eqb_iff in KP. congruence.
  - destruct HI as [->|HI]; [now rewrite path_eqb_refl|]. exfalso. specialize (IH HI (fun c' H => HA c' (or_intror H))). discriminate.
Qed.
Lemma written_in p l c : written p l = Some c -> In (Write p c) l.
Proof.
  induction l as [|a l IH]; [discriminate|]. cbn [written]. destruct (written p l) as [c0|]; [intros [= <-]; right; now apply IH|].
  destruct a as [q x|q x]; [|discriminate]. destruct (path_eqb p q) eqn:KP; [|discriminate]. apply path_eqb_iff in KP. intros [= <-]. left. congruence.
Qed.
Lemma stubbed_all p l c : In (WriteIfAbsent p c) l -> (forall c', In (WriteIfAbsent p c') l -> c' = c) -> stubbed p l = Some c.
Proof.
  induction l as [|a l IH]; intros HI HA; [destruct HI|]. cbn [stubbed].
  destruct a as [q x|q x].
  - destruct HI as [HI|HI]; [discriminate|]. apply IH; [assumption|]. intros c' H. apply HA. now right.
  - destruct (path_eqb p q) eqn:KP.
    + apply path_eqb_iff in KP. subst q. f_equal. apply HA. now left.
    + destruct HI as [HI|HI]; [injection HI as -> ->; now rewrite path_eqb_refl in KP|]. apply IH; [assumption|]. intros c' H. apply HA. now right.
Qed.
Lemma py_inj m m' : py m = py m' -> m = m'.
Proof. apply app_inv_tail. Qed.
Lemma py_not_parse E n m : module_of E n m -> py m <> s "parse.py".
Proof. intros H HE. apply module_kind in H. destruct H as (x & [-> | ->]); unfold py in HE; discriminate HE. Qed.

(** ---------------------------------------------------------------- names *)
Lemma split_words_filter : forall n x run, (List.length x <= n)%nat ->
  filter (fun c => negb (N.eqb c UNDER)) (split_words run x) = filter (fun c => negb (N.eqb c UNDER)) x.
Proof.
  induction n as [|n IH]; intros x run HL; [destruct x; [reflexivity|cbn in HL; lia]|].
  destruct x as [|c r]; [reflexivity|]. cbn [List.length] in HL. cbn [split_words].
  assert (Hgen : forall y, (List.length y <= n)%nat -> forall b, filter (fun c => negb (N.eqb c UNDER)) (c :: split_words b y) = filter (fun c => negb (N.eqb c UNDER)) (c :: y)).
  { intros y HY b. cbn [filter]. now rewrite IH. }
  destruct (run && is_low c); [apply Hgen; lia|]. destruct r as [|u r]; [reflexivity|]. destruct r as [|l r]; [apply Hgen; cbn in *; lia|].
  destruct (negb (N.eqb c NL) && is_up u && is_low l); [|apply Hgen; cbn in *; lia].
  set (y := l :: r) in *. cbn [filter]. change (negb (N.eqb UNDER UNDER)) with false. cbn iota. rewrite IH; [reflexivity|]. subst y. cbn in *. lia.
Qed.
Lemma split_camel_filter : forall n x, (List.length x <= n)%nat ->
  filter (fun c => negb (N.eqb c UNDER)) (split_camel x) = filter (fun c => negb (N.eqb c UNDER)) x.
Proof.
  induction n as [|n IH]; intros x HL; [destruct x; [reflexivity|cbn in HL; lia]|].
  destruct x as [|c r]; [reflexivity|]. cbn [List.length] in HL. cbn [split_camel]. destruct r as [|u r]; [reflexivity|].
  destruct ((is_low c || is_digit c) && is_up u).
  - cbn [filter]. change (negb (N.eqb UNDER UNDER)) with false. cbn iota. rewrite IH by (cbn in *; lia). reflexivity.
  - cbn [filter]. rewrite IH by (cbn in *; lia). reflexivity.
Qed.
Lemma split_words_in : forall n x run c, (List.length x <= n)%nat -> In c (split_words run x) -> c = UNDER \/ In c x.
Proof.
  induction n as [|n IH]; intros x run c HL HI; [destruct x; [destruct HI|cbn in HL; lia]|].
  destruct x as [|a r]; [destruct HI|]. cbn [List.length] in HL. cbn [split_words] in HI.
  assert (Hgen : forall y b, (List.length y <= n)%nat -> (forall z, In z y -> In z (a :: r)) -> In c (a :: split_words b y) -> c = UNDER \/ In c (a :: r)).
  { intros y b HY HS [->|HC]; [right; now left|]. apply IH in HC; [|assumption]. destruct HC; auto. }
  assert (R : forall z, In z r -> In z (a :: r)) by (intros; now right).
  destruct (run && is_low a); [eapply Hgen; eauto; lia|].
  destruct r as [|u r]; [eapply Hgen; eauto; cbn; lia|]. destruct r as [|l r]; [eapply Hgen; eauto; cbn in *; lia|].
  destruct (negb (N.eqb a NL) && is_up u && is_low l); [|eapply Hgen; eauto; cbn in *; lia].
  set (y := l :: r) in *. destruct HI as [->|[<-|[->|HI]]]; [right; now left|now left|right; right; now left|].
  apply IH in HI; [|subst y; cbn in *; lia]. destruct HI as [->|HI]; [now left|]. right. right. now right.
Qed.
Lemma split_camel_in : forall n x c, (List.length x <= n)%nat -> In c (split_camel x) -> c = UNDER \/ In c x.
Proof.
  induction n as [|n IH]; intros x c HL HI; [destruct x; [destruct HI|cbn in HL; lia]|].
  destruct x as [|a r]; [destruct HI|]. cbn [List.length] in HL. cbn [split_camel] in HI. destruct r as [|u r]; [now right|].
  destruct ((is_low a || is_digit a) && is_up u).
  - destruct HI as [->|[<-|[->|HI]]]; [right; now left|now left|right; right; now left|]. apply IH in HI; [|cbn in *; lia].
    destruct HI as [->|HI]; [now left|]. right. right. now right.
  - destruct HI as [->|HI]; [right; now left|]. apply IH in HI; [|cbn in *; lia]. destruct HI; [now left|right; now right].
Qed.
Lemma split_ascii x : all_ascii x -> all_ascii (split_camel (split_words false x)).
Proof.
  intros HA c HC. apply (split_camel_in _ _ _ (le_n _)) in HC. destruct HC as [->|HC]; [reflexivity|].
  apply (split_words_in _ _ _ _ (le_n _)) in HC. destruct HC as [->|HC]; [reflexivity|]. now apply HA.
Qed.
Lemma lower_under c : N.eqb (ascii_lower c) UNDER = N.eqb c UNDER.
Proof.
  unfold ascii_lower, is_up. destruct (N.leb_spec 65 c), (N.leb_spec c 90); cbn [andb]; try reflexivity.
  unfold UNDER. destruct (N.eqb_spec c 95), (N.eqb_spec (c + 32) 95); try reflexivity; lia.
Qed.
Lemma lower_idem c : ascii_lower (ascii_lower c) = ascii_lower c.
Proof.
  unfold ascii_lower at 2 3. destruct (is_up c) eqn:K; [|unfold ascii_lower; now rewrite K].
  unfold is_up in K. apply andb_true_iff in K. rewrite !N.leb_le in K. unfold ascii_lower, is_up.
  destruct (N.leb_spec (c + 32) 90); [lia|]. now rewrite andb_false_r.
Qed.
Lemma letters_lower x : letters (map ascii_lower x) = letters x.
Proof.
  unfold letters. induction x as [|c x IH]; [reflexivity|]. cbn [map filter]. rewrite lower_under. destruct (negb (N.eqb c UNDER)); [|exact IH].
  cbn [map]. now rewrite lower_idem, IH.
Qed.
Lemma snake_letters E x : ascii_case E -> all_ascii x -> letters (camel_to_snake E x) = letters x.
Proof.
  intros [HE _] HA. unfold camel_to_snake. rewrite HE by now apply split_ascii. rewrite letters_lower. unfold letters.
  rewrite (split_camel_filter _ _ (le_n _)), (split_words_filter _ _ _ (le_n _)). reflexivity.
Qed.
Definition no_upper (x : str) : Prop := forall c, In c x -> is_up c = false.
Lemma split_words_id : forall n x run, (List.length x <= n)%nat -> no_upper x -> split_words run x = x.
Proof.
  induction n as [|n IH]; intros x run HL HN; [destruct x; [reflexivity|cbn in HL; lia]|].
  destruct x as [|c r]; [reflexivity|]. cbn [List.length] in HL. cbn [split_words].
  assert (HR : no_upper r) by (intros a Ha; apply HN; now right).
  destruct (run && is_low c); [now rewrite IH by (assumption || lia)|]. destruct r as [|u r]; [reflexivity|].
  assert (HU : is_up u = false) by (apply HR; now left).
  destruct r as [|l r]; [now rewrite IH by (assumption || cbn in *; lia)|].
  rewrite HU, andb_false_r. cbn [andb]. now rewrite IH by (assumption || cbn in *; lia).
Qed.
Lemma split_camel_id : forall n x, (List.length x <= n)%nat -> no_upper x -> split_camel x = x.
Proof.
  induction n as [|n IH]; intros x HL HN; [destruct x; [reflexivity|cbn in HL; lia]|].
  destruct x as [|c r]; [reflexivity|]. cbn [List.length] in HL. cbn [split_camel]. assert (HR : no_upper r) by (intros a Ha; apply HN; now right).
  destruct r as [|u r]; [reflexivity|]. rewrite (HR u (or_introl eq_refl)), andb_false_r. now rewrite IH by (assumption || cbn in *; lia).
Qed.
Lemma snake_id E x : ascii_case E -> all_ascii x -> no_upper x -> camel_to_snake E x = x.
Proof.
  intros [HE _] HA HN. unfold camel_to_snake. rewrite (split_words_id _ _ _ (le_n _) HN), (split_camel_id _ _ (le_n _) HN).
  rewrite HE by assumption. rewrite <- (map_id x) at 2. apply map_ext_in. intros c HC. unfold ascii_lower. now rewrite HN.
Qed.
Lemma snake_lower E x : ascii_case E -> all_ascii x -> no_upper (camel_to_snake E x) /\ all_ascii (camel_to_snake E x).
Proof.
  intros [HE _] HA. unfold camel_to_snake. rewrite HE by now apply split_ascii. split; intros c HC; apply in_map_iff in HC; destruct HC as (a & <- & HI).
  - unfold ascii_lower. destruct (is_up a) eqn:K; [|assumption]. unfold is_up in *. apply andb_true_iff in K. rewrite !N.leb_le in K.
    destruct (N.leb_spec (a + 32) 90); [lia|]. now rewrite andb_false_r.
  - apply (split_ascii x HA) in HI. unfold ascii_lower. destruct (is_up a) eqn:K; [|assumption]. unfold is_up in K. apply andb_true_iff in K.
    rewrite !N.leb_le in K. lia.
Qed.
