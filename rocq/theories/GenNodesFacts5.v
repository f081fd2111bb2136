(** Proofs about the class generator: runs. *)
From Coq Require Import List NArith ZArith Bool String Arith Lia Sorted Permutation.
From Verif Require Import PyStr Values Basics StrFacts LeafFacts SerFacts2 GenCode SpecApi ApiFacts Analyze SpecEqual SpecAnalyze AnalyzeFacts AnalyzeFacts3 AnalyzeFacts4 GenNodes SpecGenNodes GenNodesFacts GenNodesFacts2 GenNodesFacts3 GenNodesFacts4.
Import ListNotations.
Open Scope string_scope.
Open Scope list_scope.

Definition actions (E : genv) (ds : defs) : list action := fst (main E ds).
Definition last_of (E : genv) (ds : defs) : ending := match snd (main E ds) with Ok _ => Complete | Err x => Raised x end.
Lemma run_iff E ds h e h' : run E ds h e h' <-> ends (last_of E ds) (actions E ds) h e h'.
Proof. apply run_ends. Qed.
Lemma actions_expected E ds a : In a (actions E ds) -> expected E ds a.
Proof. intros HI. pose proof (main_expected E ds) as H. rewrite Forall_forall in H. now apply H. Qed.
Lemma complete_last last l h h' : ends last l h Complete h' -> last = Complete.
Proof. remember Complete as e. intros H. revert Heqe. induction H; intros HE; congruence || auto. Qed.
Lemma acceptable_last E ds : acceptable E ds <-> last_of E ds = Complete.
Proof.
  split.
  - intros (h & h' & H). apply run_iff in H. now apply complete_last in H.
  - intros HL. set (h := Disk (fun _ => true) (fun _ => None)). destruct (ends_exists Complete (actions E ds) h) as [h' H]; [reflexivity|].
    exists h, h'. apply run_iff. now rewrite HL.
Qed.
Lemma mixins_absent E ds x : only_absent (Mixins, x) (actions E ds).
Proof.
  intros a HI HA. destruct (actions_expected E ds a HI) as [[c ->]|(n & m & c & _ & [-> | ->])]; try discriminate. cbn in HA. injection HA as <-. now exists c.
Qed.
Lemma nodes_write E ds x : only_write (Nodes, x) (actions E ds).
Proof.
  intros a HI HA. destruct (actions_expected E ds a HI) as [[c ->]|(n & m & c & _ & [-> | ->])]; try discriminate; cbn in HA; injection HA as <-; now exists c.
Qed.
Lemma retries_history E ds h h' : retries E ds h h' -> history E h h'.
Proof. induction 1; [constructor|]. econstructor; eassumption. Qed.

(** A killed run can leave any beginning of a new stub. *)
Lemma stub_cut l h h' p c b r : ends Complete l h Complete h' -> only_absent p l -> file h p = None -> file h' p = Some c -> c = b ++ r ->
  exists h1, ends Complete l h Killed h1 /\ file h1 p = Some b.
Proof.
  intros HE. remember Complete as last in HE at 1. remember Complete as e in HE at 1. revert Heqlast Heqe.
  induction HE as [h|l h|a l h h' C|a l h N|a l h h1 e h2 A H IH]; intros -> HEE HA HN HF HC; try congruence.
  destruct (path_dec p (at_ a)) as [->|NE].
  - destruct (HA a (or_introl eq_refl) eq_refl) as [c0 HW]. destruct a as [q x|q x]; [discriminate|]. cbn [at_] in *.
    cbn [act] in A. rewrite HN in A. unfold write in A. destruct (has_dir h (fst q)) eqn:KD; [|discriminate]. injection A as <-.
    assert (x = c).
    { assert (HX : file h2 q = Some x); [|congruence]. apply (ends_absent _ _ _ _ _ _ _ H); [|apply put_same]. intros a Ha. apply HA. now right. }
    subst x c. exists (put q b h). split; [|apply put_same]. apply ends_cut. now constructor.
  - destruct (IH eq_refl HEE) as (h3 & H3 & H4); auto.
    + intros b0 HB. apply HA. now right.
    + now rewrite (act_other _ _ _ _ A NE).
    + exists h3. split; [|assumption]. eapply ends_next; eassumption.
Qed.
(** The run stops at the first stub when the directory is missing. *)
Lemma stops_at_stub last W a R : forall h e h', ends last (W ++ a :: R) h e h' -> (forall b, In b W -> at_ b <> at_ a) ->
  (forall b, In b W -> has_dir h (fst (at_ b)) = true) -> has_dir h (fst (at_ a)) = false -> file h (at_ a) = None ->
  e = Killed \/ (e = NoDirectory /\ ends Complete W h Complete h').
Proof.
  induction W as [|b W IH]; intros h e h' HE HN HW HD HF; cbn [app] in HE; inversion HE as [|? ? |? ? ? ? HC|? ? ? HM|? ? ? h1 ? ? HA HR]; subst; auto.
  - right. split; [reflexivity|constructor].
  - exfalso. destruct a as [p c|p c]; cbn [act at_] in *; unfold write in HA; rewrite ?HF, HD in HA; discriminate.
  - exfalso. match type of HM with act b ?g = None => destruct (act_some b g (HW b (or_introl eq_refl))) as [h1 H1] end. congruence.
  - destruct (IH h1 e h' HR) as [->|[-> HX]]; auto.
    + intros x HX. apply HN. now right.
    + intros x HX. rewrite (act_dirs _ _ _ HA). apply HW. now right.
    + now rewrite (act_dirs _ _ _ HA).
    + rewrite (act_other _ _ _ _ HA); [assumption|]. intros HQ. apply (HN b (or_introl eq_refl)). now symmetry.
    + right. split; [reflexivity|]. eapply ends_next; eassumption.
Qed.
Lemma stops_exists last W a R : forall h, (forall b, In b W -> at_ b <> at_ a) ->
  (forall b, In b W -> has_dir h (fst (at_ b)) = true) -> has_dir h (fst (at_ a)) = false -> file h (at_ a) = None ->
  exists h', ends last (W ++ a :: R) h NoDirectory h'.
Proof.
  induction W as [|b W IH]; intros h HN HW HD HF; cbn [app].
  - exists h. apply ends_missing. destruct a as [p c|p c]; cbn [act at_] in *; unfold write; rewrite ?HF, HD; reflexivity.
  - destruct (act_some b h (HW b (or_introl eq_refl))) as [h1 H1]. destruct (IH h1) as [h' H'].
    + intros x HX. apply HN. now right.
    + intros x HX. rewrite (act_dirs _ _ _ H1). apply HW. now right.
    + now rewrite (act_dirs _ _ _ H1).
    + rewrite (act_other _ _ _ _ H1); [assumption|]. intros HQ. apply (HN b (or_introl eq_refl)). now symmetry.
    + exists h'. eapply ends_next; eassumption.
Qed.
Lemma written_app p l l' : (forall a, In a l' -> at_ a <> p) -> written p (l ++ l') = written p l.
Proof.
  intros HN. induction l as [|a l IH]; cbn [app written]; [|now rewrite IH].
  induction l' as [|a l' IH]; [reflexivity|]. cbn [written]. rewrite IH by (intros b HB; apply HN; now right).
  specialize (HN a (or_introl eq_refl)). destruct a as [q c|q c]; [|reflexivity]. cbn in HN. rewrite path_eqb_neq; [reflexivity|congruence].
Qed.

(** The parts of a successful program. *)
Record parts (E : genv) (ds : defs) (es fs : list (names * info)) : Prop := Parts {
  p_marks : Forall2 (describes E ds) (fst (get_all_definitions ds)) es;
  p_nodes : Forall2 (describes E ds) (snd (get_all_definitions ds)) fs;
  p_actions : actions E ds = (map (class_write mark_file) es ++ map (class_write node_file) fs ++
    [Write (Nodes, s "parse.py") (parse_file (map fst es) (map fst fs))]) ++
    map (stub_write mark_stub) (map fst es) ++ map (stub_write node_stub) (map fst fs) }.
Lemma parts_exist E ds : acceptable E ds -> exists es fs, parts E ds es fs.
Proof.
  intros HA. apply acceptable_last in HA. unfold last_of in HA. destruct (snd (main E ds)) as [[u ds']|] eqn:K; [|discriminate].
  destruct (main_actions E ds u ds' K) as (es & fs & H1 & H2 & H3). exists es, fs. split; try assumption. unfold actions. rewrite H3. now rewrite <- !app_assoc.
Qed.
Lemma describes_unique E ds name e e' : describes E ds name e -> describes E ds name e' -> e = e'.
Proof. intros [[a HA] [b HB]] [[c HC] [d HD]]. destruct e, e'. cbn in *. congruence. Qed.
Lemma describes_module E ds name e : describes E ds name e -> module_of E name (n_module (fst e)).
Proof. intros [[ds1 H] _]. now apply names_spec in H. Qed.
Lemma part_mark E ds es fs e : parts E ds es fs -> In e es -> exists name, a_mark ds name /\ describes E ds name e.
Proof.
  intros HP HI. destruct (Forall2_in_r _ _ _ _ (p_marks _ _ _ _ HP) HI) as (name & HN & HD). exists name. split; [|assumption].
  pose proof (all_definitions_spec ds) as H. destruct (get_all_definitions ds). now apply H.
Qed.
Lemma part_node E ds es fs e : parts E ds es fs -> In e fs -> exists name, a_node ds name /\ describes E ds name e.
Proof.
  intros HP HI. destruct (Forall2_in_r _ _ _ _ (p_nodes _ _ _ _ HP) HI) as (name & HN & HD). exists name. split; [|assumption].
  pose proof (all_definitions_spec ds) as H. destruct (get_all_definitions ds). now apply H.
Qed.
Lemma mark_part E ds es fs name : parts E ds es fs -> a_mark ds name -> exists e, In e es /\ describes E ds name e.
Proof.
  intros HP HM. apply (Forall2_in_l _ _ _ _ (p_marks _ _ _ _ HP)). pose proof (all_definitions_spec ds) as H. destruct (get_all_definitions ds). now apply H.
Qed.
Lemma node_part E ds es fs name : parts E ds es fs -> a_node ds name -> exists e, In e fs /\ describes E ds name e.
Proof.
  intros HP HM. apply (Forall2_in_l _ _ _ _ (p_nodes _ _ _ _ HP)). pose proof (all_definitions_spec ds) as H. destruct (get_all_definitions ds). now apply H.
Qed.
Lemma a_mark_not_node ds name : a_mark ds name -> a_node ds name -> False.
Proof. intros (_ & [x ->] & _) (_ & [y HY] & _). symmetry in HY. now apply node_not_mark in HY. Qed.
Definition text_of (ds : defs) (name : str) (e : names * info) (text : str) : Prop :=
  (a_mark ds name /\ text = mark_file (fst e) (snd e)) \/ (a_node ds name /\ text = node_file (fst e) (snd e)).
Definition stub_of (ds : defs) (name : str) (e : names * info) (text : str) : Prop :=
  (a_mark ds name /\ text = mark_stub (fst e)) \/ (a_node ds name /\ text = node_stub (fst e)).
Lemma action_cases E ds es fs a : parts E ds es fs -> In a (actions E ds) ->
  a = Write (Nodes, s "parse.py") (parse_file (map fst es) (map fst fs)) \/
  exists name e c, wanted E ds name (n_module (fst e)) /\ describes E ds name e /\
    ((text_of ds name e c /\ a = Write (Nodes, py (n_module (fst e))) c) \/ (stub_of ds name e c /\ a = WriteIfAbsent (Mixins, py (n_module (fst e))) c)).
Proof.
  intros HP. rewrite (p_actions _ _ _ _ HP), !in_app_iff. intros [[HI|[HI|[<-|[]]]]|[HI|HI]]; [| |now left| |]; right.
  - apply in_map_iff in HI. destruct HI as (e & <- & HI). destruct (part_mark _ _ _ _ _ HP HI) as (name & HM & HD). exists name, e, (mark_file (fst e) (snd e)).
    split; [split; [now left|now apply (describes_module E ds)]|]. split; [assumption|]. left. split; [now left|reflexivity].
  - apply in_map_iff in HI. destruct HI as (e & <- & HI). destruct (part_node _ _ _ _ _ HP HI) as (name & HM & HD). exists name, e, (node_file (fst e) (snd e)).
    split; [split; [now right|now apply (describes_module E ds)]|]. split; [assumption|]. left. split; [now right|reflexivity].
  - apply in_map_iff in HI. destruct HI as (n & <- & HI). apply in_map_iff in HI. destruct HI as (e & <- & HI).
    destruct (part_mark _ _ _ _ _ HP HI) as (name & HM & HD). exists name, e, (mark_stub (fst e)).
    split; [split; [now left|now apply (describes_module E ds)]|]. split; [assumption|]. right. split; [now left|reflexivity].
  - apply in_map_iff in HI. destruct HI as (n & <- & HI). apply in_map_iff in HI. destruct HI as (e & <- & HI).
    destruct (part_node _ _ _ _ _ HP HI) as (name & HM & HD). exists name, e, (node_stub (fst e)).
    split; [split; [now right|now apply (describes_module E ds)]|]. split; [assumption|]. right. split; [now right|reflexivity].
Qed.
Lemma wanted_part E ds es fs name m : parts E ds es fs -> wanted E ds name m -> exists e c c', describes E ds name e /\ n_module (fst e) = m /\
  text_of ds name e c /\ In (Write (Nodes, py m) c) (actions E ds) /\ stub_of ds name e c' /\ In (WriteIfAbsent (Mixins, py m) c') (actions E ds).
Proof.
  intros HP [[HM|HM] HMOD].
  - destruct (mark_part _ _ _ _ _ HP HM) as (e & HI & HD). pose proof (describes_module _ _ _ _ HD) as HX. assert (n_module (fst e) = m) by (eapply module_unique; eassumption). subst m.
    exists e, (mark_file (fst e) (snd e)), (mark_stub (fst e)). split; [assumption|]. split; [reflexivity|]. split; [now left|]. rewrite (p_actions _ _ _ _ HP), !in_app_iff. split; [|split; [now left|]].
    + left. left. apply in_map_iff. now exists e.
    + right. left. apply in_map_iff. exists (fst e). split; [reflexivity|now apply in_map].
  - destruct (node_part _ _ _ _ _ HP HM) as (e & HI & HD). pose proof (describes_module _ _ _ _ HD) as HX. assert (n_module (fst e) = m) by (eapply module_unique; eassumption). subst m.
    exists e, (node_file (fst e) (snd e)), (node_stub (fst e)). split; [assumption|]. split; [reflexivity|]. split; [now right|]. rewrite (p_actions _ _ _ _ HP), !in_app_iff. split; [|split; [now right|]].
    + left. right. left. apply in_map_iff. now exists e.
    + right. right. apply in_map_iff. exists (fst e). split; [reflexivity|now apply in_map].
Qed.
Lemma text_unique ds name e c c' : text_of ds name e c -> text_of ds name e c' -> c = c'.
Proof. intros [[H1 ->]|[H1 ->]] [[H2 ->]|[H2 ->]]; try reflexivity; exfalso; eapply a_mark_not_node; eassumption. Qed.
Lemma stub_unique ds name e c c' : stub_of ds name e c -> stub_of ds name e c' -> c = c'.
Proof. intros [[H1 ->]|[H1 ->]] [[H2 ->]|[H2 ->]]; try reflexivity; exfalso; eapply a_mark_not_node; eassumption. Qed.

Lemma alone_file E ds name m h h' : run E ds h Complete h' -> alone E ds name m ->
  exists e c, describes E ds name e /\ n_module (fst e) = m /\ text_of ds name e c /\ file h' (Nodes, py m) = Some c.
Proof.
  intros HR [HW HA]. assert (HAC : acceptable E ds) by (exists h, h'; assumption). destruct (parts_exist E ds HAC) as (es & fs & HP).
  destruct (wanted_part _ _ _ _ _ _ HP HW) as (e & c & c' & HD & HM & HT & HI & _). exists e, c. split; [assumption|]. split; [assumption|]. split; [assumption|].
  apply run_iff in HR. pose proof (complete_last _ _ _ _ HR) as HL. rewrite (ends_written _ _ _ _ _ (Nodes, py m) HR) by (congruence || apply nodes_write).
  rewrite (written_all (Nodes, py m) _ c HI); [reflexivity|]. intros c0 H0. destruct (action_cases _ _ _ _ _ HP H0) as [HX|(name0 & e0 & c1 & HW0 & HD0 & [[HT0 HX]|[_ HX]])].
  - exfalso. injection HX as HX _. apply (py_not_parse E name m); [apply HW|exact HX].
  - injection HX as HX ->. apply py_inj in HX. rewrite <- HX in HW0. apply HA in HW0. subst name0. rewrite (describes_unique _ _ _ _ _ HD0 HD) in HT0. now apply (text_unique ds name e).
  - discriminate.
Qed.
Lemma alone_stub E ds name m h h' : run E ds h Complete h' -> alone E ds name m ->
  exists e c, describes E ds name e /\ n_module (fst e) = m /\ stub_of ds name e c /\
  file h' (Mixins, py m) = match file h (Mixins, py m) with Some old => Some old | None => Some c end.
Proof.
  intros HR [HW HA]. assert (HAC : acceptable E ds) by (exists h, h'; assumption). destruct (parts_exist E ds HAC) as (es & fs & HP).
  destruct (wanted_part _ _ _ _ _ _ HP HW) as (e & c' & c & HD & HM & _ & _ & HT & HI). exists e, c. split; [assumption|]. split; [assumption|]. split; [assumption|].
  apply run_iff in HR. pose proof (complete_last _ _ _ _ HR) as HL. rewrite (ends_stubbed _ _ _ _ _ (Mixins, py m) HR) by (congruence || apply mixins_absent).
  rewrite (stubbed_all (Mixins, py m) _ c HI); [reflexivity|]. intros c0 H0. destruct (action_cases _ _ _ _ _ HP H0) as [HX|(name0 & e0 & c1 & HW0 & HD0 & [[_ HX]|[HT0 HX]])].
  - discriminate.
  - discriminate.
  - injection HX as HX ->. apply py_inj in HX. rewrite <- HX in HW0. apply HA in HW0. subst name0. rewrite (describes_unique _ _ _ _ _ HD0 HD) in HT0. now apply (stub_unique ds name e).
Qed.
Lemma parse_written E ds es fs h h' : parts E ds es fs -> run E ds h Complete h' -> file h' (Nodes, s "parse.py") = Some (parse_file (map fst es) (map fst fs)).
Proof.
  intros HP HR. apply run_iff in HR. pose proof (complete_last _ _ _ _ HR) as HL. rewrite (ends_written _ _ _ _ _ (Nodes, s "parse.py") HR) by (congruence || apply nodes_write).
  rewrite (written_all _ _ (parse_file (map fst es) (map fst fs))); [reflexivity| |].
  - rewrite (p_actions _ _ _ _ HP), !in_app_iff. left. right. right. now left.
  - intros c HI. destruct (action_cases _ _ _ _ _ HP HI) as [HX|(name0 & e0 & c1 & HW0 & HD0 & [[_ HX]|[HT0 HX]])]; [congruence| |discriminate].
    exfalso. injection HX as HX _. symmetry in HX. revert HX. apply (py_not_parse E name0), HW0.
Qed.
