(** C57-C62: the class generator scripts/s02-nodes-code-gen (see properties.jsonl). *)
From Coq Require Import List NArith ZArith Bool String Arith Lia Sorted Permutation.
From Verif Require Import PyStr Values Basics StrFacts LeafFacts SerFacts2 GenCode SpecApi ApiFacts Analyze SpecEqual SpecAnalyze AnalyzeFacts AnalyzeFacts3 AnalyzeFacts4 GenNodes SpecGenNodes GenNodesFacts GenNodesFacts2 GenNodesFacts3 GenNodesFacts4 GenNodesFacts5 GenNodesFacts6 GenNodesFacts7.
From Verif Require Properties_Analyze.
Import ListNotations.
Open Scope string_scope.
Open Scope list_scope.

(** ---------------------------------------------------------------- C57 *)
(** A mixin file that exists is never changed, by any number of runs on any schemas, wherever they stop. *)
Theorem C57_mixins_never_overwritten E h h' x c : history E h h' -> file h (Mixins, x) = Some c -> file h' (Mixins, x) = Some c.
Proof.
  induction 1 as [h|ds h e h1 h2 HR HH IH]; intros HF; [assumption|]. apply IH. apply run_iff in HR.
  eapply ends_absent; [exact HR|apply mixins_absent|assumption].
Qed.
(** The only files that change are nodes/parse.py and the modules of definitions of the schema. *)
Theorem C57_run_touches E ds h e h' p : run E ds h e h' -> file h' p <> file h p ->
  p = (Nodes, s "parse.py") \/ exists n m, wanted E ds n m /\ (p = (Nodes, m ++ s ".py") \/ (p = (Mixins, m ++ s ".py") /\ file h p = None)).
Proof.
  intros HR HC. pose proof HR as HR'. apply run_iff in HR.
  assert (HX : exists a, In a (actions E ds) /\ p = at_ a).
  { clear HR'. destruct (existsb (fun a => path_eqb p (at_ a)) (actions E ds)) eqn:K.
    - apply existsb_exists in K. destruct K as (a & HI & HA). apply path_eqb_iff in HA. now exists a.
    - exfalso. apply HC. apply (ends_other _ _ _ _ _ _ HR). intros a HI ->.
      assert (existsb (fun a0 => path_eqb (at_ a) (at_ a0)) (actions E ds) = true); [|congruence].
      apply existsb_exists. exists a. split; [assumption|apply path_eqb_refl]. }
  destruct HX as (a & HI & ->). destruct (actions_expected E ds a HI) as [[c ->]|(n & m & c & HW & [-> | ->])]; [now left|right|right]; exists n, m; (split; [assumption|]).
  - now left.
  - right. split; [reflexivity|]. cbn [at_] in *. destruct (file h (Mixins, py m)) as [old|] eqn:KF; [|reflexivity].
    exfalso. apply HC. apply (ends_absent _ _ _ _ _ _ _ HR (mixins_absent E ds (py m)) KF).
Qed.
Theorem C57_history_touches E h h' p : history E h h' -> file h' p <> file h p ->
  p = (Nodes, s "parse.py") \/ exists kind x, (kind = s "mark_" \/ kind = s "node_") /\ (p = (Nodes, kind ++ x ++ s ".py") \/ p = (Mixins, kind ++ x ++ s ".py")).
Proof.
  induction 1 as [h|ds h e h1 h2 HR HH IH]; intros HC; [congruence|].
  assert (HD : file h1 p = file h p \/ file h1 p <> file h p).
  { destruct (file h1 p) as [a|], (file h p) as [b|]; try (right; discriminate); [|now left]. destruct (str_eq_dec a b); [left; congruence|right; congruence]. }
  destruct HD as [HD|HD]; [apply IH; congruence|].
  destruct (C57_run_touches E ds h e h1 p HR HD) as [->|(n & m & HW & HP)]; [now left|right]. destruct HW as [_ HM]. apply module_kind in HM.
  destruct HM as (x & [-> | ->]); [exists (s "mark_"), x|exists (s "node_"), x]; rewrite <- !app_assoc in HP; (split; [auto|]); destruct HP as [->|[-> _]]; auto.
Qed.
(** No file ever disappears. *)
Theorem C57_nothing_deleted E h h' p c : history E h h' -> file h p = Some c -> exists c', file h' p = Some c'.
Proof.
  intros HH. revert c. induction HH as [h|ds h e h1 h2 HR HH IH]; intros c HF; [eauto|]. apply run_iff in HR. destruct (ends_keeps _ _ _ _ _ HR p c HF) as [c' HF']. eauto.
Qed.

(** ---------------------------------------------------------------- C58 *)
(** After a complete run the directory nodes/ is determined by the schema and by the files the run does not write. *)
Theorem C58_nodes_from_schema E ds : exists out : str -> option str, forall h h', run E ds h Complete h' ->
  forall x, file h' (Nodes, x) = match out x with Some c => Some c | None => file h (Nodes, x) end.
Proof.
  exists (fun x => written (Nodes, x) (actions E ds)). intros h h' HR x. apply run_iff in HR. pose proof (complete_last _ _ _ _ HR) as HL.
  apply (ends_written _ _ _ _ _ _ HR); try congruence. apply nodes_write.
Qed.
Lemma unwritten E ds x h e h' : written (Nodes, x) (actions E ds) = None -> run E ds h e h' -> file h' (Nodes, x) = file h (Nodes, x).
Proof.
  intros HN HR. apply run_iff in HR. apply (ends_other _ _ _ _ _ _ HR). intros a HI HQ. destruct (nodes_write E ds x a HI (eq_sym HQ)) as [c ->].
  clear -HN HI. induction (actions E ds) as [|b l IH]; [destruct HI|]. cbn [written] in HN. destruct (written (Nodes, x) l) eqn:K; [discriminate|].
  destruct HI as [->|HI]; [now rewrite path_eqb_refl in HN|]. now apply IH.
Qed.
(** However often the program was stopped before, a complete run leaves nodes/ as a complete run at the first try would have. *)
Theorem C58_rerun_repairs E ds h h1 h2 h3 : retries E ds h h1 -> run E ds h1 Complete h2 -> run E ds h Complete h3 ->
  forall x, file h2 (Nodes, x) = file h3 (Nodes, x).
Proof.
  intros HT H2 H3 x. pose proof H2 as R2. pose proof H3 as R3. apply run_iff in H2, H3. pose proof (complete_last _ _ _ _ H2) as HL.
  rewrite (ends_written _ _ _ _ _ (Nodes, x) H2), (ends_written _ _ _ _ _ (Nodes, x) H3) by (congruence || apply nodes_write).
  destruct (written (Nodes, x) (actions E ds)) eqn:K; [reflexivity|]. clear -HT K. induction HT as [h|h e h1 h2 HR HT IH]; [reflexivity|].
  rewrite IH. now apply (unwritten E ds x h e h1).
Qed.
(** With both directories in place nothing but a kill or a bad schema stops the program. *)
Theorem C58_completes E ds h : acceptable E ds -> has_dir h Nodes = true -> has_dir h Mixins = true ->
  (exists h', run E ds h Complete h') /\ forall e h', run E ds h e h' -> e = Complete \/ e = Killed.
Proof.
  intros HA HN HM. apply acceptable_last in HA.
  assert (HD : forall a, In a (actions E ds) -> has_dir h (fst (at_ a)) = true).
  { intros a HI. destruct (actions_expected E ds a HI) as [[c ->]|(n & m & c & _ & [-> | ->])]; assumption. }
  split.
  - destruct (ends_exists (last_of E ds) (actions E ds) h HD) as [h' H]. exists h'. apply run_iff. rewrite HA in *. exact H.
  - intros e h' HR. apply run_iff in HR. rewrite <- HA. now apply (ends_reached _ _ _ _ _ HR).
Qed.
(** Every definition then has a mixin: the file that was there, else the stub. *)
Theorem C58_mixins_complete E ds h h' n m : run E ds h Complete h' -> wanted E ds n m -> exists c, file h' (Mixins, m ++ s ".py") = Some c.
Proof.
  intros HR HW. assert (HAC : acceptable E ds) by (exists h, h'; assumption). destruct (parts_exist E ds HAC) as (es & fs & HP).
  destruct (wanted_part _ _ _ _ _ _ HP HW) as (e & c & c' & _ & _ & _ & _ & _ & HI). apply run_iff in HR. pose proof (complete_last _ _ _ _ HR) as HL.
  assert (HF : file h' (Mixins, m ++ s ".py") = match file h (Mixins, py m) with Some c => Some c | None => stubbed (Mixins, py m) (actions E ds) end)
    by (apply (ends_stubbed _ _ _ _ _ (Mixins, py m) HR); congruence || apply mixins_absent).
  rewrite HF. clear HF.
  destruct (file h (Mixins, py m)) as [old|]; [eauto|]. clear -HI. induction (actions E ds) as [|a l IH]; [destruct HI|]. cbn [stubbed].
  destruct HI as [->|HI]; [rewrite path_eqb_refl; eauto|]. destruct a as [q x|q x]; [now apply IH|]. destruct (path_eqb (Mixins, py m) q); [eauto|now apply IH].
Qed.
(** The repair does not reach mixins/: a run killed while it writes a new stub can leave any beginning of it (the empty
    file included), and no later run ever completes that file. *)
Theorem C58_mixins_repaired_refuted E ds h h' x b r : run E ds h Complete h' -> file h (Mixins, x) = None -> file h' (Mixins, x) = Some (b ++ r) ->
  exists h1, run E ds h Killed h1 /\ file h1 (Mixins, x) = Some b /\ forall h2, history E h1 h2 -> file h2 (Mixins, x) = Some b.
Proof.
  intros HR HN HF. apply run_iff in HR. pose proof (complete_last _ _ _ _ HR) as HL. rewrite HL in HR.
  destruct (stub_cut _ _ _ _ _ b r HR (mixins_absent E ds x) HN HF eq_refl) as (h1 & H1 & H2). exists h1. split; [apply run_iff; now rewrite HL|]. split; [assumption|].
  intros h2 HH. now apply (C57_mixins_never_overwritten E h1).
Qed.

(** ---------------------------------------------------------------- C59 *)
(** Without the directory mixins/ (as in the repository) the program first replaces every module of nodes/, whoever wrote
    it, and then fails with FileNotFoundError, always. *)
Theorem C59_without_mixins E ds h : acceptable E ds -> (exists n m, wanted E ds n m) -> tree h -> has_dir h Nodes = true -> has_dir h Mixins = false ->
  (exists h', run E ds h NoDirectory h') /\
  (forall e h', run E ds h e h' -> e = NoDirectory \/ e = Killed) /\
  (forall h' g g', run E ds h NoDirectory h' -> run E ds g Complete g' ->
     file h' (Nodes, s "parse.py") = file g' (Nodes, s "parse.py") /\
     forall n m, wanted E ds n m -> file h' (Nodes, m ++ s ".py") = file g' (Nodes, m ++ s ".py")).
Proof.
  intros HA (n0 & m0 & HW0) HT HN HM. destruct (parts_exist E ds HA) as (es & fs & HP). pose proof (p_actions _ _ _ _ HP) as HX.
  set (W := map (class_write mark_file) es ++ map (class_write node_file) fs ++ [Write (Nodes, s "parse.py") (parse_file (map fst es) (map fst fs))]) in *.
  set (S := map (stub_write mark_stub) (map fst es) ++ map (stub_write node_stub) (map fst fs)) in *.
  assert (HWN : forall b, In b W -> fst (at_ b) = Nodes).
  { intros b HB. subst W. rewrite !in_app_iff in HB. destruct HB as [HB|[HB|[<-|[]]]]; [| |reflexivity]; apply in_map_iff in HB; destruct HB as (e & <- & _); reflexivity. }
  assert (HSM : forall b, In b S -> fst (at_ b) = Mixins).
  { intros b HB. subst S. rewrite !in_app_iff in HB. destruct HB as [HB|HB]; apply in_map_iff in HB; destruct HB as (e & <- & _); reflexivity. }
  assert (HS : exists a R, S = a :: R).
  { destruct (wanted_part _ _ _ _ _ _ HP HW0) as (e & c & c' & _ & _ & _ & _ & _ & HI). rewrite HX in HI. apply in_app_iff in HI. destruct HI as [HI|HI].
    - apply HWN in HI. discriminate.
    - destruct S as [|a R]; [destruct HI|eauto]. }
  destruct HS as (a & R & HS). rewrite HS in *. assert (HAM : fst (at_ a) = Mixins) by (apply HSM; now left).
  assert (C1 : forall b, In b W -> at_ b <> at_ a) by (intros b HB HQ; apply HWN in HB; rewrite HQ, HAM in HB; discriminate).
  assert (C2 : forall b, In b W -> has_dir h (fst (at_ b)) = true) by (intros b HB; now rewrite (HWN b HB)).
  assert (C3 : has_dir h (fst (at_ a)) = false) by now rewrite HAM.
  assert (C4 : file h (at_ a) = None) by (destruct (file h (at_ a)) eqn:K; [apply HT in K; congruence|reflexivity]).
  split; [|split].
  - destruct (stops_exists (last_of E ds) W a R h C1 C2 C3 C4) as [h' H]. exists h'. apply run_iff. now rewrite HX.
  - intros e h' HR. apply run_iff in HR. rewrite HX in HR. destruct (stops_at_stub _ _ _ _ _ _ _ HR C1 C2 C3 C4) as [->|[-> _]]; auto.
  - intros h' g g' HR HG. apply run_iff in HR. rewrite HX in HR. destruct (stops_at_stub _ _ _ _ _ _ _ HR C1 C2 C3 C4) as [HK|[_ HE]]; [discriminate|].
    apply run_iff in HG. pose proof (complete_last _ _ _ _ HG) as HL.
    assert (HQ : forall x c, written (Nodes, x) (actions E ds) = Some c -> file h' (Nodes, x) = file g' (Nodes, x)).
    { intros x c HC. rewrite (ends_written _ _ _ _ _ (Nodes, x) HG) by (congruence || apply nodes_write). rewrite HC.
      assert (OW : only_write (Nodes, x) W) by (intros b HB; apply (nodes_write E ds x b); rewrite HX; apply in_app_iff; now left).
      rewrite (ends_written _ _ _ _ _ (Nodes, x) HE eq_refl) by (congruence || assumption).
      rewrite HX, written_app in HC; [now rewrite HC|]. intros b HB HQ. apply HSM in HB. rewrite HQ in HB. discriminate. }
    assert (HI2 : forall x c, In (Write (Nodes, x) c) (actions E ds) -> exists c', written (Nodes, x) (actions E ds) = Some c').
    { intros x c. clear. induction (actions E ds) as [|b l IH]; [intros []|]. intros [->|HI]; cbn [written].
      - destruct (written (Nodes, x) l); [eauto|]. rewrite path_eqb_refl. eauto.
      - destruct (IH HI) as [c' ->]. eauto. }
    split.
    + destruct (HI2 (s "parse.py") (parse_file (map fst es) (map fst fs))) as [c' HC]; [|now apply (HQ _ c')].
      rewrite (p_actions _ _ _ _ HP), !in_app_iff. left. right. right. now left.
    + intros n m HW. destruct (wanted_part _ _ _ _ _ _ HP HW) as (e & c & c' & _ & _ & _ & HI & _). destruct (HI2 _ _ HI) as [c0 HC]. now apply (HQ _ c0).
Qed.

(** ---------------------------------------------------------------- C60 *)
(** Marks and nodes never share a file, and neither is parse.py. *)
Theorem C60_kinds_apart E n n' m m' : module_of E n m -> module_of E n' m' -> m ++ s ".py" <> s "parse.py" /\
  (m = m' -> ends_with "_mark" n <-> ends_with "_mark" n').
Proof.
  intros HM HM'. split; [now apply (py_not_parse E n)|]. intros <-. destruct HM as (x & [[-> ->]|[-> ->]]), HM' as (y & [[-> HE]|[-> HE]]); try discriminate HE.
  - split; intros _; unfold ends_with; eauto.
  - split; intros [z HZ]; now apply node_not_mark in HZ.
Qed.
(** Definitions that share a file differ only in case and underscores; they also share the class. *)
Theorem C60_same_file E n n' m : ascii_case E -> all_ascii n -> all_ascii n' -> module_of E n m -> module_of E n' m ->
  letters n = letters n' /\ forall c, class_of E n c <-> class_of E n' c.
Proof.
  intros HE HA HA' HM HM'.
  assert (HX : exists x y t, n = x ++ s t /\ n' = y ++ s t /\ (t = "_mark" \/ t = "_node") /\ camel_to_snake E x = camel_to_snake E y).
  { destruct HM as (x & [[-> ->]|[-> ->]]), HM' as (y & [[-> HQ]|[-> HQ]]); try discriminate HQ; apply app_inv_head in HQ.
    - exists x, y, "_mark". auto.
    - exists x, y, "_node". auto. }
  destruct HX as (x & y & t & -> & -> & HT & HQ). split.
  - rewrite !letters_app. f_equal. rewrite <- (snake_letters E x), <- (snake_letters E y), HQ; auto; intros c HC; [apply HA'|apply HA]; apply in_app_iff; now left.
  - assert (HG : forall x y, camel_to_snake E x = camel_to_snake E y -> forall c, class_of E (x ++ s t) c -> class_of E (y ++ s t) c).
    { intros x0 y0 HQ0 c (z & HZ). exists y0. destruct HT as [-> | ->], HZ as [[HZ ->]|[HZ ->]].
      - apply app_inv_tail in HZ. subst z. left. now rewrite HQ0.
      - exfalso. symmetry in HZ. now apply node_not_mark in HZ.
      - exfalso. now apply node_not_mark in HZ.
      - apply app_inv_tail in HZ. subst z. right. now rewrite HQ0. }
    intros c. split; apply HG; congruence.
Qed.
(** The letters of the type name survive in the module and in the class; a name that is in snake case already is kept. *)
Theorem C60_names_recognizable E n m c : ascii_case E -> all_ascii n -> module_of E n m -> class_of E n c ->
  exists x kind, n = x ++ s "_" ++ kind /\ (kind = s "mark" \/ kind = s "node") /\ letters m = kind ++ letters x /\ letters c = kind ++ letters x /\
  (forall a, In a m -> is_up a = false) /\ ((forall a, In a x -> is_up a = false) -> m = kind ++ s "_" ++ x).
Proof.
  intros HE HA HM HC.
  assert (HG : forall x, all_ascii x -> letters (camel_to_snake E x) = letters x /\ letters (snake_to_pascal E (camel_to_snake E x)) = letters x /\
            (forall a, In a (camel_to_snake E x) -> is_up a = false) /\ ((forall a, In a x -> is_up a = false) -> camel_to_snake E x = x)).
  { intros x HX. destruct (snake_lower E x HE HX) as [H1 H2]. split; [now apply snake_letters|]. split; [|split; [assumption|now apply snake_id]].
    rewrite pascal_letters by assumption. now apply snake_letters. }
  destruct HM as (x & [[-> ->]|[-> ->]]), HC as (y & [[HQ ->]|[HQ ->]]); try (exfalso; now apply node_not_mark in HQ); try (exfalso; symmetry in HQ; now apply node_not_mark in HQ);
    apply app_inv_tail in HQ; subst y; (destruct (HG x) as (G1 & G2 & G3 & G4); [intros a Ha; apply HA; apply in_app_iff; now left|]).
  - exists x, (s "mark"). rewrite !letters_app, G1, G2. split; [reflexivity|]. split; [now left|]. split; [reflexivity|]. split; [reflexivity|]. split.
    + intros a Ha. apply in_app_iff in Ha. destruct Ha as [Ha|Ha]; [|now apply G3]. cbn in Ha. repeat destruct Ha as [<-|Ha]; reflexivity || contradiction.
    + intros HU. now rewrite G4.
  - exists x, (s "node"). rewrite !letters_app, G1, G2. split; [reflexivity|]. split; [now right|]. split; [reflexivity|]. split; [reflexivity|]. split.
    + intros a Ha. apply in_app_iff in Ha. destruct Ha as [Ha|Ha]; [|now apply G3]. cbn in Ha. repeat destruct Ha as [<-|Ha]; reflexivity || contradiction.
    + intros HU. now rewrite G4.
Qed.

(** Names in camel case: the module is the words joined by underscores, the class the words capitalized. *)
Theorem C60_camel_case E w ws kind Kind : ascii_case E -> Forall word (w :: ws) -> (kind, Kind) = ("mark", "Mark") \/ (kind, Kind) = ("node", "Node") ->
  module_of E (camel_case (w :: ws) ++ s "_" ++ s kind) (s kind ++ s "_" ++ snake_case (w :: ws)) /\
  class_of E (camel_case (w :: ws) ++ s "_" ++ s kind) (s Kind ++ pascal_case (w :: ws)).
Proof.
  intros HE HF HK. pose proof (snake_of_camel E w ws HE HF) as H1. assert (H2 : snake_to_pascal E (snake_case (w :: ws)) = pascal_case (w :: ws)) by (apply pascal_of_snake; [assumption|discriminate|assumption]).
  split; exists (camel_case (w :: ws)); destruct HK as [HK|HK]; injection HK as -> ->; [left|right|left|right]; rewrite ?H1, ?H2; split; reflexivity.
Qed.
(** So two definitions in camel case never share a file. *)
Theorem C60_camel_distinct E ws ws' n n' m kind kind' : ascii_case E -> ws <> [] -> ws' <> [] -> Forall word ws -> Forall word ws' ->
  In kind ["_mark"; "_node"] -> In kind' ["_mark"; "_node"] -> n = camel_case ws ++ s kind -> n' = camel_case ws' ++ s kind' ->
  module_of E n m -> module_of E n' m -> n = n'.
Proof.
  intros HE HN HN' HF HF' HK HK' -> -> HM HM'. destruct ws as [|w ws]; [congruence|]. destruct ws' as [|w' ws']; [congruence|].
  pose proof (snake_of_camel E w ws HE HF) as H1. pose proof (snake_of_camel E w' ws' HE HF') as H2.
  assert (HG : forall x k y, In k ["_mark"; "_node"] -> module_of E (x ++ s k) y -> k = "_mark" /\ y = s "mark_" ++ camel_to_snake E x \/ k = "_node" /\ y = s "node_" ++ camel_to_snake E x).
  { intros x k y HI (z & [[HZ ->]|[HZ ->]]); cbn [In] in HI; destruct HI as [<-|[<-|[]]].
    - apply app_inv_tail in HZ. subst. now left.
    - exfalso. now apply node_not_mark in HZ.
    - exfalso. symmetry in HZ. now apply node_not_mark in HZ.
    - apply app_inv_tail in HZ. subst. now right. }
  destruct (HG _ _ _ HK HM) as [[-> HX]|[-> HX]], (HG _ _ _ HK' HM') as [[-> HY]|[-> HY]]; rewrite HX in HY; try discriminate HY; apply app_inv_head in HY;
    rewrite H1, H2 in HY; apply snake_case_inj in HY; try assumption; try discriminate; now rewrite HY.
Qed.
Example camel_table_cell : camel_case [s "table"; s "cell"] = s "tableCell" /\ snake_case [s "table"; s "cell"] = s "table_cell" /\ pascal_case [s "table"; s "cell"] = s "TableCell".
Proof. repeat split. Qed.
Example word_table : word (s "table") /\ word (s "h1").
Proof. split; (eexists _, _; split; [reflexivity|]; split; [reflexivity|]; split; [discriminate|]; intros a HA; cbn in HA; repeat destruct HA as [<-|HA]; try contradiction; auto). Qed.

(** The registry nodes/parse.py: fixed text, and for every mark and every node of the schema, in alphabetical order of the
    definitions, its import and its row. *)
Lemma entries_exist E ds l es : distinct_keys (VDict ds) -> Forall2 (describes E ds) l es ->
  exists rows, Forall2 (entry_of E ds) l rows /\ lines_ (map import_row (map fst es)) = List.concat (map import_text rows) /\
               lines_ (map registry_row (map fst es)) = List.concat (map registry_text rows).
Proof.
  intros DK. induction 1 as [|name e l es HD HF (rows & H1 & H2 & H3)]; [exists []; repeat split; constructor|].
  exists (Entry (n_module (fst e)) (n_class (fst e)) (n_enum (fst e)) :: rows). split; [|cbn [map List.concat]; rewrite !lines_cons, H2, H3; split].
  - constructor; [|assumption]. split; [now apply (describes_module E ds)|]. split.
    + destruct HD as [[ds1 HN] _]. now apply names_class in HN.
    + intros d HI. now apply (describes_stands E ds name e d).
  - unfold import_row, import_text. cbn. now rewrite <- !app_assoc.
  - unfold registry_row, registry_text. cbn [e_type e_class]. now rewrite <- !app_assoc.
Qed.
Theorem C60_registry : exists t1 t2 t3 t4 t5 : str, forall E ds h h', distinct_keys (VDict ds) -> run E ds h Complete h' ->
  exists marks nodes ms ns, alphabetical (a_mark ds) marks /\ alphabetical (a_node ds) nodes /\ Forall2 (entry_of E ds) marks ms /\ Forall2 (entry_of E ds) nodes ns /\
  file h' (Nodes, s "parse.py") = Some
    (t1 ++ List.concat (map import_text ms) ++ t2 ++ List.concat (map import_text ns) ++ t3 ++
     List.concat (map registry_text ms) ++ t4 ++ List.concat (map registry_text ns) ++ t5).
Proof.
  eexists _, _, _, _, _. intros E ds h h' DK HR. assert (HAC : acceptable E ds) by (exists h, h'; assumption). destruct (parts_exist E ds HAC) as (es & fs & HP).
  destruct (entries_exist E ds _ _ DK (p_marks _ _ _ _ HP)) as (ms & M1 & M2 & M3). destruct (entries_exist E ds _ _ DK (p_nodes _ _ _ _ HP)) as (ns & N1 & N2 & N3).
  exists (fst (get_all_definitions ds)), (snd (get_all_definitions ds)), ms, ns.
  assert (HND : NoDup (map fst ds)) by now apply dk_dict_inv.
  pose proof (all_definitions_spec ds) as HD.
  split; [|split; [|split; [assumption|split; [assumption|]]]].
  - split; [apply sort_strict; now repeat apply NoDup_filter|]. destruct (get_all_definitions ds). apply HD.
  - split; [apply sort_strict; now repeat apply NoDup_filter|]. destruct (get_all_definitions ds). apply HD.
  - rewrite (parse_written _ _ _ _ _ _ HP HR). f_equal. unfold parse_file. rewrite !lines_app, M2, N2, M3, N3. clear.
    match goal with |- (?a ++ ?b ++ ?c ++ ?d ++ ?e ++ ?f ++ ?g ++ ?h ++ ?i ++ ?j ++ ?k ++ ?l ++ ?m ++ ?n ++ ?o ++ ?p) ++ ?q = _ =>
      instantiate (1 := p ++ q); instantiate (1 := k ++ l ++ m ++ n); instantiate (1 := g ++ h ++ i); instantiate (1 := d ++ e); instantiate (1 := a ++ b) end.
    rewrite <- !app_assoc. reflexivity.
Qed.

(** ---------------------------------------------------------------- C61 *)
(** The attributes class of a definition with a property "attrs": the fields of the schema, those that must be given first
    (so that the dataclass is legal), both groups in alphabetical order, each with its Python type. *)
Theorem C61_attrs_class E ds h h' name m d attrs : distinct_keys (VDict ds) -> run E ds h Complete h' -> alone E ds name m ->
  In (name, VDict d) ds -> has_property d (s "attrs") (VDict attrs) ->
  exists c given optional before after, class_of E name c /\
    alphabetical (fun k => required_by attrs k /\ exists v, own_property attrs k v) (map fst given) /\
    alphabetical (fun k => ~ required_by attrs k /\ exists v, own_property attrs k v) (map fst optional) /\
    Forall (declares attrs) given /\ Forall (declares attrs) optional /\
    file h' (Nodes, m ++ s ".py") = Some (before ++ s "class " ++ c ++ s "Attrs(Base):" ++ nl ++
      s "    """"""Attributes for " ++ c ++ s "." ++ s """""""" ++ nl ++
      List.concat (map given_line given) ++ List.concat (map optional_line optional) ++ nl ++ nl ++ s "@dataclasses.dataclass(frozen=True)" ++ nl ++ after).
Proof.
  intros DK HR HAL HI HA. destruct (alone_file E ds name m h h' HR HAL) as (e & text & HD & HM & HT & HF).
  destruct (describes_info E ds name e d DK HI HD) as (p & _ & HINF & HPP & DD).
  pose proof (property_distinct d _ _ DD HA) as DA. apply HPP in HA.
  destruct (info_attrs p (snd e) attrs DA HINF HA) as (given & optional & G1 & G2 & G3 & G4 & G5).
  assert (HAT : has_attrs (snd e) = true) by (destruct (info_flags p (snd e) HINF) as [-> _]; now rewrite has_iff, HA).
  destruct (text_attrs ds name e text given optional HT HAT G5) as (before & after & ->).
  exists (n_class (fst e)), given, optional, before, after. split; [destruct HD as [[ds1 HN] _]; now apply names_class in HN|].
  repeat (split; [assumption|]). etransitivity; [exact HF|]. apply f_equal. unfold attrs_text. rewrite <- !app_assoc. reflexivity.
Qed.
(** The class itself: its bases, its type, and one line for each of attrs, content, marks, text and version that the
    definition has, in this order, at the end of the file. *)
Theorem C61_class_body E ds h h' name m d : distinct_keys (VDict ds) -> run E ds h Complete h' -> alone E ds name m -> In (name, VDict d) ds ->
  exists c t x kind base before a1 a2 a3 a4 a5, class_of E name c /\ stands_for d name t /\
    (name = x ++ s "_mark" /\ kind = s "Mark" /\ base = s "BaseMark" /\ a2 = [] /\ a3 = [] /\ a4 = [] /\ a5 = [] \/
     name = x ++ s "_node" /\ kind = s "Node" /\ base = s "BaseNode" /\
       line_if d "content" (s "    content: T.List[BaseNode] = OPT") a2 /\ line_if d "marks" (s "    marks: T.List[BaseMark] = OPT") a3 /\
       line_if d "text" (s "    text: str = OPT") a4 /\ line_if d "version" (s "    version: int = dataclasses.field(default=1)") a5) /\
    line_if d "attrs" (s "    attrs: " ++ c ++ s "Attrs = OPT") a1 /\
    file h' (Nodes, m ++ s ".py") = Some (before ++ s "class " ++ c ++ s "(" ++ c ++ s "Mixin, " ++ base ++ s "):" ++ nl ++ s "    """"""" ++ nl ++
      s "    ADF " ++ kind ++ s ": " ++ x ++ nl ++ s "    """"""" ++ nl ++ nl ++
      s "    type: str = dataclasses.field(default=TypeEnum." ++ t ++ s ".value)" ++ nl ++ a1 ++ a2 ++ a3 ++ a4 ++ a5).
Proof.
  intros DK HR HAL HI. destruct (alone_file E ds name m h h' HR HAL) as (e & text & HD & HM & HT & HF).
  destruct (describes_info E ds name e d DK HI HD) as (p & _ & HINF & HPP & DD). destruct (info_flags p (snd e) HINF) as (F1 & F2 & F3 & F4).
  pose proof (describes_stands E ds name e d DK HI HD) as HST.
  assert (HC : class_of E name (n_class (fst e))) by (destruct HD as [[ds1 HN] _]; now apply names_class in HN).
  assert (HTY : name = n_type (fst e) ++ s "_mark" \/ name = n_type (fst e) ++ s "_node") by (destruct HD as [[ds1 HN] _]; now apply names_spec in HN).
  set (c := n_class (fst e)) in *.
  set (a1 := if has (s "attrs") p then (s "    attrs: " ++ c ++ s "Attrs = OPT") ++ nl else []).
  assert (H1 : line_if d "attrs" (s "    attrs: " ++ c ++ s "Attrs = OPT") a1) by now apply flag_line.
  unfold py in HF. destruct HT as [[HK ->]|[HK ->]].
  - destruct (head_class (fst e) (snd e) (s "Mark") (s "Base, BaseMark") (s "BaseMark")) as [before HB].
    exists c, (n_enum (fst e)), (n_type (fst e)), (s "Mark"), (s "BaseMark"), before, a1, [], [], [], []. split; [assumption|]. split; [assumption|]. split.
    + left. destruct HTY as [->|HTY]; [auto 10|]. exfalso. subst name. destruct HK as (_ & [y HY] & _). now apply node_not_mark in HY.
    + split; [assumption|]. etransitivity; [exact HF|]. apply f_equal. unfold mark_file. rewrite HB, F1. unfold class_text, a1. fold c. rewrite <- !app_assoc, !app_nil_r. reflexivity.
  - destruct (head_class (fst e) (snd e) (s "Node") (s "Base, BaseMark, BaseNode") (s "BaseNode")) as [before HB].
    exists c, (n_enum (fst e)), (n_type (fst e)), (s "Node"), (s "BaseNode"), before, a1,
      (if has (s "content") p then s "    content: T.List[BaseNode] = OPT" ++ nl else []), (if has (s "marks") p then s "    marks: T.List[BaseMark] = OPT" ++ nl else []),
      (if has (s "text") p then s "    text: str = OPT" ++ nl else []), (if has (s "version") p then s "    version: int = dataclasses.field(default=1)" ++ nl else []).
    split; [assumption|]. split; [assumption|]. split.
    + right. destruct HTY as [HTY|HTY]; [exfalso; subst name; destruct HK as (_ & [y HY] & _); symmetry in HY; now apply node_not_mark in HY|].
      split; [assumption|]. split; [reflexivity|]. split; [reflexivity|]. repeat split; now apply flag_line.
    + split; [assumption|]. etransitivity; [exact HF|]. apply f_equal. unfold node_file. rewrite !lines_app, HB, F1, F2, F3, F4, map_app, lines_app. unfold class_text, a1. fold c.
      destruct (has (s "content") p), (has (s "marks") p), (has (s "text") p), (has (s "version") p); cbn [map app]; rewrite ?lines_cons; change (lines_ []) with (@nil N);
        rewrite <- !app_assoc, ?app_nil_r; reflexivity.
Qed.

(** C58, the stub: a definition that shares its module with no other and had no mixin gets one whose class is the one the generated module
    imports, and whose to_markdown is a placeholder: it gives its text back (a mark) or the empty string (a node). *)
Theorem C58_new_stub E ds h h' name m : run E ds h Complete h' -> alone E ds name m -> file h (Mixins, m ++ s ".py") = None ->
  exists c before parameters result, class_of E name c /\
    ((exists x, name = x ++ s "_mark") /\ parameters = s ", text: str" /\ result = s "text" \/
     (exists x, name = x ++ s "_node") /\ parameters = [] /\ result = s """""") /\
    file h' (Mixins, m ++ s ".py") = Some (before ++ s "    from ..nodes." ++ m ++ s " import " ++ c ++ nl ++ nl ++ nl ++
      s "class " ++ c ++ s "Mixin:" ++ nl ++ s "    def to_markdown(self: """ ++ c ++ s """" ++ parameters ++ s ") -> str:" ++ nl ++
      s "        # TODO: Implement markdown conversion" ++ nl ++ s "        return " ++ result).
Proof.
  intros HR HAL HN. destruct (alone_stub E ds name m h h' HR HAL) as (e & text & HD & HM & HT & HF). change (file h (Mixins, py m) = None) in HN. rewrite HN in HF.
  assert (HC : class_of E name (n_class (fst e))) by (destruct HD as [[ds1 HX] _]; now apply names_class in HX).
  assert (HB : forall kind sig body, exists before, mixin_stub (fst e) kind sig body = before ++ s "    from ..nodes." ++ m ++ s " import " ++ n_class (fst e) ++ nl ++ nl ++ nl ++
      s "class " ++ n_class (fst e) ++ s "Mixin:" ++ nl ++ s "    def to_markdown(self: """ ++ n_class (fst e) ++ s """" ++ sig ++ s ") -> str:" ++ nl ++
      s "        # TODO: Implement markdown conversion" ++ nl ++ s "        return " ++ body).
  { intros kind sig body. unfold mixin_stub. rewrite HM.
    exists (lines_ [s "# -*- coding: utf-8 -*-"; []; quotes3; s "Mixin for ADF " ++ kind ++ s ": " ++ n_type (fst e); [];
     s "This file is NOT auto-generated. Implement to_markdown() method here."; quotes3; []; s "import typing as T"; [];
     s "if T.TYPE_CHECKING:  # pragma: no cover"]).
    unfold lines_. cbn [map List.concat app]. rewrite <- !app_assoc. reflexivity. }
  destruct HT as [[HK ->]|[HK ->]].
  - destruct (HB (s "Mark") (s ", text: str") (s "text")) as [before E1]. exists (n_class (fst e)), before, (s ", text: str"), (s "text").
    split; [assumption|]. split; [left; split; [apply HK|auto]|]. etransitivity; [exact HF|]. apply f_equal. exact E1.
  - destruct (HB (s "Node") [] (s """""")) as [before E1]. exists (n_class (fst e)), before, [], (s """""").
    split; [assumption|]. split; [right; split; [apply HK|auto]|]. etransitivity; [exact HF|]. apply f_equal. exact E1.
Qed.

(** ---------------------------------------------------------------- C62 *)
(** The order in which the schema lists its definitions does not matter: the same endings on every disk. *)
Theorem C62_definition_order E ds ds' : NoDup (map fst ds) -> Permutation ds ds' -> forall h e h', run E ds h e h' <-> run E ds' h e h'.
Proof.
  intros HN HP h e h'. assert (HN' : NoDup (map fst ds')) by (eapply Permutation_NoDup; [apply Permutation_map, HP|assumption]).
  assert (HS : sees ds ds').
  { intros n. assert (HL : lookup n ds = lookup n ds').
    { destruct (lookup n ds) as [v|] eqn:K.
      - symmetry. apply lookup_in; [assumption|]. eapply Permutation_in; [exact HP|]. now apply lookup_In.
      - destruct (lookup n ds') as [v|] eqn:K'; [|reflexivity]. apply lookup_In in K'. apply (Permutation_in _ (Permutation_sym HP)) in K'.
        now apply (lookup_none_in _ _ _ K) in K'. }
    rewrite <- HL. destruct (lookup n ds); [now left|exact I]. }
  destruct (main_blind E ds ds' HS (all_definitions_same ds ds' (Permutation_map fst HP))) as [H1 H2].
  rewrite !run_ends, H1. destruct (snd (main E ds)) as [[u d1]|x], (snd (main E ds')) as [[u' d1']|x']; cbn in H2; try contradiction; [reflexivity|now subst].
Qed.
(** The program changes the schema it reads (it merges "allOf" into it); a second call of main() in the same process, on the
    changed schema, does the same as one on the original. *)
Lemma replace_keys k v d : map fst (replace_if_there k v d) = map fst d.
Proof.
  unfold replace_if_there. destruct (has k d) eqn:K; [|reflexivity]. rewrite has_iff in K. induction d as [|[j w] d IH]; [discriminate|]. cbn [set_item lookup] in *.
  rewrite (str_eqb_sym k j). destruct (str_eqb j k) eqn:KJ; [apply str_eqb_eq in KJ; now subst|]. cbn. now rewrite IH.
Qed.
Definition keeps_keys {A} (m : prog A) : Prop := forall ds a ds', snd (m ds) = Ok (a, ds') -> map fst ds' = map fst ds.
Lemma keys_bind {A B} (m : prog A) (k : A -> prog B) : keeps_keys m -> (forall a, keeps_keys (k a)) -> keeps_keys (bind m k).
Proof.
  intros HM HK ds b ds'. unfold bind. specialize (HM ds). destruct (m ds) as [l [[a d1]|x]]; [|discriminate]. specialize (HM a d1 eq_refl). specialize (HK a d1).
  destruct (k a d1) as [l' r]. cbn [snd] in *. intros HE. rewrite <- HM. now apply (HK b).
Qed.
Lemma keys_ret {A} (a : A) : keeps_keys (ret a).
Proof. intros ds b ds' HE. cbn in HE. congruence. Qed.
Lemma keys_emit a : keeps_keys (emit a).
Proof. intros ds b ds' HE. cbn in HE. congruence. Qed.
Lemma keys_each {A B} (f : A -> prog B) l : (forall a, keeps_keys (f a)) -> keeps_keys (each f l).
Proof. intros HF. induction l as [|a l IH]; [apply keys_ret|]. apply keys_bind; [apply HF|]. intros b. apply keys_bind; [exact IH|]. intros bs. apply keys_ret. Qed.
Lemma keys_names E name : keeps_keys (call (fun ds => def_name_to_names E ds name)).
Proof.
  intros ds n ds'. cbn [call snd]. unfold def_name_to_names. destruct (if is_mark name then _ else _) as [[? ?]|]; cbn [rbind]; [|discriminate].
  rewrite get_type_enum_eq. destruct (definition_of ds name); cbn [rbind]; [|discriminate]. destruct (merged_props _); cbn [rbind]; [|discriminate].
  destruct (enum_of _ _ _); cbn [rbind]; [|discriminate]. intros [= _ <-]. apply replace_keys.
Qed.
Lemma keys_info name : keeps_keys (call (fun ds => extract_schema_info ds name)).
Proof.
  intros ds n ds'. cbn [call snd]. rewrite extract_eq. destruct (definition_of ds name); cbn [rbind]; [|discriminate]. destruct (merged_props _); cbn [rbind]; [|discriminate].
  destruct (merged_required _); cbn [rbind]; [|discriminate]. destruct (info_of _); cbn [rbind]; [|discriminate]. intros [= _ <-]. apply replace_keys.
Qed.
Lemma main_keys E ds u ds' : snd (main E ds) = Ok (u, ds') -> map fst ds' = map fst ds.
Proof.
  rewrite main_eq. revert ds u ds'. intros ds. apply (fun H : keeps_keys (main_of E (fst (get_all_definitions ds)) (snd (get_all_definitions ds))) => H ds).
  assert (HC : forall content name, keeps_keys (class_step E content name)).
  { intros content name. apply keys_bind; [apply keys_names|]. intros n. apply keys_bind; [apply keys_info|]. intros i. apply keys_bind; [apply keys_emit|]. intros _. apply keys_ret. }
  assert (HS : forall content sfx n, keeps_keys (stub_step E content sfx n)) by (intros content sfx n; apply keys_bind; [apply keys_names|]; intros n'; apply keys_emit).
  unfold main_of. apply keys_bind; [now apply keys_each|]. intros l1. apply keys_bind; [now apply keys_each|]. intros l2. apply keys_bind; [apply keys_emit|]. intros _.
  apply keys_bind; [now apply keys_each|]. intros _. apply keys_bind; [now apply keys_each|]. intros _. apply keys_ret.
Qed.
Theorem C62_second_call E ds u ds' : snd (main E ds) = Ok (u, ds') -> forall h e h', run E ds' h e h' <-> run E ds h e h'.
Proof.
  intros HE h e h'. pose proof (main_sees E ds u ds' HE) as HS.
  assert (HG : get_all_definitions ds = get_all_definitions ds') by (apply all_definitions_same; now rewrite (main_keys E ds u ds' HE)).
  destruct (main_blind E ds ds' HS HG) as [H1 H2].
  rewrite !run_ends, H1. destruct (snd (main E ds)) as [[u1 d1]|x], (snd (main E ds')) as [[u' d1']|x']; cbn in H2; try contradiction; [reflexivity|now subst].
Qed.

(** ---------------------------------------------------------------- examples *)
Definition ascii_env : genv := GEnv (map ascii_lower) (fun x => match x with [] => [] | c :: r => upper_ascii c :: map ascii_lower r end) (fun _ => []).
Example ascii_env_ok : ascii_case ascii_env.
Proof. repeat split. Qed.
Definition typed (t : string) : str * value := (s "type", VDict [(s "enum", VList [VStr (s t)])]).
Definition sample_schema : defs :=
  [(s "text_node", VDict [(s "properties", VDict [typed "text"; (s "text", VDict []); (s "marks", VDict [])]); (s "required", VList [VStr (s "type")])]);
   (s "text_code_inline_with_marks_node", VDict []);
   (s "tableCell_node", VDict [(s "allOf", VList [VDict [(s "$ref", VStr (s "#/definitions/x"))]; VDict [(s "properties", VDict [typed "tableCell"; (s "content", VDict []);
      (s "attrs", VDict [(s "required", VList [VStr (s "rowspan")]); (s "properties", VDict [(s "colspan", VDict [(s "type", VStr (s "number"))]);
         (s "rowspan", VDict [(s "type", VStr (s "integer"))]); (s "background", VDict [(s "enum", VList [])])])])])]])]);
   (s "strong_mark", VDict [(s "properties", VDict [typed "strong"])]);
   (s "inline_node", VDict [])].
Definition text_out (x : str) : string := string_of_list_ascii (map Ascii.ascii_of_N x).
Definition both : disk := Disk (fun d => match d with Elsewhere _ => false | _ => true end)
  (fun p => if path_eqb p (Nodes, s "node_text.py") then Some (s "class NodeText(BaseNode): ...") else
            if path_eqb p (Mixins, s "mark_strong.py") then Some (s "class MarkStrongMixin: ...") else None).
(** The hypotheses are met, and the texts are those of the templates. *)
Definition final (h : disk) (l : list action) : option disk :=
  fold_left (fun o a => match o with Some h' => act a h' | None => None end) l (Some h).
Definition show (p : path) (o : option disk) : option string := match o with Some h => option_map text_out (file h p) | None => None end.
Lemma final_ends E ds h h' : last_of E ds = Complete -> final h (actions E ds) = Some h' -> run E ds h Complete h'.
Proof.
  intros HL. rewrite run_iff, HL. unfold final. revert h. induction (actions E ds) as [|a l IH]; intros h HF; cbn in HF; [injection HF as <-; constructor|].
  destruct (act a h) as [h1|] eqn:K; [eapply ends_next; [exact K|now apply IH]|]. exfalso. clear -HF. induction l; [discriminate|auto].
Qed.
Example sample_distinct : distinct_keys (VDict sample_schema).
Proof. apply Properties_Analyze.distinct_deep_ok. vm_compute. reflexivity. Qed.
Example sample_run : exists h', run ascii_env sample_schema both Complete h' /\
  option_map text_out (file h' (Nodes, s "node_table_cell.py")) = Some
"# -*- coding: utf-8 -*-

""""""
Auto-generated ADF Node: tableCell
""""""

import typing as T
import dataclasses

from func_args.api import OPT

from ..type_enum import TypeEnum
from ..mixins.node_table_cell import NodeTableCellMixin
from .base import Base, BaseMark, BaseNode


@dataclasses.dataclass(frozen=True)
class NodeTableCellAttrs(Base):
    """"""Attributes for NodeTableCell.""""""
    rowspan: int
    background: str = OPT
    colspan: float = OPT


@dataclasses.dataclass(frozen=True)
class NodeTableCell(NodeTableCellMixin, BaseNode):
    """"""
    ADF Node: tableCell
    """"""

    type: str = dataclasses.field(default=TypeEnum.tableCell.value)
    attrs: NodeTableCellAttrs = OPT
    content: T.List[BaseNode] = OPT
"%string /\
  file h' (Mixins, s "mark_strong.py") = Some (s "class MarkStrongMixin: ...") /\
  (exists c, file h' (Nodes, s "node_text.py") = Some c /\ c <> s "class NodeText(BaseNode): ...") /\
  file h' (Nodes, s "node_text_code_inline_with_marks.py") = None.
Proof.
  destruct (final both (actions ascii_env sample_schema)) as [h'|] eqn:K; [|vm_compute in K; discriminate].
  exists h'. split; [apply final_ends; [vm_compute; reflexivity|exact K]|].
  assert (HF : forall p, file h' p = match final both (actions ascii_env sample_schema) with Some h => file h p | None => None end) by (intros p; now rewrite K).
  split; [rewrite HF; vm_compute; reflexivity|]. split; [rewrite HF; vm_compute; reflexivity|]. split; [|rewrite HF; vm_compute; reflexivity].
  rewrite HF. match goal with |- exists c, ?x = Some c /\ _ => destruct x as [c|] eqn:KX; [|vm_compute in KX; discriminate] end.
  exists c. split; [reflexivity|]. intros ->. vm_compute in KX. discriminate.
Qed.
Example sample_alone : alone ascii_env sample_schema (s "tableCell_node") (s "node_table_cell").
Proof.
  assert (HB : base_definition (s "tableCell_node")) by (apply skipped_iff; reflexivity).
  split.
  - split; [right; split; [cbn; auto|split; [now exists (s "tableCell")|assumption]]|]. exists (s "tableCell"). right. split; reflexivity.
  - intros n [HN HM]. assert (HI : In n (map fst sample_schema)) by (destruct HN as [HN|HN]; apply HN). cbn [map fst sample_schema] in HI.
    assert (HU : forall m, module_of ascii_env n m -> m = s "node_table_cell") by (intros m HX; eapply module_unique; eassumption).
    repeat destruct HI as [<-|HI]; try reflexivity; try contradiction; exfalso.
    + specialize (HU (s "node_text")). assert (s "node_text" = s "node_table_cell"); [|discriminate]. apply HU. exists (s "text"). right. split; reflexivity.
    + destruct HN as [(_ & _ & HX)|(_ & _ & HX)]; apply skipped_iff in HX; vm_compute in HX; discriminate.
    + specialize (HU (s "mark_strong")). assert (s "mark_strong" = s "node_table_cell"); [|discriminate]. apply HU. exists (s "strong"). left. split; reflexivity.
    + destruct HN as [(_ & _ & HX)|(_ & _ & HX)]; apply skipped_iff in HX; vm_compute in HX; discriminate.
Qed.
(** The repository: nodes/ with hand-written modules, no mixins/. *)
Definition repository : disk := Disk (fun d => match d with Nodes => true | _ => false end)
  (fun p => if path_eqb p (Nodes, s "node_text.py") then Some (s "class NodeText(BaseNode): ...") else None).
Lemma sample_text : wanted ascii_env sample_schema (s "text_node") (s "node_text").
Proof.
  split.
  - right. split; [left; reflexivity|split; [exists (s "text"); reflexivity|]]. apply skipped_iff. reflexivity.
  - exists (s "text"). right. split; reflexivity.
Qed.
Lemma repository_tree : tree repository.
Proof. intros p c0. cbn. destruct (path_eqb p (Nodes, s "node_text.py")) eqn:K; [|discriminate]. apply path_eqb_iff in K. rewrite K. reflexivity. Qed.
Example repository_lost : exists h', run ascii_env sample_schema repository NoDirectory h' /\
  exists c, file h' (Nodes, s "node_text.py") = Some c /\ c <> s "class NodeText(BaseNode): ...".
Proof.
  destruct sample_run as (g' & HG & _ & _ & (c & HC & HNE) & _).
  destruct (C59_without_mixins ascii_env sample_schema repository) as (H1 & _ & H3).
  - exists both, g'. exact HG.
  - exists (s "tableCell_node"), (s "node_table_cell"). apply sample_alone.
  - exact repository_tree.
  - reflexivity.
  - reflexivity.
  - destruct H1 as [h' H1]. exists h'. split; [exact H1|]. destruct (H3 h' both g' H1 HG) as [_ H4]. exists c. split; [|exact HNE]. rewrite <- HC.
    exact (H4 _ _ sample_text).
Qed.
(** Two definitions for one file. *)
Example collision : module_of ascii_env (s "tableCell_node") (s "node_table_cell") /\ module_of ascii_env (s "table_cell_node") (s "node_table_cell").
Proof. split; [exists (s "tableCell")|exists (s "table_cell")]; right; split; reflexivity. Qed.
