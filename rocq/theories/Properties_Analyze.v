(** C54 and C55: the implementation order of the schema analysis script. *)
From Coq Require Import List NArith ZArith Bool String Arith Lia Sorted Permutation Relations.
From Verif Require Import PyStr Values Basics GenCode SpecApi ApiFacts SpecEqual EqualFacts Analyze SpecAnalyze AnalyzeFacts AnalyzeFacts2 AnalyzeFacts3 AnalyzeFacts4 AnalyzeFacts5 RepoReport.
Import ListNotations.
Open Scope string_scope.
Open Scope list_scope.

(** Whatever the order in which sets are walked, the sort ends, and the list is the one that the specification
    determines: always the alphabetically first node all of whose dependencies are already listed; when there is
    no such node, the other nodes in alphabetical order. *)
Theorem C54_order : forall E g, (forall k l, Permutation l (walk E k l)) -> sets_ok g ->
  exists out, topological_sort E g = Some out /\ smallest_first g [] out /\
    forall out', smallest_first g [] out' -> out' = out.
Proof.
  intros E g HW OK. destruct (topological_sort_spec E g HW OK) as (out & HT & HS). exists out. repeat split; try assumption.
  intros out' HS'. eapply smallest_first_unique; [exact HS'| |exact HS]. reflexivity.
Qed.

(** Every node of the graph is listed once, and nothing else. *)
Theorem C54_all_once : forall E g out, (forall k l, Permutation l (walk E k l)) -> sets_ok g -> topological_sort E g = Some out ->
  Permutation out (map fst g).
Proof.
  intros E g out HW OK HT. destruct (topological_sort_spec E g HW OK) as (out' & HT' & HS). assert (out' = out) by congruence. subst out'.
  destruct (sf_nodup g [] out HS) as [HN HI]. apply NoDup_Permutation; [assumption|apply OK|]. intros n. rewrite HI, <- keys_node. unfold keys. cbn. tauto.
Qed.

(** The list is a first part, in which every node comes after all it depends on, and a last part: exactly the nodes
    that are on a cycle or depend on one, alphabetically. *)
Theorem C54_parts : forall E g out, (forall k l, Permutation l (walk E k l)) -> sets_ok g -> topological_sort E g = Some out ->
  exists first last, out = first ++ last /\
    (forall n d, In n first -> needs g n d -> earlier first d n) /\
    (forall n, In n last <-> blocked g n) /\ StronglySorted strictly_before last.
Proof.
  intros E g out HW OK HT. destruct (topological_sort_spec E g HW OK) as (out' & HT' & HS). assert (out' = out) by congruence. subst out'.
  destruct (sf_blocked_tail g OK out HS) as (a & b & HE & HB & HO & HD). exists a, b. auto.
Qed.

(** "Implement dependencies first" holds of every node that is neither on a cycle nor depends on one. *)
Theorem C54_dependencies_first : forall E g out n d, (forall k l, Permutation l (walk E k l)) -> sets_ok g -> topological_sort E g = Some out ->
  ~ blocked g n -> needs g n d -> earlier out d n.
Proof.
  intros E g out n d HW OK HT HB HN. destruct (C54_parts E g out HW OK HT) as (a & b & -> & HD & HL & _).
  assert (HI : In n (a ++ b)).
  { eapply Permutation_in; [apply Permutation_sym, (C54_all_once E g (a ++ b) HW OK HT)|]. destruct HN as [(l & HI & _) _]. apply in_map_iff. now exists (n, l). }
  apply in_app_iff in HI as [HI|HI]; [|now apply HL in HI]. destruct (HD n d HI HN) as (x & y & z & ->). exists x, y, (z ++ b). rewrite <- !app_assoc. cbn. rewrite <- app_assoc. reflexivity.
Qed.
(** ... and so of all nodes when there is no cycle. *)
Theorem C54_acyclic : forall E g out n d, (forall k l, Permutation l (walk E k l)) -> sets_ok g -> topological_sort E g = Some out ->
  (forall m, ~ needs_all g m m) -> needs g n d -> earlier out d n.
Proof.
  intros E g out n d HW OK HT HC HN. eapply C54_dependencies_first; eauto. intros (_ & m & _ & HM). exact (HC m HM).
Qed.

(** The order of the dictionary, the order in which the sets are walked and dependencies that are no nodes of the
    graph have no influence. *)
Theorem C54_deterministic : forall E E' g g', (forall k l, Permutation l (walk E k l)) -> (forall k l, Permutation l (walk E' k l)) ->
  sets_ok g -> sets_ok g' -> same_graph g g' -> topological_sort E g = topological_sort E' g'.
Proof.
  intros E E' g g' HW HW' OK OK' [HN HD]. destruct (topological_sort_spec E g HW OK) as (out & -> & HS). destruct (topological_sort_spec E' g' HW' OK') as (out' & -> & HS').
  f_equal. eapply smallest_first_unique; [|reflexivity|exact HS']. revert HS. apply sf_same. now split.
Qed.

(** A node that is on no cycle but depends on one can be listed before what it depends on: "implement dependencies
    first" does not hold of it. *)
Theorem C54_dependencies_first_refuted : exists g n d, sets_ok g /\ needs g n d /\ ~ needs_all g n n /\
  forall E, (forall k l, Permutation l (walk E k l)) -> exists out, topological_sort E g = Some out /\ earlier out n d.
Proof.
  set (g := [(s "blockquote", [s "bulletList"]); (s "bulletList", [s "listItem"]); (s "listItem", [s "bulletList"])]).
  assert (OK : sets_ok g).
  { split; [repeat constructor; cbn; intros H; repeat destruct H as [H|H]; try discriminate; auto|].
    intros n l [H|[H|[H|[]]]]; injection H as _ <-; repeat constructor; intros []. }
  assert (ND : forall n d, needs g n d -> d = s "bulletList" \/ d = s "listItem").
  { intros n d [(l & [H|[H|[H|[]]]] & HI) _]; injection H as _ <-; destruct HI as [<-|[]]; auto. }
  exists g, (s "blockquote"), (s "bulletList"). split; [exact OK|]. split.
  { split; [|now exists [s "listItem"]; right; left]. exists [s "bulletList"]. split; now left. }
  split.
  { intros HC. assert (HX : forall a b, needs_all g a b -> b = s "bulletList" \/ b = s "listItem").
    { intros a b H. induction H as [x y H|x y z H1 IH1 H2 IH2]; [now apply (ND x)|assumption]. }
    destruct (HX _ _ HC) as [H|H]; discriminate. }
  intros E HW. exists [s "blockquote"; s "bulletList"; s "listItem"]. split; [|exists [], [], [s "listItem"]; reflexivity].
  rewrite (C54_deterministic E (Env (fun _ l => l) (fun c => [c])) g g HW (fun _ l => Permutation_refl l) OK OK).
  2: { split; reflexivity. }
  vm_compute. reflexivity.
Qed.

(** The committed report lists its nodes in exactly this order. *)
Definition plain_env : env := Env (fun _ l => l) (fun c => [upper_ascii c]).
Example ex_C54_committed : topological_sort plain_env committed_order = Some (map fst committed_order).
Proof. vm_compute. reflexivity. Qed.

(** ---------------------------------------------------------------- C55: the report *)
(** The text is the report of the definitions: how many there are of each kind, the values of all "type" enums, the
    base types with what they refer to in the order of C54, the marks; whatever the order in which sets are walked. *)
Theorem C55_exact : forall E defs text, (forall k l, Permutation l (walk E k l)) -> distinct_keys (VDict defs) ->
  report E defs = Ok (Some text) -> exists r, reports defs r /\ text = report_text (upper E) r.
Proof. intros E defs text HW DK HR. now apply report_exact. Qed.

(** It is written whenever every "$ref" inside a node definition and every value of a "type" enum is a string ... *)
Theorem C55_total : forall E defs, (forall k l, Permutation l (walk E k l)) -> distinct_keys (VDict defs) ->
  enums_are_names (VDict defs) -> (forall x v, In (x ++ s "_node", v) defs -> refs_are_strings v) ->
  exists text, report E defs = Ok (Some text).
Proof.
  intros E defs HW DK HE HR. unfold report. pose proof (analysis_spec E HW defs DK) as HS. destruct (analysis E defs) as [[[en g] ord]|e]; cbn [rbind].
  - destruct HS as (_ & _ & _ & _ & OK & _ & _ & ->). destruct (topological_sort_spec E g HW OK) as (out & -> & _). eauto.
  - destruct HS as [[_ H]|(_ & _ & H)]; [destruct (H HE)|destruct (H HR)].
Qed.
(** ... and otherwise the script stops with TypeError or AttributeError. *)
Theorem C55_errors : forall E defs e, (forall k l, Permutation l (walk E k l)) -> distinct_keys (VDict defs) -> report E defs = Err e ->
  (e = TypeError /\ ~ enums_are_names (VDict defs)) \/
  (e = AttributeError /\ enums_are_names (VDict defs) /\ ~ (forall x v, In (x ++ s "_node", v) defs -> refs_are_strings v)).
Proof.
  intros E defs e HW DK HR. unfold report in HR. pose proof (analysis_spec E HW defs DK) as HS. destruct (analysis E defs) as [[[en g] ord]|e']; cbn [rbind] in HR; [discriminate|].
  assert (e' = e) by congruence. now subst.
Qed.
(** The sort never runs out of steps. *)
Theorem C55_terminates : forall E defs, (forall k l, Permutation l (walk E k l)) -> distinct_keys (VDict defs) -> report E defs <> Ok None.
Proof.
  intros E defs HW DK HR. unfold report in HR. pose proof (analysis_spec E HW defs DK) as HS. destruct (analysis E defs) as [[[en g] ord]|e']; cbn [rbind] in HR; [|discriminate].
  destruct HS as (_ & _ & _ & _ & OK & _ & _ & ->). destruct (topological_sort_spec E g HW OK) as (out & HT & _). rewrite HT in HR. discriminate.
Qed.

(** Two runs on the same schema give the same text (or the same exception), whatever PYTHONHASHSEED and the order of
    the keys of the schema. *)
Theorem C55_deterministic : forall E E' defs defs', (forall k l, Permutation l (walk E k l)) -> (forall k l, Permutation l (walk E' k l)) ->
  upper E = upper E' -> reordered (VDict defs) (VDict defs') -> report E defs = report E' defs'.
Proof.
  intros E E' defs defs' HW HW' HU HR. pose proof (reordered_sym _ _ HR) as HR'.
  assert (DK : distinct_keys (VDict defs)) by (eapply sd_distinct; exact HR). assert (DK' : distinct_keys (VDict defs')) by (eapply sd_distinct; exact HR').
  assert (EE : enums_are_names (VDict defs) <-> enums_are_names (VDict defs')) by (split; apply reordered_enums; assumption).
  assert (RR : all_refs_strings defs <-> all_refs_strings defs') by (split; apply reordered_all_refs; assumption).
  destruct (report E defs) as [[text|]|e] eqn:H1; [| |].
  - destruct (report E' defs') as [[text'|]|e'] eqn:H2.
    + destruct (C55_exact E defs text HW DK H1) as (r & Hr & ->). destruct (C55_exact E' defs' text' HW' DK' H2) as (r' & Hr' & ->).
      rewrite HU. do 2 f_equal. exact (report_unique _ _ _ _ _ HR Hr Hr').
    + now destruct (C55_terminates E' defs' HW' DK').
    + exfalso. unfold report in H1. pose proof (analysis_spec E HW defs DK) as HS. destruct (analysis E defs) as [[[en g] ord]|?]; [|discriminate].
      destruct HS as (A1 & A2 & _). destruct (C55_errors E' defs' e' HW' DK' H2) as [[_ H]|(_ & _ & H)]; [apply H; now apply EE|apply H; now apply RR].
  - now destruct (C55_terminates E defs HW DK).
  - destruct (C55_errors E defs e HW DK H1) as [[-> HN]|(-> & HE & HN)].
    + destruct (report E' defs') as [[text'|]|e'] eqn:H2.
      * exfalso. unfold report in H2. pose proof (analysis_spec E' HW' defs' DK') as HS. destruct (analysis E' defs') as [[[en g] ord]|?]; [|discriminate]. apply HN, EE, HS.
      * now destruct (C55_terminates E' defs' HW' DK').
      * destruct (C55_errors E' defs' e' HW' DK' H2) as [[-> _]|(_ & H & _)]; [reflexivity|]. destruct HN. now apply EE.
    + destruct (report E' defs') as [[text'|]|e'] eqn:H2.
      * exfalso. unfold report in H2. pose proof (analysis_spec E' HW' defs' DK') as HS. destruct (analysis E' defs') as [[[en g] ord]|?]; [|discriminate]. apply HN, RR, HS.
      * now destruct (C55_terminates E' defs' HW' DK').
      * destruct (C55_errors E' defs' e' HW' DK' H2) as [[_ H]|(-> & _ & _)]; [|reflexivity]. destruct H. now apply EE.
Qed.

(** Definitions with the names and references that the committed report shows give that report, to the byte. *)
Definition odd_env : env := Env (fun k l => if Nat.even k then rev l else l) (fun c => [upper_ascii c]).
Example ex_C55_committed : report odd_env sample_definitions = Ok (Some committed_report).
Proof. vm_compute. reflexivity. Qed.
Example ex_C55_not_a_string : report odd_env [(s "a_node", VDict [(s "$ref", VList [])])] = Err AttributeError.
Proof. vm_compute. reflexivity. Qed.
(** The hypotheses of C54 hold of the committed dependencies, those of C55 of the sample definitions. *)
Example ex_C54_sets_ok : sets_ok committed_order.
Proof.
  split; [apply distinctb_ok; vm_compute; reflexivity|]. intros n l HI.
  assert (HF : forallb (fun e => distinctb (snd e)) committed_order = true) by (vm_compute; reflexivity).
  rewrite forallb_forall in HF. apply distinctb_ok. exact (HF _ HI).
Qed.
Fixpoint distinct_deep (v : value) : bool :=
  match v with
  | VList l => forallb distinct_deep l
  | VDict d => distinctb (map fst d) && forallb (fun e => match e with (_, x) => distinct_deep x end) d
  | _ => true
  end.
Lemma distinct_deep_ok v : distinct_deep v = true -> distinct_keys v.
Proof.
  induction v as [| | | |x| |vs IH|d IH] using value_ind'; cbn [distinct_deep]; intros H; try (apply dk_atom; reflexivity).
  - apply dk_list. rewrite forallb_forall in H. rewrite Forall_forall in *. auto.
  - apply andb_true_iff in H as [H1 H2]. apply dk_dict; [now apply distinctb_ok|]. rewrite forallb_forall in H2. rewrite Forall_forall in *. intros [k x] HI. apply (IH _ HI). exact (H2 _ HI).
Qed.
Example ex_C55_distinct : distinct_keys (VDict sample_definitions).
Proof. apply distinct_deep_ok. vm_compute. reflexivity. Qed.
Example ex_C55_envs : forall k l, Permutation l (walk odd_env k l).
Proof. intros k l. cbn. destruct (Nat.even k); [apply Permutation_rev|reflexivity]. Qed.
Example ex_C55_blockquote : base_refers sample_definitions (s "blockquote") (s "bulletList") /\ ~ base_refers sample_definitions (s "date") (s "text").
Proof.
  pose proof (analysis_spec odd_env ex_C55_envs sample_definitions ex_C55_distinct) as HS.
  destruct (analysis odd_env sample_definitions) as [[[en g] ord]|e] eqn:HA; [|vm_compute in HA; discriminate].
  destruct HS as (_ & _ & _ & _ & OK & _ & HR & _).
  assert (HD : member (s "bulletList") (deps_of g (s "blockquote")) = true /\ member (s "text") (deps_of g (s "date")) = false).
  { assert (HG : g = match analysis odd_env sample_definitions with Ok (_, g', _) => g' | Err _ => [] end) by (now rewrite HA). rewrite HG. vm_compute. split; reflexivity. }
  destruct HD as [H1 H2]. apply member_iff in H1. apply member_false in H2. split.
  - apply HR. destruct (deps_node g _ _ H1) as [l HL]. exists l. split; [assumption|]. now rewrite <- (deps_in g OK _ l HL).
  - intros HN. apply HR in HN as (l & HL & HI). apply H2. now rewrite (deps_in g OK _ l HL).
Qed.
