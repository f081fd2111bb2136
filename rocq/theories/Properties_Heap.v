(** C09: from_dict neither mutates nor aliases its argument. *)
From Coq Require Import List NArith ZArith Bool String Arith Lia.
From Verif Require Import PyStr Values Schema Parse Basics Heap SpecHeap HeapFacts DenFacts CopyFacts HeapRefine.
Import ListNotations.
Open Scope string_scope.
Open Scope list_scope.
Open Scope nat_scope.

(** The three ways a user starts a parse. *)
Inductive entry_point := FromDict (k : nkind) | ParseNode | MarkFromDict (k : mkind) | ParseMark.
Definition run (e : entry_point) (fuel : nat) (w : bool) (v : hval) : H hval :=
  match e with
  | FromDict k => h_from_dict fuel w k v
  | ParseNode => h_parse_node fuel w v
  | MarkFromDict k => h_mark_from_dict fuel k v
  | ParseMark => h_parse_mark fuel v
  end.
Lemma run_ok e fuel w : well_behaved (run e fuel w).
Proof.
  intros base v. destruct e; cbn [run]; [apply ok_from_dict|apply ok_parse_node|apply ok_mark|apply ok_parse_mark].
Qed.

(** Every object that existed before the call is unchanged after it, whether the call returns, raises, or hits
    the recursion limit, and whatever the input (shared, cyclic, malformed). *)
Theorem C09_argument_unchanged : forall e fuel w v h h' lg o, run e fuel w v h = (h', lg, o) ->
  forall a, a < List.length h -> nth_error h' a = nth_error h a.
Proof. intros e fuel w v h h' lg o HR. apply (wb_use _ _ _ _ _ _ (run_ok e fuel w) HR). Qed.

(** Nothing reachable from the result existed before; so nothing reachable from the result is reachable from
    the argument. *)
Theorem C09_result_is_fresh : forall e fuel w v h h' lg y, run e fuel w v h = (h', lg, Val y) ->
  forall a, reaches h' y a -> List.length h <= a.
Proof.
  intros e fuel w v h h' lg y HR a HA. destruct (wb_use _ _ _ _ _ _ (run_ok e fuel w) HR) as (_ & HS & HF).
  eapply reaches_fresh; eauto.
Qed.
Theorem C09_no_aliasing : forall e fuel w v h h' lg y, run e fuel w v h = (h', lg, Val y) -> closed h -> valid h v ->
  forall a, ~ (reaches h' y a /\ reaches h' v a).
Proof.
  intros e fuel w v h h' lg y HR HC HV a [HY HX].
  pose proof (C09_result_is_fresh _ _ _ _ _ _ _ _ HR a HY) as H1.
  destruct (reaches_old h h' HC (C09_argument_unchanged _ _ _ _ _ _ _ _ HR) v a HX HV). lia.
Qed.
(** The argument reaches exactly what it reached before. *)
Theorem C09_argument_same_graph : forall e fuel w v h h' lg o, run e fuel w v h = (h', lg, o) -> closed h -> valid h v ->
  forall a, reaches h' v a <-> reaches h v a.
Proof.
  intros e fuel w v h h' lg o HR HC HV a. split.
  - intros HX. destruct (reaches_old h h' HC (C09_argument_unchanged _ _ _ _ _ _ _ _ HR) v a HX HV) as [_ HY]. exact HY.
  - pose proof (C09_argument_unchanged _ _ _ _ _ _ _ _ HR) as HU. clear HR. intros HX. revert HV. induction HX as [b|b ob u c HN HI HX IH]; intros HV; [constructor|].
    eapply r_step; [|exact HI|].
    + rewrite HU; [exact HN|]. now apply HV.
    + apply IH. intros d ->. eapply HC; eauto.
Qed.

(** In-place edits: any later heap that differs from [h'] only at objects that existed before the call (in
    particular at objects reachable from the argument) and at new ones still shows the same parsed object. *)
Theorem C09_later_edits : forall e fuel w v h h' lg y h2, run e fuel w v h = (h', lg, Val y) ->
  (forall a, List.length h <= a -> a < List.length h' -> nth_error h2 a = nth_error h' a) ->
  (forall n, denotes_node h' n y -> denotes_node h2 n y) /\ (forall m, denotes_mark h' m y -> denotes_mark h2 m y).
Proof.
  intros e fuel w v h h' lg y h2 HR HE.
  assert (HF : from h' y (nth_error h2)).
  { intros a o HA HN. rewrite HE; [exact HN| |eapply nth_lt; eauto]. eapply C09_result_is_fresh; eauto. }
  split; intros n HD; [eapply den_node_from; eauto|eapply den_mark_from; eauto].
Qed.

(** The heap program is the same function as the value model: on a reference to a JSON-like value (with any
    sharing of its parts) it logs the same warnings, raises the same exception, or returns a reference to the
    same object.  [fuel] only has to exceed the size of the value. *)
Theorem C09_same_result : forall w fuel k v x h, denotes h v x -> size v < fuel ->
  (match from_dict w k v with
   | (lg, Ok n) => exists h' y, h_from_dict fuel w k x h = (h', lg, Val y) /\ denotes_node h' n y
   | (lg, Err e) => exists h', h_from_dict fuel w k x h = (h', lg, Exc e)
   end) /\
  (match parse_node w v with
   | (lg, Ok n) => exists h' y, h_parse_node fuel w x h = (h', lg, Val y) /\ denotes_node h' n y
   | (lg, Err e) => exists h', h_parse_node fuel w x h = (h', lg, Exc e)
   end) /\
  (match parse_mark v with
   | Ok m => exists h' y, h_parse_mark fuel x h = (h', [], Val y) /\ denotes_mark h' m y
   | Err e => exists h', h_parse_mark fuel x h = (h', [], Exc e)
   end).
Proof.
  intros w fuel k v x h HV HF. repeat apply conj.
  - apply from_dict_sim; [exact HV|lia].
  - now apply parse_node_sim.
  - pose proof (parse_mark_sim fuel v x h HV ltac:(lia)) as HM. destruct (parse_mark v); exact HM.
Qed.
(** Parsing the same argument twice gives two references to the same object that share nothing, and the second
    call does not disturb the first result. *)
Theorem C09_two_parses : forall w w' fuel k v x h h1 lg1 y1 h2 lg2 y2, denotes h v x -> size v < fuel ->
  h_from_dict fuel w k x h = (h1, lg1, Val y1) -> h_from_dict fuel w' k x h1 = (h2, lg2, Val y2) ->
  (exists n1 n2, snd (from_dict w k v) = Ok n1 /\ snd (from_dict w' k v) = Ok n2 /\
                 denotes_node h2 n1 y1 /\ denotes_node h2 n2 y2) /\
  (forall a o, nth_error h1 a = Some o -> reaches h1 y1 a -> ~ reaches h2 y2 a).
Proof.
  intros w w' fuel k v x h h1 lg1 y1 h2 lg2 y2 HV HF R1 R2.
  pose proof (wb_use _ _ _ _ _ _ (run_ok (FromDict k) fuel w) R1) as (G1 & _ & _).
  pose proof (wb_use _ _ _ _ _ _ (run_ok (FromDict k) fuel w') R2) as (G2 & S2 & F2).
  assert (HV1 : denotes h1 v x) by (eapply den_mono; [apply grows_sub, G1|exact HV]). split.
  - destruct (C09_same_result w fuel k v x h HV HF) as (E1 & _). destruct (C09_same_result w' fuel k v x h1 HV1 HF) as (E2 & _).
    destruct (from_dict w k v) as [l1 [n1|e1]].
    2:{ destruct E1 as (h' & E1). congruence. }
    destruct (from_dict w' k v) as [l2 [n2|e2]].
    2:{ destruct E2 as (h' & E2). congruence. }
    destruct E1 as (h1' & y1' & E1 & D1). destruct E2 as (h2' & y2' & E2 & D2).
    assert (h1' = h1 /\ y1' = y1) as [-> ->] by (split; congruence). assert (h2' = h2 /\ y2' = y2) as [-> ->] by (split; congruence).
    exists n1, n2. split; [reflexivity|]. split; [reflexivity|]. split; [|exact D2]. eapply den_node_mono; [apply grows_sub, G2|exact D1].
  - intros a o HN HA HB. apply nth_lt in HN. pose proof (reaches_fresh _ _ S2 _ _ HB (F2 _ eq_refl)). lia.
Qed.

(** ---------------------------------------------------------------- a case with sharing, and a cyclic one *)
Definition hty (x : string) : str * hval := (s "type", HStr (s x)).
Definition ex_heap : heap :=
  [ ODict [hty "text"; (s "text", HStr (s "hi"))];
    OList [Ref 0; Ref 0];
    ODict [hty "paragraph"; (s "content", Ref 1)];
    OList [Ref 2; Ref 2; Ref 0];
    ODict [hty "doc"; (s "version", HInt 1); (s "content", Ref 3)] ].
Definition vty (x : string) : str * value := (s "type", VStr (s x)).
Definition ex_t : value := VDict [vty "text"; (s "text", VStr (s "hi"))].
Definition ex_pp : value := VDict [vty "paragraph"; (s "content", VList [ex_t; ex_t])].
Definition ex_value : value := VDict [vty "doc"; (s "version", VInt 1); (s "content", VList [ex_pp; ex_pp; ex_t])].
Lemma ex_denotes : denotes ex_heap ex_value (Ref 4).
Proof.
  assert (D0 : denotes ex_heap ex_t (Ref 0)).
  { eexists _, _. split; [reflexivity|]. split; [reflexivity|]. cbn. auto. }
  assert (D2 : denotes ex_heap ex_pp (Ref 2)).
  { eexists _, _. split; [reflexivity|]. split; [reflexivity|]. repeat (split; [split; reflexivity|]). split; [|exact I].
    split; [reflexivity|]. eexists _, _. split; [reflexivity|]. split; [reflexivity|]. split; [exact D0|]. split; [exact D0|exact I]. }
  eexists _, _. split; [reflexivity|]. split; [reflexivity|]. repeat (split; [split; reflexivity|]). split; [|exact I].
  split; [reflexivity|]. eexists _, _. split; [reflexivity|]. split; [reflexivity|].
  split; [exact D2|]. split; [exact D2|]. split; [exact D0|exact I].
Qed.
Example C09_example : denotes ex_heap ex_value (Ref 4) /\ size ex_value < 100 /\ closed ex_heap /\ valid ex_heap (Ref 4) /\
  exists h' y, h_from_dict 100 true Kdoc (Ref 4) ex_heap = (h', [], Val y) /\ List.length ex_heap < List.length h'.
Proof.
  split; [exact ex_denotes|]. split; [vm_compute; lia|]. split.
  { intros [|[|[|[|[|a]]]]] o b; cbn [ex_heap nth_error]; [..|now destruct a]; intros [= <-]; cbn [items_of map snd hty In]; intros HI;
      repeat (destruct HI as [HI|HI]; [try discriminate HI; injection HI as <-; cbn; lia|]); destruct HI. }
  split; [intros a [= <-]; cbn; lia|].
  eexists _, _. split; [vm_compute; reflexivity|]. cbn. lia.
Qed.
(** A document that contains itself: the recursion limit ends the parse, and still nothing is changed. *)
Definition ex_cycle : heap := [ODict [hty "doc"; (s "content", Ref 1)]; OList [Ref 0]].
Example C09_cyclic : exists h' lg, h_from_dict 5 true Kdoc (Ref 0) ex_cycle = (h', lg, TooDeep) /\ firstn 2 h' = ex_cycle.
Proof. eexists _, _. split; vm_compute; reflexivity. Qed.

(** The Attrs classes inherit Base.from_dict, which does not copy: called directly by a user, it returns an
    object that shares the argument's values. *)
Theorem C09_attrs_class_aliases_refuted : exists fs (v : hval) h h' y a,
  h_attrs_from_dict fs v h = (h', [], Val y) /\ a < List.length h /\ reaches h' y a /\ reaches h' v a.
Proof.
  exists [(s "parameters", Opt)], (Ref 1), [ODict []; ODict [(s "parameters", Ref 0)]]. eexists _, _, 0.
  split; [vm_compute; reflexivity|]. split; [cbn; lia|].
  split; (eapply r_step; [reflexivity|left; reflexivity|constructor]).
Qed.
