(** C50: to_dict returns new data: it changes nothing that exists, and its result shares nothing with the object. *)
From Coq Require Import List NArith ZArith Bool String Arith Lia.
From Verif Require Import PyStr Values Schema Parse Serialize Basics Heap SpecHeap HeapFacts DenFacts CopyFacts HeapRefine
  HeapDict HeapDictFacts HeapDictRefine Properties_Heap.
Import ListNotations.
Open Scope string_scope.
Open Scope list_scope.
Open Scope nat_scope.

(** Every object that existed before [x.to_dict()] is unchanged after it, whatever [x] is (also a cyclic or hand-made
    one) and however the call ends. *)
Theorem C50_object_unchanged : forall fuel x h h' lg o, h_to_dict fuel x h = (h', lg, o) ->
  forall a, a < List.length h -> nth_error h' a = nth_error h a.
Proof. intros fuel x h h' lg o HR. apply (wb_use _ _ _ _ _ _ (to_dict_wb fuel) HR). Qed.

(** Everything reachable from the result is new: nothing of it existed before the call. *)
Theorem C50_result_is_fresh : forall fuel x h h' lg y, h_to_dict fuel x h = (h', lg, Val y) ->
  forall a, reaches h' y a -> List.length h <= a.
Proof.
  intros fuel x h h' lg y HR a HA. destruct (wb_use _ _ _ _ _ _ (to_dict_wb fuel) HR) as (_ & HS & HF).
  eapply reaches_fresh; eauto.
Qed.
Theorem C50_no_aliasing : forall fuel x h h' lg y, h_to_dict fuel x h = (h', lg, Val y) -> closed h -> valid h x ->
  forall a, ~ (reaches h' y a /\ reaches h' x a).
Proof.
  intros fuel x h h' lg y HR HC HV a [HY HX].
  pose proof (C50_result_is_fresh _ _ _ _ _ _ HR a HY) as H1.
  destruct (reaches_old h h' HC (C50_object_unchanged _ _ _ _ _ _ HR) x a HX HV). lia.
Qed.

(** The heap program is the same function as to_dict of the value model: same exception, or a reference to the same
    dictionary.  [fuel] only has to exceed the size of the object. *)
Theorem C50_same_result : forall fuel n x h, denotes_node h n x -> node_size n < fuel ->
  match node_to_dict n with
  | Ok v => exists h' y, h_to_dict fuel x h = (h', [], Val y) /\ denotes h' v y
  | Err e => exists h', h_to_dict fuel x h = (h', [], Exc e)
  end.
Proof. intros fuel n x h HN HF. apply to_dict_sim; assumption. Qed.
Theorem C50_same_result_mark : forall fuel m x h, denotes_mark h m x -> mark_size m < fuel ->
  exists h' y, h_to_dict fuel x h = (h', [], Val y) /\ denotes h' (mark_to_dict m) y.
Proof. intros fuel m x h HN HF. apply (mark_to_dict_sim fuel m x h); assumption. Qed.
Theorem C50_same_result_attrs : forall fuel l x h, den_attrs (nth_error h) l x -> attrs_size (AObj l) < fuel ->
  exists h' y, h_to_dict fuel x h = (h', [], Val y) /\ denotes h' (attrs_to_dict l) y.
Proof. intros fuel l x h HN HF. apply (attrs_to_dict_sim fuel l x h); assumption. Qed.

(** What is reachable from a finite reference is fixed once it exists. *)
Lemma fin_reaches h h2 : (forall a, a < List.length h -> nth_error h2 a = nth_error h a) ->
  forall x a, reaches h2 x a -> forall n, fin (nth_error h) n x -> reaches h x a /\ a < List.length h.
Proof.
  intros HE. induction 1 as [a|a o v b HN HI HR IH]; intros n HF; (destruct n as [|n]; [destruct HF|]); cbn [fin] in HF; destruct HF as (o' & HO & HX).
  - split; [constructor|]. eapply nth_lt; eauto.
  - rewrite HE in HN by (eapply nth_lt; eauto). assert (o' = o) by congruence. subst o'. rewrite Forall_forall in HX.
    destruct (IH n (HX v HI)) as [H1 H2]. split; [|exact H2]. eapply r_step; eauto.
Qed.

(** Later in-place edits of the dictionary (anything that was not there before the call) leave the object as it was;
    later edits of the object (anything that was there) leave the dictionary as it was. *)
Theorem C50_edit_the_dictionary : forall fuel n x h h' lg o h2, denotes_node h n x -> h_to_dict fuel x h = (h', lg, o) ->
  (forall a, a < List.length h -> nth_error h2 a = nth_error h' a) -> denotes_node h2 n x.
Proof.
  intros fuel n x h h' lg o h2 HN HR HE. eapply den_node_from; [|exact HN]. intros a ob HA HB. pose proof (nth_lt _ _ _ HB).
  rewrite HE by assumption. erewrite C50_object_unchanged; [exact HB|exact HR|assumption].
Qed.
Theorem C50_edit_the_object : forall fuel x h h' lg y v h2, h_to_dict fuel x h = (h', lg, Val y) -> denotes h' v y ->
  (forall a, List.length h <= a -> a < List.length h' -> nth_error h2 a = nth_error h' a) -> denotes h2 v y.
Proof.
  intros fuel x h h' lg y v h2 HR HV HE. eapply den_from; [|exact HV]. intros a o HA HN.
  rewrite HE; [exact HN| |eapply nth_lt; eauto]. eapply C50_result_is_fresh; eauto.
Qed.

(** dict -> from_dict -> to_dict: the three share nothing, and after both calls the first two are still what they were. *)
Theorem C50_pipeline : forall w fuel fuel' k v x h h1 lg1 y1 h2 lg2 y2, denotes h v x -> size v < fuel ->
  h_from_dict fuel w k x h = (h1, lg1, Val y1) -> h_to_dict fuel' y1 h1 = (h2, lg2, Val y2) ->
  (forall a, ~ (reaches h2 x a /\ reaches h2 y1 a)) /\
  (forall a, ~ (reaches h2 x a /\ reaches h2 y2 a)) /\
  (forall a, ~ (reaches h2 y1 a /\ reaches h2 y2 a)) /\
  denotes h2 v x /\
  exists n, snd (from_dict w k v) = Ok n /\ denotes_node h2 n y1 /\
    (node_size n < fuel' -> exists d, node_to_dict n = Ok d /\ denotes h2 d y2).
Proof.
  intros w fuel fuel' k v x h h1 lg1 y1 h2 lg2 y2 HV HF R1 R2.
  pose proof (C09_same_result w fuel k v x h HV HF) as [HS _]. destruct (from_dict w k v) as [lgn [n|e]].
  2:{ destruct HS as (h' & HS). congruence. }
  destruct HS as (h' & y' & HS & HN). rewrite R1 in HS. injection HS as <- <- <-.
  pose proof (wb_use _ _ _ _ _ _ (run_ok (FromDict k) fuel w) R1) as (G1 & _ & _).
  pose proof (wb_use _ _ _ _ _ _ (to_dict_wb fuel') R2) as (G2 & _ & _).
  assert (HX : forall a, reaches h2 x a -> a < List.length h).
  { intros a HA. eapply (fin_reaches h h2); [|exact HA|apply den_fin, HV]. intros c Hc. destruct G1 as [L1 G1], G2 as [L2 G2].
    rewrite G2 by lia. now apply G1. }
  assert (HY : forall a, reaches h2 y1 a -> reaches h1 y1 a /\ a < List.length h1).
  { intros a HA. eapply (fin_reaches h1 h2); [apply G2|exact HA|apply node_fin, HN]. }
  assert (HY0 : forall a, reaches h2 y1 a -> List.length h <= a).
  { intros a HA. apply HY in HA as [HA _]. eapply (C09_result_is_fresh (FromDict k)); [exact R1|exact HA]. }
  assert (HZ : forall a, reaches h2 y2 a -> List.length h1 <= a) by (intros a HA; eapply C50_result_is_fresh; eauto).
  split; [|split; [|split; [|split]]].
  - intros a [H1 H2]. specialize (HX a H1). specialize (HY0 a H2). lia.
  - intros a [H1 H2]. specialize (HX a H1). specialize (HZ a H2). destruct G1. lia.
  - intros a [H1 H2]. specialize (HY a H1). specialize (HZ a H2). lia.
  - eapply den_mono; [apply grows_sub, (grows_trans h h1 h2 G1 G2)|exact HV].
  - exists n. split; [reflexivity|]. split; [eapply den_node_mono; [apply grows_sub, G2|exact HN]|]. intros HF'.
    pose proof (C50_same_result fuel' n y1 h1 HN HF') as HD. destruct (node_to_dict n) as [d|e].
    + destruct HD as (h' & y' & HD & DD). assert (h' = h2 /\ y' = y2) as [-> ->] by (split; congruence). exists d. split; [reflexivity|exact DD].
    + destruct HD as (h' & HD). congruence.
Qed.

(** The shared document of C09: parsed, serialized. *)
Example C50_example : exists h1 y1 h2 y2, h_from_dict 100 true Kdoc (Ref 4) ex_heap = (h1, [], Val y1) /\
  h_to_dict 100 y1 h1 = (h2, [], Val y2) /\ denotes h2 ex_value y2 /\ List.length h1 < List.length h2.
Proof.
  eexists _, _, _, _. split; [vm_compute; reflexivity|]. split; [vm_compute; reflexivity|]. split; [|cbn; lia].
  repeat match goal with
  | |- denotes _ _ _ => unfold denotes
  | |- den _ (VDict _) _ => eexists _, _; split; [reflexivity|]; split; [reflexivity|]; cbn [all2 fst snd]
  | |- den _ (VList _) _ => eexists _, _; split; [reflexivity|]; split; [reflexivity|]; cbn [all2]
  | |- den _ ex_value _ => unfold ex_value
  | |- den _ ex_pp _ => unfold ex_pp
  | |- den _ ex_t _ => unfold ex_t
  | |- _ /\ _ => split
  | |- True => exact I
  | |- _ = _ => reflexivity
  | |- den _ (VStr _) _ => reflexivity
  | |- den _ (VInt _) _ => reflexivity
  | |- match vty _ with _ => _ end => cbn [vty]
  end.
Qed.
(** An object whose content list contains the object itself (made by editing): to_dict hits the recursion limit and
    changes nothing. *)
Example C50_cyclic : exists h' lg, h_to_dict 6 (Ref 0) [OInst (TNode Kdoc) [hty "doc"; (s "content", Ref 1)]; OList [Ref 0]] = (h', lg, TooDeep).
Proof. eexists _, _. vm_compute. reflexivity. Qed.
