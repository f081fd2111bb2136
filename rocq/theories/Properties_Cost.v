(** C56: how much memory parsing and serializing take. *)
From Coq Require Import List NArith ZArith Bool String Arith Lia.
From Verif Require Import PyStr Values Schema Parse Basics Heap SpecHeap HeapFacts DenFacts CopyFacts HeapRefine HeapDict HeapDictFacts SpecCost CostFacts CostFacts2 CostFacts3 Properties_Heap.
Import ListNotations.
Open Scope string_scope.
Open Scope list_scope.
Open Scope nat_scope.

(** Parsing allocates at most five objects per container and nesting level of the input, however it ends:
    polynomial, although every level copies everything below it. *)
Theorem C56_parse_cost : forall e fuel w v x h h' lg o, denotes h v x -> size v < fuel -> run e fuel w x h = (h', lg, o) ->
  List.length h' <= List.length h + 5 * (containers v * nesting v).
Proof.
  intros e fuel w v x h h' lg o HV HF HR.
  assert (HG : grown (bound v) h (run e fuel w x h)).
  { destruct e; cbn [run]; [apply from_dict_cost|apply parse_node_cost|apply mark_cost|apply parse_mark_cost]; auto; lia. }
  unfold grown in HG. rewrite HR in HG. cbn [fst] in HG. pose proof (work_bound v). unfold bound in HG. lia.
Qed.
(** Marks are linear. *)
Theorem C56_mark_cost : forall e fuel w v x h h' lg o, match e with FromDict _ | ParseNode => False | _ => True end ->
  denotes h v x -> size v < fuel -> run e fuel w x h = (h', lg, o) -> List.length h' <= List.length h + containers v + 2.
Proof.
  assert (HK : forall f k v x h, denotes h v x -> size v <= f -> grown (containers v + 2) h (h_mark_from_dict f k x h)).
  { intros f k v x h HV HF. destruct (copy_root f v x h HV HF) as (h1 & m & HC). unfold h_mark_from_dict.
    pose proof (copy_cheap f v x [] h HV) as [_ LC]. unfold grown.
    destruct v as [|b|z|fl|y|vs|vs|];
      try (destruct HC as (x' & E & HX); rewrite E in LC; unfold hbind at 1; rewrite E; destruct x' as [| | | | | |a0]; [cbn in *; lia..|destruct (HX a0 eq_refl)]).
    - destruct HC as (a & l & E & HA). rewrite E in LC. unfold hbind. rewrite E. unfold get_obj. rewrite HA. cbn in *. lia.
    - destruct HC as (a & d1 & E & HA & HD). rewrite E in LC. unfold hbind at 1. rewrite E. cbn beta iota. unfold hbind at 1. unfold get_obj at 1. rewrite HA. cbn beta iota.
      cbn [fst snd] in LC.
      set (st := match lookup (s "attrs") d1 with Some av => _ | None => _ end). destruct (st h1) as [[h2 lg2] r2] eqn:ES.
      assert (L2 : List.length h2 <= List.length h1 + 1 /\ (forall u, r2 = Val u -> kept a (s "attrs") d1 h1 h2)).
      { unfold st in ES. assert (ID : (h1, @nil warning, Val tt) = (h2, lg2, r2) -> List.length h2 <= List.length h1 + 1 /\ (forall u : unit, r2 = Val u -> kept a (s "attrs") d1 h1 h2)).
        { intros [= <- <- <-]. split; [lia|]. intros _ _. split; [apply step_refl|]. exists d1. auto. }
        destruct (lookup (s "attrs") d1) as [av|]; [|apply ID, ES]. destruct (mk_attrs k) as [fs|]; [|apply ID, ES].
        eapply attrs_set_cost; eauto. }
      destruct L2 as [L2 K2]. unfold hbind at 1. rewrite ES. set (C := containers (VDict vs)) in *. clearbody C. destruct r2 as [u|e|]; cbn [fst snd]; try lia.
      destruct (K2 u eq_refl) as (S2 & dc & N2 & _). unfold hbind, get_obj. rewrite N2. cbn beta iota.
      destruct (mk_attrs k); [destruct (lookup (s "attrs") dc)|]; cbn; rewrite ?app_length; cbn [List.length]; lia. }
  intros e fuel w v x h h' lg o HE HV HF HR.
  assert (HG : grown (containers v + 2) h (run e fuel w x h)).
  { destruct e; try (destruct HE; fail); cbn [run]; [apply HK; [exact HV|lia]|].
    unfold h_parse_mark, grown. destruct x as [| | | | | |a]; try (cbn; lia).
    unfold hbind, get_obj. destruct (nth_error h a) as [[l|d|t d]|]; try (cbn; lia).
    destruct (lookup (s "type") d) as [ty|]; try (cbn; lia). destruct (h_type ty) as [t|]; try (cbn; lia).
    destruct (mark_class_of t) as [k| |]; try (cbn; lia). assert (HM : grown (containers v + 2) h (h_mark_from_dict fuel k (Ref a) h)) by (apply HK; [exact HV|lia]).
    unfold grown in HM. destruct (h_mark_from_dict fuel k (Ref a) h) as [[h2 lg2] o2]. exact HM. }
  unfold grown in HG. rewrite HR in HG. cbn [fst] in HG. lia.
Qed.
(** Serializing: the same, in terms of the objects of the node. *)
Theorem C56_to_dict_cost : forall fuel n x h h' lg o, denotes_node h n x -> h_to_dict fuel x h = (h', lg, o) ->
  List.length h' <= List.length h + 5 * (node_objects n * node_nesting n).
Proof.
  intros fuel n x h h' lg o HD HR. pose proof (to_dict_cost fuel n x h HD) as HG. unfold grown in HG. rewrite HR in HG. cbn [fst] in HG.
  pose proof (node_work_bound n). unfold to_bound in HG. lia.
Qed.

(** What the code does not do: neither is linear.  [quotes n] are n nested block quotes. *)
Theorem C56_parse_linear_refuted : ~ exists c, forall e fuel w v x h h' lg o, denotes h v x -> size v < fuel -> run e fuel w x h = (h', lg, o) ->
  List.length h' <= List.length h + c * containers v.
Proof.
  intros (c & HC). set (n := 2 * c + 2). set (h := layout n 0). set (f := S (S (S (3 * n)))).
  assert (HL : laid h 0 n) by apply (laid_layout n []).
  destruct (run ParseNode f true (Ref 0) h) as [[h' lg] o] eqn:ER.
  assert (HB : List.length h' <= List.length h + c * containers (quotes n)).
  { apply (HC ParseNode f true (quotes n) (Ref 0) h h' lg o); [apply laid_den, HL|rewrite quotes_size; unfold f; lia|exact ER]. }
  pose proof (parse_chain true n f 0 h HL) as HP. cbn [run] in ER. rewrite ER in HP. cbn [fst] in HP. rewrite quotes_containers in HB.
  assert (HN : List.length h + n * n <= List.length h') by (apply HP; unfold f; lia). unfold n in *. nia.
Qed.
Theorem C56_to_dict_linear_refuted : ~ exists c, forall fuel n x h h' lg o, denotes_node h n x -> node_size n < fuel -> h_to_dict fuel x h = (h', lg, o) ->
  List.length h' <= List.length h + c * node_objects n.
Proof.
  intros (c & HC). set (n := 2 * c + 2). set (h := objects n 0). set (f := 6 + 6 * n).
  assert (HL : placed h 0 n) by apply (placed_objects n []).
  destruct (h_to_dict f (Ref 0) h) as [[h' lg] o] eqn:ER.
  assert (HB : List.length h' <= List.length h + c * node_objects (quote_node n)).
  { apply (HC f (quote_node n) (Ref 0) h h' lg o); [apply placed_den, HL|pose proof (quote_node_size n); unfold f; lia|exact ER]. }
  pose proof (to_dict_chain n f 0 h HL) as HP. rewrite ER in HP. cbn [fst] in HP. rewrite quote_node_objects in HB.
  assert (HN : List.length h + n * n <= List.length h') by (apply HP; unfold f; lia). unfold n in *. nia.
Qed.

(** The measures on a small document, and what a run allocates: a paragraph with a text that has one mark. *)
Definition small : value :=
  VDict [(s "type", VStr (s "paragraph"));
         (s "content", VList [VDict [(s "type", VStr (s "text")); (s "text", VStr (s "a"));
                                     (s "marks", VList [VDict [(s "type", VStr (s "strong"))]])]])].
Definition small_heap : heap :=
  [ODict [(s "type", HStr (s "strong"))]; OList [Ref 0];
   ODict [(s "type", HStr (s "text")); (s "text", HStr (s "a")); (s "marks", Ref 1)]; OList [Ref 2];
   ODict [(s "type", HStr (s "paragraph")); (s "content", Ref 3)]].
Example small_measures : containers small = 5 /\ nesting small = 5 /\ containers (quotes 3) = 7 /\ nesting (quotes 3) = 7 /\
  node_objects (quote_node 3) = 7 /\ node_nesting (quote_node 3) = 7.
Proof. vm_compute. auto 10. Qed.
Example small_denotes : denotes small_heap small (Ref 4).
Proof.
  eexists 4, _. split; [reflexivity|]. split; [reflexivity|]. split; [split; reflexivity|]. split; [|exact I]. split; [reflexivity|].
  eexists 3, _. split; [reflexivity|]. split; [reflexivity|]. split; [|exact I].
  eexists 2, _. split; [reflexivity|]. split; [reflexivity|]. split; [split; reflexivity|]. split; [split; reflexivity|]. split; [|exact I]. split; [reflexivity|].
  eexists 1, _. split; [reflexivity|]. split; [reflexivity|]. split; [|exact I].
  eexists 0, _. split; [reflexivity|]. split; [reflexivity|]. split; [split; reflexivity|exact I].
Qed.
(** 14 new objects: 5 + 3 + 1 copies, the mark, its list, the text, its list and the paragraph; the bound says 125. *)
Example small_run : exists h' y, run ParseNode 20 true (Ref 4) small_heap = (h', [], Val y) /\ List.length h' = List.length small_heap + 14.
Proof. eexists _, _. split; [vm_compute; reflexivity|vm_compute; reflexivity]. Qed.
(** Ten nested quotes, 21 objects, take 142 more to parse, and their 21 instances and lists 142 more to serialize. *)
Example quotes_run : List.length (layout 10 0) = 21 /\
  List.length (fst (fst (run ParseNode 40 true (Ref 0) (layout 10 0)))) = 163 /\
  List.length (fst (fst (h_to_dict 70 (Ref 0) (objects 10 0)))) = 163.
Proof. vm_compute. auto. Qed.
