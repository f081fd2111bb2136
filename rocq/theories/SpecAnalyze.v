(** Vocabulary for C54 and C55: dependency graphs and references in a JSON schema, in the words of the properties. *)
From Coq Require Import List NArith ZArith Bool String Arith Sorted Permutation Relations.
From Verif Require Import PyStr Values SpecApi.
Import ListNotations.
Open Scope string_scope.
Open Scope list_scope.

(** ---------------------------------------------------------------- graphs *)
(** A dictionary from node to the set of its dependencies. *)
Definition dep_graph := list (str * list str).
Definition sets_ok (g : dep_graph) : Prop := NoDup (map fst g) /\ forall n l, In (n, l) g -> NoDup l.
Definition node_of (g : dep_graph) (n : str) : Prop := exists l, In (n, l) g.
(** [n] depends on the node [d] of the graph (a dependency that is no node of the graph, such as a mark, does not count). *)
Definition needs (g : dep_graph) (n d : str) : Prop := (exists l, In (n, l) g /\ In d l) /\ node_of g d.
Definition needs_all (g : dep_graph) : str -> str -> Prop := clos_trans str (needs g).
(** After the nodes [out]: [n] is still to come and everything it depends on is out. *)
Definition ready (g : dep_graph) (out : list str) (n : str) : Prop :=
  node_of g n /\ ~ In n out /\ forall d, needs g n d -> In d out.

(** What should follow [out]: always the alphabetically first node that is ready; when none is, the other nodes in
    alphabetical order. *)
Inductive smallest_first (g : dep_graph) : list str -> list str -> Prop :=
| sf_next out n rest :
    ready g out n -> (forall m, ready g out m -> m = n \/ strictly_before n m) ->
    smallest_first g (n :: out) rest -> smallest_first g out (n :: rest)
| sf_blocked out rest :
    (forall n, ~ ready g out n) ->
    StronglySorted strictly_before rest -> (forall n, In n rest <-> node_of g n /\ ~ In n out) ->
    smallest_first g out rest.

(** [n] is on a cycle, or something it depends on is. *)
Definition blocked (g : dep_graph) (n : str) : Prop :=
  node_of g n /\ exists m, (m = n \/ needs_all g n m) /\ needs_all g m m.
(** [a] stands before [b]. *)
Definition earlier (l : list str) (a b : str) : Prop := exists x y z, l = x ++ a :: y ++ b :: z.

(** The same dictionary of sets, in another order. *)
Definition same_graph (g g' : dep_graph) : Prop :=
  (forall n, node_of g n <-> node_of g' n) /\ (forall n d, needs g n d <-> needs g' n d).

(** ---------------------------------------------------------------- references *)
(** [x] is [v] or stands somewhere inside it. *)
Inductive inside (x : value) : value -> Prop :=
| in_here : inside x x
| in_list v l : In v l -> inside x v -> inside x (VList l)
| in_dict k v d : In (k, v) d -> inside x v -> inside x (VDict d).
(** Somewhere inside [v] there is {"$ref": "#/definitions/<name>"}. *)
Definition refers (v : value) (name : str) : Prop :=
  exists d, inside (VDict d) v /\ In (s "$ref", VStr (s "#/definitions/" ++ name)) d.
(** The base type of a definition: its name without "_mark"; or without "_node" and without what follows the first "_with_". *)
Definition base_type (name base : str) : Prop :=
  base <> [] /\
  ((exists x, name = x ++ s "_node" /\
      ((x = base /\ ~ exists a b, x = a ++ s "_with_" ++ b) \/
       (exists y, x = base ++ s "_with_" ++ y /\ ~ exists a b, x = a ++ s "_with_" ++ b /\ (List.length a < List.length base)%nat))) \/
   (name = base ++ s "_mark")).
(** Definition [b] of kind node exists under some name; [b] refers to [c]. *)
Definition base_node (defs : list (str * value)) (b : str) : Prop :=
  exists name v x, In (name, v) defs /\ name = x ++ s "_node" /\ base_type name b.
Definition base_mark (defs : list (str * value)) (b : str) : Prop :=
  exists name v, In (name, v) defs /\ name = b ++ s "_mark" /\ b <> [].
Definition base_refers (defs : list (str * value)) (b c : str) : Prop :=
  exists name v x ref, In (name, v) defs /\ name = x ++ s "_node" /\ base_type name b /\
    refers v ref /\ base_type ref c /\ c <> b.
(** What a Python loop over [w] meets: the elements of a list, the characters of a string, the keys of a dictionary. *)
Definition loops_over (w : value) (t : str) : Prop :=
  match w with
  | VList l => In (VStr t) l
  | VStr x => exists c, In c x /\ t = [c]
  | VDict d => exists v, In (t, v) d
  | _ => False
  end.
(** A value of a {"type": {"enum": ...}} somewhere inside [v]. *)
Definition type_value (v : value) (t : str) : Prop :=
  exists d e w, inside (VDict d) v /\ In (s "type", VDict e) d /\ In (s "enum", w) e /\ loops_over w t.
(** Every "$ref" is a string; every such "enum" is a list of strings (or a string, or a dictionary). *)
Definition refs_are_strings (v : value) : Prop :=
  forall d w, inside (VDict d) v -> In (s "$ref", w) d -> exists r, w = VStr r.
Definition names (w : value) : Prop :=
  match w with VList l => forall x, In x l -> exists t, x = VStr t | VStr _ | VDict _ => True | _ => False end.
Definition enums_are_names (v : value) : Prop :=
  forall d e w, inside (VDict d) v -> In (s "type", VDict e) d -> In (s "enum", w) e -> names w.

(** ---------------------------------------------------------------- the report *)
(** The elements of a set in alphabetical order; how many of them there are. *)
Definition alphabetical (P : str -> Prop) (l : list str) : Prop := StronglySorted strictly_before l /\ forall x, In x l <-> P x.
Definition size_of (P : str -> Prop) (n : nat) : Prop := exists l, NoDup l /\ (forall x, In x l <-> P x) /\ List.length l = n.
Definition defined (defs : list (str * value)) (name : str) : Prop := exists v, In (name, v) defs.
Definition ends_with (suffix : string) (name : str) : Prop := exists x, name = x ++ s suffix.
Definition number (n : nat) : str := dec (Z.of_nat n).
Definition capital (up : N -> str) (x : str) : str := match x with [] => [] | c :: r => up c ++ r end.
Definition bullet (x : str) : str := s "- " ++ x.
(** "3. **date** - no dependencies" *)
Definition entry (k : nat) (b : str) (needed : list str) : str :=
  number k ++ s ". **" ++ b ++ s "** - " ++
  (if match needed with [] => true | _ => false end then s "no dependencies" else s "depends on: " ++ join (s ", ") needed).
Fixpoint entries (needed_by : str -> list str) (k : nat) (order : list str) : list str :=
  match order with [] => [] | b :: r => entry k b (needed_by b) :: entries needed_by (S k) r end.
Definition nonempty {A} (l : list A) : bool := match l with [] => false | _ => true end.

Record report_data := ReportData {
  n_all : nat; n_nodes : nat; n_marks : nat; n_others : nat;
  enums : list str; marks : list str; order : list str; needed_by : str -> list str }.
Definition report_text (up : N -> str) (r : report_data) : str := join nl (
  [s "# ADF JSON Schema Analysis"; []; s "## Overview"; [];
   s "- Total definitions: " ++ number (n_all r); s "- Node definitions (`*_node`): " ++ number (n_nodes r);
   s "- Mark definitions (`*_mark`): " ++ number (n_marks r); s "- Other definitions: " ++ number (n_others r);
   s "- Unique type enum values: " ++ number (List.length (enums r)); [];
   s "## All Type Enum Values"; []; number (List.length (enums r)) ++ s " unique type values:"; []]
  ++ map bullet (enums r) ++
  [[]; s "## Implementation Order"; []; s "Nodes sorted by dependencies (implement dependencies first):"; []]
  ++ entries (needed_by r) 1 (order r) ++
  [[]; s "## Mark Definitions"; []; number (List.length (marks r)) ++ s " mark types:"; []]
  ++ map bullet (marks r) ++
  [[]; s "## Recommended Implementation Phases"; []; s "### Phase 1: Base Classes"; [];
   s "- Base"; s "- BaseNode"; s "- BaseMark"; [];
   s "### Phase 2: Marks"; []; s "No internal dependencies, can be implemented in any order:"; []]
  ++ map (fun m => bullet (s "Mark" ++ capital up m)) (marks r) ++
  [[]; s "### Phase 3: Leaf Nodes"; []; s "Nodes with no node dependencies:"; []]
  ++ map (fun b => bullet (s "Node" ++ capital up b)) (filter (fun b => negb (nonempty (needed_by r b))) (order r)) ++
  [[]; s "### Phase 4: Composite Nodes"; []; s "Nodes with dependencies (implement in order):"; []]
  ++ map (fun b => bullet (s "Node" ++ capital up b) ++ s " - needs: " ++ join (s ", ") (needed_by r b))
       (filter (fun b => nonempty (needed_by r b)) (order r))).
(** The data of the report are those of the schema. *)
Definition reports (defs : list (str * value)) (r : report_data) : Prop :=
  size_of (defined defs) (n_all r) /\
  size_of (fun n => defined defs n /\ ends_with "_node" n) (n_nodes r) /\
  size_of (fun n => defined defs n /\ ends_with "_mark" n) (n_marks r) /\
  size_of (fun n => defined defs n /\ ~ ends_with "_node" n /\ ~ ends_with "_mark" n) (n_others r) /\
  alphabetical (type_value (VDict defs)) (enums r) /\
  alphabetical (base_mark defs) (marks r) /\
  (forall b, base_node defs b -> alphabetical (base_refers defs b) (needed_by r b)) /\
  exists g, sets_ok g /\ (forall b, node_of g b <-> base_node defs b) /\
    (forall b c, (exists l, In (b, l) g /\ In c l) <-> base_refers defs b c) /\ smallest_first g [] (order r).
