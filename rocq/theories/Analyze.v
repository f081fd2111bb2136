(** The schema analysis script scripts/s01-adf-json-schema-analysis/s2_analyze_adf_json_schema.py, from the
    dictionary "definitions" of the schema to the text of the report (cited below as "s2"). *)
From Coq Require Import List NArith ZArith Bool String Arith.
From Verif Require Import PyStr Values GenCode.
Import ListNotations.
Open Scope string_scope.
Open Scope list_scope.

(** What the interpreter chooses.  [walk k l]: the order in which the k-th place of the program that walks a set
    meets its elements, when they were added in the order [l] (it depends on the hashes of the strings, so on
    PYTHONHASHSEED).  [upper c]: str.upper of a character. *)
Record env := Env { walk : nat -> list str -> list str; upper : N -> str }.

(** A set of strings, in the order in which its elements were added. *)
Definition member (x : str) (l : list str) : bool := existsb (str_eqb x) l.
Definition add (x : str) (l : list str) : list str := if member x l then l else l ++ [x].
(** list.sort() and sorted() of strings *)
Definition sort (l : list str) : list str := sorted_by (fun x => x) l.

(** [foldM]: a loop that may raise. *)
Definition foldM {A B} (f : A -> B -> res B) : list A -> B -> res B :=
  fix go (l : list A) (b : B) : res B :=
    match l with [] => Ok b | a :: r => do b' <- f a b; go r b' end.

(** s2:21-33.  A "$ref" that is not a string has no startswith. *)
Fixpoint extract_refs (obj : value) (refs : list str) {struct obj} : res (list str) :=
  match obj with
  | VDict d =>
      do refs' <- match lookup (s "$ref") d with
                  | None => Ok refs
                  | Some (VStr ref) =>
                      Ok (if prefixb (s "#/definitions/") ref
                          then add (skipn (List.length (s "#/definitions/")) ref) refs else refs)
                  | Some _ => Err AttributeError
                  end;
      foldM (fun e => extract_refs (snd e)) d refs'
  | VList l => foldM extract_refs l refs
  | _ => Ok refs
  end.

(** s2:36-61.  What iterating over the value of "enum" adds: the elements of a list, the characters of a string,
    the keys of a dictionary.  (Simplified: an element that is not a string raises TypeError; Python raises it here
    for a list or dictionary, and for None, booleans and numbers only later, when they are sorted together with
    strings.) *)
Definition add_value (v : value) (l : list str) : res (list str) :=
  match v with VStr x => Ok (add x l) | _ => Err TypeError end.
Definition enum_values (v : value) (l : list str) : res (list str) :=
  match v with
  | VList vs => foldM add_value vs l
  | VStr x => Ok (fold_left (fun a c => add [c] a) x l)
  | VDict d => Ok (fold_left (fun a e => add (fst e) a) d l)
  | _ => Err TypeError
  end.
Fixpoint extract_type_enums (obj : value) (enums : list str) {struct obj} : res (list str) :=
  match obj with
  | VDict d =>
      do enums' <- match lookup (s "type") d with
                   | Some (VDict t) => match lookup (s "enum") t with Some v => enum_values v enums | None => Ok enums end
                   | _ => Ok enums
                   end;
      foldM (fun e => extract_type_enums (snd e)) d enums'
  | VList l => foldM extract_type_enums l enums
  | _ => Ok enums
  end.

(** The first part of [x.split(sub)]: [x] up to the first occurrence of [sub], all of [x] if there is none. *)
Fixpoint before (sub x : str) : str :=
  if prefixb sub x then [] else match x with [] => [] | c :: r => c :: before sub r end.
(** [x[:-5]] *)
Definition drop5 (x : str) : str := firstn (List.length x - 5) x.
Definition is_node (x : str) : bool := suffixb (s "_node") x.
Definition is_mark (x : str) : bool := suffixb (s "_mark") x.
(** s2:64-73; None stands for None and for the empty name, which all callers treat alike ([if base:]). *)
Definition get_base_type (name : str) : option str :=
  let some x := match x with [] => None | _ => Some x end in
  if is_node name then some (before (s "_with_") (drop5 name))
  else if is_mark name then some (drop5 name)
  else None.

(** ---------------------------------------------------------------- topological_sort, s2:76-107 *)
Definition graph := list (str * list str).
Definition keys (g : graph) : list str := map fst g.
Definition deps_of (g : graph) (n : str) : list str := match lookup n g with Some l => l | None => [] end.
(** in_degree: a defaultdict(int) *)
Definition degrees := str -> Z.
Definition bump (d : degrees) (n : str) (k : Z) : degrees := fun x => if str_eqb x n then (d x + k)%Z else d x.
(** s2:78-84 *)
Definition in_degrees (E : env) (g : graph) : degrees :=
  fold_left (fun d e => fold_left (fun d' dep => if member dep (keys g) then bump d' (fst e) 1 else d') (walk E 0 (snd e)) d)
    g (fun _ => 0%Z).
(** s2:94-99: one walk over all nodes after [node] was output *)
Definition release (E : env) (g : graph) (k : nat) (node : str) (st : degrees * list str) : degrees * list str :=
  fold_left (fun st other =>
      if member node (deps_of g other) then
        let d := bump (fst st) other (-1) in
        if (d other =? 0)%Z then (d, sort (snd st ++ [other])) else (d, snd st)
      else st)
    (walk E k (keys g)) st.
(** s2:89-99.  None: the fuel is used up before the queue is empty (C54 proves that this does not happen). *)
Fixpoint kahn (E : env) (g : graph) (fuel : nat) (d : degrees) (queue result : list str) : option (list str) :=
  match queue with
  | [] => Some result
  | node :: rest =>
      match fuel with
      | O => None
      | S f => let st := release E g (10 + fuel) node (d, rest) in kahn E g f (fst st) (snd st) (result ++ [node])
      end
  end.
Definition topological_sort (E : env) (g : graph) : option (list str) :=
  let d := in_degrees E g in
  let queue := sort (filter (fun n => (d n =? 0)%Z) (walk E 1 (keys g))) in
  match kahn E g (List.length g) d queue [] with
  | None => None
  | Some result => Some (result ++ sort (filter (fun n => negb (member n result)) (walk E 2 (keys g))))
  end.

(** ---------------------------------------------------------------- main, s2:110-253 *)
Definition dict_names (p : str -> bool) (defs : list (str * value)) : list (str * value) := filter (fun e => p (fst e)) defs.
(** s2:124-135 *)
Definition node_defs (defs : list (str * value)) := dict_names is_node defs.
Definition mark_defs (defs : list (str * value)) := dict_names (fun n => negb (is_node n) && is_mark n) defs.
Definition other_defs (defs : list (str * value)) := dict_names (fun n => negb (is_node n) && negb (is_mark n)) defs.
(** s2:137-143 *)
Definition node_refs (E : env) (e : str * value) : res (str * list str) :=
  do refs <- extract_refs (snd e) [];
  Ok (fst e, fold_left (fun l r => if is_node r || is_mark r then add r l else l) (walk E 3 refs) []).
(** s2:145-150 *)
Fixpoint group (base name : str) (d : list (str * list str)) : list (str * list str) :=
  match d with
  | [] => [(base, [name])]
  | (k, l) :: r => if str_eqb k base then (k, l ++ [name]) :: r else (k, l) :: group base name r
  end.
Definition by_base (names : list str) : list (str * list str) :=
  fold_left (fun d n => match get_base_type n with Some b => group b n d | None => d end) names [].
(** s2:152-161 *)
Definition base_deps (E : env) (node_deps : list (str * list str)) (groups : list (str * list str)) : graph :=
  map (fun e : str * list str =>
    (fst e,
     fold_left (fun l variant =>
        fold_left (fun l' dep => match get_base_type dep with
                                 | Some b => if str_eqb b (fst e) then l' else add b l'
                                 | None => l'
                                 end)
          (walk E 4 (deps_of node_deps variant)) l)
       (snd e) [])) groups.
(** s2:166-171 *)
Definition mark_bases (defs : list (str * value)) : list str :=
  fold_left (fun l e => match get_base_type (fst e) with Some b => add b l | None => l end) (mark_defs defs) [].

(** [f"{prefix}{x[0].upper()}{x[1:]}"] of a name that is not empty *)
Definition title (E : env) (prefix x : str) : str :=
  prefix ++ match x with [] => [] | c :: r => upper E c ++ r end.
Definition count {A} (l : list A) : str := dec (Z.of_nat (List.length l)).
Definition comma_list (l : list str) : str := join (s ", ") (sort l).
(** s2:202-208 *)
Fixpoint numbered (g : graph) (k : Z) (bases : list str) : list str :=
  match bases with
  | [] => []
  | b :: r =>
      (dec k ++ s ". **" ++ b ++ s "**" ++
       match deps_of g b with
       | [] => s " - no dependencies"
       | _ => s " - depends on: " ++ comma_list (deps_of g b)
       end) :: numbered g (k + 1) r
  end.
(** s2:173-247 *)
Definition report_lines (E : env) (defs : list (str * value)) (enums : list str) (g : graph) (bases marks : list str) : list str :=
  [s "# ADF JSON Schema Analysis"; s ""; s "## Overview"; s "";
   s "- Total definitions: " ++ count defs;
   s "- Node definitions (`*_node`): " ++ count (node_defs defs);
   s "- Mark definitions (`*_mark`): " ++ count (mark_defs defs);
   s "- Other definitions: " ++ count (other_defs defs);
   s "- Unique type enum values: " ++ count enums; s "";
   s "## All Type Enum Values"; s "";
   count enums ++ s " unique type values:"; s ""] ++
  map (fun t => s "- " ++ t) (sort enums) ++
  [s ""; s "## Implementation Order"; s ""; s "Nodes sorted by dependencies (implement dependencies first):"; s ""] ++
  numbered g 1 bases ++
  [s ""; s "## Mark Definitions"; s ""; count marks ++ s " mark types:"; s ""] ++
  map (fun m => s "- " ++ m) (sort marks) ++
  [s ""; s "## Recommended Implementation Phases"; s "";
   s "### Phase 1: Base Classes"; s ""; s "- Base"; s "- BaseNode"; s "- BaseMark"; s "";
   s "### Phase 2: Marks"; s ""; s "No internal dependencies, can be implemented in any order:"; s ""] ++
  map (fun m => s "- " ++ title E (s "Mark") m) (sort marks) ++
  [s ""; s "### Phase 3: Leaf Nodes"; s ""; s "Nodes with no node dependencies:"; s ""] ++
  map (fun b => s "- " ++ title E (s "Node") b)
    (filter (fun b => match deps_of g b with [] => true | _ => false end) bases) ++
  [s ""; s "### Phase 4: Composite Nodes"; s ""; s "Nodes with dependencies (implement in order):"; s ""] ++
  map (fun b => s "- " ++ title E (s "Node") b ++ s " - needs: " ++ comma_list (deps_of g b))
    (filter (fun b => match deps_of g b with [] => false | _ => true end) bases).

(** main: the content of the report for the value of "definitions" ([None] for the fuel of [kahn]). *)
Definition analysis (E : env) (defs : list (str * value)) : res (list str * graph * option (list str)) :=
  do enums <- extract_type_enums (VDict defs) [];
  do node_deps <- mapM (node_refs E) (node_defs defs);
  let g := base_deps E node_deps (by_base (map fst (node_defs defs))) in
  Ok (enums, g, topological_sort E g).
Definition report (E : env) (defs : list (str * value)) : res (option str) :=
  do (enums, g, order) <- analysis E defs;
  Ok (match order with
      | None => None
      | Some bases => Some (join nl (report_lines E defs enums g bases (mark_bases defs)))
      end).
