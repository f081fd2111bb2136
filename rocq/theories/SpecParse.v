(** Specification vocabulary for the parsing and serialisation properties: functions on
    input dictionaries and predicates on objects.  Nothing here refers to from_dict,
    parse_node or to_dict. *)
From Coq Require Import List NArith ZArith Bool String.
From Verif Require Import PyStr Values Schema Parse.
Import ListNotations.
Open Scope string_scope.
Open Scope list_scope.

Definition mem (x : str) (l : list str) : bool := existsb (str_eqb x) l.

Definition node_names : list str := map nk_name all_nkinds.
Definition mark_names : list str := map mk_name all_mkinds.

(** The [type] of an element dictionary. *)
Definition elem_type (v : value) : option value :=
  match v with VDict d => lookup (s "type") d | _ => None end.

(** An element whose type is a (hashable) value that is not one of the registered names. *)
Definition unregistered (names : list str) (v : value) : bool :=
  match elem_type v with
  | Some (VStr t) => negb (mem t names)
  | Some (VList _ | VDict _) | None => false
  | Some _ => true
  end.

(** ---------------------------------------------------------------- C01: declared keys *)
(** Keys of an element dictionary of class [k] that can matter: the declared fields, and
    "content"/"marks", which from_dict walks on every class. *)
Definition node_keys (k : nkind) : list str :=
  let c := nk_class k in
  [s "type"; s "content"; s "marks"]
  ++ (if nc_version c then [s "version"] else [])
  ++ (if nc_text c then [s "text"] else [])
  ++ match nc_attrs c with Some _ => [s "attrs"] | None => [] end.
Definition mark_keys (k : mkind) : list str :=
  s "type" :: match mk_attrs k with Some _ => [s "attrs"] | None => [] end.

Definition restrict (keys : list str) (d : list (str * value)) : list (str * value) :=
  filter (fun e => mem (fst e) keys) d.
Definition restrict_dict (keys : list str) (v : value) : value :=
  match v with VDict d => VDict (restrict keys d) | _ => v end.

(** Delete every undeclared key of a mark / of a node, recursively. *)
Definition known_mark (v : value) : value :=
  match v with
  | VDict d =>
      match lookup (s "type") d with
      | None => v
      | Some ty =>
          match mark_class_of ty with
          | Found k =>
              VDict (restrict (mark_keys k)
                (map (fun e => (fst e,
                        if str_eqb (fst e) (s "attrs")
                        then match mk_attrs k with
                             | Some fs => restrict_dict (map fst fs) (snd e) | None => snd e end
                        else snd e)) d))
          | _ => VDict (restrict [s "type"] d)
          end
      end
  | _ => v
  end.

Definition known_entry (rec : value -> value) (k : nkind) (key : str) (x : value) : value :=
  if str_eqb key (s "content")
  then match x with VList l => VList (map rec l) | _ => x end
  else if str_eqb key (s "marks")
  then match x with VList l => VList (map known_mark l) | _ => x end
  else if str_eqb key (s "attrs")
  then match nc_attrs (nk_class k) with
       | Some (_, fs) => restrict_dict (map fst fs) x | None => x end
  else x.

Fixpoint known_node (v : value) {struct v} : value :=
  match v with
  | VDict d =>
      match lookup (s "type") d with
      | None => v
      | Some ty =>
          match node_class_of ty with
          | Found k =>
              VDict (restrict (node_keys k)
                       (map (fun e => (fst e, match e with (key, x) => known_entry known_node k key x end)) d))
          | _ => VDict (restrict [s "type"] d)
          end
      end
  | _ => v
  end.

(** The same for a dictionary handed directly to class [k]'s from_dict. *)
Definition known_for (k : nkind) (v : value) : value :=
  match v with
  | VDict d => VDict (restrict (node_keys k) (map (fun e => (fst e, known_entry known_node k (fst e) (snd e))) d))
  | _ => v
  end.

(** ---------------------------------------------------------------- C02: pruning *)
(** Delete every element of an unregistered type from content and marks lists, recursively. *)
Definition prune_entry (rec : value -> value) (key : str) (x : value) : value :=
  if str_eqb key (s "content")
  then match x with
       | VList l => VList (flat_map (fun y => if unregistered node_names y then [] else [rec y]) l)
       | _ => x
       end
  else if str_eqb key (s "marks")
  then match x with
       | VList l => VList (filter (fun y => negb (unregistered mark_names y)) l)
       | _ => x
       end
  else x.
Fixpoint prune (v : value) {struct v} : value :=
  match v with
  | VDict d => VDict (map (fun e => (fst e, match e with (key, x) => prune_entry prune key x end)) d)
  | _ => v
  end.

(** The elements that pruning deletes, in document order (an element's content before its marks). *)
Definition type_of_elem (v : value) : value := match elem_type v with Some t => t | None => VNone end.
Definition list_at (key : str) (d : list (str * value)) : list value :=
  match lookup key d with Some (VList l) => l | _ => [] end.
Fixpoint pruned (v : value) {struct v} : list warning :=
  match v with
  | VDict d =>
      (fix go (d : list (str * value)) : list warning :=
         match d with
         | [] => []
         | (k, x) :: r =>
             if str_eqb k (s "content")
             then match x with
                  | VList l => flat_map (fun y => if unregistered node_names y
                                                  then [Warn CNode (type_of_elem y)] else pruned y) l
                  | _ => []
                  end
             else go r
         end) d
      ++ flat_map (fun y => if unregistered mark_names y then [Warn CMark (type_of_elem y)] else [])
                  (list_at (s "marks") d)
  | _ => []
  end.

(** ---------------------------------------------------------------- C03: reached elements *)
(** [reached v x]: parsing [v] visits the node element [x]. *)
Inductive reached : value -> value -> Prop :=
| reached_here v : reached v v
| reached_child d k l y x :
    lookup (s "type") d = Some (VStr (nk_name k)) ->
    lookup (s "content") d = Some (VList l) ->
    In y l -> reached y x -> reached (VDict d) x.

(** ---------------------------------------------------------------- C05: acceptance *)
Definition attrs_acceptable (fs : list (str * fkind)) (v : value) : bool :=
  match v with
  | VDict d => forallb (fun f => match snd f with Opt => true | _ => has (fst f) d end) fs
  | _ => false
  end.

Definition mark_acceptable (v : value) : bool :=
  match v with
  | VDict d =>
      match lookup (s "type") d with
      | Some ty =>
          match mark_class_of ty with
          | Found k =>
              match mk_attrs k with
              | None => true
              | Some fs => match lookup (s "attrs") d with
                           | Some a => attrs_acceptable fs a | None => false end
              end
          | _ => false
          end
      | None => false
      end
  | _ => false
  end.

(** A declared field may be absent only if it is optional. *)
Definition present_if_required (o : option fkind) (key : str) (d : list (str * value)) : bool :=
  match o with Some Opt | None => true | Some _ => has key d end.

Definition own_fields_acceptable (k : nkind) (d : list (str * value)) : bool :=
  let c := nk_class k in
  (if nc_text c then has (s "text") d else true)
  && match nc_attrs c with
     | None => true
     | Some (fk, fs) =>
         match lookup (s "attrs") d with
         | Some a => attrs_acceptable fs a
         | None => match fk with Opt => true | _ => false end
         end
     end
  && present_if_required (nc_content c) (s "content") d
  && present_if_required (nc_marks c) (s "marks") d
  && forallb (fun y => unregistered mark_names y || mark_acceptable y) (list_at (s "marks") d).

Fixpoint acceptable (v : value) {struct v} : bool :=
  match v with
  | VDict d =>
      match lookup (s "type") d with
      | Some ty =>
          match node_class_of ty with
          | Found k =>
              own_fields_acceptable k d
              && (fix go (d : list (str * value)) : bool :=
                    match d with
                    | [] => true
                    | (k, x) :: r =>
                        if str_eqb k (s "content")
                        then match x with
                             | VList l => forallb (fun y => unregistered node_names y || acceptable y) l
                             | _ => true
                             end
                        else go r
                    end) d
          | _ => false
          end
      | None => false
      end
  | _ => false
  end.

(** ---------------------------------------------------------------- C04: objects *)
Definition mark_consistent (m : mark) : Prop := m_type m = VStr (mk_name (m_kind m)).

Inductive consistent : node -> Prop :=
| consistent_intro k ve tx a co ma :
    (forall l, co = Items l -> Forall consistent l) ->
    (forall l, ma = Items l -> Forall mark_consistent l) ->
    consistent (Node k (VStr (nk_name k)) ve tx a co ma).

(** ---------------------------------------------------------------- C10-C13 *)
(** Values without the OPT sentinel anywhere, i.e. what json.load returns. *)
Fixpoint opt_free (v : value) {struct v} : bool :=
  match v with
  | VOpt => false
  | VList l => forallb opt_free l
  | VDict d => forallb (fun e => match e with (_, x) => opt_free x end) d
  | _ => true
  end.

(** Every content / marks field in the tree that is set holds a list. *)
Inductive listy : node -> Prop :=
| listy_intro k ty ve tx a co ma :
    (forall v, co <> Raw v) -> (forall v, ma <> Raw v) ->
    (forall l, co = Items l -> Forall listy l) ->
    listy (Node k ty ve tx a co ma).

(** Some mark in the tree leaves an optional attribute unset. *)
Definition mark_has_unset (m : mark) : bool :=
  match m_attrs m with AObj l => existsb (fun e => is_opt (snd e)) l | _ => false end.
Inductive has_unset_mark : node -> Prop :=
| unset_here k ty ve tx a co l m :
    In m l -> mark_has_unset m = true -> has_unset_mark (Node k ty ve tx a co (Items l))
| unset_below k ty ve tx a l ma n :
    In n l -> has_unset_mark n -> has_unset_mark (Node k ty ve tx a (Items l) ma).

(** Normal form of a dictionary (C11): declared keys only, in declaration order,
    unregistered elements deleted, the doc version defaulted; mark attributes that are not
    set appear as OPT (the leak of C12). *)
Definition opt_entry (key : str) (o : option value) : list (str * value) :=
  match o with Some v => [(key, v)] | None => [] end.
Definition pick (fs : list (str * fkind)) (d : list (str * value)) : list (str * value) :=
  flat_map (fun f => opt_entry (fst f) (lookup (fst f) d)) fs.
Definition pick_or_opt (fs : list (str * fkind)) (d : list (str * value)) : list (str * value) :=
  map (fun f => (fst f, match lookup (fst f) d with Some v => v | None => VOpt end)) fs.

Definition normal_mark (v : value) : value :=
  match v with
  | VDict d =>
      match lookup (s "type") d with
      | Some ty =>
          match mark_class_of ty with
          | Found k =>
              VDict ((s "type", ty)
                     :: match mk_attrs k, lookup (s "attrs") d with
                        | Some fs, Some (VDict a) => [(s "attrs", VDict (pick_or_opt fs a))]
                        | _, _ => []
                        end)
          | _ => v
          end
      | None => v
      end
  | _ => v
  end.

Definition normal_own (k : nkind) (ty : value) (d : list (str * value)) (content : option value) : value :=
  let c := nk_class k in
  VDict ((s "type", ty)
         :: (if nc_version c
             then [(s "version", match lookup (s "version") d with Some v => v | None => VInt 1 end)] else [])
         ++ (if nc_text c then opt_entry (s "text") (lookup (s "text") d) else [])
         ++ match nc_attrs c, lookup (s "attrs") d with
            | Some (_, fs), Some (VDict a) => [(s "attrs", VDict (pick fs a))]
            | _, _ => []
            end
         ++ match nc_content c with Some _ => opt_entry (s "content") content | None => [] end
         ++ match nc_marks c, lookup (s "marks") d with
            | Some _, Some (VList l) =>
                [(s "marks", VList (map normal_mark (filter (fun y => negb (unregistered mark_names y)) l)))]
            | _, _ => []
            end).

Fixpoint normal (v : value) {struct v} : value :=
  match v with
  | VDict d =>
      match lookup (s "type") d with
      | Some ty =>
          match node_class_of ty with
          | Found k =>
              normal_own k ty d
                ((fix go (d : list (str * value)) : option value :=
                    match d with
                    | [] => None
                    | (k, x) :: r =>
                        if str_eqb k (s "content")
                        then match x with
                             | VList l => Some (VList (flat_map
                                 (fun y => if unregistered node_names y then [] else [normal y]) l))
                             | _ => None
                             end
                        else go r
                    end) d)
          | _ => v
          end
      | None => v
      end
  | _ => v
  end.

(** ---------------------------------------------------------------- C03: faults *)
(** Everything that is wrong with an element, in the order in which it is noticed:
    its attrs, its children, its marks, its own missing fields. *)
Definition attrs_faults (fs : list (str * fkind)) (v : value) : list exc :=
  match v with
  | VDict d =>
      if existsb (fun f => match snd f with Pos => negb (has (fst f) d) | _ => false end) fs then [TypeError]
      else if existsb (fun f => match snd f with Req => negb (has (fst f) d) | _ => false end) fs then [ParamError]
      else []
  | _ => [TypeError]
  end.
Definition field_fault (required : bool) (key : str) (d : list (str * value)) : list exc :=
  if required && negb (has key d) then [ParamError] else [].
Definition is_required (o : option fkind) : bool :=
  match o with Some Opt | None => false | Some _ => true end.
Definition mark_faults (v : value) : list exc :=
  match v with
  | VDict d =>
      match lookup (s "type") d with
      | None => [KeyError]
      | Some ty =>
          match mark_class_of ty with
          | Found k => match mk_attrs k with
                       | None => []
                       | Some fs => match lookup (s "attrs") d with
                                    | Some a => attrs_faults fs a | None => [ParamError] end
                       end
          | Missing => [Unimplemented CMark ty]
          | Unhashable => [TypeError]
          end
      end
  | _ => [TypeError]
  end.
Definition faults_of (k : nkind) (d : list (str * value)) (child_faults : list exc) : list exc :=
  let c := nk_class k in
  match nc_attrs c, lookup (s "attrs") d with
  | Some (_, fs), Some a => attrs_faults fs a
  | _, _ => []
  end
  ++ child_faults
  ++ flat_map (fun y => if unregistered mark_names y then [] else mark_faults y) (list_at (s "marks") d)
  ++ field_fault (nc_text c) (s "text") d
  ++ field_fault (is_required (option_map fst (nc_attrs c))) (s "attrs") d
  ++ field_fault (is_required (nc_content c)) (s "content") d
  ++ field_fault (is_required (nc_marks c)) (s "marks") d.
Fixpoint faults (v : value) {struct v} : list exc :=
  match v with
  | VDict d =>
      match lookup (s "type") d with
      | None => [KeyError]
      | Some ty =>
          match node_class_of ty with
          | Found k =>
              faults_of k d
                ((fix go (d : list (str * value)) : list exc :=
                    match d with
                    | [] => []
                    | (k, x) :: r =>
                        if str_eqb k (s "content")
                        then match x with
                             | VList l => flat_map (fun y => if unregistered node_names y then [] else faults y) l
                             | _ => []
                             end
                        else go r
                    end) d)
          | Missing => [Unimplemented CNode ty]
          | Unhashable => [TypeError]
          end
      end
  | _ => [TypeError]
  end.
(** For a dictionary handed to class [k]'s from_dict. *)
Definition faults_for (k : nkind) (v : value) : list exc :=
  match v with
  | VDict d => faults_of k d (flat_map (fun y => if unregistered node_names y then [] else faults y)
                                       (list_at (s "content") d))
  | _ => [TypeError]
  end.

(** ---------------------------------------------------------------- C06: what the object holds *)
(** Object [l] holds the declared attributes [fs] of the dictionary [d]: every declared name, once and in
    declaration order, with the input's value, or OPT when the input lacks it. *)
Definition holds_attrs (fs : list (str * fkind)) (d l : list (str * value)) : Prop :=
  map fst l = map fst fs /\
  forall f, In f (map fst fs) ->
    lookup f l = Some (match lookup f d with Some v => v | None => VOpt end).

Inductive attrs_from (fs : list (str * fkind)) : option value -> attrs -> Prop :=
| attrs_from_absent : attrs_from fs None AOpt
| attrs_from_dict_ d l : holds_attrs fs d l -> attrs_from fs (Some (VDict d)) (AObj l).

Inductive represents_mark : value -> mark -> Prop :=
| represents_mark_plain d k :
    lookup (s "type") d = Some (VStr (mk_name k)) -> mk_attrs k = None ->
    represents_mark (VDict d) (Mark k (VStr (mk_name k)) NoAttrs)
| represents_mark_attrs d k fs a :
    lookup (s "type") d = Some (VStr (mk_name k)) -> mk_attrs k = Some fs ->
    attrs_from fs (lookup (s "attrs") d) a -> a <> AOpt ->
    represents_mark (VDict d) (Mark k (VStr (mk_name k)) a).

(** [slot_from keep R declared input field]. *)
Inductive slot_from {A} (skip : value -> bool) (R : value -> A -> Prop) (declared : bool)
  : option value -> slot A -> Prop :=
| slot_undeclared o : declared = false -> slot_from skip R declared o NoField
| slot_absent : declared = true -> slot_from skip R declared None SOpt
| slot_sentinel : declared = true -> slot_from skip R declared (Some VOpt) SOpt
| slot_list l xs :
    declared = true -> Forall2 R (filter (fun y => negb (skip y)) l) xs ->
    slot_from skip R declared (Some (VList l)) (Items xs)
| slot_raw v :
    declared = true -> v <> VOpt -> (forall l, v <> VList l) -> slot_from skip R declared (Some v) (Raw v).

Definition declares (o : option fkind) : bool := match o with Some _ => true | None => false end.

Inductive represents : value -> node -> Prop :=
| represents_intro d k ty ve tx a co ma :
    ty = match lookup (s "type") d with Some t => t | None => VStr (nk_name k) end ->
    node_class_of ty = Found k ->
    represents_fields k d ve tx a co ma ->
    represents (VDict d) (Node k ty ve tx a co ma)
with represents_fields : nkind -> list (str * value) -> option value -> option value -> attrs ->
                         slot node -> slot mark -> Prop :=
| represents_fields_intro k d ve tx a co ma :
    ve = (if nc_version (nk_class k)
          then Some (match lookup (s "version") d with Some v => v | None => VInt 1 end) else None) ->
    tx = (if nc_text (nk_class k) then lookup (s "text") d else None) ->
    match nc_attrs (nk_class k) with
    | None => a = NoAttrs
    | Some (_, fs) => attrs_from fs (lookup (s "attrs") d) a
    end ->
    slot_from (unregistered node_names) represents (declares (nc_content (nk_class k))) (lookup (s "content") d) co ->
    slot_from (unregistered mark_names) represents_mark (declares (nc_marks (nk_class k))) (lookup (s "marks") d) ma ->
    represents_fields k d ve tx a co ma.
