(** Object identity: dictionaries, lists and instances live at addresses of a heap, so that copy.deepcopy,
    in-place updates and aliasing become visible.  The value model (Parse.v) is what one sees when only
    the contents matter; HeapRefine.v proves that the two agree. *)
From Coq Require Import List NArith ZArith Bool String Arith.
From Verif Require Import PyStr Values Schema Parse.
Import ListNotations.
Open Scope string_scope.
Open Scope list_scope.
Open Scope nat_scope.

Definition addr := nat.
(** A Python reference: immutable data are given by value, everything else by address. *)
Inductive hval := HNone | HBool (b : bool) | HInt (z : Z) | HFloat (f : pyfloat) | HStr (x : str) | HOpt | Ref (a : addr).
Inductive tag := TNode (k : nkind) | TMark (k : mkind) | TAttrs.
(** Objects: list, dict (string keys, insertion order), instance of a frozen dataclass (its __dict__). *)
Inductive obj := OList (l : list hval) | ODict (d : list (str * hval)) | OInst (t : tag) (fs : list (str * hval)).
(** Address = position; allocation appends. *)
Definition heap := list obj.

(** How a call ends: a value, an exception, or the interpreter's recursion limit (fuel). *)
Inductive out (A : Type) := Val (a : A) | Exc (e : exc) | TooDeep.
Arguments Val {A} a. Arguments Exc {A} e. Arguments TooDeep {A}.
(** A computation changes the heap, logs warnings and ends. *)
Definition H (A : Type) : Type := heap -> heap * list warning * out A.
Definition hret {A} (a : A) : H A := fun h => (h, [], Val a).
Definition hraise {A} (e : exc) : H A := fun h => (h, [], Exc e).
Definition hdeep {A} : H A := fun h => (h, [], TooDeep).
Definition hbind {A B} (m : H A) (f : A -> H B) : H B :=
  fun h => match m h with
           | (h', lg, Val a) => match f a h' with (h'', lg', r) => (h'', lg ++ lg', r) end
           | (h', lg, Exc e) => (h', lg, Exc e)
           | (h', lg, TooDeep) => (h', lg, TooDeep)
           end.
Notation "'let!' x <- m ; k" := (hbind m (fun x => k)) (at level 200, x pattern, right associativity).

Definition alloc (o : obj) : H addr := fun h => (h ++ [o], [], Val (List.length h)).
Definition get_obj (a : addr) : H (option obj) := fun h => (h, [], Val (nth_error h a)).
Fixpoint set_nth {A} (l : list A) (n : nat) (x : A) : list A :=
  match l, n with
  | [], _ => []
  | _ :: r, O => x :: r
  | a :: r, S m => a :: set_nth r m x
  end.
Definition write (a : addr) (o : obj) : H unit := fun h => (set_nth h a o, [], Val tt).
Definition warn (x : warning) : H unit := fun h => (h, [x], Val tt).

(** [d[k] = v]: an existing key keeps its place. *)
Fixpoint put {A} (k : str) (v : A) (d : list (str * A)) : list (str * A) :=
  match d with
  | [] => [(k, v)]
  | (k', v') :: r => if str_eqb k' k then (k', v) :: r else (k', v') :: put k v r
  end.
Definition setitem (a : addr) (k : str) (v : hval) : H unit :=
  let! o <- get_obj a;
  match o with
  | Some (ODict d) => write a (ODict (put k v d))
  | _ => hraise TypeError
  end.
(** A loop over a list, collecting the results. *)
Definition hmap {A B} (f : A -> H B) : list A -> H (list B) :=
  fix go (l : list A) : H (list B) :=
  match l with
  | [] => hret []
  | a :: r => let! b <- f a; let! bs <- go r; hret (b :: bs)
  end.

(** ---------------------------------------------------------------- copy.deepcopy *)
(** CPython's copy.deepcopy with its memo (id of the original -> copy).  An object is allocated and entered
    into the memo before its elements are copied.  Simplified: the copy is filled in one step after the
    copies of all its elements exist, instead of element by element; the memo is threaded as a value. *)
Definition memo := list (addr * addr).
Fixpoint memo_get (a : addr) (m : memo) : option addr :=
  match m with [] => None | (x, y) :: r => if Nat.eqb x a then Some y else memo_get a r end.
Definition copy_items (dc : hval -> memo -> H (hval * memo)) : list hval -> memo -> H (list hval * memo) :=
  fix go (l : list hval) (m : memo) : H (list hval * memo) :=
  match l with
  | [] => hret ([], m)
  | x :: r => let! (x', m1) <- dc x m; let! (r', m2) <- go r m1; hret (x' :: r', m2)
  end.
Definition items_of (o : obj) : list hval :=
  match o with OList l => l | ODict d => map snd d | OInst _ d => map snd d end.
Definition with_items (o : obj) (l : list hval) : obj :=
  match o with
  | OList _ => OList l
  | ODict d => ODict (combine (map fst d) l)
  | OInst t d => OInst t (combine (map fst d) l)
  end.
Fixpoint deepcopy (fuel : nat) (v : hval) (m : memo) {struct fuel} : H (hval * memo) :=
  match v with
  | Ref a =>
      match fuel with
      | O => hdeep
      | S f =>
          match memo_get a m with
          | Some b => hret (Ref b, m)
          | None =>
              let! o <- get_obj a;
              match o with
              | None => hraise TypeError                       (* dangling: cannot happen *)
              | Some o =>
                  let! b <- alloc (with_items o []);
                  let! (l, m') <- copy_items (deepcopy f) (items_of o) ((a, b) :: m);
                  let! _ <- write b (with_items o l);
                  hret (Ref b, m')
              end
          end
      end
  | _ => hret (v, m)
  end.

(** ---------------------------------------------------------------- from_dict *)
(** [Attrs.from_dict(v)]: Base.from_dict (mark_or_node.py:67-88), which does not copy. *)
Definition h_attrs_from_dict (fs : list (str * fkind)) (v : hval) : H hval :=
  match v with
  | Ref a =>
      let! o <- get_obj a;
      match o with
      | Some (ODict d) =>
          if existsb (fun f => is_Pos (snd f) && negb (has (fst f) d)) fs then hraise TypeError
          else if existsb (fun f => is_Req (snd f) && negb (has (fst f) d)) fs then hraise ParamError
          else let! b <- alloc (OInst TAttrs (map (fun f => (fst f, match lookup (fst f) d with Some x => x | None => HOpt end)) fs));
               hret (Ref b)
      | _ => hraise TypeError
      end
  | _ => hraise TypeError
  end.

(** The type value as the registry lookup sees it; lists and dicts are unhashable.
    Simplified: so are instances. *)
Definition h_type (v : hval) : option value :=
  match v with
  | HNone => Some VNone | HBool b => Some (VBool b) | HInt z => Some (VInt z) | HFloat f => Some (VFloat f)
  | HStr x => Some (VStr x) | HOpt => Some VOpt | Ref _ => None
  end.

(** [BaseMark.from_dict] (mark_or_node.py:145-161). *)
Definition h_mark_from_dict (fuel : nat) (k : mkind) (v : hval) : H hval :=
  let! (dct, _) <- deepcopy fuel v [];
  match dct with
  | Ref a =>
      let! o <- get_obj a;
      match o with
      | Some (ODict d0) =>
          let! _ <- match lookup (s "attrs") d0, mk_attrs k with
                    | Some av, Some fs => let! i <- h_attrs_from_dict fs av; setitem a (s "attrs") i
                    | _, _ => hret tt
                    end;
          let! o' <- get_obj a;
          match o' with
          | Some (ODict d) =>
              let t := match lookup (s "type") d with Some t => t | None => HStr (mk_name k) end in
              match mk_attrs k with
              | None => let! b <- alloc (OInst (TMark k) [(s "type", t)]); hret (Ref b)
              | Some _ => match lookup (s "attrs") d with
                          | Some av => let! b <- alloc (OInst (TMark k) [(s "type", t); (s "attrs", av)]); hret (Ref b)
                          | None => hraise ParamError
                          end
              end
          | _ => hraise TypeError
          end
      | _ => hraise TypeError
      end
  | _ => hraise TypeError
  end.
(** [parse_mark] (marks/parse_mark.py:62-75). *)
Definition h_parse_mark (fuel : nat) (v : hval) : H hval :=
  match v with
  | Ref a =>
      let! o <- get_obj a;
      match o with
      | Some (ODict d) =>
          match lookup (s "type") d with
          | None => hraise KeyError
          | Some ty =>
              match h_type ty with
              | None => hraise TypeError
              | Some t =>
                  match mark_class_of t with
                  | Found k => h_mark_from_dict fuel k v
                  | Missing => hraise (Unimplemented CMark t)
                  | Unhashable => hraise TypeError
                  end
              end
          end
      | _ => hraise TypeError
      end
  | _ => hraise TypeError
  end.

(** The two loops of BaseNode.from_dict (mark_or_node.py:255-282); [w] is the settings flag. *)
Definition h_collect (w : bool) (p : hval -> H hval) : list hval -> H (list hval) :=
  fix go (l : list hval) : H (list hval) :=
  match l with
  | [] => hret []
  | x :: r => fun h =>
      match p x h with
      | (h', lg, Val y) => match (let! ys <- go r; hret (y :: ys)) h' with (h'', lg', o) => (h'', lg ++ lg', o) end
      | (h', lg, Exc (Unimplemented c ty)) =>
          match go r h' with (h'', lg', o) => (h'', lg ++ (if w then [Warn c ty] else []) ++ lg', o) end
      | (h', lg, Exc e) => (h', lg, Exc e)
      | (h', lg, TooDeep) => (h', lg, TooDeep)
      end
  end.
(** [if key in dct: if isinstance(dct[key], list): ... dct[key] = new_list]. *)
Definition h_children (w : bool) (p : hval -> H hval) (a : addr) (key : str) : H unit :=
  let! o <- get_obj a;
  match o with
  | Some (ODict d) =>
      match lookup key d with
      | Some (Ref b) =>
          let! ol <- get_obj b;
          match ol with
          | Some (OList l) => let! ys <- h_collect w p l; let! c <- alloc (OList ys); setitem a key (Ref c)
          | _ => hret tt
          end
      | _ => hret tt
      end
  | _ => hret tt
  end.

(** Constructor arguments of a node class, in declaration order; [None] when a required one is missing. *)
Definition h_field (d : list (str * hval)) (name : string) (fk : option fkind) : option (list (str * hval)) :=
  match fk with
  | None => Some []
  | Some k => match lookup (s name) d with
              | Some v => Some [(s name, v)]
              | None => match k with Opt => Some [(s name, HOpt)] | _ => None end
              end
  end.
Definition h_construct (k : nkind) (d : list (str * hval)) : H hval :=
  let c := nk_class k in
  let t := match lookup (s "type") d with Some t => t | None => HStr (nk_name k) end in
  let ve := if nc_version c then [(s "version", match lookup (s "version") d with Some v => v | None => HInt 1 end)] else [] in
  match h_field d "text" (if nc_text c then Some Req else None),
        h_field d "attrs" (match nc_attrs c with Some (fk, _) => Some fk | None => None end),
        h_field d "content" (nc_content c), h_field d "marks" (nc_marks c) with
  | Some tx, Some at_, Some co, Some ma =>
      let! b <- alloc (OInst (TNode k) ([(s "type", t)] ++ ve ++ tx ++ at_ ++ co ++ ma)); hret (Ref b)
  | _, _, _, _ => hraise ParamError
  end.

(** [BaseNode.from_dict] (mark_or_node.py:222-284) on class [k]; [pn] and [pm] are parse_node and parse_mark. *)
Definition h_node_from_dict (fuel : nat) (w : bool) (pn pm : hval -> H hval) (k : nkind) (v : hval) : H hval :=
  let! (dct, _) <- deepcopy fuel v [];
  match dct with
  | Ref a =>
      let! o <- get_obj a;
      match o with
      | Some (ODict d0) =>
          let! _ <- match lookup (s "attrs") d0, nc_attrs (nk_class k) with
                    | Some av, Some (_, fs) => let! i <- h_attrs_from_dict fs av; setitem a (s "attrs") i
                    | _, _ => hret tt
                    end;
          let! _ <- h_children w pn a (s "content");
          let! _ <- h_children w pm a (s "marks");
          let! o' <- get_obj a;
          match o' with
          | Some (ODict d) => h_construct k d
          | _ => hraise TypeError
          end
      | _ => hraise TypeError
      end
  | _ => hraise TypeError
  end.

(** [parse_node] (nodes/parse_node.py:100-113). *)
Fixpoint h_parse_node (fuel : nat) (w : bool) (v : hval) {struct fuel} : H hval :=
  match fuel with
  | O => hdeep
  | S f =>
      match v with
      | Ref a =>
          let! o <- get_obj a;
          match o with
          | Some (ODict d) =>
              match lookup (s "type") d with
              | None => hraise KeyError
              | Some ty =>
                  match h_type ty with
                  | None => hraise TypeError
                  | Some t =>
                      match node_class_of t with
                      | Found k => h_node_from_dict f w (h_parse_node f w) (h_parse_mark f) k v
                      | Missing => hraise (Unimplemented CNode t)
                      | Unhashable => hraise TypeError
                      end
                  end
              end
          | _ => hraise TypeError
          end
      | _ => hraise TypeError
      end
  end.
(** [K.from_dict(v)]. *)
Definition h_from_dict (fuel : nat) (w : bool) (k : nkind) (v : hval) : H hval :=
  h_node_from_dict fuel w (h_parse_node fuel w) (h_parse_mark fuel) k v.
