(** [==] and [hash()] on parsed objects and on the dictionaries they come from.
    Every mark, node and attrs class is a [@dataclasses.dataclass(frozen=True)] (mark_or_node.py:33,98,131,202 and
    the 96 decorators under marks/ and nodes/); none defines __eq__ or __hash__, so both are the generated ones:
    [__eq__] compares the tuples of fields of two instances of the same class and is otherwise decided by identity,
    [__hash__] hashes the tuple of fields. *)
From Coq Require Import List NArith ZArith QArith Qreduction Bool String.
From Verif Require Import PyStr Values Schema Parse.
Import ListNotations.
Open Scope list_scope.
Open Scope string_scope.

(** ---------------------------------------------------------------- values *)
(** Numbers compare by value; bool is a subclass of int.  [same] tells whether the NaNs met are one and the same
    object: containers compare their elements by identity first, and copy.deepcopy and json.loads share NaN.
    (Simplified: one flag for all NaNs.  From Python 3.13 on the generated __eq__ compares the fields themselves with ==, so that
    a NaN directly in a field is unequal to itself and [same := true] is exact only without such fields.) *)
Definition number (v : value) : option (Z * Z) :=
  match v with
  | VBool b => Some (if b then 1 else 0, 0)%Z
  | VInt z => Some (z, 0%Z)
  | VFloat (FFin m e) => Some (m, e)
  | _ => None
  end.
Definition num_eqb (a b : Z * Z) : bool :=
  let (m, e) := a in let (m', e') := b in
  let lo := Z.min e e' in ((m * 2 ^ (e - lo)) =? (m' * 2 ^ (e' - lo)))%Z.

Definition atom_eqb (same : bool) (a b : value) : bool :=
  match number a, number b with
  | Some x, Some y => num_eqb x y
  | _, _ =>
      match a, b with
      | VNone, VNone => true
      | VOpt, VOpt => true                    (* one sentinel object *)
      | VStr x, VStr y => str_eqb x y
      | VFloat (FInf x), VFloat (FInf y) => Bool.eqb x y
      | VFloat FNaN, VFloat FNaN => same
      | _, _ => false
      end
  end.

Definition list_eqb {A} (eqb : A -> A -> bool) : list A -> list A -> bool :=
  fix go (l l' : list A) : bool :=
    match l, l' with
    | [], [] => true
    | a :: r, b :: r' => eqb a b && go r r'
    | _, _ => false
    end.

(** dict.__eq__: as many keys, and every key of the one is a key of the other with an equal value. *)
Fixpoint value_eqb (same : bool) (a b : value) {struct a} : bool :=
  match a, b with
  | VList l, VList l' => list_eqb (value_eqb same) l l'
  | VDict d, VDict d' =>
      Nat.eqb (List.length d) (List.length d') &&
      forallb (fun e => match e with (k, x) => match lookup k d' with Some y => value_eqb same x y | None => false end end) d
  | _, _ => atom_eqb same a b
  end.

(** ---------------------------------------------------------------- objects *)
Definition mkind_eqb (a b : mkind) : bool := str_eqb (mk_name a) (mk_name b).
Definition nkind_eqb (a b : nkind) : bool := str_eqb (nk_name a) (nk_name b).

(** Two attrs fields of objects of one class: hence of the same Attrs class, if any. *)
Definition attrs_eqb (same : bool) (a b : attrs) : bool :=
  match a, b with
  | NoAttrs, NoAttrs => true
  | AOpt, AOpt => true
  | AObj l, AObj l' => list_eqb (fun x y => value_eqb same (snd x) (snd y)) l l'
  | _, _ => false
  end.
Definition mark_eqb (same : bool) (a b : mark) : bool :=
  mkind_eqb (m_kind a) (m_kind b) && value_eqb same (m_type a) (m_type b) && attrs_eqb same (m_attrs a) (m_attrs b).

(** A raw field (not a list, not OPT) never equals a list of objects or OPT. *)
Definition slot_eqb {A} (same : bool) (eqb : A -> A -> bool) (a b : slot A) : bool :=
  match a, b with
  | NoField, NoField => true
  | SOpt, SOpt => true
  | Items l, Items l' => list_eqb eqb l l'
  | Raw v, Raw v' => value_eqb same v v'
  | _, _ => false
  end.
Definition opt_eqb (same : bool) (a b : option value) : bool :=
  match a, b with None, None => true | Some x, Some y => value_eqb same x y | _, _ => false end.

Fixpoint node_eqb (same : bool) (a b : node) {struct a} : bool :=
  match a, b with
  | Node k ty ve tx at_ co ma, Node k' ty' ve' tx' at' co' ma' =>
      nkind_eqb k k' && value_eqb same ty ty' && opt_eqb same ve ve' && opt_eqb same tx tx' && attrs_eqb same at_ at'
      && match co, co' with
         | NoField, NoField => true
         | SOpt, SOpt => true
         | Items l, Items l' => list_eqb (node_eqb same) l l'
         | Raw v, Raw v' => value_eqb same v v'
         | _, _ => false
         end
      && slot_eqb same (mark_eqb same) ma ma'
  end.

(** ---------------------------------------------------------------- hash *)
(** The hash functions of the Python types, as an arbitrary oracle.  hash() of a number depends on its value only
    (1, 1.0 and True have one hash); [h_nan] is the identity-based hash of the NaN object. *)
Record hasher := Hasher {
  h_none : Z; h_opt : Z; h_num : Q -> Z; h_inf : bool -> Z; h_nan : Z; h_str : str -> Z; h_tuple : list Z -> Z }.

Definition qvalue (p : Z * Z) : Q := (inject_Z (fst p) * Qpower (inject_Z 2) (snd p))%Q.
Definition value_hash (H : hasher) (v : value) : res Z :=
  match number v with
  | Some p => Ok (h_num H (Qred (qvalue p)))
  | None =>
      match v with
      | VNone => Ok (h_none H)
      | VOpt => Ok (h_opt H)
      | VStr x => Ok (h_str H x)
      | VFloat (FInf b) => Ok (h_inf H b)
      | VFloat _ => Ok (h_nan H)
      | _ => Err TypeError                 (* list, dict: unhashable type *)
      end
  end.
Definition tuple_hash (H : hasher) (fs : list (res Z)) : res Z := do hs <- mapM (fun r => r) fs; Ok (h_tuple H hs).
Definition attrs_hash (H : hasher) (a : attrs) : list (res Z) :=
  match a with
  | NoAttrs => []
  | AOpt => [Ok (h_opt H)]
  | AObj l => [tuple_hash H (map (fun e => value_hash H (snd e)) l)]
  end.
Definition slot_hash {A} (H : hasher) (sl : slot A) : list (res Z) :=
  match sl with NoField => [] | SOpt => [Ok (h_opt H)] | Items _ => [Err TypeError] | Raw v => [value_hash H v] end.
Definition opt_hash (H : hasher) (o : option value) : list (res Z) :=
  match o with None => [] | Some v => [value_hash H v] end.
Definition mark_hash (H : hasher) (m : mark) : res Z :=
  tuple_hash H (value_hash H (m_type m) :: attrs_hash H (m_attrs m)).
Definition node_hash (H : hasher) (n : node) : res Z :=
  tuple_hash H (value_hash H (n_type n) :: opt_hash H (n_version n) ++ opt_hash H (n_text n) ++ attrs_hash H (n_attrs n)
                ++ slot_hash H (n_content n) ++ slot_hash H (n_marks n)).
