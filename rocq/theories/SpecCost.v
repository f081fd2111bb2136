(** Vocabulary for C56: how many containers a value has and how deeply they are nested. *)
From Coq Require Import List NArith ZArith Bool String Arith.
From Verif Require Import PyStr Values Schema Parse SpecHeap.
Import ListNotations.
Open Scope string_scope.
Open Scope list_scope.
Open Scope nat_scope.

Definition max_with {A} (f : A -> nat) : list A -> nat :=
  fix go (l : list A) : nat := match l with [] => 0 | a :: r => Nat.max (f a) (go r) end.
(** The dictionaries and lists of a value (each occurrence counts). *)
Fixpoint containers (v : value) : nat :=
  match v with
  | VList l => S (sum_with containers l)
  | VDict d => S (sum_with (fun e => match e with (_, y) => containers y end) d)
  | _ => 0
  end.
(** The longest chain of dictionaries and lists inside one another. *)
Fixpoint nesting (v : value) : nat :=
  match v with
  | VList l => S (max_with nesting l)
  | VDict d => S (max_with (fun e => match e with (_, y) => nesting y end) d)
  | _ => 0
  end.

(** The same for parsed objects: instances, lists and dictionaries. *)
Definition attrs_objects (a : attrs) : nat :=
  match a with AObj l => S (sum_with (fun e => match e with (_, y) => containers y end) l) | _ => 0 end.
Definition attrs_nesting (a : attrs) : nat :=
  match a with AObj l => S (max_with (fun e => match e with (_, y) => nesting y end) l) | _ => 0 end.
Definition slot_objects {A} (f : A -> nat) (c : slot A) : nat :=
  match c with Items l => S (sum_with f l) | Raw v => containers v | _ => 0 end.
Definition slot_nesting {A} (f : A -> nat) (c : slot A) : nat :=
  match c with Items l => S (max_with f l) | Raw v => nesting v | _ => 0 end.
Definition opt_objects (o : option value) : nat := match o with Some v => containers v | None => 0 end.
Definition opt_nesting (o : option value) : nat := match o with Some v => nesting v | None => 0 end.
Definition mark_objects (m : mark) : nat := S (containers (m_type m) + attrs_objects (m_attrs m)).
Definition mark_nesting (m : mark) : nat := S (Nat.max (nesting (m_type m)) (attrs_nesting (m_attrs m))).
Fixpoint node_objects (n : node) : nat :=
  match n with
  | Node k ty ve tx at_ co ma =>
      S (containers ty + opt_objects ve + opt_objects tx + attrs_objects at_ + slot_objects node_objects co + slot_objects mark_objects ma)
  end.
Fixpoint node_nesting (n : node) : nat :=
  match n with
  | Node k ty ve tx at_ co ma =>
      S (Nat.max (nesting ty) (Nat.max (opt_nesting ve) (Nat.max (opt_nesting tx) (Nat.max (attrs_nesting at_)
        (Nat.max (slot_nesting node_nesting co) (slot_nesting mark_nesting ma))))))
  end.

(** A chain of [n] block quotes around a rule. *)
Fixpoint quotes (n : nat) : value :=
  match n with
  | O => VDict [(s "type", VStr (s "rule"))]
  | S m => VDict [(s "type", VStr (s "blockquote")); (s "content", VList [quotes m])]
  end.
(** What it parses to. *)
Fixpoint quote_node (n : nat) : node :=
  match n with
  | O => Node Krule (VStr (s "rule")) None None AOpt NoField NoField
  | S m => Node Kblockquote (VStr (s "blockquote")) None None AOpt (Items [quote_node m]) NoField
  end.
