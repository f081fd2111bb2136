(** Vocabulary for C09: reachability and what a reference denotes.  Independent of the proofs. *)
From Coq Require Import List NArith ZArith Bool String Arith.
From Verif Require Import PyStr Values Schema Parse Heap.
Import ListNotations.
Open Scope string_scope.
Open Scope list_scope.
Open Scope nat_scope.

(** [reaches h v a]: the object at [a] can be reached from [v] by following references. *)
Inductive reaches (h : heap) : hval -> addr -> Prop :=
| r_here a : reaches h (Ref a) a
| r_step a o v b : nth_error h a = Some o -> In v (items_of o) -> reaches h v b -> reaches h (Ref a) b.

(** No dangling references. *)
Definition closed (h : heap) : Prop := forall a o b, nth_error h a = Some o -> In (Ref b) (items_of o) -> b < List.length h.
Definition valid (h : heap) (v : hval) : Prop := forall a, v = Ref a -> a < List.length h.

Definition all2 {A B} (R : A -> B -> Prop) : list A -> list B -> Prop :=
  fix go (l : list A) (m : list B) {struct l} : Prop :=
  match l, m with
  | [], [] => True
  | a :: l', b :: m' => R a b /\ go l' m'
  | _, _ => False
  end.

(** The reference [x] stands for the JSON-like value [v]; [g] gives the object at an address. *)
Definition store := addr -> option obj.
Fixpoint den (g : store) (v : value) (x : hval) {struct v} : Prop :=
  match v with
  | VNone => x = HNone
  | VBool b => x = HBool b
  | VInt z => x = HInt z
  | VFloat f => x = HFloat f
  | VStr y => x = HStr y
  | VOpt => x = HOpt
  | VList vs => exists a l, x = Ref a /\ g a = Some (OList l) /\ all2 (den g) vs l
  | VDict vs => exists a d, x = Ref a /\ g a = Some (ODict d) /\
                            all2 (fun e f => match e with (k, y) => k = fst f /\ den g y (snd f) end) vs d
  end.

(** The reference stands for an instance of an Attrs class with these field values. *)
Definition den_attrs (g : store) (l : list (str * value)) (x : hval) : Prop :=
  exists a fs, x = Ref a /\ g a = Some (OInst TAttrs fs) /\
               all2 (fun e f => match e with (k, y) => k = fst f /\ den g y (snd f) end) l fs.
(** A field of an instance: missing, OPT, or a value. *)
Definition attrs_field_den (g : store) (a : attrs) (o : option hval) : Prop :=
  match a with
  | NoAttrs => o = None
  | AOpt => o = Some HOpt
  | AObj l => exists x, o = Some x /\ den_attrs g l x
  end.
Definition field_den (g : store) (v : option value) (o : option hval) : Prop :=
  match v with
  | None => o = None
  | Some v => exists x, o = Some x /\ den g v x
  end.
Definition slot_den {A} (g : store) (R : A -> hval -> Prop) (c : slot A) (o : option hval) : Prop :=
  match c with
  | NoField => o = None
  | SOpt => o = Some HOpt
  | Items l => exists b xs, o = Some (Ref b) /\ g b = Some (OList xs) /\ all2 R l xs
  | Raw v => (v <> VOpt /\ forall l, v <> VList l) /\ exists x, o = Some x /\ den g v x
  end.
(** The fields of an instance are exactly these, in declaration order. *)
Definition if_some {A} (o : option A) (k : string) : list str := match o with Some _ => [s k] | None => [] end.
Definition if_attrs (a : attrs) : list str := match a with NoAttrs => [] | _ => [s "attrs"] end.
Definition if_slot {A} (c : slot A) (k : string) : list str := match c with NoField => [] | _ => [s k] end.
(** The reference stands for this mark / node object. *)
Definition den_mark (g : store) (m : mark) (x : hval) : Prop :=
  exists a fs, x = Ref a /\ g a = Some (OInst (TMark (m_kind m)) fs) /\
    field_den g (Some (m_type m)) (lookup (s "type") fs) /\
    attrs_field_den g (m_attrs m) (lookup (s "attrs") fs) /\
    map fst fs = [s "type"] ++ if_attrs (m_attrs m).
Fixpoint den_node (g : store) (n : node) (x : hval) {struct n} : Prop :=
  match n with
  | Node k ty ve tx at_ co ma =>
      exists a fs, x = Ref a /\ g a = Some (OInst (TNode k) fs) /\
        field_den g (Some ty) (lookup (s "type") fs) /\
        field_den g ve (lookup (s "version") fs) /\
        field_den g tx (lookup (s "text") fs) /\
        attrs_field_den g at_ (lookup (s "attrs") fs) /\
        slot_den g (den_node g) co (lookup (s "content") fs) /\
        slot_den g (den_mark g) ma (lookup (s "marks") fs) /\
        map fst fs = [s "type"] ++ if_some ve "version" ++ if_some tx "text" ++ if_attrs at_ ++ if_slot co "content" ++ if_slot ma "marks"
  end.
Definition denotes (h : heap) : value -> hval -> Prop := den (nth_error h).
Definition denotes_mark (h : heap) : mark -> hval -> Prop := den_mark (nth_error h).
Definition denotes_node (h : heap) : node -> hval -> Prop := den_node (nth_error h).

(** How big a value is: one for each list, dictionary and leaf. *)
Definition sum_with {A} (f : A -> nat) : list A -> nat :=
  fix go (l : list A) : nat := match l with [] => 0 | a :: r => f a + go r end.
Fixpoint size (v : value) : nat :=
  match v with
  | VList l => S (sum_with size l)
  | VDict d => S (sum_with (fun e => match e with (_, y) => size y end) d)
  | _ => 1
  end.
Definition attrs_size (a : attrs) : nat :=
  match a with AObj l => S (sum_with (fun e => match e with (_, y) => size y end) l) | _ => 1 end.
Definition slot_size {A} (f : A -> nat) (c : slot A) : nat :=
  match c with Items l => S (sum_with f l) | Raw v => size v | _ => 1 end.
Definition opt_size (o : option value) : nat := match o with Some v => size v | None => 0 end.
Definition mark_size (m : mark) : nat := S (size (m_type m) + attrs_size (m_attrs m)).
Fixpoint node_size (n : node) : nat :=
  match n with
  | Node k ty ve tx at_ co ma =>
      S (size ty + opt_size ve + opt_size tx + attrs_size at_ + slot_size node_size co + slot_size mark_size ma)
  end.
