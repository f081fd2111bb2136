(** Vocabulary for C51-C53, on dictionaries only. *)
From Coq Require Import List NArith ZArith QArith Bool String.
From Verif Require Import PyStr Values Schema Parse.
Import ListNotations.
Open Scope list_scope.
Open Scope string_scope.

Definition is_atom (v : value) : bool := match v with VList _ | VDict _ => false | _ => true end.

(** The same data up to the order of dictionary keys, atoms being compared by [A]. *)
Inductive same_data (A : value -> value -> Prop) : value -> value -> Prop :=
| sd_atom a b : is_atom a = true -> is_atom b = true -> A a b -> same_data A a b
| sd_list l l' : Forall2 (same_data A) l l' -> same_data A (VList l) (VList l')
| sd_dict d d' :
    NoDup (map fst d) -> NoDup (map fst d') ->
    (forall k, In k (map fst d) <-> In k (map fst d')) ->
    (forall k x y, In (k, x) d -> In (k, y) d' -> same_data A x y) ->
    same_data A (VDict d) (VDict d').

(** Keys reordered, nothing else. *)
Definition reordered : value -> value -> Prop := same_data eq.

(** Python's equality of atoms: numbers by mathematical value, whatever their type. *)
Inductive num_is : value -> Q -> Prop :=
| ni_false : num_is (VBool false) 0
| ni_true : num_is (VBool true) 1
| ni_int z : num_is (VInt z) (inject_Z z)
| ni_float m e : num_is (VFloat (FFin m e)) (inject_Z m * Qpower (inject_Z 2) e).
Inductive python_atom (same : bool) : value -> value -> Prop :=
| pa_num a b p q : num_is a p -> num_is b q -> (p == q)%Q -> python_atom same a b
| pa_nan : same = true -> python_atom same (VFloat FNaN) (VFloat FNaN)
| pa_refl a : a <> VFloat FNaN -> python_atom same a a.
Definition python_equal (same : bool) : value -> value -> Prop := same_data (python_atom same).

(** Every dictionary in the value has distinct keys: what a Python value satisfies. *)
Inductive distinct_keys : value -> Prop :=
| dk_atom a : is_atom a = true -> distinct_keys a
| dk_list l : Forall distinct_keys l -> distinct_keys (VList l)
| dk_dict d : NoDup (map fst d) -> Forall (fun e => distinct_keys (snd e)) d -> distinct_keys (VDict d).

(** No NaN anywhere. *)
Fixpoint nan_free (v : value) : bool :=
  match v with
  | VFloat FNaN => false
  | VList l => forallb nan_free l
  | VDict d => forallb (fun e => match e with (_, x) => nan_free x end) d
  | _ => true
  end.

(** No dictionary anywhere; no dictionary, boolean or float anywhere. *)
Fixpoint dict_free (v : value) : bool :=
  match v with VDict _ => false | VList l => forallb dict_free l | _ => true end.
Fixpoint plain (v : value) : bool :=
  match v with VDict _ | VBool _ | VFloat _ => false | VList l => forallb plain l | _ => true end.
(** Every field of the object, of its attrs and marks, and of the objects below it that holds a plain value satisfies p. *)
Definition attrs_hold (p : value -> bool) (a : attrs) : Prop := forall l e, a = AObj l -> In e l -> p (snd e) = true.
Definition raw_holds {A} (p : value -> bool) (sl : slot A) : Prop := forall v, sl = Raw v -> p v = true.
Inductive fields_hold (p : value -> bool) : node -> Prop :=
| fields_intro k ty ve tx a co ma :
    (forall v, v = ty \/ ve = Some v \/ tx = Some v -> p v = true) -> attrs_hold p a -> raw_holds p co -> raw_holds p ma ->
    (forall l c, co = Items l -> In c l -> fields_hold p c) ->
    (forall l m, ma = Items l -> In m l -> p (m_type m) = true /\ attrs_hold p (m_attrs m)) ->
    fields_hold p (Node k ty ve tx a co ma).

(** Outcomes of two parses: the same exception, or related results. *)
Inductive same_exc (A : value -> value -> Prop) : exc -> exc -> Prop :=
| se_eq e : (forall c t, e <> Unimplemented c t) -> same_exc A e e
| se_unimplemented c t t' : A t t' -> same_exc A (Unimplemented c t) (Unimplemented c t').
Inductive same_outcome (A : value -> value -> Prop) {B C} (R : B -> C -> Prop) : res B -> res C -> Prop :=
| so_ok x y : R x y -> same_outcome A R (Ok x) (Ok y)
| so_err e e' : same_exc A e e' -> same_outcome A R (Err e) (Err e').
Inductive same_warning (A : value -> value -> Prop) : warning -> warning -> Prop :=
| sw c t t' : A t t' -> same_warning A (Warn c t) (Warn c t').
