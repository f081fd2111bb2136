(** JSON-like Python values, the OPT sentinel, and exceptions as values. *)
From Coq Require Import List NArith ZArith Bool String.
From Verif Require Import PyStr.
Import ListNotations.
Open Scope list_scope.

(** A finite binary64 value is [m * 2^e]; infinities and NaN are kept apart. *)
Inductive pyfloat := FFin (m e : Z) | FInf (neg : bool) | FNaN.

(** What [json.load] can return, plus the func_args sentinel OPT (which
    [BaseMark.to_dict] can put into dictionaries, mark_or_node.py:163-168).
    Dictionaries are association lists in insertion order; lookup takes the first
    binding, so duplicate keys (impossible in Python) are harmless.  Simplified:
    dictionary keys are strings only, and the REQ sentinel does not occur as data. *)
Inductive value :=
| VNone
| VBool (b : bool)
| VInt (z : Z)
| VFloat (f : pyfloat)
| VStr (x : str)
| VList (l : list value)
| VDict (d : list (str * value))
| VOpt.

Inductive cat := CNode | CMark.

(** Exceptions.  [ERange] stands for ValueError, OverflowError or OSError, whichever
    CPython's datetime/int arithmetic raises for an out-of-range timestamp. *)
Inductive exc :=
| TypeError
| KeyError
| ValueError
| AttributeError
| IndexError
| NotImplementedErr
| ERange
| ParamError                              (* exc.py:8-11 / func_args *)
| Unimplemented (c : cat) (ty : value).   (* exc.py:14-40 *)

Inductive res (A : Type) := Ok (a : A) | Err (e : exc).
Arguments Ok {A} a. Arguments Err {A} e.

Definition rbind {A B} (m : res A) (f : A -> res B) : res B :=
  match m with Ok a => f a | Err e => Err e end.
Notation "'do' x <- m ; k" := (rbind m (fun x => k)) (at level 200, x pattern, right associativity).

Definition mapM {A B} (f : A -> res B) : list A -> res (list B) :=
  fix go (l : list A) : res (list B) :=
  match l with
  | [] => Ok []
  | a :: r => do b <- f a; do bs <- go r; Ok (b :: bs)
  end.

(** [d[k]] with KeyError as [None]. *)
Fixpoint lookup {A} (k : str) (d : list (str * A)) : option A :=
  match d with
  | [] => None
  | (k', v) :: r => if str_eqb k' k then Some v else lookup k r
  end.

Definition has {A} (k : str) (d : list (str * A)) : bool :=
  match lookup k d with Some _ => true | None => false end.

Definition is_opt (v : value) : bool := match v with VOpt => true | _ => false end.
