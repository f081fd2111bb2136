(** How long the Markdown can get. *)
From Coq Require Import List NArith ZArith Bool String.
From Verif Require Import PyStr Values Schema Parse Date Markdown SpecRaise.
Import ListNotations.
Open Scope string_scope.
Open Scope list_scope.
Open Scope nat_scope.

(** The size of an object: one for the object, the lengths of its text and of its attributes as printed by [str()], and the
    same for its marks.  An attribute "level" (headings, indentation marks) also counts with its value: it is the number
    of characters written. *)
Definition level_size (e : str * value) : nat :=
  match snd e with VInt z => if str_eqb (fst e) (s "level") then Z.to_nat z else 0 | _ => 0 end.
Definition attr_size (E : runtime) (e : str * value) : nat := List.length (py_str E (snd e)) + level_size e.
Definition attrs_size (E : runtime) (a : attrs) : nat :=
  match a with AObj l => list_sum (map (attr_size E) l) | _ => 0 end.
Definition mark_size (E : runtime) (m : mark) : nat := 1 + attrs_size E (m_attrs m).
Definition own_size (E : runtime) (n : node) : nat :=
  1 + match n_text n with Some t => List.length (py_str E t) | None => 0 end
  + attrs_size E (n_attrs n)
  + match n_marks n with Items l => list_sum (map (mark_size E) l) | _ => 0 end.
(** The size of a tree: the sum over its objects. *)
Fixpoint size (E : runtime) (n : node) : nat :=
  match n with
  | Node k ty ve tx a co ma =>
      own_size E n + match co with Items l => list_sum (map (size E) l) | _ => 0 end
  end.
(** The number of objects on the longest path. *)
Fixpoint depth (n : node) : nat :=
  match n with
  | Node k ty ve tx a co ma => 1 + match co with Items l => list_max (map depth l) | _ => 0 end
  end.
(** The first numbers of the ordered lists have at most [D] digits. *)
Definition orders_below (D : nat) (n : node) : Prop :=
  forall m z, within m n -> attr (n_attrs m) (s "order") = Ok (VInt z) -> (Z.abs z < 10 ^ Z.of_nat D)%Z.
(** Upper-casing makes a string at most three times longer (Unicode's SpecialCasing: three characters at most). *)
Definition upper_bounded (E : runtime) : Prop := forall x, List.length (rt_upper E x) <= 3 * List.length x.

(** Lines, as str.splitlines counts boundaries. *)
Definition line_breaks (x : str) : nat := List.length (filter is_lb x).
