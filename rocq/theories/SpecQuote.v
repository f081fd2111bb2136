(** Vocabulary for decision items (C35). *)
From Coq Require Import List NArith ZArith Bool String.
From Verif Require Import PyStr.
Import ListNotations.
Open Scope string_scope.
Open Scope list_scope.

(** A line of white space only. *)
Definition blank (l : str) : Prop := forall c, In c l -> is_ws c = true.
(** [trimmed t l]: t is l without its trailing white space. *)
Definition trimmed (t l : str) : Prop :=
  exists w, l = t ++ w /\ blank w /\ (forall a c, t = a ++ [c] -> is_ws c = false).

(** A content text as alternating stretches: each non-blank line with the blank lines before it. *)
Inductive stretches : list str -> list (nat * str) -> Prop :=
| st_nil : stretches [] []
| st_cons bs l t rest entries : Forall blank bs -> ~ blank l -> trimmed t l -> stretches rest entries ->
    stretches (bs ++ l :: rest) ((List.length bs, t) :: entries).

(** How the entries are quoted: a blank quote line where blank lines were, except before the second
    content line (index 1) and before the first. *)
Fixpoint quoted_from (index : nat) (entries : list (nat * str)) : list str :=
  match entries with
  | [] => []
  | (blanks, t) :: r =>
      (if Nat.leb 2 index && Nat.ltb 0 blanks then [s ">"] else []) ++ (s "> " ++ t) :: quoted_from (S index) r
  end.
