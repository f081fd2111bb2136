(** Which dictionaries fit the classes declared in the source.  Only the generated tables (RepoSchema.v) are used. *)
From Coq Require Import List NArith ZArith Bool String.
From Verif Require Import PyStr Values RepoSchema.
Import ListNotations.
Open Scope string_scope.
Open Scope list_scope.

(** Every field without a default, or with default REQ, is there. *)
Definition required_present (fs : list (string * decl)) (d : list (str * value)) : Prop :=
  forall f, In (f, Required) fs \/ In (f, Positional) fs -> lookup (s f) d <> None.
(** The element's own keys fit the class: required fields present; attrs, if the class has it and it is given, is a
    dictionary with the required attributes. *)
Definition own_part_fits (r : row) (d : list (str * value)) : Prop :=
  required_present (r_fields r) d /\
  (forall v, In "attrs" (map fst (r_fields r)) -> lookup (s "attrs") d = Some v ->
             exists a, v = VDict a /\ required_present (r_attrs r) a).
(** An element whose type is a hashable value that no row has: it is skipped. *)
Definition skipped (rows : list row) (v : value) : Prop :=
  exists d t, v = VDict d /\ lookup (s "type") d = Some t /\
    (forall l, t <> VList l) /\ (forall l, t <> VDict l) /\ (forall r, In r rows -> t <> VStr (s (r_type r))).
Definition elements (key : string) (d : list (str * value)) : list value :=
  match lookup (s key) d with Some (VList l) => l | _ => [] end.
Inductive mark_fits : value -> Prop :=
| mark_fits_intro r d : In r mark_rows -> lookup (s "type") d = Some (VStr (s (r_type r))) -> own_part_fits r d ->
    mark_fits (VDict d).
Inductive node_fits : value -> Prop :=
| node_fits_intro r d : In r node_rows -> lookup (s "type") d = Some (VStr (s (r_type r))) -> own_part_fits r d ->
    (forall y, In y (elements "content" d) -> skipped node_rows y \/ node_fits y) ->
    (forall y, In y (elements "marks" d) -> skipped mark_rows y \/ mark_fits y) ->
    node_fits (VDict d).
