(** Cutting content in two and joining it again (C69). *)
From Coq Require Import List NArith ZArith Bool String.
From Verif Require Import PyStr Values Schema Parse Date Markdown.
Import ListNotations.
Open Scope string_scope.
Open Scope list_scope.

(** [d] is [d1] and [d2] joined: the same entries, but the list under "content" is the first one followed by the second. *)
Definition joined_input (d1 d2 d : list (str * value)) : Prop :=
  (forall k, k <> s "content" -> lookup k d1 = lookup k d /\ lookup k d2 = lookup k d) /\
  exists l1 l2, lookup (s "content") d1 = Some (VList l1) /\ lookup (s "content") d2 = Some (VList l2) /\
                lookup (s "content") d = Some (VList (l1 ++ l2)).
(** The same for objects. *)
Definition same_but_content (a b : node) : Prop :=
  n_kind a = n_kind b /\ n_type a = n_type b /\ n_version a = n_version b /\ n_text a = n_text b /\
  n_attrs a = n_attrs b /\ n_marks a = n_marks b.
Definition joined (n1 n2 n : node) : Prop :=
  same_but_content n1 n /\ same_but_content n2 n /\
  exists l1 l2, n_content n1 = Items l1 /\ n_content n2 = Items l2 /\ n_content n = Items (l1 ++ l2).

(** Text pasted together with a separator, which is left out next to an empty part. *)
Definition pasted (sep x1 x2 x : str) : Prop :=
  x = x1 ++ sep ++ x2 \/ (x1 = [] /\ x = x2) \/ (x2 = [] /\ x = x1).
(** How the Markdown of an object is put together from its content: the separator. *)
Definition separator (k : nkind) : option str :=
  match k with
  | KlistItem | KtaskItem | KmediaSingle => Some []
  | KbulletList | KtaskList | Ktable => Some [NL]
  | KdecisionList => Some [NL; NL]
  | _ => None
  end.
