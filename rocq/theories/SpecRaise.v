(** Which exceptions can come out of the library, and from where. *)
From Coq Require Import List NArith ZArith Bool String.
From Verif Require Import PyStr Values Schema Parse Date Markdown.
Import ListNotations.
Open Scope string_scope.
Open Scope list_scope.

(** [m] is [n] or one of its descendants. *)
Inductive within : node -> node -> Prop :=
| within_here n : within n n
| within_below m c n l : n_content n = Items l -> In c l -> within m c -> within m n.

Definition not_str (r : res value) : Prop := exists v, r = Ok v /\ forall x, v <> VStr x.
Definition has_code_mark (n : node) : Prop := exists l m, n_marks n = Items l /\ In m l /\ m_kind m = Mcode.
(** The objects that can be the origin of an exception of to_markdown. TypeError and AttributeError can come from any
    object (wrong data in any field). *)
Definition origin (E : runtime) (e : exc) (m : node) : Prop :=
  match e with
  | TypeError | AttributeError => True
  | NotImplementedErr =>             (* an emoji without a text, a card without an address *)
      (n_kind m = Kemoji /\ not_str (attr (n_attrs m) (s "text")) /\ not_str (attr (n_attrs m) (s "shortName"))) \/
      ((n_kind m = KinlineCard \/ n_kind m = KblockCard) /\ not_str (attr (n_attrs m) (s "url")))
  | IndexError =>                    (* a table with an empty row *)
      n_kind m = Ktable /\ exists l r, n_content m = Items l /\ In r l /\ (n_content r = Items [] \/ n_content r = Raw (VStr []))
  | KeyError =>                      (* a table with a row whose content is a dictionary *)
      n_kind m = Ktable /\ exists l r d, n_content m = Items l /\ In r l /\ n_content r = Raw (VDict d)
  | ERange =>                        (* OverflowError, ValueError or OSError of a date *)
      n_kind m = Kdate /\ exists t, attr (n_attrs m) (s "timestamp") = Ok t /\ date_to_markdown (rt_digit E) t = Err ERange
  | ValueError =>                    (* a timestamp that is no number; a newline under a code mark *)
      (n_kind m = Kdate /\ exists t, attr (n_attrs m) (s "timestamp") = Ok t /\ date_to_markdown (rt_digit E) t = Err ValueError) \/
      ((n_kind m = Ktext \/ n_kind m = Kparagraph \/ n_kind m = Kexpand \/ n_kind m = Kmedia) /\ has_code_mark m)
  | ParamError | Unimplemented _ _ => False
  end.

(** ---------------------------------------------------------------- reading *)
(** The elements of an input: the input itself, the entries of its "content" lists at every depth. *)
Inductive element : value -> value -> Prop :=
| element_here v : element v v
| element_below v y d l : lookup (s "content") d = Some (VList l) -> In y l -> element v y -> element v (VDict d).
Definition mark_element (v w : value) : Prop :=
  exists d l, element (VDict d) w /\ lookup (s "marks") d = Some (VList l) /\ In v l.
Definition no_type (v : value) : Prop := exists d, v = VDict d /\ lookup (s "type") d = None.
(** What can have made reading [v] fail with [e]. TypeError: something that should be a dictionary is not, a "type" that cannot be
    looked up, a required positional attribute; ParamError: a required field. *)
Definition read_origin (e : exc) (v : value) : Prop :=
  match e with
  | TypeError | ParamError => True
  | KeyError => exists y, (element y v \/ mark_element y v) /\ no_type y
  | _ => False
  end.

(** ---------------------------------------------------------------- writing *)
(** An object whose "content" or "marks" was not a list in the input. *)
Definition not_a_list {A} (c : slot A) : Prop :=
  exists v, c = Raw v /\ v <> VStr [] /\ v <> VDict [].
Definition write_origin (e : exc) (m : node) : Prop :=
  (e = TypeError \/ e = AttributeError) /\ (not_a_list (n_content m) \/ not_a_list (n_marks m)).
