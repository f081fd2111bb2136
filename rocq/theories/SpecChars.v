(** Documents that differ in characters only: the specification for C74. *)
From Coq Require Import List NArith ZArith Bool String.
From Verif Require Import PyStr Values Schema Parse Markdown.
Import ListNotations.
Open Scope string_scope.
Open Scope list_scope.

(** A character outside ASCII that is no white space. *)
Definition plain (c : N) : Prop := (128 <= c)%N /\ is_ws c = false.
(** A way to relate characters: ASCII characters to themselves (maybe to nothing else), and apart from equal ones only plain characters to plain ones.
    Three instances: c' = f c for a renaming f of the plain characters; c' is plain when c is; c' = c and c is among given characters. *)
Definition respects (R : N -> N -> Prop) : Prop :=
  (forall c, (c < 128)%N -> R c c) /\ (forall c c', R c c' -> c = c' \/ plain c /\ plain c').

Section Rel.
  Variable E : runtime.
  Variable R : N -> N -> Prop.
  Definition like (x y : str) : Prop := Forall2 R x y.
  (** Strings may differ; other data not, and what is printed for it is related to itself. *)
  Definition like_value (v w : value) : Prop :=
    match v, w with
    | VStr x, VStr y => like x y
    | _, _ => v = w /\ like (py_str E v) (py_str E v)
    end.
  (** Two attributes are read, not copied: a date's timestamp, a panel's type (its upper-case form is printed). *)
  Definition like_attr (a b : str * value) : Prop :=
    fst a = fst b /\
    if str_eqb (fst a) (s "timestamp") then snd a = snd b
    else if str_eqb (fst a) (s "panelType") then snd a = snd b /\ match snd a with VStr p => like (py_upper E p) (py_upper E p) | _ => True end
    else like_value (snd a) (snd b).
  Inductive like_attrs : attrs -> attrs -> Prop :=
  | like_no_attrs : like_attrs NoAttrs NoAttrs
  | like_unset_attrs : like_attrs AOpt AOpt
  | like_set_attrs l l' : Forall2 like_attr l l' -> like_attrs (AObj l) (AObj l').
  Inductive like_slot {A} (P : A -> A -> Prop) : slot A -> slot A -> Prop :=
  | like_no_field : like_slot P NoField NoField
  | like_unset : like_slot P SOpt SOpt
  | like_items l l' : Forall2 P l l' -> like_slot P (Items l) (Items l')
  | like_raw v : like_slot P (Raw v) (Raw v).
  Inductive like_option : option value -> option value -> Prop :=
  | like_none : like_option None None
  | like_some v w : like_value v w -> like_option (Some v) (Some w).
  Definition like_mark (m m' : mark) : Prop := m_kind m = m_kind m' /\ m_type m = m_type m' /\ like_attrs (m_attrs m) (m_attrs m').
  (** Two objects of the same shape: same classes, same numbers and flags, corresponding strings in "text" and in the attributes. *)
  Inductive like_node : node -> node -> Prop :=
  | like_object k ty ve tx tx' a a' co co' ma ma' :
      like_option tx tx' -> like_attrs a a' -> like_slot like_node co co' -> like_slot like_mark ma ma' ->
      like_node (Node k ty ve tx a co ma) (Node k ty ve tx' a' co' ma').
  (** The same exception, or Markdown related character by character. *)
  Definition like_result (r r' : res value) : Prop :=
    match r, r' with Ok v, Ok w => like_value v w | Err e, Err e' => e = e' | _, _ => False end.

  (** The same on dictionaries, as they come from json.loads. *)
  Definition like_fields (v w : value) : Prop := match v, w with VDict d, VDict d' => Forall2 like_attr d d' | _, _ => v = w end.
  Inductive like_mark_dict : value -> value -> Prop :=
  | like_no_mark v : (forall d, v <> VDict d) -> like_mark_dict v v
  | like_mark_entries d d' : Forall2 (fun e e' => fst e = fst e' /\ if str_eqb (fst e) (s "attrs") then like_fields (snd e) (snd e') else snd e = snd e') d d' ->
      like_mark_dict (VDict d) (VDict d').
  Inductive like_dict : value -> value -> Prop :=
  | like_no_dict v : (forall d, v <> VDict d) -> like_dict v v
  | like_entries d d' : Forall2 like_entry d d' -> like_dict (VDict d) (VDict d')
  with like_entry : str * value -> str * value -> Prop :=
  | like_text v w : like_value v w -> like_entry (s "text", v) (s "text", w)
  | like_attributes v w : like_fields v w -> like_entry (s "attrs", v) (s "attrs", w)
  | like_content_list l l' : Forall2 like_dict l l' -> like_entry (s "content", VList l) (s "content", VList l')
  | like_mark_list l l' : Forall2 like_mark_dict l l' -> like_entry (s "marks", VList l) (s "marks", VList l')
  | like_same k v : k <> s "text" -> k <> s "attrs" -> ((k = s "content" \/ k = s "marks") -> forall l, v <> VList l) -> like_entry (k, v) (k, v).
End Rel.

(** Every string of the document, character by character through [f]. *)
Definition renaming (f : N -> N) : Prop := forall c, if (c <? 128)%N || is_ws c then f c = c else plain (f c).
