(** Vocabulary for Markdown tables (C28-C30), independent of the proofs. *)
From Coq Require Import List NArith ZArith Bool String.
From Verif Require Import PyStr Values Schema Parse.
Import ListNotations.
Open Scope string_scope.
Open Scope list_scope.

Definition BACKSLASH : N := 92%N.

(** Column boundaries of a table line: the pipes not immediately preceded by a backslash. *)
Fixpoint boundaries (after_backslash : bool) (x : str) : nat :=
  match x with
  | [] => 0
  | c :: r => (if N.eqb c PIPE then (if after_backslash then 0 else 1) else 0) + boundaries (N.eqb c BACKSLASH) r
  end.

(** Every pipe in [x] directly follows a backslash. *)
Definition pipes_escaped (x : str) : Prop := forall p q, x = p ++ [PIPE] ++ q -> exists p', p = p' ++ [BACKSLASH].

(** [leading_spaces k rest l]: the line l is k spaces followed by [rest], which does not start with a space. *)
Definition leading_spaces (k : nat) (rest l : str) : Prop :=
  l = repeat SP k ++ rest /\ (forall r, rest <> SP :: r).

(** Putting a backslash in front of every pipe. *)
Fixpoint escape (x : str) : str :=
  match x with
  | [] => []
  | c :: r => if N.eqb c PIPE then BACKSLASH :: PIPE :: escape r else c :: escape r
  end.
(** k times the entity for a non-breaking space. *)
Fixpoint nbsp (k : nat) : str := match k with O => [] | S j => s "&nbsp;" ++ nbsp j end.

(** The Markdown of one row with the given cells, and the delimiter line for n columns. *)
Definition row_line (cells : list str) : str := s "| " ++ join (s " | ") cells ++ s " |".
Definition delimiter_line (n : nat) : str := row_line (repeat (s "---") n).

(** ADF's own rules: a table contains rows, a row contains at least one cell or header cell. *)
Definition is_cell (n : node) : Prop := n_kind n = KtableCell \/ n_kind n = KtableHeader.
Definition row_of (n : node) (cells : list node) : Prop :=
  n_kind n = KtableRow /\ n_content n = Items cells /\ Forall is_cell cells /\ cells <> [].
Definition is_table (n : node) (rows : list node) (cellss : list (list node)) : Prop :=
  (exists w v, snd (parse_node w v) = Ok n) /\ n_kind n = Ktable /\ n_content n = Items rows /\
  Forall2 row_of rows cellss.
(** The row starts with a header cell. *)
Definition header_row (cells : list node) : Prop := exists c r, cells = c :: r /\ n_kind c = KtableHeader.
Definition header_rowb (cells : list node) : bool :=
  match cells with c :: _ => match n_kind c with KtableHeader => true | _ => false end | [] => false end.
