(** Python [str] as a list of Unicode code points, and the [str] methods that
    /repo/atlas_doc_parser calls.  Each definition models a CPython built-in; the
    comment names the call sites in /repo that use it. *)
From Coq Require Import List NArith ZArith Bool Ascii String DecimalString Decimal.
Import ListNotations.
Open Scope N_scope.
Open Scope list_scope.

(** A Python string: its sequence of code points. *)
Definition str := list N.

(** ASCII literals. *)
Definition s (x : string) : str := map N_of_ascii (list_ascii_of_string x).
Arguments s : simpl never.

Fixpoint str_eqb (a b : str) : bool :=
  match a, b with
  | [], [] => true
  | x :: a', y :: b' => N.eqb x y && str_eqb a' b'
  | _, _ => false
  end.

Definition NL : N := 10.    (* "\n" *)
Definition CR : N := 13.    (* "\r" *)
Definition SP : N := 32.    (* " "  *)
Definition PIPE : N := 124. (* "|"  *)
Definition nl : str := [NL].

(** [str.isspace] on one code point: the set used by [str.strip()] and
    [str.rstrip()] without argument (mark_strong.py:23, mark_em.py:23,
    mark_strike.py:23, mark_code.py:30, node_bullet_list.py:89,
    node_ordered_list.py:111, node_task_list.py:104, node_decision_item.py:79,93). *)
Definition is_ws (c : N) : bool :=
  ((9 <=? c) && (c <=? 13)) || ((28 <=? c) && (c <=? 32)) || (c =? 133) || (c =? 160)
  || (c =? 5760) || ((8192 <=? c) && (c <=? 8202)) || (c =? 8232) || (c =? 8233)
  || (c =? 8239) || (c =? 8287) || (c =? 12288).

(** [str.strip()] is only used for its truth value; [str.rstrip()] is used as text. *)
Fixpoint lstrip_by (p : N -> bool) (x : str) : str :=
  match x with
  | [] => []
  | c :: r => if p c then lstrip_by p r else x
  end.
Fixpoint rstrip_by (p : N -> bool) (x : str) : str :=
  match x with
  | [] => []
  | c :: r => match rstrip_by p r with
              | [] => if p c then [] else [c]
              | r' => c :: r'
              end
  end.
Definition rstrip (x : str) : str := rstrip_by is_ws x.
Definition strip (x : str) : str := lstrip_by is_ws (rstrip_by is_ws x).

(** [x.split(c)] for a one-character separator (node_bullet_list.py:101,106,
    node_ordered_list.py:123,128, node_decision_item.py:82, node_table_cell.py:94,
    node_table_header.py:93). *)
Fixpoint split_on (c : N) (x : str) : list str :=
  match x with
  | [] => [[]]
  | a :: r => if a =? c then [] :: split_on c r
              else match split_on c r with
                   | [] => [[a]]
                   | l :: ls => (a :: l) :: ls
                   end
  end.

(** [sep.join(l)]. *)
Fixpoint join (sep : str) (l : list str) : str :=
  match l with
  | [] => []
  | [x] => x
  | x :: r => x ++ sep ++ join sep r
  end.

Fixpoint prefixb (p x : str) : bool :=
  match p, x with
  | [], _ => true
  | a :: p', b :: x' => (a =? b) && prefixb p' x'
  | _ :: _, [] => false
  end.

(** [x.replace(old, new)] for non-empty [old]: leftmost, non-overlapping, one scan
    (markdown_helpers.py:54, node_table_cell.py:90, node_table_header.py:89).
    [skip] counts the characters of the current match still to be consumed. *)
Fixpoint replace_go (old new x : str) (skip : nat) : str :=
  match x with
  | [] => []
  | c :: r =>
      match skip with
      | S k => replace_go old new r k
      | O => if prefixb old x then new ++ replace_go old new r (List.length old - 1)
             else c :: replace_go old new r 0
      end
  end.
Definition replace (old new x : str) : str := replace_go old new x 0.

(** Line boundaries of [str.splitlines]. *)
Definition is_lb (c : N) : bool :=
  ((10 <=? c) && (c <=? 13)) || ((28 <=? c) && (c <=? 30)) || (c =? 133) || (c =? 8232) || (c =? 8233).

(** [x.splitlines(True)] (used by textwrap.indent); "\r\n" is one boundary. *)
Fixpoint splitlines_keep (x : str) : list str :=
  match x with
  | [] => []
  | c :: r =>
      if is_lb c && negb ((c =? CR) && match r with d :: _ => d =? NL | [] => false end)
      then [c] :: splitlines_keep r
      else match splitlines_keep r with
           | [] => [[c]]
           | l :: ls => (c :: l) :: ls
           end
  end.

(** [textwrap.indent(x, prefix, predicate=lambda line: True)]
    (node_blockquote.py:65-74, node_panel.py:104-119). *)
Definition indent_all (prefix x : str) : str := List.concat (map (fun l => prefix ++ l) (splitlines_keep x)).

(** [x * n] for a Python int [n] (negative counts give the empty string). *)
Fixpoint repeat_nat (x : str) (n : nat) : str :=
  match n with O => [] | S k => x ++ repeat_nat x k end.
Definition repeat_str (x : str) (n : Z) : str := repeat_nat x (Z.to_nat n).

(** [str(n)] for a Python int. *)
Definition dec (n : Z) : str := s (NilEmpty.string_of_int (Z.to_int n)).

(** [x.upper()] restricted to ASCII input. *)
Definition upper_ascii (c : N) : N := if (97 <=? c) && (c <=? 122) then c - 32 else c.
Definition is_ascii (c : N) : bool := c <? 128.

(** [len(x) - len(x.lstrip(" "))] and the rest (node_table_cell.py:97-98). *)
Definition lstrip_sp (x : str) : str := lstrip_by (N.eqb SP) x.
