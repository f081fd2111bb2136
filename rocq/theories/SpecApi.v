(** Vocabulary for C45: what the public module should contain. *)
From Coq Require Import List NArith Bool String Arith.
From Verif Require Import PyStr Values GenCode.
Import ListNotations.
Open Scope string_scope.
Open Scope list_scope.

(** Module [m] is a file [m.py] of the directory whose name starts with the prefix. *)
Definition has_module (names : list str) (prefix m : str) : Prop := In (m ++ s ".py") names /\ exists x, m = prefix ++ x.
(** [c] names a subclass of Base that the module defines itself; or a type alias. *)
Definition defines (p : project) (full c : str) : Prop :=
  exists ms, import_module p full = Loaded ms /\ In (c, AClass full true) ms.
Definition has_alias (p : project) (full c : str) : Prop :=
  (exists x, c = s "T_NODE_" ++ x \/ c = s "T_MARK_" ++ x) /\ exists ms o, import_module p full = Loaded ms /\ In (c, o) ms.
Definition is_private (c : str) : Prop := exists x, c = s "_" ++ x.
Definition exported (p : project) (full c : str) : Prop := ~ is_private c /\ (defines p full c \/ has_alias p full c).

(** A line of the generated file, and the text of a list of (module, name) pairs. *)
Definition line (package : string) (e : str * str) : str := s "from " ++ s package ++ fst e ++ s " import " ++ snd e ++ nl.
Definition lines (package : string) (l : list (str * str)) : str := List.concat (map (line package) l).
(** Dictionary order of code points: after a common beginning, the one ends and the other does not, or the first
    different character of the one is smaller. *)
Definition strictly_before (a b : str) : Prop :=
  exists p x y, a = p ++ x /\ b = p ++ y /\
    match x, y with [], _ :: _ => True | c :: _, d :: _ => (c < d)%N | _, [] => False end.
(** By file name, then by class name. *)
Definition in_order (e f : str * str) : Prop :=
  strictly_before (fst e ++ s ".py") (fst f ++ s ".py") \/ (fst e = fst f /\ strictly_before (snd e) (snd f)).

(** A file system has no duplicate names in a directory, and a module no duplicate members; nobody calls a class
    T_NODE_... or T_MARK_.... *)
Definition well_formed (p : project) : Prop :=
  NoDup (marks_dir p) /\ NoDup (nodes_dir p) /\
  (forall full ms, import_module p full = Loaded ms -> NoDup (map fst ms)) /\
  (forall full c, defines p full c -> forall x, c <> s "T_NODE_" ++ x /\ c <> s "T_MARK_" ++ x).
(** No directory above the package is called "marks". *)
Definition sane_path (p : project) : Prop := ~ In (s "marks") (pkg_parts p).

(** The namespace of a module: executing [from P import C] binds C to (P, C); later lines win. *)
Fixpoint binding (c : str) (l : list (str * str)) : option str :=
  match l with
  | [] => None
  | (m, c') :: r => match binding c r with Some m' => Some m' | None => if str_eqb c' c then Some m else None end
  end.
