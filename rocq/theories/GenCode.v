(** The generator of the public module api.py: atlas_doc_parser/gen_code.py and templates/api.py.jinja. *)
From Coq Require Import List NArith Bool String Arith.
From Verif Require Import PyStr Values.
Import ListNotations.
Open Scope string_scope.
Open Scope list_scope.

(** What [inspect.getmembers] can find in a module: a class with its [__module__] and whether it is a subclass
    of Base, or anything else (functions, imported modules, type aliases). *)
Inductive member := AClass (module_ : str) (is_base : bool) | AnObject.
(** [importlib.import_module] (gen_code.py:76-80): the members, an ImportError (caught), or another exception. *)
Inductive imported := Loaded (members : list (str * member)) | NoImport | Crashes (e : exc).
(** The project on disk: the parts of the package directory's absolute path, the file names in marks/ and
    nodes/ in the order the file system lists them, and the import system. *)
Record project := Project { pkg_parts : list str; marks_dir : list str; nodes_dir : list str; import_module : str -> imported }.

(** gen_code.py:19-51. [relative_import_path] of a module whose stem starts with neither prefix raises ValueError. *)
Record api := Api { a_module : str; a_class : str; a_attrs : bool; a_alias : bool }.
Definition relative_import_path (a : api) : res str :=
  if prefixb (s "mark_") (a_module a) then Ok (s ".marks." ++ a_module a)
  else if prefixb (s "node_") (a_module a) then Ok (s ".nodes." ++ a_module a)
  else Err ValueError.

(** Strings compare by code point; Paths in one directory compare by file name. *)
Fixpoint str_leb (a b : str) : bool :=
  match a, b with
  | [], _ => true
  | _ :: _, [] => false
  | x :: a', y :: b' => if N.eqb x y then str_leb a' b' else N.ltb x y
  end.
(** [sorted] with a key. *)
Fixpoint insert {A} (key : A -> str) (x : A) (l : list A) : list A :=
  match l with
  | [] => [x]
  | y :: r => if str_leb (key x) (key y) then x :: l else y :: insert key x r
  end.
Fixpoint sorted_by {A} (key : A -> str) (l : list A) : list A :=
  match l with [] => [] | x :: r => insert key x (sorted_by key r) end.

(** [glob("mark_*.py")] and [Path.stem] of a match. *)
Definition suffixb (p x : str) : bool := prefixb (rev p) (rev x).
Definition glob_match (prefix name : str) : bool :=
  prefixb prefix name && suffixb (s ".py") name && Nat.leb (List.length prefix + 3) (List.length name).
Definition stem (name : str) : str := firstn (List.length name - 3) name.

(** gen_code.py:54-113, for the file [name] in the sub-directory [sub]. *)
Definition is_alias (name : str) : bool := prefixb (s "T_NODE_") name || prefixb (s "T_MARK_") name.
Definition member_apis (module_ full : str) (e : str * member) : list api :=
  let (name, obj) := e in
  if prefixb (s "_") name then [] else
  (match obj with
   | AClass m true => if str_eqb m full then [Api module_ name (suffixb (s "Attrs") name) false] else []
   | _ => []
   end) ++ (if is_alias name then [Api module_ name false true] else []).
Definition scan_module (p : project) (sub name : str) : res (list api) :=
  let parts := pkg_parts p ++ [sub; name] in
  let m := stem name in
  let scan full := match import_module p full with
                   | Loaded ms => Ok (flat_map (member_apis m full) (sorted_by fst ms))
                   | NoImport => Ok []
                   | Crashes e => Err e
                   end in
  if existsb (str_eqb (s "marks")) parts then scan (s "atlas_doc_parser.marks." ++ m)
  else if existsb (str_eqb (s "nodes")) parts then scan (s "atlas_doc_parser.nodes." ++ m)
  else Ok [].
(** gen_code.py:116-144. *)
Definition scan_dir (p : project) (sub prefix : str) (names : list str) : res (list api) :=
  do l <- mapM (scan_module p sub) (sorted_by (fun x => x) (filter (glob_match prefix) names)); Ok (List.concat l).
Definition scan_all_modules (p : project) : res (list api * list api) :=
  do ms <- scan_dir p (s "marks") (s "mark_") (marks_dir p);
  do ns <- scan_dir p (s "nodes") (s "node_") (nodes_dir p);
  Ok (ms, ns).

(** gen_code.py:164-174: a dictionary from module name to its entries, in insertion order. *)
Fixpoint add_to (a : api) (d : list (str * list api)) : list (str * list api) :=
  match d with
  | [] => [(a_module a, [a])]
  | (k, l) :: r => if str_eqb k (a_module a) then (k, l ++ [a]) :: r else (k, l) :: add_to a r
  end.
Definition by_module (l : list api) : list (str * list api) := fold_left (fun d a => add_to a d) l [].

(** templates/api.py.jinja: the two loops and the fixed text. The [-%}] markers remove the line breaks after the
    tags, so each loop body is one line. *)
Definition import_line (a : api) : res str :=
  do path <- relative_import_path a; Ok (s "from " ++ path ++ s " import " ++ a_class a ++ nl).
Definition loop (d : list (str * list api)) : res str :=
  do l <- mapM (fun e => do ls <- mapM import_line (snd e); Ok (List.concat ls)) d; Ok (List.concat l).
Definition text_lines (l : list string) : str := List.concat (map (fun x => s x ++ nl) l).
Definition dquote : string := String (Ascii.ascii_of_nat 34) EmptyString.
Definition header : str := text_lines
  ["# -*- coding: utf-8 -*-"; ""; dquote ++ dquote ++ dquote; "Public API module for atlas_doc_parser."; "";
   "This file is auto-generated by gen_code.py. Do not edit manually."; dquote ++ dquote ++ dquote; "";
   "from .exc import ParamError"; "from .exc import UnimplementedTypeError"; "from .type_hint import T_DATA";
   "from .type_enum import TypeEnum"; "from .constants import TAB"; "from .logger import logger";
   "from .mark_or_node import Base"; "from .mark_or_node import BaseMarkOrNode"; "from .mark_or_node import BaseMark";
   "from .mark_or_node import T_MARK"; "from .mark_or_node import BaseNode"; "from .mark_or_node import T_NODE";
   "from .marks.parse_mark import parse_mark"; "from .nodes.parse_node import parse_node"; "";
   "# -----------------------------------------------------------------------------"; "# Marks";
   "# -----------------------------------------------------------------------------"]%string.
Definition nodes_header : str := text_lines
  [""; "# -----------------------------------------------------------------------------"; "# Nodes";
   "# -----------------------------------------------------------------------------"]%string.
(** gen_code.py:147-182. *)
Definition generate_api_py (p : project) : res str :=
  do (ms, ns) <- scan_all_modules p;
  do m <- loop (by_module ms);
  do n <- loop (by_module ns);
  Ok (header ++ m ++ nodes_header ++ n).
