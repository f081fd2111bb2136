(** The generator of the node and mark classes: scripts/s02-nodes-code-gen/s1_gen_code.py (cited as "s1") and its
    templates, as a program that reads the schema and writes files. *)
From Coq Require Import List NArith ZArith Bool String Arith.
From Verif Require Import PyStr Values GenCode Analyze.
Import ListNotations.
Open Scope string_scope.
Open Scope list_scope.

(** The parts of str that depend on the Unicode tables, and how jinja2 prints a value that is no string. *)
Record genv := GEnv { lower : str -> str; capitalize : str -> str; print : value -> str }.

(** ------------------------------------------------------------------ dictionaries *)
(** [d[k] = v] and [d.update(u)]: a key that is there keeps its place. *)
Fixpoint set_item {A} (k : str) (v : A) (d : list (str * A)) : list (str * A) :=
  match d with
  | [] => [(k, v)]
  | (k', v') :: r => if str_eqb k k' then (k, v) :: r else (k', v') :: set_item k v r
  end.
Definition update {A} (d u : list (str * A)) : list (str * A) := fold_left (fun a e => set_item (fst e) (snd e) a) u d.
Definition defs := list (str * value).
(** Accesses that assume a shape.  (Simplified: on another shape the model raises TypeError or AttributeError; Python
    also raises, except that [in] on a string or a list is a test, not an error.) *)
Definition as_dict (e : exc) (v : value) : res (list (str * value)) := match v with VDict d => Ok d | _ => Err e end.
Definition as_list (v : value) : res (list value) := match v with VList l => Ok l | _ => Err TypeError end.
(** [d.get(k, {})] as a dictionary, and [d.get(k, [])] as a list. *)
Definition get_dict (k : str) (d : defs) : res defs := match lookup k d with None => Ok [] | Some v => as_dict TypeError v end.
Definition get_list (k : str) (d : defs) : res (list value) := match lookup k d with None => Ok [] | Some v => as_list v end.

(** ------------------------------------------------------------------ names *)
Definition is_up (c : N) : bool := (N.leb 65 c) && (N.leb c 90).
Definition is_low (c : N) : bool := (N.leb 97 c) && (N.leb c 122).
Definition is_digit (c : N) : bool := (N.leb 48 c) && (N.leb c 57).
Definition UNDER : N := 95.
(** s1:155: re.sub("(.)([A-Z][a-z]+)", r"\1_\2", name).  [run]: inside the [a-z]+ of a match. *)
Fixpoint split_words (run : bool) (x : str) : str :=
  match x with
  | [] => []
  | c :: r =>
      if run && is_low c then c :: split_words true r
      else match r with
           | u :: ((l :: _) as y) =>
               if negb (N.eqb c NL) && is_up u && is_low l then c :: UNDER :: u :: split_words true y
               else c :: split_words false r
           | _ => c :: split_words false r
           end
  end.
(** s1:156: re.sub("([a-z0-9])([A-Z])", r"\1_\2", s1) *)
Fixpoint split_camel (x : str) : str :=
  match x with
  | [] => []
  | c :: r =>
      match r with
      | u :: y => if (is_low c || is_digit c) && is_up u then c :: UNDER :: u :: split_camel y else c :: split_camel r
      | [] => [c]
      end
  end.
(** s1:146-156 *)
Definition camel_to_snake (E : genv) (name : str) : str := lower E (split_camel (split_words false name)).
(** s1:159-168 *)
Definition snake_to_pascal (E : genv) (name : str) : str := List.concat (map (capitalize E) (split_on UNDER name)).

(** s1:130-134, 347-357: the properties of a definition, those of its "allOf" merged in.  Both functions that do it
    change the schema: [props] is the dictionary of the schema when there is one, and so is [top_required]. *)
Definition merged_props (definition : defs) : res defs :=
  do props <- get_dict (s "properties") definition;
  match lookup (s "allOf") definition with
  | None => Ok props
  | Some v =>
      do items <- as_list v;
      foldM (fun item p => do d <- as_dict TypeError item; do u <- get_dict (s "properties") d; Ok (update p u)) items props
  end.
Definition merged_required (definition : defs) : res (list value) :=
  do req <- get_list (s "required") definition;
  match lookup (s "allOf") definition with
  | None => Ok req
  | Some v =>
      do items <- as_list v;
      foldM (fun item p => do d <- as_dict TypeError item; do u <- get_list (s "required") d; Ok (p ++ u)) items req
  end.
(** What the caller of these functions sees of the schema afterwards. *)
Definition replace_if_there (k : str) (v : value) (d : defs) : defs := if has k d then set_item k v d else d.

(** s1:112-143.  [definition.get] needs a dictionary. *)
Definition without_kind (name : str) : str := if is_mark name || is_node name then drop5 name else name.
Definition get_type_enum (E : genv) (ds : defs) (name : str) : res (str * defs) :=
  do definition <- match lookup name ds with None => Ok [] | Some v => as_dict AttributeError v end;
  do props <- merged_props definition;
  let ds' := replace_if_there name (VDict (replace_if_there (s "properties") (VDict props) definition)) ds in
  do type_prop <- get_dict (s "type") props;
  match lookup (s "enum") type_prop with
  | None | Some (VList []) | Some VNone => Ok (without_kind name, ds')
  | Some (VList (VStr t :: _)) => Ok (t, ds')
  | Some (VList (v :: _)) => Ok (print E v, ds')
  | Some _ => Err TypeError
  end.

(** s1:63-84.  (attrs_class_name and mixin_class_name are computed but never read.) *)
Record names := Names { n_module : str; n_class : str; n_type : str; n_enum : str }.
(** s1:171-224 *)
Definition def_name_to_names (E : genv) (ds : defs) (name : str) : res (names * defs) :=
  do (prefix, cap) <- (if is_mark name then Ok (s "mark", s "Mark") else if is_node name then Ok (s "node", s "Node") else Err ValueError);
  let type_name := drop5 name in
  do (enum, ds') <- get_type_enum E ds name;
  let snake := camel_to_snake E type_name in
  Ok (Names (prefix ++ s "_" ++ snake) (cap ++ snake_to_pascal E snake) type_name enum, ds').

(** s1:227-271: [sub in x] *)
Fixpoint containsb (sub x : str) : bool := prefixb sub x || match x with [] => false | _ :: r => containsb sub r end.
Definition skipped_definition (n : str) : bool :=
  containsb (s "_with_") n || suffixb (s "_root_only_node") n || suffixb (s "_full_node") n || suffixb (s "_content") n
  || str_eqb n (s "inline_node") || str_eqb n (s "non_nestable_block_content") || str_eqb n (s "block_content")
  || member n [s "code_inline_node"; s "formatted_text_inline_node"; s "mediaSingle_caption_node"].
Definition get_all_definitions (ds : defs) : list str * list str :=
  let kept := filter (fun n => negb (skipped_definition n)) (map fst ds) in
  (sort (filter is_mark kept), sort (filter (fun n => negb (is_mark n) && is_node n) kept)).

(** ------------------------------------------------------------------ fields *)
(** s1:53-60 *)
Record field := Field { f_name : str; f_type : str; f_default : str; f_required : bool }.
(** s1:87-105; attrs_required is not read again. *)
Record info := Info { attrs_fields : list field; extra_fields : list field; has_attrs : bool; has_content : bool; has_marks : bool }.
Definition type_map : list (str * str) :=
  [(s "string", s "str"); (s "integer", s "int"); (s "number", s "float"); (s "boolean", s "bool"); (s "array", s "list");
   (s "object", s "dict[str, T.Any]")].
(** s1:277-305.  A list or a dictionary is no key of type_map: TypeError. *)
Definition schema_type_to_python (v : value) : res str :=
  do d <- as_dict TypeError v;
  if has (s "enum") d then Ok (s "str")
  else if has (s "$ref") d then Ok (s "T.Any")
  else match lookup (s "type") d with
       | Some (VStr t) => Ok (match lookup t type_map with Some p => p | None => s "T.Any" end)
       | Some (VList _) | Some (VDict _) => Err TypeError
       | _ => Ok (s "T.Any")
       end.
(** s1:308-318 *)
Definition get_field_default (required : bool) : str := if required then [] else s "OPT".
(** s1:324-414.  The sort key (not f.required, f.name) as one string. *)
Definition field_key (f : field) : str := (if f_required f then 0%N else 1%N) :: f_name f.
Definition in_list (n : str) (l : list value) : bool := existsb (fun v => match v with VStr x => str_eqb x n | _ => false end) l.
Definition attrs_field (required : list value) (e : str * value) : res field :=
  let r := in_list (fst e) required in
  do t <- schema_type_to_python (snd e);
  Ok (Field (fst e) t (get_field_default r) r).
Definition extract_schema_info (ds : defs) (name : str) : res (info * defs) :=
  do definition <- match lookup name ds with None => Ok [] | Some v => as_dict AttributeError v end;
  do props <- merged_props definition;
  do required <- merged_required definition;
  let ds' := replace_if_there name (VDict (replace_if_there (s "required") (VList required)
               (replace_if_there (s "properties") (VDict props) definition))) ds in
  do attrs <- match lookup (s "attrs") props with
              | None => Ok []
              | Some v =>
                  do d <- as_dict AttributeError v;
                  do req <- get_list (s "required") d;
                  do fields <- get_dict (s "properties") d;
                  do l <- mapM (attrs_field req) fields;
                  Ok (sorted_by field_key l)
              end;
  Ok (Info attrs
        ((if has (s "text") props then [Field (s "text") (s "str") (s "OPT") false] else []) ++
         (if has (s "version") props then [Field (s "version") (s "int") (s "dataclasses.field(default=1)") false] else []))
        (has (s "attrs") props) (has (s "content") props) (has (s "marks") props), ds').

(** ------------------------------------------------------------------ templates *)
Definition lines_ (l : list str) : str := List.concat (map (fun x => x ++ nl) l).
Definition quotes3 : str := s """""""".
Definition field_line (f : field) : str :=
  s "    " ++ f_name f ++ s ": " ++ f_type f ++ (if f_required f then [] else s " = " ++ f_default f).
Definition attrs_class (n : names) (i : info) : list str :=
  if has_attrs i then
    [s "@dataclasses.dataclass(frozen=True)"; s "class " ++ n_class n ++ s "Attrs(Base):";
     s "    " ++ quotes3 ++ s "Attributes for " ++ n_class n ++ s "." ++ quotes3]
    ++ map field_line (attrs_fields i) ++ [[]; []]
  else [].
(** templates/mark.py.jinja2 and node.py.jinja2 with has_mixin=True.  trim_blocks removes the line break after a tag. *)
Definition class_head (n : names) (i : info) (kind bases base : str) : list str :=
  [s "# -*- coding: utf-8 -*-"; []; quotes3; s "Auto-generated ADF " ++ kind ++ s ": " ++ n_type n; quotes3; [];
   s "import typing as T"; s "import dataclasses"; []; s "from func_args.api import OPT"; []; s "from ..type_enum import TypeEnum";
   s "from ..mixins." ++ n_module n ++ s " import " ++ n_class n ++ s "Mixin"; s "from .base import " ++ bases; []; []]
  ++ attrs_class n i
  ++ [s "@dataclasses.dataclass(frozen=True)"; s "class " ++ n_class n ++ s "(" ++ n_class n ++ s "Mixin, " ++ base ++ s "):";
      s "    " ++ quotes3; s "    ADF " ++ kind ++ s ": " ++ n_type n; s "    " ++ quotes3; [];
      s "    type: str = dataclasses.field(default=TypeEnum." ++ n_enum n ++ s ".value)"]
  ++ (if has_attrs i then [s "    attrs: " ++ n_class n ++ s "Attrs = OPT"] else []).
Definition mark_file (n : names) (i : info) : str := lines_ (class_head n i (s "Mark") (s "Base, BaseMark") (s "BaseMark")).
Definition node_file (n : names) (i : info) : str :=
  lines_ (class_head n i (s "Node") (s "Base, BaseMark, BaseNode") (s "BaseNode")
    ++ (if has_content i then [s "    content: T.List[BaseNode] = OPT"] else [])
    ++ (if has_marks i then [s "    marks: T.List[BaseMark] = OPT"] else [])
    ++ map (fun f => s "    " ++ f_name f ++ s ": " ++ f_type f ++ s " = " ++ f_default f) (extra_fields i)).
(** templates/parse.py.jinja2; the line break at the very end of a template is dropped. *)
Definition import_row (n : names) : str := s "from ." ++ n_module n ++ s " import " ++ n_class n.
Definition registry_row (n : names) : str := s "    """ ++ n_enum n ++ s """: " ++ n_class n ++ s ",".
Definition banner (title : str) : list str :=
  [s "# ============================================================================="; title;
   s "# ============================================================================="].
Definition parse_function (kind Kind KIND : str) : list str :=
  [s "}"; []; []; s "def parse_" ++ kind ++ s "(dct: T_DATA) -> ""T_" ++ KIND ++ s """:";
   s "    " ++ quotes3 ++ s "Parse a " ++ kind ++ s " dictionary into a " ++ Kind ++ s " object." ++ quotes3;
   s "    type_ = dct[""type""]"; s "    klass = _" ++ kind ++ s "_type_to_class_mapping[type_]"].
Definition parse_file (ms ns : list names) : str :=
  lines_ ([s "# -*- coding: utf-8 -*-"; []; quotes3; s "Auto-generated ADF Parser"; [];
     s "This module provides functions to parse ADF JSON into Python objects."; quotes3; []; s "import typing as T";
     s "from ..type_hint import T_DATA"; []; s "if T.TYPE_CHECKING:  # pragma: no cover"; s "    from .base import T_MARK, T_NODE"; []]
    ++ banner (s "# Mark imports") ++ map import_row ms ++ [[]]
    ++ banner (s "# Node imports") ++ map import_row ns ++ [[]]
    ++ banner (s "# Mark registry") ++ [s "_mark_type_to_class_mapping = {"] ++ map registry_row ms
    ++ parse_function (s "mark") (s "Mark") (s "MARK") ++ [s "    return klass.from_dict(dct)"; []; []]
    ++ banner (s "# Node registry") ++ [s "_node_type_to_class_mapping = {"] ++ map registry_row ns
    ++ parse_function (s "node") (s "Node") (s "NODE")) ++ s "    return klass.from_dict(dct)".
(** templates/mixin_mark.py.jinja2 and mixin_node.py.jinja2 *)
Definition mixin_stub (n : names) (kind signature body : str) : str :=
  lines_ [s "# -*- coding: utf-8 -*-"; []; quotes3; s "Mixin for ADF " ++ kind ++ s ": " ++ n_type n; [];
     s "This file is NOT auto-generated. Implement to_markdown() method here."; quotes3; []; s "import typing as T"; [];
     s "if T.TYPE_CHECKING:  # pragma: no cover"; s "    from ..nodes." ++ n_module n ++ s " import " ++ n_class n; []; [];
     s "class " ++ n_class n ++ s "Mixin:"; s "    def to_markdown(self: """ ++ n_class n ++ s """" ++ signature ++ s ") -> str:";
     s "        # TODO: Implement markdown conversion"] ++ s "        return " ++ body.
Definition mark_stub (n : names) : str := mixin_stub n (s "Mark") (s ", text: str") (s "text").
Definition node_stub (n : names) : str := mixin_stub n (s "Node") [] (s """""").

(** ------------------------------------------------------------------ files *)
(** A file: its directory and its name.  (Simplified: a name with "/" in it stands for itself here.) *)
Inductive dir := Nodes | Mixins | Elsewhere (d : str).
Definition path := (dir * str)%type.
Definition dir_eqb (a b : dir) : bool :=
  match a, b with Nodes, Nodes | Mixins, Mixins => true | Elsewhere x, Elsewhere y => str_eqb x y | _, _ => false end.
Definition path_eqb (a b : path) : bool := dir_eqb (fst a) (fst b) && str_eqb (snd a) (snd b).
Record disk := Disk { has_dir : dir -> bool; file : path -> option str }.
Definition put (p : path) (content : str) (h : disk) : disk :=
  Disk (has_dir h) (fun q => if path_eqb q p then Some content else file h q).
(** [with open(p, "w") as f: f.write(content)], and the same after [if not p.exists()]. *)
Inductive action := Write (p : path) (content : str) | WriteIfAbsent (p : path) (content : str).
(** [None]: FileNotFoundError, the directory is missing. *)
Definition write (p : path) (content : str) (h : disk) : option disk := if has_dir h (fst p) then Some (put p content h) else None.
Definition act (a : action) (h : disk) : option disk :=
  match a with
  | Write p c => write p c h
  | WriteIfAbsent p c => match file h p with Some _ => Some h | None => write p c h end
  end.
(** A process killed in the middle of [open] ... [write] leaves the file empty or with a beginning of its content.
    (An encoding error or a full disk does the same.) *)
Inductive cut : action -> disk -> disk -> Prop :=
| cut_write p x y h : has_dir h (fst p) = true -> cut (Write p (x ++ y)) h (put p x h)
| cut_new p x y h : file h p = None -> has_dir h (fst p) = true -> cut (WriteIfAbsent p (x ++ y)) h (put p x h).

(** Programs that read the schema (and change it), write files and may raise: the actions up to the end or the exception. *)
Definition prog (A : Type) := defs -> list action * res (A * defs).
Definition ret {A} (a : A) : prog A := fun ds => ([], Ok (a, ds)).
Definition bind {A B} (m : prog A) (k : A -> prog B) : prog B := fun ds =>
  match m ds with
  | (l, Err e) => (l, Err e)
  | (l, Ok (a, ds')) => let (l', r) := k a ds' in (l ++ l', r)
  end.
Definition call {A} (f : defs -> res (A * defs)) : prog A := fun ds => ([], f ds).
Definition emit (a : action) : prog unit := fun ds => ([a], Ok (tt, ds)).
Fixpoint each {A B} (f : A -> prog B) (l : list A) : prog (list B) :=
  match l with [] => ret [] | a :: r => bind (f a) (fun b => bind (each f r) (fun bs => ret (b :: bs))) end.

(** s1:513-531, 534-552 *)
Definition py (module_ : str) : str := module_ ++ s ".py".
Definition class_step (E : genv) (content : names -> info -> str) (name : str) : prog names :=
  bind (call (fun ds => def_name_to_names E ds name)) (fun n =>
  bind (call (fun ds => extract_schema_info ds name)) (fun i =>
  bind (emit (Write (Nodes, py (n_module n)) (content n i))) (fun _ => ret n))).
(** s1:565-575, 577-587.  The names of the stub are computed again, inside the test. (Simplified: the model computes
    them also for a file that exists; they were computed before, so they cannot raise now.) *)
Definition stub_step (E : genv) (content : names -> str) (suffix : str) (n : names) : prog unit :=
  bind (call (fun ds => def_name_to_names E ds (n_type n ++ suffix))) (fun n' =>
  emit (WriteIfAbsent (Mixins, py (n_module n)) (content n'))).
(** s1:496-593, without the progress messages. *)
Definition main (E : genv) : prog unit := fun ds0 =>
  let (mark_defs, node_defs) := get_all_definitions ds0 in
  bind (each (class_step E mark_file) mark_defs) (fun ms =>
  bind (each (class_step E node_file) node_defs) (fun ns =>
  bind (emit (Write (Nodes, s "parse.py") (parse_file ms ns))) (fun _ =>
  bind (each (stub_step E mark_stub (s "_mark")) ms) (fun _ =>
  bind (each (stub_step E node_stub (s "_node")) ns) (fun _ => ret tt))))) ds0.

(** How a run on a disk may end: complete; with an exception of the program; with FileNotFoundError; or killed. *)
Inductive ending := Complete | Raised (e : exc) | NoDirectory | Killed.
Inductive ends (last : ending) : list action -> disk -> ending -> disk -> Prop :=
| ends_last h : ends last [] h last h
| ends_killed l h : ends last l h Killed h
| ends_cut a l h h' : cut a h h' -> ends last (a :: l) h Killed h'
| ends_missing a l h : act a h = None -> ends last (a :: l) h NoDirectory h
| ends_next a l h h1 e h2 : act a h = Some h1 -> ends last l h1 e h2 -> ends last (a :: l) h e h2.
Definition run (E : genv) (ds : defs) (h : disk) (e : ending) (h' : disk) : Prop :=
  match main E ds with
  | (l, Ok _) => ends Complete l h e h'
  | (l, Err x) => ends (Raised x) l h e h'
  end.
