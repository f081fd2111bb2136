(** Vocabulary for C57-C62: runs of the class generator, what a schema asks for, and names. *)
From Coq Require Import List NArith ZArith Bool String Arith.
From Verif Require Import PyStr Values SpecApi SpecAnalyze GenNodes.
Import ListNotations.
Open Scope string_scope.
Open Scope list_scope.

(** ---------------------------------------------------------------- runs *)
(** Any number of runs, each on any schema and ended in any way. *)
Inductive history (E : genv) : disk -> disk -> Prop :=
| hist_none h : history E h h
| hist_run ds h e h1 h2 : run E ds h e h1 -> history E h1 h2 -> history E h h2.
(** The same with one schema. *)
Inductive retries (E : genv) (ds : defs) : disk -> disk -> Prop :=
| retry_none h : retries E ds h h
| retry_run h e h1 h2 : run E ds h e h1 -> retries E ds h1 h2 -> retries E ds h h2.
(** No file without its directory. *)
Definition tree (h : disk) : Prop := forall p c, file h p = Some c -> has_dir h (fst p) = true.

(** ---------------------------------------------------------------- definitions *)
(** Variants, groups and specializations are not generated. *)
Definition base_definition (n : str) : Prop :=
  (~ exists x y, n = x ++ s "_with_" ++ y) /\ ~ ends_with "_root_only_node" n /\ ~ ends_with "_full_node" n /\
  ~ ends_with "_content" n /\ n <> s "inline_node" /\ n <> s "code_inline_node" /\ n <> s "formatted_text_inline_node" /\
  n <> s "mediaSingle_caption_node".
(** The marks and the nodes a schema defines. *)
Definition a_mark (ds : defs) (n : str) : Prop := In n (map fst ds) /\ ends_with "_mark" n /\ base_definition n.
Definition a_node (ds : defs) (n : str) : Prop := In n (map fst ds) /\ ends_with "_node" n /\ base_definition n.
(** The name of the module of a definition: its kind, and its type name in snake case. *)
Definition module_of (E : genv) (n m : str) : Prop :=
  exists x, (n = x ++ s "_mark" /\ m = s "mark_" ++ camel_to_snake E x) \/ (n = x ++ s "_node" /\ m = s "node_" ++ camel_to_snake E x).
Definition wanted (E : genv) (ds : defs) (n m : str) : Prop := (a_mark ds n \/ a_node ds n) /\ module_of E n m.

(** ---------------------------------------------------------------- names *)
Definition ascii_lower (c : N) : N := if is_up c then (c + 32)%N else c.
Definition all_ascii (x : str) : Prop := forall c, In c x -> (c < 128)%N.
(** Python's case mapping on ASCII strings. *)
Definition ascii_case (E : genv) : Prop :=
  (forall x, all_ascii x -> lower E x = map ascii_lower x) /\
  (forall c x, all_ascii (c :: x) -> capitalize E (c :: x) = upper_ascii c :: map ascii_lower x) /\ capitalize E [] = [].
(** A name without its underscores and without its case. *)
Definition letters (x : str) : str := map ascii_lower (filter (fun c => negb (N.eqb c UNDER)) x).
(** Class names: the kind, and the words of the type name put together. *)
Definition class_of (E : genv) (n c : str) : Prop :=
  exists x, (n = x ++ s "_mark" /\ c = s "Mark" ++ snake_to_pascal E (camel_to_snake E x)) \/
            (n = x ++ s "_node" /\ c = s "Node" ++ snake_to_pascal E (camel_to_snake E x)).

(** A word of a camel case name: a lower case letter and at least one lower case letter or digit. *)
Definition word (w : str) : Prop := exists c r, w = c :: r /\ is_low c = true /\ r <> [] /\ forall a, In a r -> is_low a = true \/ is_digit a = true.
Definition capital (w : str) : str := match w with [] => [] | c :: r => upper_ascii c :: r end.
(** The words in camel case ("tableCell"), with underscores ("table_cell"), in Pascal case ("TableCell"). *)
Definition camel_case (ws : list str) : str := match ws with [] => [] | w :: r => w ++ List.concat (map capital r) end.
Definition snake_case (ws : list str) : str := join (s "_") ws.
Definition pascal_case (ws : list str) : str := List.concat (map capital ws).

(** ---------------------------------------------------------------- properties *)
(** Property [k] of a definition: that of the last part of "allOf" that has it, else its own. *)
Definition own_property (d : defs) (k : str) (v : value) : Prop := exists props, In (s "properties", VDict props) d /\ In (k, v) props.
Definition lacks (k : str) (item : value) : Prop := forall d v, item = VDict d -> ~ own_property d k v.
Definition has_property (d : defs) (k : str) (v : value) : Prop :=
  (exists before item after, In (s "allOf", VList (before ++ VDict item :: after)) d /\ own_property item k v /\ Forall (lacks k) after) \/
  (own_property d k v /\ forall items, In (s "allOf", VList items) d -> Forall (lacks k) items).
(** The type of a property in Python. *)
Definition mentions (k : string) (d : defs) : Prop := exists v, In (s k, v) d.
Inductive python_type (d : defs) : string -> Prop :=
| py_enum : mentions "enum" d -> python_type d "str"
| py_ref : ~ mentions "enum" d -> mentions "$ref" d -> python_type d "T.Any"
| py_simple t p : ~ mentions "enum" d -> ~ mentions "$ref" d -> In (s "type", VStr (s t)) d ->
    In (t, p) [("string", "str"); ("integer", "int"); ("number", "float"); ("boolean", "bool"); ("array", "list"); ("object", "dict[str, T.Any]")] ->
    python_type d p
| py_other : ~ mentions "enum" d -> ~ mentions "$ref" d ->
    (forall t, In (s "type", VStr (s t)) d -> ~ In t ["string"; "integer"; "number"; "boolean"; "array"; "object"]) -> python_type d "T.Any".
(** The fields of the attributes class: the lines of those that must be given, then of those that need not, both in
    alphabetical order. *)
Definition required_by (attrs : defs) (k : str) : Prop := exists l, In (s "required", VList l) attrs /\ In (VStr k) l.
Definition declares (attrs : defs) (e : str * string) : Prop := exists d, own_property attrs (fst e) (VDict d) /\ python_type d (snd e).
Definition given_line (e : str * string) : str := s "    " ++ fst e ++ s ": " ++ s (snd e) ++ nl.
Definition optional_line (e : str * string) : str := s "    " ++ fst e ++ s ": " ++ s (snd e) ++ s " = OPT" ++ nl.
(** The value of TypeEnum a class stands for: the first one the schema allows for its property "type"; without such a
    property the name of the definition without its kind. *)
Definition stands_for (d : defs) (name t : str) : Prop :=
  (forall e r t', has_property d (s "type") (VDict e) -> In (s "enum", VList (VStr t' :: r)) e -> t = t') /\
  ((forall v, ~ has_property d (s "type") v) -> name = t ++ s "_mark" \/ name = t ++ s "_node").
(** A line that is there exactly when the definition has the property. *)
Definition line_if (d : defs) (k : string) (line text : str) : Prop :=
  ((exists v, has_property d (s k) v) /\ text = line ++ nl) \/ ((forall v, ~ has_property d (s k) v) /\ text = []).

(** ---------------------------------------------------------------- the registry *)
(** A row of the registry: the module, the class and the type of a definition. *)
Record entry := Entry { e_module : str; e_class : str; e_type : str }.
Definition entry_of (E : genv) (ds : defs) (name : str) (e : entry) : Prop :=
  module_of E name (e_module e) /\ class_of E name (e_class e) /\ forall d, In (name, VDict d) ds -> stands_for d name (e_type e).
Definition import_text (e : entry) : str := s "from ." ++ e_module e ++ s " import " ++ e_class e ++ nl.
Definition registry_text (e : entry) : str := s "    """ ++ e_type e ++ s """: " ++ e_class e ++ s "," ++ nl.
(** Some run on some disk completes: the schema has no part that makes the program raise. *)
Definition acceptable (E : genv) (ds : defs) : Prop := exists h h', run E ds h Complete h'.
(** No other definition goes to the same file. *)
Definition alone (E : genv) (ds : defs) (name m : str) : Prop := wanted E ds name m /\ forall name', wanted E ds name' m -> name' = name.
