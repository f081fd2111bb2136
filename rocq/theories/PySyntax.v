(** The part of Python's syntax that the library's own functions use, as data.  RepoCode.v (generated) holds the source text of
    /repo/atlas_doc_parser in this form; PySem.v gives it a meaning. *)
From Coq Require Import List NArith ZArith Bool String.
From Verif Require Import PyStr Values.
Import ListNotations.

Inductive binop := Add | Minus | Mult | Div.
Inductive cmpop := CEq | CNotEq | CIs | CIsNot | CIn | CNotIn | CLt | CLtE | CGt | CGtE.
Inductive expr :=
| Name (x : string)                            (* a parameter or a variable assigned in the function *)
| Glob (q : string)                            (* any other name, resolved through the module's imports *)
| Const (v : value)                            (* None, True, False, 12, "text" *)
| Attr (e : expr) (f : string)                 (* e.f *)
| Call (f : expr) (args : list expr) (kws : list (string * expr))
| Bin (o : binop) (a b : expr)
| Cmp (o : cmpop) (a b : expr)
| And (a b : expr) | Or (a b : expr) | Not (a : expr)
| IfExp (c a b : expr)                         (* a if c else b *)
| ListOf (l : list expr)                       (* [a, b] *)
| Subscript (e i : expr)                       (* e[i] *)
| SliceFrom (e i : expr)                       (* e[i:] *)
| FString (l : list expr)                      (* f"..{a}..", the literal parts as Const *)
| Lambda (xs : list string) (b : expr)
| ListComp (b : expr) (x : string) (it : expr) (* [b for x in it] *)
| EmptyDict                                    (* {} *)
| DictComp (k v : expr) (x : string) (it : expr) (* {k: v for x in it} *)
| CallKw (f e : expr)                          (* f( **e) *)
| SuperOf (c x : string)                       (* super() in a method of class c whose first parameter is x *).
Inductive stmt :=
| Expr (e : expr)
| Assign (x : string) (e : expr)               (* x = e *)
| AugAssign (x : string) (o : binop) (e : expr)
| Return (e : expr)
| Raise (e : expr)
| If (c : expr) (a b : list stmt)
| For (x : string) (it : expr) (b : list stmt)
| Try (b : list stmt) (hs : list (string * option string * list stmt))  (* except C as x: ... *)
| Pass
| Continue
| SetItem (x : string) (i e : expr)            (* x[i] = e, x a variable of the function *)
| SetGlob (q : string) (i e : expr)            (* the same, q a variable of the module *)
| For2 (x y : string) (it : expr) (b : list stmt) (* for x, y in it: ... *).
(** Parameters with their defaults; [f_locals] are the other variables assigned in the body. *)
Record func := Func { f_params : list (string * option value); f_locals : list string; f_body : list stmt }.
Record class := Class { c_base : option string; c_methods : list (string * func) }.
Record program := Program {
  p_funs : list (string * func);               (* module-level functions, by qualified name *)
  p_classes : list (string * class);
  p_consts : list (string * value);            (* module-level constants *)
  p_enums : list (string * list (string * string)); (* enum classes: members and values *)
  p_attrs : list (string * string)             (* class of the [attrs] field, by class *) }.
(** Dataclasses.  A field: no default, [= REQ], [= OPT] or [= constant], and the class it is annotated with (if one of the program's). *)
Inductive default := DNone | DReq | DOpt | DVal (v : value).
Record pclass := DClass { k_base : option string; k_methods : list (string * (bool * func)); k_fields : list (str * (default * option string)) }.
Record program2 := Program2 {
  q_funs : list (string * func);
  q_dicts : list (string * list (str * string)); (* module-level dictionaries from strings to classes *)
  q_caches : list string;                        (* module-level dictionaries that are empty at first *)
  q_classes : list (string * pclass) }.
