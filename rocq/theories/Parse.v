(** Objects and [from_dict]. *)
From Coq Require Import List NArith ZArith Bool String.
From Verif Require Import PyStr Values Schema.
Import ListNotations.
Open Scope list_scope.
Open Scope string_scope.

(** ---------------------------------------------------------------- objects *)
(** The [attrs] field of an object: class without such a field, OPT, or an Attrs
    instance (all declared fields in order; an unset optional one holds OPT). *)
Inductive attrs := NoAttrs | AOpt | AObj (l : list (str * value)).

(** The [content] / [marks] field: class without such a field, OPT, a list of parsed
    objects, or a raw value that was not a list (kept as is by from_dict). *)
Inductive slot (A : Type) := NoField | SOpt | Items (l : list A) | Raw (v : value).
Arguments NoField {A}. Arguments SOpt {A}. Arguments Items {A} l. Arguments Raw {A} v.

(** An instance of one of the 16 mark classes. *)
Record mark := Mark { m_kind : mkind; m_type : value; m_attrs : attrs }.

(** An instance of one of the 35 node classes; [n_version] only on doc, [n_text] only on text. *)
Inductive node :=
  Node (k : nkind) (ty : value) (ve tx : option value) (at_ : attrs)
       (co : slot node) (ma : slot mark).

Definition n_kind (n : node) : nkind := match n with Node k _ _ _ _ _ _ => k end.
Definition n_type (n : node) : value := match n with Node _ t _ _ _ _ _ => t end.
Definition n_version (n : node) : option value := match n with Node _ _ v _ _ _ _ => v end.
Definition n_text (n : node) : option value := match n with Node _ _ _ t _ _ _ => t end.
Definition n_attrs (n : node) : attrs := match n with Node _ _ _ _ a _ _ => a end.
Definition n_content (n : node) : slot node := match n with Node _ _ _ _ _ c _ => c end.
Definition n_marks (n : node) : slot mark := match n with Node _ _ _ _ _ _ m => m end.

(** ---------------------------------------------------------------- effects *)
(** A warning passed to [logger.warning] (mark_or_node.py:263,279), as the data of the
    UnimplementedTypeError whose [str()] is logged. *)
Inductive warning := Warn (c : cat) (ty : value).

(** A parse: the warnings logged, in order, and the value returned or exception raised. *)
Definition M (A : Type) : Type := (list warning * res A)%type.
Definition ret {A} (a : A) : M A := ([], Ok a).
Definition raise {A} (e : exc) : M A := ([], Err e).
Definition bind {A B} (m : M A) (f : A -> M B) : M B :=
  match m with
  | (w, Ok a) => let (w', r) := f a in ((w ++ w')%list, r)
  | (w, Err e) => (w, Err e)
  end.
Definition lift {A} (r : res A) : M A := ([], r).

(** ---------------------------------------------------------------- Base.from_dict *)
(** [Base.from_dict] (mark_or_node.py:67-88) on an Attrs class with field table [fs],
    followed by the dataclass constructor (missing positional argument: TypeError) and
    func_args' [BaseFrozenModel.__post_init__] (a field still REQ: ParamError).
    [dct[field_name]] on a non-dictionary is a TypeError. *)
Definition missing (q : fkind -> bool) (fs : list (str * fkind)) (d : list (str * value)) : bool :=
  existsb (fun f => q (snd f) && negb (has (fst f) d)) fs.
Definition is_Pos k := match k with Pos => true | _ => false end.
Definition is_Req k := match k with Req => true | _ => false end.

Definition attrs_from_dict (fs : list (str * fkind)) (v : value) : res (list (str * value)) :=
  match v with
  | VDict d =>
      if missing is_Pos fs d then Err TypeError
      else if missing is_Req fs d then Err ParamError
      else Ok (map (fun f => (fst f, match lookup (fst f) d with Some x => x | None => VOpt end)) fs)
  | _ => Err TypeError
  end.

(** The [type] field: input value or class default (mark_or_node.py:83-87). *)
Definition type_field (name : str) (d : list (str * value)) : value :=
  match lookup (s "type") d with Some t => t | None => VStr name end.

(** ---------------------------------------------------------------- marks *)
(** [BaseMark.from_dict] (mark_or_node.py:145-161) on class [k].  A non-dictionary
    argument ends in TypeError whichever statement touches it first. *)
Definition mark_from_dict (k : mkind) (v : value) : res mark :=
  match v with
  | VDict d =>
      match mk_attrs k with
      | None => Ok (Mark k (type_field (mk_name k) d) NoAttrs)
      | Some fs =>
          match lookup (s "attrs") d with
          | Some a => do l <- attrs_from_dict fs a; Ok (Mark k (type_field (mk_name k) d) (AObj l))
          | None => Err ParamError
          end
      end
  | _ => Err TypeError
  end.

(** [parse_mark] (marks/parse_mark.py:62-75). *)
Definition parse_mark (v : value) : res mark :=
  match v with
  | VDict d =>
      match lookup (s "type") d with
      | None => Err KeyError
      | Some ty =>
          match mark_class_of ty with
          | Found k => mark_from_dict k v
          | Missing => Err (Unimplemented CMark ty)
          | Unhashable => Err TypeError
          end
      end
  | _ => Err TypeError
  end.

(** ---------------------------------------------------------------- nodes *)
(** The two loops of BaseNode.from_dict (mark_or_node.py:255-266 and 271-282): keep the
    parsed elements, skip (and, if [w], log) on UnimplementedTypeError only. *)
Fixpoint collect {A} (w : bool) (ms : list (M A)) : M (list A) :=
  match ms with
  | [] => ret []
  | (lg, Ok a) :: r => bind (lg, Ok a) (fun a => bind (collect w r) (fun l => ret (a :: l)))
  | (lg, Err (Unimplemented c ty)) :: r =>
      bind ((lg ++ if w then [Warn c ty] else [])%list, Ok tt) (fun _ => collect w r)
  | (lg, Err e) :: _ => (lg, Err e)
  end.

(** What from_dict finds under the key "content" / "marks": nothing, a list (given as
    the list of its elements' parses), or something else. *)
Inductive entry (A : Type) := EAbsent | EList (ms : list (M A)) | EOther (v : value).
Arguments EAbsent {A}. Arguments EList {A} ms. Arguments EOther {A} v.

Definition run_entry {A} (w : bool) (e : entry A) : M (option (slot A)) :=
  match e with
  | EAbsent => ret None
  | EList ms => bind (collect w ms) (fun l => ret (Some (Items l)))
  | EOther VOpt => ret (Some SOpt)
  | EOther v => ret (Some (Raw v))
  end.

(** Constructor argument for a [content]/[marks] field declared as [fk]. *)
Definition slot_field {A} (fk : option fkind) (o : option (slot A)) : res (slot A) :=
  match fk with
  | None => Ok NoField
  | Some k =>
      match o with
      | Some x => Ok x
      | None => match k with Opt => Ok SOpt | _ => Err ParamError end
      end
  end.

Definition marks_entry (d : list (str * value)) : entry mark :=
  match lookup (s "marks") d with
  | None => EAbsent
  | Some (VList l) => EList (map (fun v => lift (parse_mark v)) l)
  | Some v => EOther v
  end.

(** mark_or_node.py:244-250. *)
Definition attrs_entry (c : nclass) (d : list (str * value)) : res (option attrs) :=
  match nc_attrs c with
  | None => Ok None
  | Some (_, fs) =>
      match lookup (s "attrs") d with
      | None => Ok None
      | Some a => do l <- attrs_from_dict fs a; Ok (Some (AObj l))
      end
  end.

Definition attrs_field (c : nclass) (o : option attrs) : res attrs :=
  match nc_attrs c with
  | None => Ok NoAttrs
  | Some (k, _) =>
      match o with
      | Some a => Ok a
      | None => match k with Opt => Ok AOpt | _ => Err ParamError end
      end
  end.

(** [super().from_dict(dct)] at mark_or_node.py:284: pick the declared fields and call
    the constructor.  All node classes give every field a default, so a missing
    required one is always a ParamError. *)
Definition construct (k : nkind) (d : list (str * value)) (oa : option attrs)
           (oc : option (slot node)) (om : option (slot mark)) : res node :=
  let c := nk_class k in
  do tx <- (if nc_text c then match lookup (s "text") d with
                              | Some t => Ok (Some t) | None => Err ParamError end
            else Ok None);
  do a <- attrs_field c oa;
  do co <- slot_field (nc_content c) oc;
  do ma <- slot_field (nc_marks c) om;
  Ok (Node k (type_field (nk_name k) d)
           (if nc_version c then Some (match lookup (s "version") d with
                                       | Some v => v | None => VInt 1 end) else None)
           tx a co ma).

(** [BaseNode.from_dict] (mark_or_node.py:222-284) on class [k]; [ce] is the content
    entry.  Effects in order: attrs, content, marks, constructor.  The deepcopy is
    invisible in this value model (see Heap.v). *)
Definition node_from_entry (w : bool) (k : nkind) (d : list (str * value)) (ce : entry node) : M node :=
  bind (lift (attrs_entry (nk_class k) d)) (fun oa =>
  bind (run_entry w ce) (fun oc =>
  bind (run_entry w (marks_entry d)) (fun om =>
  lift (construct k d oa oc om)))).

(** [parse_node] (nodes/parse_node.py:100-113). [w] is settings.WARN_UNIMPLEMENTED_TYPE. *)
Fixpoint parse_node (w : bool) (v : value) {struct v} : M node :=
  match v with
  | VDict d =>
      let ce :=
        (fix find_content (d : list (str * value)) : entry node :=
           match d with
           | [] => EAbsent
           | (k, x) :: r =>
               if str_eqb k (s "content")
               then match x with VList l => EList (map (parse_node w) l) | _ => EOther x end
               else find_content r
           end) d in
      match lookup (s "type") d with
      | None => raise KeyError
      | Some ty =>
          match node_class_of ty with
          | Found k => node_from_entry w k d ce
          | Missing => raise (Unimplemented CNode ty)
          | Unhashable => raise TypeError
          end
      end
  | _ => raise TypeError
  end.

Definition content_entry (w : bool) (d : list (str * value)) : entry node :=
  match lookup (s "content") d with
  | None => EAbsent
  | Some (VList l) => EList (map (parse_node w) l)
  | Some v => EOther v
  end.

(** [K.from_dict(v)] for node class [k], the entry point users call (e.g. NodeDoc.from_dict). *)
Definition from_dict (w : bool) (k : nkind) (v : value) : M node :=
  match v with
  | VDict d => node_from_entry w k d (content_entry w d)
  | _ => raise TypeError
  end.

(** exc.py:33-40: the message of UnimplementedTypeError; [ty] is [f"{type_value}"]. *)
Definition unimplemented_message (c : cat) (ty : str) : str :=
  (s (match c with CNode => "Node" | CMark => "Mark" end) ++ s " type '" ++ ty
   ++ s "' is not yet implemented. Please submit an issue at https://github.com/MacHu-GWU/atlas_doc_parser-project/issues with this type name so it can be added in a future release.")%list.
