(** The process-wide state: the class-field cache [_CLASS_FIELD] (mark_or_node.py:27-28), the
    settings flag and the log, threaded through every from_dict. *)
From Coq Require Import List NArith ZArith Bool String.
From Verif Require Import PyStr Values Schema Parse.
Import ListNotations.
Open Scope string_scope.
Open Scope list_scope.

(** The dataclasses whose get_fields is called while parsing: node and mark classes and their
    Attrs classes. *)
Inductive cls := NodeC (k : nkind) | NodeAttrsC (k : nkind) | MarkC (k : mkind) | MarkAttrsC (k : mkind).

(** [dataclasses.fields(cls)]: the declared field names, in dataclass order (Schema.v). *)
Definition declared (c : cls) : list str :=
  match c with
  | NodeC k =>
      let c := nk_class k in
      [s "type"] ++ (if nc_version c then [s "version"] else []) ++ (if nc_text c then [s "text"] else [])
      ++ (match nc_attrs c with Some _ => [s "attrs"] | None => [] end)
      ++ (match nc_content c with Some _ => [s "content"] | None => [] end)
      ++ (match nc_marks c with Some _ => [s "marks"] | None => [] end)
  | NodeAttrsC k => match nc_attrs (nk_class k) with Some (_, fs) => map fst fs | None => [] end
  | MarkC k => s "type" :: match mk_attrs k with Some _ => [s "attrs"] | None => [] end
  | MarkAttrsC k => match mk_attrs k with Some fs => map fst fs | None => [] end
  end.

Definition cls_eq_dec (a b : cls) : {a = b} + {a <> b}.
Proof. repeat decide equality. Defined.

Record world := World {
  w_cache : list (cls * list str);      (* _CLASS_FIELD *)
  w_flag : bool;                        (* settings.WARN_UNIMPLEMENTED_TYPE *)
  w_log : list warning }.               (* warnings logged so far *)

Fixpoint cached (c : cls) (m : list (cls * list str)) : option (list str) :=
  match m with
  | [] => None
  | (c', f) :: r => if cls_eq_dec c' c then Some f else cached c r
  end.

Definition ST (A : Type) : Type := world -> world * res A.
Definition sret {A} (a : A) : ST A := fun w => (w, Ok a).
Definition sraise {A} (e : exc) : ST A := fun w => (w, Err e).
Definition sbind {A B} (m : ST A) (f : A -> ST B) : ST B :=
  fun w => match m w with (w', Ok a) => f a w' | (w', Err e) => (w', Err e) end.

(** [Base.get_fields] (mark_or_node.py:41-53). *)
Definition get_fields (c : cls) : ST (list str) :=
  fun w => match cached c (w_cache w) with
           | Some f => (w, Ok f)
           | None => (World ((c, declared c) :: w_cache w) (w_flag w) (w_log w), Ok (declared c))
           end.
Definition log_warning (x : warning) : ST unit :=
  fun w => (World (w_cache w) (w_flag w) (w_log w ++ (if w_flag w then [x] else [])), Ok tt).

(** mark_or_node.py:80-87: keyword arguments for the names listed by get_fields. *)
Definition kwargs {A} (names : list str) (d : list (str * A)) : list (str * A) :=
  flat_map (fun f => match lookup f d with Some v => [(f, v)] | None => [] end) names.
(** [cls( **kwargs)]: an unexpected keyword is a TypeError. *)
Definition unexpected {A} (c : cls) (kw : list (str * A)) : bool :=
  existsb (fun e => negb (existsb (str_eqb (fst e)) (declared c))) kw.

(** [Attrs.from_dict(v)] with the cache. *)
Definition c_attrs_from_dict (c : cls) (fs : list (str * fkind)) (v : value) : ST (list (str * value)) :=
  sbind (get_fields c) (fun names =>
  match v with
  | VDict d =>
      let kw := kwargs names d in
      if unexpected c kw then sraise TypeError
      else fun w => (w, attrs_from_dict fs (VDict kw))
  | _ => match names with [] => sret [] | _ => sraise TypeError end
  end).

Definition c_mark_from_dict (k : mkind) (v : value) : ST mark :=
  match v with
  | VDict d =>
      sbind (match lookup (s "attrs") d with
             | None => sret None
             | Some a =>
                 sbind (get_fields (MarkC k)) (fun names =>
                 if existsb (str_eqb (s "attrs")) names
                 then match mk_attrs k with
                      | Some fs => sbind (c_attrs_from_dict (MarkAttrsC k) fs a) (fun l => sret (Some (AObj l)))
                      | None => sraise KeyError
                      end
                 else sret None)
             end) (fun oa =>
      sbind (get_fields (MarkC k)) (fun names =>
      let kw := kwargs names d in
      if unexpected (MarkC k) kw then sraise TypeError
      else
        let t := match lookup (s "type") kw with Some t => t | None => VStr (mk_name k) end in
        match mk_attrs k with
        | None => sret (Mark k t NoAttrs)
        | Some _ => match lookup (s "attrs") kw, oa with
                    | Some _, Some a => sret (Mark k t a)
                    | _, _ => sraise ParamError
                    end
        end))
  | _ => sraise TypeError
  end.

Definition c_parse_mark (v : value) : ST mark :=
  match v with
  | VDict d =>
      match lookup (s "type") d with
      | None => sraise KeyError
      | Some ty =>
          match mark_class_of ty with
          | Found k => c_mark_from_dict k v
          | Missing => sraise (Unimplemented CMark ty)
          | Unhashable => sraise TypeError
          end
      end
  | _ => sraise TypeError
  end.

(** The loops over content and marks. *)
Fixpoint c_collect {A} (ms : list (ST A)) : ST (list A) :=
  match ms with
  | [] => sret []
  | m :: r => fun w =>
      match m w with
      | (w', Ok a) => sbind (c_collect r) (fun l => sret (a :: l)) w'
      | (w', Err (Unimplemented c ty)) => sbind (log_warning (Warn c ty)) (fun _ => c_collect r) w'
      | (w', Err e) => (w', Err e)
      end
  end.
Inductive c_entry (A : Type) := CEAbsent | CEList (ms : list (ST A)) | CEOther (v : value).
Arguments CEAbsent {A}. Arguments CEList {A} ms. Arguments CEOther {A} v.
Definition c_run_entry {A} (e : c_entry A) : ST (option (slot A)) :=
  match e with
  | CEAbsent => sret None
  | CEList ms => sbind (c_collect ms) (fun l => sret (Some (Items l)))
  | CEOther VOpt => sret (Some SOpt)
  | CEOther v => sret (Some (Raw v))
  end.
Definition c_marks_entry (d : list (str * value)) : c_entry mark :=
  match lookup (s "marks") d with
  | None => CEAbsent
  | Some (VList l) => CEList (map c_parse_mark l)
  | Some v => CEOther v
  end.

(** [BaseNode.from_dict] with the cache. *)
Definition c_node_from_entry (k : nkind) (d : list (str * value)) (ce : c_entry node) : ST node :=
  sbind (match lookup (s "attrs") d with
         | None => sret None
         | Some a =>
             sbind (get_fields (NodeC k)) (fun names =>
             if existsb (str_eqb (s "attrs")) names
             then match nc_attrs (nk_class k) with
                  | Some (_, fs) => sbind (c_attrs_from_dict (NodeAttrsC k) fs a) (fun l => sret (Some (AObj l)))
                  | None => sraise KeyError
                  end
             else sret None)
         end) (fun oa =>
  sbind (c_run_entry ce) (fun oc =>
  sbind (c_run_entry (c_marks_entry d)) (fun om =>
  sbind (get_fields (NodeC k)) (fun names =>
  let kw := kwargs names d in
  if unexpected (NodeC k) kw then sraise TypeError
  else fun w => (w, construct k kw
                      (if has (s "attrs") kw then oa else None)
                      (if has (s "content") kw then oc else None)
                      (if has (s "marks") kw then om else None)))))).

Fixpoint c_parse_node (v : value) {struct v} : ST node :=
  match v with
  | VDict d =>
      let ce :=
        (fix find_content (d : list (str * value)) : c_entry node :=
           match d with
           | [] => CEAbsent
           | (k, x) :: r =>
               if str_eqb k (s "content")
               then match x with VList l => CEList (map c_parse_node l) | _ => CEOther x end
               else find_content r
           end) d in
      match lookup (s "type") d with
      | None => sraise KeyError
      | Some ty =>
          match node_class_of ty with
          | Found k => c_node_from_entry k d ce
          | Missing => sraise (Unimplemented CNode ty)
          | Unhashable => sraise TypeError
          end
      end
  | _ => sraise TypeError
  end.

Definition c_content_entry (d : list (str * value)) : c_entry node :=
  match lookup (s "content") d with
  | None => CEAbsent
  | Some (VList l) => CEList (map c_parse_node l)
  | Some v => CEOther v
  end.
Definition c_from_dict (k : nkind) (v : value) : ST node :=
  match v with
  | VDict d => c_node_from_entry k d (c_content_entry d)
  | _ => sraise TypeError
  end.

(** Simplified: on a non-dictionary argument Python may fill a cache entry before the
    TypeError; here the cache is left alone (the entry would be correct anyway). *)
(** ---------------------------------------------------------------- histories *)
(** What a program can do, in any order. *)
Inductive op :=
| OpParse (v : value)                  (* parse_node(v) *)
| OpFromDict (k : nkind) (v : value)   (* K.from_dict(v) *)
| OpMark (v : value)                   (* parse_mark(v) *)
| OpFields (c : cls)                   (* c.get_fields() *)
| OpFlag (b : bool).                   (* settings.WARN_UNIMPLEMENTED_TYPE = b *)
Inductive answer := ANode (r : res node) | AMark (r : res mark) | AFields (r : res (list str)) | ANone.

Definition step (o : op) (w : world) : world * answer :=
  match o with
  | OpParse v => let (w', r) := c_parse_node v w in (w', ANode r)
  | OpFromDict k v => let (w', r) := c_from_dict k v w in (w', ANode r)
  | OpMark v => let (w', r) := c_parse_mark v w in (w', AMark r)
  | OpFields c => let (w', r) := get_fields c w in (w', AFields r)
  | OpFlag b => (World (w_cache w) b (w_log w), ANone)
  end.
Fixpoint run (os : list op) (w : world) : world * list answer :=
  match os with
  | [] => (w, [])
  | o :: r => let (w1, a) := step o w in let (w2, l) := run r w1 in (w2, a :: l)
  end.
(** A fresh process. *)
Definition fresh : world := World [] true [].
