(** [to_dict]. *)
From Coq Require Import List NArith ZArith Bool String.
From Verif Require Import PyStr Values Schema Parse.
Import ListNotations.
Open Scope list_scope.
Open Scope string_scope.

(** func_args.remove_optional: drop the top-level entries holding OPT. *)
Definition remove_optional (d : list (str * value)) : list (str * value) :=
  filter (fun e => negb (is_opt (snd e))) d.

(** [Base.to_dict] on an Attrs instance (mark_or_node.py:55-59). *)
Definition attrs_to_dict (l : list (str * value)) : value := VDict (remove_optional l).

(** [BaseMark.to_dict] (mark_or_node.py:163-168).  [super().to_dict()] turns attrs into a
    plain dict; the following [hasattr(data["attrs"], "to_dict")] is therefore False and
    the OPT entries of attrs stay. *)
Definition mark_to_dict (m : mark) : value :=
  VDict (remove_optional
    ((s "type", m_type m)
     :: match m_attrs m with
        | NoAttrs => []
        | AOpt => [(s "attrs", VOpt)]
        | AObj l => [(s "attrs", VDict l)]
        end)).

(** [[x.to_dict() for x in raw]] on a raw (non-list) value: not iterable, empty, or an
    element without [to_dict]. *)
Definition raw_to_dicts (v : value) : res (list value) :=
  match v with
  | VStr [] | VDict [] => Ok []
  | VStr _ | VDict _ => Err AttributeError
  | _ => Err TypeError
  end.

(** [BaseNode.to_dict] (mark_or_node.py:286-304). *)
Fixpoint node_to_dict (n : node) {struct n} : res value :=
  match n with
  | Node k ty ve tx at_ co ma =>
      do cs <- match co with
               | NoField | SOpt => Ok None
               | Items l => do xs <- mapM node_to_dict l; Ok (Some xs)
               | Raw v => do xs <- raw_to_dicts v; Ok (Some xs)
               end;
      do ms <- match ma with
               | NoField | SOpt => Ok None
               | Items l => Ok (Some (map mark_to_dict l))
               | Raw v => do xs <- raw_to_dicts v; Ok (Some xs)
               end;
      Ok (VDict (remove_optional
           ((s "type", ty)
            :: match ve with Some v => [(s "version", v)] | None => [] end
            ++ match tx with Some v => [(s "text", v)] | None => [] end
            ++ match at_ with NoAttrs | AOpt => [] | AObj l => [(s "attrs", attrs_to_dict l)] end
            ++ match cs with Some l => [(s "content", VList l)] | None => [] end
            ++ match ms with Some l => [(s "marks", VList l)] | None => [] end)%list))
  end.
