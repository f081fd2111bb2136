(** Vocabulary for the end-to-end form of C20: the texts of an input dictionary, computed on the dictionary itself. *)
From Coq Require Import List NArith ZArith Bool String.
From Verif Require Import PyStr Values Schema Parse SpecParse SpecMd SpecTable SpecRender.
Import ListNotations.
Open Scope string_scope.
Open Scope list_scope.

Definition typed (d : list (str * value)) (t : string) : bool :=
  match lookup (s "type") d with Some (VStr x) => str_eqb x (s t) | _ => false end.

(** Concatenate f over the registered elements of the content of an element. *)
Definition over_content (f : value -> list str) : list (str * value) -> list str :=
  fix go (d : list (str * value)) : list str :=
    match d with
    | [] => []
    | (k, x) :: r =>
        if str_eqb k (s "content")
        then match x with VList l => flat_map (fun y => if unregistered node_names y then [] else f y) l | _ => [] end
        else go r
    end.
(** The "text" strings of the text elements of a document, in document order; inside table cells, pipes are written "\|". *)
Fixpoint input_texts (v : value) : list str :=
  match v with
  | VDict d =>
      if typed d "text" then match lookup (s "text") d with Some (VStr t) => [t] | _ => [] end
      else if typed d "tableCell" || typed d "tableHeader" then map escape (over_content input_texts d)
      else over_content input_texts d
  | _ => []
  end.

(** Which children an element of type [t] may have if nothing is to be dropped: containers any, lists their items, leaves none. *)
Definition childless : list string :=
  ["text"; "rule"; "hardBreak"; "date"; "emoji"; "mention"; "status"; "extension"; "inlineCard"; "blockCard"; "embedCard"; "media";
   "mediaGroup"; "mediaInline"; "caption"].
Definition is_one (t : str) (l : list string) : bool := existsb (fun x => str_eqb t (s x)) l.
Definition child_type (v : value) : str := match elem_type v with Some (VStr t) => t | _ => [] end.
Definition child_kept (t : str) (y : value) : bool :=
  if is_one t childless then false
  else if is_one t ["bulletList"; "orderedList"] then is_one (child_type y) ["listItem"]
  else if is_one t ["taskList"] then is_one (child_type y) ["taskItem"; "taskList"]
  else if is_one t ["decisionList"] then is_one (child_type y) ["decisionItem"]
  else true.
(** No indentation mark, no link with a title. *)
Definition mark_keeps_text (m : value) : Prop :=
  mark_type m <> s "indentation" /\ (mark_type m = s "link" -> forall t, mark_attr m "title" <> VStr t).

Inductive preserving : value -> Prop :=
| preserving_element d t :
    lookup (s "type") d = Some (VStr t) ->
    (forall y, In y (own_children d) -> child_kept t y = true /\ preserving y) ->
    (is_one t ["text"; "paragraph"] = true -> Forall mark_keeps_text (own_marks d)) ->
    preserving (VDict d).
