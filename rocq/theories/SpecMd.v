(** Specification vocabulary for rendering: transformations of object trees that must not
    change the Markdown.  Independent of the proofs. *)
From Coq Require Import List NArith ZArith Bool String.
From Verif Require Import PyStr Values Schema Parse Date Markdown Basics.
Import ListNotations.
Open Scope string_scope.
Open Scope list_scope.

(** [n.to_markdown()] returns the string [x]. *)
Definition renders (E : runtime) (n : node) (x : str) : Prop := to_markdown E n false = Ok (VStr x).

(** The ten mark kinds without Markdown equivalent. *)
Definition no_markdown (k : mkind) : bool :=
  match k with
  | MtextColor | MbackgroundColor | Munderline | Msubsup | Mannotation | Malignment | Mborder | Mbreakout
  | MdataConsumer | Mfragment => true
  | Mstrong | Mem | Mstrike | Mcode | Mlink | Mindentation => false
  end.

Definition map_slot {A B} (f : A -> B) (c : slot A) : slot B :=
  match c with NoField => NoField | SOpt => SOpt | Items l => Items (map f l) | Raw v => Raw v end.
Definition keep_slot {A} (p : A -> bool) (c : slot A) : slot A :=
  match c with Items l => Items (filter p l) | _ => c end.

(** C16: delete all such marks at every depth. *)
Fixpoint drop_marks (n : node) : node :=
  match n with
  | Node k ty ve tx a co ma =>
      Node k ty ve tx a
        (match co with Items l => Items (map drop_marks l) | NoField => NoField | SOpt => SOpt | Raw v => Raw v end)
        (keep_slot (fun m => negb (no_markdown (m_kind m))) ma)
  end.

(** C48: the only attributes that carry content or structure, per node type; everything
    else (localId, ids, colours, layout, width, ...) is presentation. *)
Definition content_attrs (k : nkind) : list str :=
  match k with
  | KorderedList => [s "order"]
  | KtaskItem => [s "state"]
  | Kheading => [s "level"]
  | KcodeBlock => [s "language"]
  | Kpanel => [s "panelType"]
  | Kmedia => [s "type"; s "url"; s "alt"; s "id"]
  | Kemoji => [s "text"; s "shortName"]
  | Kmention | Kstatus => [s "text"]
  | KinlineCard | KblockCard | KembedCard => [s "url"]
  | Kextension => [s "extensionKey"; s "extensionType"; s "text"]
  | Kdate => [s "timestamp"]
  | _ => []
  end.
Definition mark_content_attrs (k : mkind) : list str :=
  match k with Mlink => [s "href"; s "title"] | Mindentation => [s "level"] | _ => [] end.
Definition keep_attrs (names : list str) (a : attrs) : attrs :=
  match a with AObj l => AObj (filter (fun e => existsb (str_eqb (fst e)) names) l) | _ => a end.
Fixpoint drop_presentation (n : node) : node :=
  match n with
  | Node k ty ve tx a co ma =>
      Node k ty None tx (keep_attrs (content_attrs k) a)
        (match co with Items l => Items (map drop_presentation l) | NoField => NoField | SOpt => SOpt | Raw v => Raw v end)
        (map_slot (fun m => Mark (m_kind m) VNone (keep_attrs (mark_content_attrs (m_kind m)) (m_attrs m))) ma)
  end.

(** C46: which children each class renders. *)
Inductive renders_children := AllChildren | NoChildren | Only (ts : list str).
Definition rendered_children (k : nkind) : renders_children :=
  match k with
  | KmediaGroup | Kcaption | KmediaInline => NoChildren
  | KbulletList | KorderedList => Only [s "listItem"]
  | KtaskList => Only [s "taskItem"; s "taskList"]
  | KdecisionList => Only [s "decisionItem"]
  | _ => AllChildren
  end.
Definition kept_child (k : nkind) (n : node) : bool :=
  match rendered_children k with
  | AllChildren => true
  | NoChildren => false
  | Only ts => existsb (fun t => match n_type n with VStr x => str_eqb x t | _ => false end) ts
  end.
Fixpoint drop_ignored (n : node) : node :=
  match n with
  | Node k ty ve tx a co ma =>
      Node k ty ve tx a
        (keep_slot (kept_child k)
           (match co with Items l => Items (map drop_ignored l) | NoField => NoField | SOpt => SOpt | Raw v => Raw v end))
        ma
  end.
(** ADF's own rule that a table contains rows. *)
Inductive tables_have_rows : node -> Prop :=
| thr k ty ve tx a co ma :
    (forall l, co = Items l -> Forall tables_have_rows l) ->
    (forall l, co = Items l -> k = Ktable -> Forall (fun r => n_kind r = KtableRow) l) ->
    tables_have_rows (Node k ty ve tx a co ma).
