(** Which objects carry the values their classes document (C44), as a predicate on parsed objects that does not
    mention the renderer. *)
From Coq Require Import List NArith ZArith Bool String.
From Verif Require Import PyStr Values Schema Parse Date Markdown Basics SpecMd Properties_Date.
Import ListNotations.
Open Scope string_scope.
Open Scope list_scope.

(** attrs is present and holds the attribute f with the value v. *)
Definition has_attr (n : node) (f : string) (v : value) : Prop :=
  exists l, n_attrs n = AObj l /\ lookup (s f) l = Some v.
Definition mark_has_attr (m : mark) (f : string) (v : value) : Prop :=
  exists l, m_attrs m = AObj l /\ lookup (s f) l = Some v.

(** Text with marks: indentation levels are integers; under a code mark neither the text nor a link's title or
    target contains a newline. *)
Definition one_line (x : str) : Prop := ~ In NL x.
Definition indentation_fine (m : mark) : Prop := m_kind m = Mindentation -> exists z, mark_has_attr m "level" (VInt z).
Definition link_one_line (m : mark) : Prop := m_kind m = Mlink ->
  exists h t, mark_has_attr m "href" (VStr h) /\ one_line h /\ mark_has_attr m "title" t /\ (forall x, t = VStr x -> one_line x).
Definition is_code (m : mark) : Prop := m_kind m = Mcode.
Definition marks_of (n : node) : list mark := match n_marks n with Items l => l | _ => [] end.
Definition text_fine (n : node) : Prop :=
  exists t, n_text n = Some (VStr t) /\ Forall indentation_fine (marks_of n) /\
    (Exists is_code (marks_of n) -> one_line t /\ Forall link_one_line (marks_of n)).
(** Marks on blocks: no code. *)
Definition block_marks_fine (n : node) : Prop :=
  Forall indentation_fine (marks_of n) /\ Forall (fun m => ~ is_code m) (marks_of n).

Definition children (n : node) (cs : list node) : Prop := n_content n = Items cs.
Definition holds_children (n : node) : Prop := exists cs, children n cs.
Definition may_hold_children (n : node) : Prop := n_content n = SOpt \/ holds_children n.

Definition values_fine (n : node) : Prop :=
  match n_kind n with
  | Ktext => text_fine n
  | Krule | KhardBreak | KmediaGroup | Kcaption | KmediaInline => True
  | KlistItem | KbulletList | KtaskList | KdecisionList | KtableRow => holds_children n
  | KorderedList => holds_children n /\ exists v, has_attr n "order" v
  | KtaskItem => holds_children n /\ exists v, has_attr n "state" v
  | Ktable => exists rows, children n rows /\ forall r, In r rows -> exists c cs, children r (c :: cs)
  | Kparagraph | Kexpand => may_hold_children n /\ block_marks_fine n
  | Kdoc | Kblockquote | KnestedExpand | KmediaSingle | KdecisionItem | KtableCell | KtableHeader => may_hold_children n
  | KcodeBlock => may_hold_children n /\ (n_attrs n = AOpt \/ exists v, has_attr n "language" v)
  | Kheading => may_hold_children n /\ exists z, has_attr n "level" (VInt z)
  | Kpanel => may_hold_children n /\ exists t, has_attr n "panelType" (VStr t)
  | Kemoji => (exists t, has_attr n "text" (VStr t)) \/
              (exists v t, has_attr n "text" v /\ has_attr n "shortName" (VStr t))
  | Kmention | Kstatus => exists v, has_attr n "text" v
  | KinlineCard | KblockCard => exists u, has_attr n "url" (VStr u)
  | KembedCard => exists u, has_attr n "url" u
  | Kextension => exists k t x, has_attr n "extensionKey" k /\ has_attr n "extensionType" t /\ has_attr n "text" x
  | Kdate => exists v ts, has_attr n "timestamp" v /\ milliseconds v ts /\ (-62135596800000 <= ts <= 253402300799999)%Z
  | Kmedia => block_marks_fine n /\ exists t u i al,
      has_attr n "type" (VStr t) /\ has_attr n "url" u /\ has_attr n "id" i /\ has_attr n "alt" al /\
      (t = s "file" \/ t = s "link" \/ (t = s "external" /\ exists x, u = VStr x))
  end.

(** The node and every descendant that is rendered carry documented values. *)
Inductive well_formed : node -> Prop :=
| wf n : values_fine n ->
    (forall cs c, children n cs -> In c cs -> kept_child (n_kind n) c = true -> well_formed c) -> well_formed n.

(** ---------------------------------------------------------------- the same on input dictionaries *)
From Verif Require Import SpecParse LeafFacts.
Definition the_attrs (d : list (str * value)) : list (str * value) :=
  match lookup (s "attrs") d with Some (VDict a) => a | _ => [] end.
(** The registered marks of an element, as (type, attributes). *)
Definition mark_type (m : value) : str := match elem_type m with Some (VStr t) => t | _ => [] end.
Definition mark_attr (m : value) (f : string) : value :=
  match m with VDict d => input (the_attrs d) f | _ => VOpt end.
Definition own_marks (d : list (str * value)) : list value :=
  filter (fun m => negb (unregistered mark_names m)) (list_at (s "marks") d).
Definition indentation_ok (m : value) : Prop := mark_type m = s "indentation" -> exists z, mark_attr m "level" = VInt z.
Definition link_ok (m : value) : Prop := mark_type m = s "link" ->
  (exists h, mark_attr m "href" = VStr h /\ one_line h) /\ (forall t, mark_attr m "title" = VStr t -> one_line t).
Definition marks_ok_on_text (t : str) (ms : list value) : Prop :=
  Forall indentation_ok ms /\
  ((exists m, In m ms /\ mark_type m = s "code") -> one_line t /\ Forall link_ok ms).
Definition marks_ok_on_block (ms : list value) : Prop :=
  Forall indentation_ok ms /\ Forall (fun m => mark_type m <> s "code") ms.
(** Elements of the content that the library knows. *)
Definition own_children (d : list (str * value)) : list value :=
  filter (fun y => negb (unregistered node_names y)) (list_at (s "content") d).

(** The values an element of kind k must carry besides its required fields. *)
Definition input_fine (k : nkind) (d : list (str * value)) : Prop :=
  let a := input (the_attrs d) in
  match k with
  | Ktext => exists t, lookup (s "text") d = Some (VStr t) /\ marks_ok_on_text t (own_marks d)
  | Kparagraph => marks_ok_on_block (own_marks d)
  | Kheading => exists z, a "level" = VInt z
  | Kpanel => exists t, a "panelType" = VStr t
  | Kemoji => (exists t, a "text" = VStr t) \/ (exists t, a "shortName" = VStr t)
  | KinlineCard | KblockCard => exists u, a "url" = VStr u
  | Kdate => exists ts, milliseconds (a "timestamp") ts /\ (-62135596800000 <= ts <= 253402300799999)%Z
  | Kmedia => marks_ok_on_block (own_marks d) /\
      (a "type" = VStr (s "file") \/ a "type" = VStr (s "link") \/ (a "type" = VStr (s "external") /\ exists u, a "url" = VStr u))
  | KorderedList => has (s "attrs") d = true
  | KtaskItem => has (s "content") d = true
  | Ktable => forall y, In y (own_children d) -> exists r, y = VDict r /\ elem_type y = Some (VStr (s "tableRow")) /\ own_children r <> []
  | _ => True
  end.

(** A registered element, its required fields present, its content (if any) a list, its values as above, and the same for
    every registered child. *)
Inductive documented : value -> Prop :=
| documented_element d k :
    lookup (s "type") d = Some (VStr (nk_name k)) ->
    own_fields_acceptable k d = true ->
    (forall v, lookup (s "content") d = Some v -> exists l, v = VList l) ->
    input_fine k d ->
    (forall y, In y (own_children d) -> documented y) ->
    documented (VDict d).
