(** Specification vocabulary for ignore_error: what is skipped. *)
From Coq Require Import List NArith ZArith Bool String.
From Verif Require Import PyStr Values Schema Parse Date Markdown Basics SpecMd.
Import ListNotations.
Open Scope string_scope.
Open Scope list_scope.

Definition with_content (n : node) (c : slot node) : node :=
  match n with Node k ty ve tx a _ ma => Node k ty ve tx a c ma end.

(** The child renders, strictly, in its place ([lv]: the level it is given, if any). *)
Definition survives (E : runtime) (lv : option nat) (n : node) : bool :=
  match to_md E n lv false with Ok _ => true | Err _ => false end.

(** Every text node of the tree has a string text. *)
Inductive string_texts : node -> Prop :=
| st_intro k ty ve tx a co ma :
    (forall l, co = Items l -> Forall string_texts l) ->
    (k = Ktext -> exists t, tx = Some (VStr t)) ->
    string_texts (Node k ty ve tx a co ma).
(** Every child of a table (its rows) has at least one child (cell). *)
Inductive full_rows : node -> Prop :=
| fr_intro k ty ve tx a co ma :
    (forall l, co = Items l -> Forall full_rows l) ->
    (forall l, co = Items l -> k = Ktable -> Forall (fun r => exists c cs, n_content r = Items (c :: cs)) l) ->
    full_rows (Node k ty ve tx a co ma).

(** The classes that render all their children through the shared helpers. *)
Definition plain_container (k : nkind) : bool :=
  match k with
  | Kdoc | Kparagraph | Kheading | KcodeBlock | Kblockquote | Kpanel | Kexpand | KnestedExpand | KlistItem
  | KtaskItem | KmediaSingle | KdecisionItem | KtableCell | KtableHeader => true
  | _ => false
  end.

(** Without the children that do not render; a str or dict in place of the list of children
    is skipped altogether. *)
Definition only_survivors (E : runtime) (co : slot node) : slot node :=
  match co with
  | Items l => Items (filter (survives E None) l)
  | Raw (VStr _) | Raw (VDict _) => Items []
  | _ => co
  end.

(** The object tree without what [to_markdown(ignore_error=True)] skips. *)
Fixpoint skip (E : runtime) (n : node) (lv : option nat) {struct n} : node :=
  match n with
  | Node k ty ve tx a co ma =>
      let below := Some (S (match lv with Some l => l | None => O end)) in
      Node k ty ve tx a
        (match k, co with
         | Ktable, Items l => Items (filter (survives E None) l)
         | Ktable, Raw (VStr _) | Ktable, Raw (VDict _) => Items []
         | KtableRow, Items l => Items (map (fun c => skip E c None) l)
         | KdecisionList, Items l =>
             Items (flat_map (fun i => match n_kind i with
                                       | KdecisionItem => let i' := skip E i None in
                                                          if survives E None i' then [i'] else []
                                       | _ => [i]
                                       end) l)
         | KtaskList, Items l =>
             Items (flat_map (fun i => match n_kind i with
                                       | KtaskItem => [with_content i (only_survivors E (n_content i))]
                                       | KtaskList => let i' := skip E i below in
                                                      if survives E below i' then [i'] else []
                                       | _ => [i]
                                       end) l)
         | KbulletList, Items l | KorderedList, Items l =>
             Items (map (fun i => match n_kind i, n_content i with
                                  | KlistItem, Items cs =>
                                      with_content i (Items (filter (fun c => if nk_eq_dec (n_kind c) k
                                                                              then survives E below c
                                                                              else survives E None c) cs))
                                  | _, _ => i
                                  end) l)
         | _, _ => if plain_container k then only_survivors E co else co
         end)
        ma
  end.
