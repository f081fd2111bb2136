(** Which objects are rendered, and how deeply nested (C70). *)
From Coq Require Import List NArith Bool.
From Verif Require Import PyStr Values Schema Parse Basics.
Import ListNotations.
Open Scope list_scope.
Open Scope nat_scope.

(** All objects of a tree, in document order. *)
Fixpoint objects (n : node) : list node :=
  match n with Node k ty ve tx a co ma => n :: match co with Items l => flat_map objects l | _ => [] end end.
(** [a] is [b] with some elements left out. *)
Inductive sublist {A} : list A -> list A -> Prop :=
| sub_nil : sublist [] []
| sub_keep x a b : sublist a b -> sublist (x :: a) (x :: b)
| sub_skip x a b : sublist a b -> sublist a (x :: b).

(** Classes that do not look at their content. *)
Definition shows_no_content (k : nkind) : bool :=
  match k with
  | Ktext | Krule | KhardBreak | KmediaGroup | Kcaption | KmediaInline | Kmedia | Kemoji | Kmention | Kstatus
  | KinlineCard | KblockCard | KembedCard | Kextension | Kdate => true
  | _ => false
  end.
(** The objects whose to_markdown is called when [n] is rendered, in order, with the number of calls they are nested in:
    [n] itself and what its content asks for.  A list renders the content of its items, not the items; other children of a list,
    task list or decision list are passed over. *)
Fixpoint shown (d : nat) (n : node) : list (nat * node) :=
  match n with
  | Node k ty ve tx a co ma =>
      (d, n) ::
      match co with
      | Items l =>
          match k with
          | KbulletList | KorderedList =>
              flat_map (fun item => match item with
                | Node KlistItem _ _ _ _ (Items bs) _ => flat_map (shown (S d)) bs
                | _ => []
                end) l
          | KtaskList =>
              flat_map (fun item => match item with
                | Node KtaskItem _ _ _ _ (Items bs) _ => flat_map (shown (S d)) bs
                | Node KtaskList _ _ _ _ _ _ => shown (S d) item
                | _ => []
                end) l
          | KdecisionList =>
              flat_map (fun item => match item with
                | Node KdecisionItem _ _ _ _ _ _ => shown (S d) item
                | _ => []
                end) l
          | _ => if shows_no_content k then [] else flat_map (shown (S d)) l
          end
      | _ => []
      end
  end.
