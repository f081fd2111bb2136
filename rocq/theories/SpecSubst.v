(** What it means to replace one object of a tree by another that prints the same. *)
From Coq Require Import List NArith ZArith Bool String.
From Verif Require Import PyStr Values Schema Parse Date Markdown.
Import ListNotations.
Open Scope string_scope.
Open Scope list_scope.

(** The children whose own fields their parent reads, beside calling their to_markdown: a
    table looks at the cells of its rows (node_table.py:81-82), a bullet or ordered list at
    the content of its list items (node_bullet_list.py, node_ordered_list.py), a task list
    at the content and the state of its task items (node_task_list.py). *)
Definition inspected (parent : option nkind) (n : node) : Prop :=
  match parent with
  | Some Ktable => True
  | Some KbulletList | Some KorderedList => n_type n = VStr (s "listItem")
  | Some KtaskList => n_type n = VStr (s "taskItem")
  | _ => False
  end.

(** Two objects print the same, whatever the optional arguments: the same text, or the same
    exception. *)
Definition prints_same (E : runtime) (a b : node) : Prop :=
  forall lv ign, to_md E a lv ign = to_md E b lv ign.

(** [replaced E parent t t']: the trees [t] and [t'] (child of an object of class [parent])
    are equal except that, somewhere below, one object has been replaced by another with the
    same [type] that prints the same. *)
Inductive replaced (E : runtime) : option nkind -> node -> node -> Prop :=
| replaced_here parent a b :
    n_type a = n_type b -> ~ inspected parent a -> prints_same E a b -> replaced E parent a b
| replaced_below parent k ty ve tx at_ ma l1 l2 a b :
    replaced E (Some k) a b ->
    replaced E parent (Node k ty ve tx at_ (Items (l1 ++ a :: l2)) ma) (Node k ty ve tx at_ (Items (l1 ++ b :: l2)) ma).
