(** Outlines of lists (C31-C34): what a list tree should look like, independent of the code. *)
From Coq Require Import List NArith ZArith Bool String.
From Verif Require Import PyStr Values Schema Parse Date Markdown Basics SpecMd.
Import ListNotations.
Open Scope string_scope.
Open Scope list_scope.
Open Scope nat_scope.

(** One output line: the line of the [index]-th item of a list at nesting [depth], or a further line of an item. *)
Inductive oline := Item (depth index : nat) (text : str) | Cont (text : str).

Definition is_item (n : node) : bool := if nk_eq_dec (n_kind n) KlistItem then true else false.

(** [outline E own d n ls]: the list n of kind [own] (bulletList or orderedList), at depth d, has the lines ls.
    An item starts with a block that is not itself a list of that kind; its first line goes on the item's line, the rest
    below; further blocks follow, lists of the same kind one level deeper, everything else as it renders on its own. *)
Inductive outline (E : runtime) (own : nkind) : nat -> node -> list oline -> Prop :=
| o_list d n cs ls : n_kind n = own -> n_content n = Items cs -> items E own d 0 (filter is_item cs) ls ->
    outline E own d n ls
with items (E : runtime) (own : nkind) : nat -> nat -> list node -> list oline -> Prop :=
| i_nil d i : items E own d i [] []
| i_cons d i item b bs x t more ls rest ls' :
    n_content item = Items (b :: bs) -> n_kind b <> own -> renders E b x -> split_on NL (rstrip x) = t :: more ->
    blocks E own d bs ls -> items E own d (S i) rest ls' ->
    items E own d i (item :: rest) (Item d i t :: map Cont more ++ ls ++ ls')
with blocks (E : runtime) (own : nkind) : nat -> list node -> list oline -> Prop :=
| b_nil d : blocks E own d [] []
| b_sub d b bs ls ls' : n_kind b = own -> outline E own (S d) b ls -> ls <> [] -> blocks E own d bs ls' ->
    blocks E own d (b :: bs) (ls ++ ls')
| b_text d b bs x ls : n_kind b <> own -> renders E b x -> blocks E own d bs ls ->
    blocks E own d (b :: bs) (map Cont (split_on NL (rstrip x)) ++ ls).

(** Four spaces per level, then the marker. *)
Definition indentation (d : nat) : str := repeat SP (4 * d).
Definition print_bullet (l : oline) : str :=
  match l with Item d _ t => indentation d ++ s "- " ++ t | Cont t => t end.
(** Items count from [start] at the top level and from 1 below. *)
Definition print_ordered (start : Z) (l : oline) : str :=
  match l with
  | Item d i t => indentation d ++ dec ((if Nat.eqb d 0 then start else 1%Z) + Z.of_nat i) ++ s ". " ++ t
  | Cont t => t
  end.

(** The depths of all items of a list tree, in document order. *)
Fixpoint depths (own : nkind) (d : nat) (n : node) : list nat :=
  match n with
  | Node k ty ve tx a co ma =>
      match co with
      | Items l =>
          if nk_eq_dec k own
          then flat_map (fun c => if nk_eq_dec (n_kind c) KlistItem then d :: depths own d c else []) l
          else if nk_eq_dec k KlistItem
          then flat_map (fun c => if nk_eq_dec (n_kind c) own then depths own (S d) c else []) l
          else []
      | _ => []
      end
  end.
Definition item_depths (ls : list oline) : list nat :=
  flat_map (fun l => match l with Item d _ _ => [d] | Cont _ => [] end) ls.

(** The shape ADF prescribes: every item begins with a block that is not a list of this kind, and nested lists
    have at least one item. *)
Inductive shaped (own : nkind) : node -> Prop :=
| sh n cs : n_content n = Items cs ->
    (forall item, In item cs -> n_kind item = KlistItem ->
       exists b bs, n_content item = Items (b :: bs) /\ n_kind b <> own /\
         forall c, In c bs -> n_kind c = own -> shaped own c /\ exists l i, n_content c = Items l /\ In i l /\ n_kind i = KlistItem) ->
    shaped own n.

(** ---------------------------------------------------------------- task lists *)
Inductive tline := Task (depth : nat) (done : bool) (text : str).
Definition state_of (n : node) (v : value) : Prop := exists l, n_attrs n = AObj l /\ lookup (s "state") l = Some v.
Inductive tasks (E : runtime) : nat -> node -> list tline -> Prop :=
| t_list d n cs ls : n_kind n = KtaskList -> n_content n = Items cs -> entries E d cs ls -> tasks E d n ls
with entries (E : runtime) : nat -> list node -> list tline -> Prop :=
| e_nil d : entries E d [] []
| e_item d c cs kids xs st done ls : n_kind c = KtaskItem -> n_content c = Items kids -> Forall2 (renders E) kids xs ->
    state_of c st -> (done = true <-> st = VStr (s "DONE")) -> entries E d cs ls ->
    entries E d (c :: cs) (Task d done (rstrip (List.concat xs)) :: ls)
| e_sub d c cs ls ls' : n_kind c = KtaskList -> tasks E (S d) c ls -> ls <> [] -> entries E d cs ls' ->
    entries E d (c :: cs) (ls ++ ls')
| e_other d c cs ls : n_kind c <> KtaskItem -> n_kind c <> KtaskList -> entries E d cs ls -> entries E d (c :: cs) ls.
Definition print_task (l : tline) : str :=
  match l with Task d done t => indentation d ++ (if done then s "- [x] " else s "- [ ] ") ++ t end.
Fixpoint task_depths (d : nat) (n : node) : list nat :=
  match n with
  | Node k ty ve tx a co ma =>
      match co with
      | Items l => flat_map (fun c => if nk_eq_dec (n_kind c) KtaskItem then [d]
                                      else if nk_eq_dec (n_kind c) KtaskList then task_depths (S d) c else []) l
      | _ => []
      end
  end.

(** Task items hold a list of nodes, nested task lists at least one task. *)
Inductive task_shaped : node -> Prop :=
| tsh n cs : n_content n = Items cs ->
    (forall c, In c cs -> n_kind c = KtaskItem -> exists kids, n_content c = Items kids) ->
    (forall c, In c cs -> n_kind c = KtaskList -> task_shaped c /\ task_depths 0 c <> []) ->
    task_shaped n.
