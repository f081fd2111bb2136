(** Vocabulary for C86: where a path leads, and which programs take care of the working directory. *)
From Coq Require Import List NArith Bool String.
From Verif Require Import PyStr Cwd.
Import ListNotations.
Open Scope string_scope.
Open Scope list_scope.

(** From directory to directory by the names of a path; every one on the way exists. *)
Inductive leads (ds : list dir) : dir -> list str -> dir -> Prop :=
| leads_here d : In d ds -> leads ds d [] d
| leads_stay d x r d' : In d ds -> x = [] \/ x = s "." -> leads ds d r d' -> leads ds d (x :: r) d'
| leads_up d r d' : In d ds -> leads ds (removelast d) r d' -> leads ds d (s ".." :: r) d'
| leads_down d x r d' : In d ds -> x <> [] -> x <> s "." -> x <> s ".." -> leads ds (d ++ [x]) r d' -> leads ds d (x :: r) d'.
(** A path, from the root if it begins with a slash; its names are what is between the slashes. *)
Definition path_leads (ds : list dir) (here : dir) (path : str) (d : dir) : Prop :=
  exists l, l <> [] /\ Forall (fun x => ~ In 47%N x) l /\ join (s "/") l = path /\
    match l with [] :: _ :: _ => leads ds [] l d | _ => leads ds here l d end.
(** No directory is removed. *)
Fixpoint keeps_dirs (p : prog) : Prop := match p with Rmdir _ => False | Seq p q => keeps_dirs p /\ keeps_dirs q | Catch p | Temp _ p => keeps_dirs p | _ => True end.
(** The directory is changed only within blocks of temp_cwd; there, in any way. *)
Fixpoint careful (p : prog) : Prop := match p with Chdir _ => False | Seq p q => careful p /\ careful q | Catch p => careful p | _ => True end.
(** Commands that remove no directory. *)
Definition tame (command : dir -> list str -> list dir -> list dir * option str) : Prop := forall d args ds x, In x ds -> In x (fst (command d args ds)).
