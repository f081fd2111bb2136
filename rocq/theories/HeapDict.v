(** to_dict on the heap: which objects it reads, allocates and updates. *)
From Coq Require Import List NArith ZArith Bool String Arith.
From Verif Require Import PyStr Values Schema Parse Heap.
Import ListNotations.
Open Scope string_scope.
Open Scope list_scope.
Open Scope nat_scope.

(** [dataclasses.asdict(x)] (standard library): dataclass instances and dictionaries become new dictionaries,
    lists new lists, recursively and without memo; the new container is built after its elements.  Immutable
    data (and OPT) are returned as they are. *)
Fixpoint h_asdict (fuel : nat) (v : hval) {struct fuel} : H hval :=
  match v with
  | Ref a =>
      match fuel with
      | O => hdeep
      | S f =>
          let! o <- get_obj a;
          match o with
          | None => hraise TypeError                       (* dangling: cannot happen *)
          | Some (OList l) => let! ys <- hmap (h_asdict f) l; let! b <- alloc (OList ys); hret (Ref b)
          | Some (ODict d) | Some (OInst _ d) =>
              let! ys <- hmap (h_asdict f) (map snd d);
              let! b <- alloc (ODict (combine (map fst d) ys)); hret (Ref b)
          end
      end
  | _ => hret v
  end.

(** [func_args.remove_optional] applied to the keyword arguments of a dictionary ([**data]): a new dictionary. *)
Definition is_hopt (v : hval) : bool := match v with HOpt => true | _ => false end.
Definition h_remove_optional (v : hval) : H hval :=
  match v with
  | Ref a =>
      let! o <- get_obj a;
      match o with
      | Some (ODict d) => let! b <- alloc (ODict (filter (fun e => negb (is_hopt (snd e))) d)); hret (Ref b)
      | _ => hraise TypeError
      end
  | _ => hraise TypeError
  end.

(** [for c in v]: the elements of a list, the characters of a string, the keys of a dictionary. *)
Definition h_iter (v : hval) : H (list hval) :=
  match v with
  | HStr x => hret (map (fun c => HStr [c]) x)
  | Ref a =>
      let! o <- get_obj a;
      match o with
      | Some (OList l) => hret l
      | Some (ODict d) => hret (map (fun e => HStr (fst e)) d)
      | _ => hraise TypeError
      end
  | _ => hraise TypeError
  end.

(** [x.to_dict()]: Base.to_dict on an Attrs instance (mark_or_node.py:55-59), BaseMark.to_dict
    (mark_or_node.py:163-168), BaseNode.to_dict (mark_or_node.py:286-304); [data] is the local dictionary. *)
Fixpoint h_to_dict (fuel : nat) (v : hval) {struct fuel} : H hval :=
  match fuel with
  | O => hdeep
  | S f =>
      match v with
      | Ref a =>
          let! o <- get_obj a;
          match o with
          | Some (OInst TAttrs _) => let! data <- h_asdict f v; h_remove_optional data
          | Some (OInst (TMark _) _) =>
              (* data["attrs"] is by now a dictionary without to_dict, so the second step never applies *)
              let! data <- h_asdict f v; h_remove_optional data
          | Some (OInst (TNode _) self) =>
              let! data <- h_asdict f v;
              match data with
              | Ref r =>
                  let! od <- get_obj r;
                  let entries := match od with Some (ODict d) => d | _ => [] end in
                  let! _ <- match lookup (s "attrs") entries with
                            | None | Some HOpt => hret tt
                            | Some _ =>
                                match lookup (s "attrs") self with
                                | Some (Ref b) =>
                                    let! ob <- get_obj b;
                                    match ob with
                                    | Some (OInst _ _) => let! x <- h_to_dict f (Ref b); setitem r (s "attrs") x
                                    | _ => hret tt
                                    end
                                | _ => hret tt
                                end
                            end;
                  let! _ <- match lookup (s "content") entries, lookup (s "content") self with
                            | None, _ | Some HOpt, _ | _, None => hret tt
                            | Some _, Some c =>
                                let! l <- h_iter c; let! xs <- hmap (h_to_dict f) l;
                                let! b <- alloc (OList xs); setitem r (s "content") (Ref b)
                            end;
                  let! _ <- match lookup (s "marks") entries, lookup (s "marks") self with
                            | None, _ | Some HOpt, _ | _, None => hret tt
                            | Some _, Some c =>
                                let! l <- h_iter c; let! xs <- hmap (h_to_dict f) l;
                                let! b <- alloc (OList xs); setitem r (s "marks") (Ref b)
                            end;
                  h_remove_optional data
              | _ => hraise TypeError
              end
          | _ => hraise AttributeError
          end
      | _ => hraise AttributeError
      end
  end.
