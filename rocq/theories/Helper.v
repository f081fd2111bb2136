(** The checks of the test suite, atlas_doc_parser/tests/helper.py. *)
From Coq Require Import List NArith ZArith Bool String.
From Verif Require Import PyStr Values Schema Parse Serialize Equal.
Import ListNotations.

(** How a check ends. *)
Inductive verdict := Passes | AssertionFails | Raises (e : exc).
(** helper.py:53-82 on a node (without the output; [inst is None] returns at once).  [type(inst).from_dict] is that of the
    class of [inst]. *)
Definition check_seder (same w : bool) (inst : option node) : verdict :=
  match inst with
  | None => Passes
  | Some n =>
      match node_to_dict n with
      | Err e => Raises e
      | Ok data =>
          match snd (from_dict w (n_kind n) data) with
          | Err e => Raises e
          | Ok n1 =>
              if node_eqb same n1 n then
                match node_to_dict n1 with
                | Err e => Raises e
                | Ok data1 => match node_to_dict n1 with
                              | Err e => Raises e
                              | Ok again => if value_eqb same again data1 then Passes else AssertionFails
                              end
                end
              else AssertionFails
          end
      end
  end.
(** The same on a mark. *)
Definition check_seder_mark (same : bool) (m : mark) : verdict :=
  match mark_from_dict (m_kind m) (mark_to_dict m) with
  | Err e => Raises e
  | Ok m1 => if mark_eqb same m1 m then
               if value_eqb same (mark_to_dict m1) (mark_to_dict m1) then Passes else AssertionFails
             else AssertionFails
  end.
