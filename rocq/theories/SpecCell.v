(** What a Markdown reader should see of a table cell (C82): the lines of its paragraphs, each with the formats of its text and a line break
    behind it.  Independent of how the renderer works. *)
From Coq Require Import List NArith ZArith Bool String.
From Verif Require Import PyStr Values Schema Parse Date Markdown SpecMd SpecTable SpecReader SpecSeen SpecInline SpecLook.
Import ListNotations.
Open Scope string_scope.
Open Scope list_scope.
Open Scope nat_scope.

(** ---------------------------------------------------------------- the reader *)
(** A pipe in a cell stands for itself when a backslash precedes it; the backslash is not seen (GFM 4.10). *)
Fixpoint unescape (x : str) : str :=
  match x with
  | c :: r => match r with d :: q => if is_ch "\" c && is_ch "|" d then d :: unescape q else c :: unescape r | [] => [c] end
  | [] => []
  end.
(** What is seen of a cell with this source. *)
Definition cell_shown (up : N -> bool) (source : str) : list glyph := shown up (unescape source).

(** ---------------------------------------------------------------- what should be seen *)
Section Cell.
Variables (E : runtime) (up : N -> bool).
(** Inline nodes in front of something else (compare [all_shown] of SpecLook.v, where nothing follows). *)
Fixpoint shown_before (after : str) (prev : N) (ns : list node) (xs : list str) (gs : list glyph) : Prop :=
  match ns, xs with
  | [], [] => gs = []
  | n :: ns', x :: xs' => exists g1 g2, node_shown up prev n x (List.concat xs' ++ after) g1 /\ shown_before after (last x prev) ns' xs' g2 /\ gs = g1 ++ g2
  | _, _ => False
  end.
Definition br : str := s "<br>".
Definition semicolon : N := 59.
Definition greater : N := 62.
(** [line_looks prev ns after y gs]: behind prev and in front of after the inline nodes ns are a line with the source y that looks like gs.
    Spaces at the beginning of a line are no-break spaces. *)
Inductive line_looks (prev : N) : list node -> str -> str -> list glyph -> Prop :=
| ln_flush ns xs after gs : let y := List.concat xs in
    Forall2 (renders E) ns xs -> ~ In NL y -> (forall r, y <> SP :: r) -> shown_before after prev ns xs gs ->
    line_looks prev ns after y gs
| ln_indented k n t ns xs after gs : let y := t ++ List.concat xs in
    styled n (repeat SP k ++ t) [] -> renders E n (repeat SP k ++ t) -> Forall2 (renders E) ns xs -> ~ In NL y -> y <> [] -> (forall r, y <> SP :: r) ->
    k <> 0 -> ordinary up semicolon t (List.concat xs ++ after) = true -> shown_before after (last t semicolon) ns xs gs ->
    line_looks prev (n :: ns) after (nbsp k ++ y) (repeat (Glyph 160 plain) k ++ map (fun c => Glyph c plain) t ++ gs).
(** The inline nodes of a paragraph: lines with hard breaks between them.  The two spaces that a hard break writes are seen. *)
Inductive para_looks : N -> list node -> str -> str -> list glyph -> Prop :=
| pl_line prev ns after y gs : line_looks prev ns after y gs -> para_looks prev ns after y gs
| pl_break prev l hb ns after y1 g1 y2 g2 : n_kind hb = KhardBreak -> y1 <> [] ->
    line_looks prev l (s "  " ++ br ++ y2 ++ after) y1 g1 -> para_looks greater ns after y2 g2 ->
    para_looks prev (l ++ hb :: ns) after (y1 ++ s "  " ++ br ++ y2) (g1 ++ [Glyph SP plain; Glyph SP plain; LineBreak] ++ g2).
(** The paragraphs of a cell: a line break behind each, also behind the last. *)
Inductive cell_lines : N -> list node -> str -> list glyph -> Prop :=
| cl_nil prev : cell_lines prev [] [] []
| cl_para prev p cs ps y g rest gs : n_kind p = Kparagraph -> bare p -> n_content p = Items cs ->
    para_looks prev cs (br ++ rest) y g -> cell_lines greater ps rest gs ->
    cell_lines prev (p :: ps) (y ++ br ++ rest) (g ++ LineBreak :: gs).
(** A cell: paragraphs, or inline nodes by themselves. *)
Definition cell_looks (n : node) (gs : list glyph) : Prop :=
  exists cs y, n_content n = Items cs /\ (cell_lines NL cs y gs \/ para_looks NL cs [] y gs) /\ (y = [] \/ visible_first y /\ visible_last y).
End Cell.
