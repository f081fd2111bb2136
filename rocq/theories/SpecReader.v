(** How a Markdown reader sees block structure (C75-C79): a line-by-line reader for the part of GitHub Flavored Markdown
    that the renderer writes, after the algorithm in CommonMark 0.31 (appendix, phase 1: block structure) and the GFM table extension.
    It is independent of /repo.  What it does not cover it reports as [EOther]: HTML blocks, indented code, tilde fences,
    setext headings of level 1, link reference definitions, carriage returns, tables whose header is not the first line of a block.
    Not covered and not reported: tabs as indentation of containers, list items that begin with two blank lines, tight and loose lists,
    where one list ends and the next of the same kind begins (items are reported, not lists). *)
From Coq Require Import List NArith ZArith Bool String.
From Verif Require Import PyStr.
Import ListNotations.
Open Scope string_scope.
Open Scope list_scope.
Open Scope nat_scope.

(** ---------------------------------------------------------------- characters and lines *)
Definition is_ch (x : string) (c : N) : bool := match s x with [d] => N.eqb c d | _ => false end.
Definition blank_ch (c : N) : bool := (N.eqb c SP || N.eqb c 9)%N.
Definition blank (l : str) : bool := forallb blank_ch l.
(** Without leading and trailing spaces and tabs. *)
Definition trim (l : str) : str := rstrip_by blank_ch (lstrip_by blank_ch l).
(** How many times the line starts with [c], and the rest. *)
Fixpoint leading (c : N) (l : str) : nat :=
  match l with d :: r => if N.eqb d c then S (leading c r) else 0 | [] => 0 end.
Definition after (c : N) (l : str) : str := skipn (leading c l) l.
Definition digit (c : N) : bool := (48 <=? c)%N && (c <=? 57)%N.
Fixpoint digits (l : str) : nat := match l with c :: r => if digit c then S (digits r) else 0 | [] => 0 end.

(** ---------------------------------------------------------------- what a line can be *)
Inductive line :=
| LBlank | LIndented | LFence (info : str) | LHead (level : nat) (text : str) | LRule (dashes : bool)
| LRow | LDelim | LText | LUnknown.
(** The text of an ATX heading: trimmed, without a closing sequence of #. *)
Definition heading_text (r : str) : str :=
  let t := trim r in
  let u := rev t in
  let v := after 35 u in
  if Nat.eqb (leading 35 u) 0 then t else match v with [] => [] | c :: _ => if blank_ch c then trim (rev v) else t end.
(** Three or more of -, * or _ (one kind), with spaces and tabs between them. *)
Definition thematic (l : str) : bool :=
  existsb (fun c => forallb (fun d => N.eqb d c || blank_ch d) l && (3 <=? List.length (filter (N.eqb c) l))) [45%N; 42%N; 95%N].
(** A list marker: its length and the rest of the line; a bullet, or 1 to 9 digits and a dot or parenthesis; then a blank or the end. *)
Definition marker (l : str) : option (bool * str * str) :=   (* ordered?, the marker, the rest *)
  match l with
  | [] => None
  | c :: r =>
      if is_ch "-" c || is_ch "+" c || is_ch "*" c
      then match r with [] => Some (false, [c], r) | d :: _ => if blank_ch d then Some (false, [c], r) else None end
      else let n := digits l in
           if (1 <=? n) && (n <=? 9)
           then match skipn n l with
                | d :: q => if is_ch "." d || is_ch ")" d
                            then match q with [] => Some (true, firstn n l, q) | e :: _ => if blank_ch e then Some (true, firstn n l, q) else None end
                            else None
                | [] => None
                end
           else None
  end.
Definition delimiter_row (l : str) : bool :=
  forallb (fun c => is_ch "-" c || is_ch ":" c || is_ch "|" c || blank_ch c) l && existsb (is_ch "-") l.
(** "]:" somewhere: perhaps a link reference definition. *)
Fixpoint defines (l : str) : bool :=
  match l with c :: ((d :: _) as r) => (is_ch "]" c && is_ch ":" d) || defines r | _ => false end.
(** [k]: the spaces in front. The line is not a quote line and not a list item. *)
Definition classify (l : str) : line :=
  if existsb (N.eqb CR) l then LUnknown
  else if blank l then LBlank
  else let k := leading SP l in let r := after SP l in
  if 4 <=? k then LIndented
  else match r with
       | [] => LBlank
       | c :: _ =>
           if N.eqb c 9 then LIndented
           else if is_ch "#" c
           then let n := leading 35 r in
                let t := after 35 r in
                if (n <=? 6) && match t with [] => true | d :: _ => blank_ch d end then LHead n (heading_text t) else LText
           else if is_ch "`" c
           then if (3 <=? leading 96 r) && negb (existsb (N.eqb 96) (after 96 r)) then LFence (trim (after 96 r)) else LText
           else if is_ch "~" c then if 3 <=? leading 126 r then LUnknown else LText
           else if is_ch "<" c then LUnknown
           else if is_ch "[" c && defines r then LUnknown
           else if forallb (fun d => is_ch "=" d || blank_ch d) r then LUnknown
           else if thematic r then LRule (is_ch "-" c && forallb (is_ch "-") (trim r))
           else if delimiter_row r then LDelim
           else if is_ch "|" c then LRow
           else LText
       end.
Definition closes_fence (l : str) : bool :=
  (leading SP l <=? 3) && (3 <=? leading 96 (after SP l)) && blank (after 96 (after SP l)).
(** The cells of a table line: cut at the pipes that no backslash precedes (as GitHub's cmark-gfm does), a leading and a trailing
    pipe aside; trimmed. *)
Fixpoint cut (escaped : bool) (acc : str) (l : str) : list str :=
  match l with
  | [] => [rev acc]
  | c :: r => if is_ch "|" c && negb escaped then rev acc :: cut false [] r else cut (is_ch "\" c) (c :: acc) r
  end.
Definition drop_blank_first (l : list str) : list str := match l with x :: r => if blank x then r else l | [] => [] end.
Definition cells (l : str) : list str := map trim (rev (drop_blank_first (rev (drop_blank_first (cut false [] l))))).
(** The rows of a table are as wide as its header: missing cells are empty, excess cells are ignored. *)
Definition fit (width : nat) (cs : list str) : list str := firstn width (cs ++ repeat [] width).

(** ---------------------------------------------------------------- the reader *)
(** What is open: quotes and list items (with the indentation that continues them), and inside them a leaf. *)
Inductive container := CQuote | CItem (indent : nat).
Inductive leaf := ONone | OPara (ls : list str) | OCode (info : str) (ls : list str) | OHeader (l : str) | OTable (header : list str) (rows : list (list str)).
(** What the reader reports, in order.  Numbered items come with the number as written. *)
Inductive event :=
| EQuote | EBullet | ENumber (n : str) | EEnd        (* a quote or item opens; the innermost one ends *)
| EHead (level : nat) (text : str) | ECode (info : str) (ls : list str) | ERule | EPara (ls : list str) | ETable (header : list str) (rows : list (list str))
| EOther (l : str).                                  (* something this reader does not cover *)
Definition state := (list container * leaf)%type.    (* outermost container first; the lists inside the leaf in order *)

Definition close_leaf (o : leaf) : list event :=
  match o with ONone => [] | OPara ls => [EPara ls] | OCode i ls => [ECode i ls] | OHeader l => [EPara [l]] | OTable h rs => [ETable h rs] end.
(** Which open containers the line continues (outermost first), and what is left of the line. *)
Fixpoint continued (cs : list container) (l : str) : nat * str :=
  match cs with
  | [] => (0, l)
  | CQuote :: cs' =>
      if leading SP l <=? 3
      then match after SP l with
           | c :: r => if is_ch ">" c then let (n, x) := continued cs' (match r with d :: r' => if N.eqb d SP then r' else r | [] => [] end) in (S n, x) else (0, l)
           | [] => (0, l)
           end
      else (0, l)
  | CItem w :: cs' =>
      if blank l then let (n, x) := continued cs' [] in (S n, x)
      else if w <=? leading SP l then let (n, x) := continued cs' (skipn w l) in (S n, x) else (0, l)
  end.
(** The containers that open on the rest of a line: quote marks and list markers. A list item that would interrupt a paragraph
    ([para]) must not be empty and, if numbered, must start with 1.  The content of an item starts after one to four blanks
    (if more follow, after one). *)
Fixpoint opened (fuel : nat) (para : bool) (l : str) : list (container * event) * str :=
  match fuel with
  | 0 => ([], l)
  | S fuel' =>
      let k := leading SP l in
      let r := after SP l in
      if 4 <=? k then ([], l)
      else match r with
           | [] => ([], l)
           | c :: q =>
               if is_ch ">" c
               then let (cs, x) := opened fuel' false (match q with d :: q' => if N.eqb d SP then q' else q | [] => [] end) in ((CQuote, EQuote) :: cs, x)
               else if thematic r then ([], l)
               else match marker r with
                    | Some (ordered, m, rest) =>
                        let b := leading SP rest in
                        if para && (blank rest || (ordered && negb (str_eqb m (s "1")))) then ([], l)
                        else let width := List.length m + (if ordered then 1 else 0) in
                             let e := if ordered then ENumber m else EBullet in
                             if blank rest then ([(CItem (k + width + 1), e)], [])
                             else let b' := if b <=? 4 then b else 1 in
                                  let (cs, x) := opened fuel' false (skipn b' rest) in ((CItem (k + width + b'), e) :: cs, x)
                    | None => ([], l)
                    end
           end
  end.
Definition is_para (o : leaf) : bool := match o with OPara _ | OHeader _ => true | _ => false end.
Definition add_para (o : leaf) (l : str) : leaf := match o with OPara ls => OPara (ls ++ [l]) | OHeader h => OPara [h; l] | _ => OPara [l] end.
(** A line inside the innermost container. *)
Definition leaf_step (o : leaf) (l : str) : list event * leaf :=
  match o with
  | OCode i ls => if existsb (N.eqb CR) l then ([ECode i ls; EOther l], ONone) else if closes_fence l then ([ECode i ls], ONone) else ([], OCode i (ls ++ [l]))
  | _ =>
      match classify l with
      | LBlank => (close_leaf o, ONone)
      | LFence i => (close_leaf o, OCode i [])
      | LHead n t => (close_leaf o ++ [EHead n t], ONone)
      | LRule dashes => match o with
                        | OPara ls => if dashes then ([EHead 2 (join nl ls)], ONone) else ([EPara ls; ERule], ONone)
                        | OHeader h => if dashes then ([EHead 2 h], ONone) else ([EPara [h]; ERule], ONone)
                        | _ => (close_leaf o ++ [ERule], ONone)
                        end
      | LRow => match o with
                | ONone => ([], OHeader l)
                | OTable h rs => ([], OTable h (rs ++ [fit (List.length h) (cells l)]))
                | _ => ([], add_para o l)
                end
      | LDelim => match o with
                  | OHeader h => if Nat.eqb (List.length (cells h)) (List.length (cells l)) then ([], OTable (cells h) []) else ([], OPara [h; l])
                  | OTable h rs => ([], OTable h (rs ++ [fit (List.length h) (cells l)]))
                  | ONone => ([], OHeader l)
                  | _ => (close_leaf o ++ [EOther l], ONone)
                  end
      | LText => match o with
                 | OTable h rs => ([], OTable h (rs ++ [fit (List.length h) (cells l)]))
                 | _ => ([], add_para o l)
                 end
      | LIndented => if is_para o then ([], add_para o l) else (close_leaf o ++ [EOther l], ONone)
      | LUnknown => (close_leaf o ++ [EOther l], ONone)
      end
  end.
(** A paragraph goes on although a container's mark is missing ("lazy continuation"). *)
Definition lazy_line (l : str) : bool := match classify l with LText | LIndented | LRow => true | _ => false end.
Definition step (st : state) (l : str) : list event * state :=
  let (cs, o) := st in
  let (n, rest) := continued cs l in
  let all := Nat.eqb n (List.length cs) in
  match all, o with
  | true, OCode _ _ => let (es, o') := leaf_step o rest in (es, (cs, o'))
  | _, _ =>
      let (new, inner) := opened (S (List.length rest)) (all && is_para o) rest in
      match new with
      | [] => if negb all && is_para o && lazy_line rest then ([], (cs, add_para o rest))
              else if all then let (es, o') := leaf_step o rest in (es, (cs, o'))
              else let (es, o') := leaf_step ONone rest in
                   (close_leaf o ++ repeat EEnd (List.length cs - n) ++ es, (firstn n cs, o'))
      | _ => let (es, o') := leaf_step ONone inner in
             (close_leaf o ++ repeat EEnd (List.length cs - n) ++ map snd new ++ es, (firstn n cs ++ map fst new, o'))
      end
  end.
Fixpoint run (st : state) (ls : list str) : list event * state :=
  match ls with [] => ([], st) | l :: r => let (es, st') := step st l in let (fs, st'') := run st' r in (es ++ fs, st'') end.
(** The lines of a text: each ends with a newline or with the text. *)
Fixpoint drop_last_empty (ls : list str) : list str :=
  match ls with [] => [] | l :: r => match l, r with [], [] => [] | _, _ => l :: drop_last_empty r end end.
Definition text_lines (x : str) : list str := drop_last_empty (split_on NL x).
(** Reading a text: all its lines, then everything still open ends. *)
Definition read (x : str) : list event :=
  let (es, st) := run ([], ONone) (text_lines x) in es ++ close_leaf (snd st) ++ repeat EEnd (List.length (fst st)).

(** The line is the start of a quote or of a list item. *)
Definition starts_container (l : str) : bool :=
  let r := after SP l in
  match r with c :: _ => is_ch ">" c || (negb (thematic r) && match marker r with Some _ => true | None => false end) | [] => false end.
(** A line that a reader takes as text wherever text can stand: it starts with a visible character and is the start of nothing else. *)
Definition text_line (l : str) : Prop := classify l = LText /\ starts_container l = false /\ forall r, l <> SP :: r.
