(** How a Markdown reader sees the text of one paragraph (C79, C80): after CommonMark 0.31 (appendix, phase 2: inline structure; section 6.2 for
    the delimiter runs) and the GFM strikethrough extension.  It is independent of /repo.
    Of raw HTML it reads the line break <br>, of the character references the no-break space &nbsp; (GitHub's editors write both in table cells).
    What it does not cover it reports as [IUnknown]: other raw HTML and autolinks in angle brackets, other character references, link destinations in
    angle brackets or with white space or a backslash, link titles.  Not covered and not reported: references to link definitions
    (a definition is reported by the block reader), bare URLs made into links (the GFM autolink extension). *)
From Coq Require Import List Arith NArith Bool String.
From Verif Require Import PyStr SpecReader.
Import ListNotations.
Open Scope string_scope.
Open Scope list_scope.
Open Scope nat_scope.

(** ---------------------------------------------------------------- characters *)
(** Unicode white space: tab, line feed, form feed, carriage return and category Zs. *)
Definition uni_ws (c : N) : bool :=
  (existsb (N.eqb c) [9; 10; 12; 13; 32; 160; 5760; 8239; 8287; 12288] || (8192 <=? c) && (c <=? 8202))%N.
Definition ascii_punct (c : N) : bool :=
  ((33 <=? c) && (c <=? 47) || (58 <=? c) && (c <=? 64) || (91 <=? c) && (c <=? 96) || (123 <=? c) && (c <=? 126))%N.
Definition alnum (c : N) : bool := (digit c || (65 <=? c) && (c <=? 90) || (97 <=? c) && (c <=? 122))%N.
(** A named or numeric character reference begins after this "&": letters, digits and #, then a semicolon. *)
Fixpoint reference (l : str) : bool :=
  match l with c :: r => is_ch ";" c || (alnum c || is_ch "#" c) && reference r | [] => false end.
(** An HTML tag or an autolink may begin after this "<". *)
Definition angle (l : str) : bool :=
  match l with c :: _ => alnum c && negb (digit c) || is_ch "/" c || is_ch "!" c || is_ch "?" c | [] => false end.

Fixpoint begins (p l : str) : bool :=
  match p, l with [], _ => true | a :: p', b :: l' => N.eqb a b && begins p' l' | _, [] => false end.

(** ---------------------------------------------------------------- what the reader sees *)
Inductive emph := Strong | Em | Strike.
Inductive inl := IChar (c : N) | IBreak | ICode (t : str) | IEmph (e : emph) (l : list inl) | ILink (href : str) (l : list inl) | IImage (src : str) (l : list inl) | IUnknown.
(** [TRun c n op cl]: n times the delimiter c, which can open (op) or close (cl) emphasis; [TBracket live]: an opening bracket;
    [TBang]: an exclamation mark in front of one. *)
Inductive tok := TIn (i : inl) | TRun (c : N) (n : nat) (op cl : bool) | TBracket (live : bool) | TBang.

Section Reader.
(** Which characters above ASCII are punctuation (Unicode categories P and S). *)
Variable upunct : N -> bool.
Definition punct (c : N) : bool := if (c <? 128)%N then ascii_punct c else upunct c.

(** ---------------------------------------------------------------- delimiter runs (6.2) *)
Definition left_flanking (prev next : N) : bool := negb (uni_ws next) && (negb (punct next) || uni_ws prev || punct prev).
Definition right_flanking (prev next : N) : bool := negb (uni_ws prev) && (negb (punct prev) || uni_ws next || punct next).
Definition delimiter (c : N) : bool := is_ch "*" c || is_ch "_" c || is_ch "~" c.
Definition run_token (c : N) (n : nat) (prev next : N) : tok :=
  let l := left_flanking prev next in
  let r := right_flanking prev next in
  if is_ch "_" c then TRun c n (l && (negb r || punct prev)) (r && (negb l || punct next))
  else if is_ch "~" c then TRun c n (l && (n <=? 2)) (r && (n <=? 2))
  else TRun c n l r.

(** ---------------------------------------------------------------- emphasis *)
(** An opener: its character, the length of its run, what is left of it, whether it could also close; and what follows it (reversed). *)
Record opener := Opener { o_char : N; o_len : nat; o_left : nat; o_both : bool; o_in : list inl }.
Definition chars (c : N) (n : nat) : list inl := repeat (IChar c) n.
(** A closing run of length n (which could also open: both) fits the opener. *)
Definition fits (c : N) (n : nat) (both : bool) (o : opener) : bool :=
  N.eqb (o_char o) c &&
  (if is_ch "~" c then Nat.eqb (o_len o) n
   else negb ((both || o_both o) && Nat.eqb ((o_len o + n) mod 3) 0 && negb (Nat.eqb (o_len o mod 3) 0 && Nat.eqb (n mod 3) 0))).
Definition put (x : list inl) (st : list opener * list inl) : list opener * list inl :=   (* x is reversed *)
  match st with
  | (o :: os, b) => (Opener (o_char o) (o_len o) (o_left o) (o_both o) (x ++ o_in o) :: os, b)
  | ([], b) => ([], x ++ b)
  end.
(** Give up the first opener: its delimiters are characters. *)
Definition drop (st : list opener * list inl) : list opener * list inl :=
  match st with
  | (o :: os, b) => put (o_in o ++ chars (o_char o) (o_left o)) (os, b)
  | _ => st
  end.
Fixpoint find (c : N) (n : nat) (both : bool) (os : list opener) : option nat :=
  match os with
  | [] => None
  | o :: r => if fits c n both o then Some 0 else option_map S (find c n both r)
  end.
(** Close emphasis with k delimiters of the first opener. *)
Definition close (c : N) (k : nat) (st : list opener * list inl) : list opener * list inl :=
  match st with
  | (o :: os, b) =>
      let x := IEmph (if is_ch "~" c then Strike else if Nat.eqb k 2 then Strong else Em) (rev (o_in o)) in
      if Nat.eqb (o_left o) k then put [x] (os, b) else (Opener (o_char o) (o_len o) (o_left o - k) (o_both o) [x] :: os, b)
  | _ => st
  end.
Definition left_of (st : list opener * list inl) : nat := match st with (o :: _, _) => o_left o | _ => 0 end.
(** A run of length n, of which r are left. *)
Fixpoint close_run (fuel : nat) (c : N) (n r : nat) (op cl : bool) (st : list opener * list inl) : list opener * list inl :=
  match r, fuel with
  | O, _ | _, O => st
  | _, S fuel =>
      match (if cl then find c n op (fst st) else None) with
      | Some i =>
          let st := Nat.iter i drop st in
          let k := if is_ch "~" c then r else if (2 <=? left_of st) && (2 <=? r) then 2 else 1 in
          close_run fuel c n (r - k) op cl (close c k st)
      | None => if op then (Opener c n r cl [] :: fst st, snd st) else put (chars c r) st
      end
  end.
Definition emph_step (st : list opener * list inl) (t : tok) : list opener * list inl :=
  match t with
  | TIn i => put [i] st
  | TRun c n op cl => close_run n c n n op cl st
  | TBracket _ => put [IChar 91] st
  | TBang => put [IChar 33] st
  end.
Definition finish (st : list opener * list inl) : list inl := rev (snd (Nat.iter (List.length (fst st)) drop st)).
Definition emphasis (l : list tok) : list inl := finish (fold_left emph_step l ([], [])).

(** ---------------------------------------------------------------- code spans and links *)
(** What stands before a run of exactly n back-ticks; run: the back-ticks just passed. *)
Fixpoint closing (n run : nat) (l : str) : option str :=
  match l with
  | [] => if Nat.eqb run n then Some [] else None
  | c :: r => if is_ch "`" c then option_map (cons c) (closing n (S run) r)
              else if Nat.eqb run n then Some [] else option_map (cons c) (closing n 0 r)
  end.
Definition code_text (t : str) : str :=
  let t := map (fun c => if N.eqb c NL then SP else c) t in
  match t, rev t with
  | a :: _, b :: _ => if N.eqb a SP && N.eqb b SP && negb (forallb (N.eqb SP) t) then removelast (tl t) else t
  | _, _ => t
  end.
(** A link destination up to the closing parenthesis; None: not covered. *)
Fixpoint destination (depth : nat) (l : str) : option str :=
  match l with
  | [] => None
  | c :: r =>
      if is_ch ")" c then match depth with O => Some [] | S d => option_map (cons c) (destination d r) end
      else if is_ch "(" c then option_map (cons c) (destination (S depth) r)
      else if uni_ws c || (c <? 32)%N || is_ch "<" c || is_ch "\" c || is_ch "&" c && reference r then None
      else option_map (cons c) (destination depth r)
  end.
(** The tokens since the last opening bracket (st is reversed), the bracket, and those before. *)
Fixpoint bracket (st : list tok) : option (list tok * bool * list tok) :=
  match st with
  | [] => None
  | TBracket live :: r => Some ([], live, r)
  | t :: r => option_map (fun p => (t :: fst (fst p), snd (fst p), snd p)) (bracket r)
  end.
Definition deaden (t : tok) : tok := match t with TBracket _ => TBracket false | _ => t end.

(** ---------------------------------------------------------------- the scan *)
(** skip: characters already read; prev: the character before; st: the tokens so far, reversed. *)
Fixpoint scan (skip : nat) (prev : N) (l : str) (st : list tok) : list tok :=
  match l with
  | [] => st
  | c :: r =>
      match skip with
      | S k => scan k c r st
      | O =>
          if is_ch "\" c
          then match r with
               | d :: _ => if ascii_punct d then scan 1 c r (TIn (IChar d) :: st)
                           else if N.eqb d NL then scan (1 + leading SP (tl r)) c r (TIn IBreak :: st)
                           else scan 0 c r (TIn (IChar c) :: st)
               | [] => scan 0 c r (TIn (IChar c) :: st)
               end
          else if is_ch "`" c
          then let n := leading c l in
               match closing n 0 (skipn n l) with
               | Some t => let t := firstn (List.length t - n) t in
                           scan (n - 1 + List.length t + n) c r (TIn (ICode (code_text t)) :: st)
               | None => scan (n - 1) c r (map TIn (chars c n) ++ st)
               end
          else if delimiter c
          then let n := leading c l in scan (n - 1) c r (run_token c n prev (hd NL (skipn n l)) :: st)
          else if is_ch "!" c && match r with d :: _ => is_ch "[" d | [] => false end then scan 0 c r (TBang :: st)
          else if is_ch "[" c then scan 0 c r (TBracket true :: st)
          else if is_ch "]" c
          then match bracket st with
               | None => scan 0 c r (TIn (IChar c) :: st)
               | Some (inner, live, before) =>
                   match r with
                   | d :: q =>
                       if live && is_ch "(" d
                       then match destination 0 q with
                            | Some href =>
                                scan (2 + List.length href) c r
                                  (match before with
                                   | TBang :: before' => TIn (IImage href (emphasis (rev inner))) :: before'
                                   | _ => TIn (ILink href (emphasis (rev inner))) :: map deaden before
                                   end)
                            | None => scan 0 c r (TIn IUnknown :: st)
                            end
                       else scan 0 c r (TIn (IChar c) :: inner ++ TIn (IChar 91) :: before)
                   | [] => scan 0 c r (TIn (IChar c) :: inner ++ TIn (IChar 91) :: before)
                   end
               end
          else if is_ch "<" c && begins (s "br>") r then scan 3 c r (TIn IBreak :: st)
          else if is_ch "&" c && begins (s "nbsp;") r then scan 5 c r (TIn (IChar 160) :: st)
          else if is_ch "<" c && angle r || is_ch "&" c && reference r then scan 0 c r (TIn IUnknown :: st)
          else if N.eqb c SP
          then let k := leading SP l in
               match skipn k l with
               | [] => scan (k - 1) c r st
               | d :: q => if N.eqb d NL
                           then scan (k + leading SP q) c r (TIn (if 2 <=? k then IBreak else IChar NL) :: st)
                           else scan 0 c r (TIn (IChar c) :: st)
               end
          else if N.eqb c NL then scan (leading SP r) c r (TIn (IChar NL) :: st)
          else scan 0 c r (TIn (IChar c) :: st)
      end
  end.
Definition read_inline (l : str) : list inl := emphasis (rev (scan 0 NL l [])).
End Reader.

(** ---------------------------------------------------------------- what is shown *)
Record look := Look { bold : bool; italic : bool; struck : bool; code : bool; link : option str }.
Definition plain : look := Look false false false false None.
Inductive glyph := Glyph (c : N) (k : look) | LineBreak | Picture (src : str) | Unreadable.
Definition emphasize (e : emph) (k : look) : look :=
  match e with
  | Strong => Look true (italic k) (struck k) (code k) (link k)
  | Em => Look (bold k) true (struck k) (code k) (link k)
  | Strike => Look (bold k) (italic k) true (code k) (link k)
  end.
Fixpoint show (k : look) (i : inl) : list glyph :=
  match i with
  | IChar c => [Glyph c k]
  | IBreak => [LineBreak]
  | ICode t => map (fun c => Glyph c (Look (bold k) (italic k) (struck k) true (link k))) t
  | IEmph e l => flat_map (show (emphasize e k)) l
  | ILink h l => flat_map (show (Look (bold k) (italic k) (struck k) (code k) (Some h))) l
  | IImage h _ => [Picture h]
  | IUnknown => [Unreadable]
  end.
(** The paragraph with this source as its reader sees it. *)
Definition shown (upunct : N -> bool) (source : str) : list glyph := flat_map (show plain) (read_inline upunct source).
