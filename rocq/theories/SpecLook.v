(** What the reader of a paragraph should see of its text nodes (C79): every character with the formats its marks ask for;
    and the conditions under which Markdown can express it.  Independent of how the renderer works. *)
From Coq Require Import List Arith NArith Bool String.
From Verif Require Import PyStr Values Schema Parse Date Markdown SpecMd SpecReader SpecInline.
Import ListNotations.
Open Scope string_scope.
Open Scope list_scope.
Open Scope nat_scope.

(** ---------------------------------------------------------------- text that Markdown takes literally *)
Section Text.
Variable up : N -> bool.
Definition word (c : N) : bool := negb (uni_ws c) && negb (punct up c).
(** The character c between prev and after means itself: a backslash in front of no punctuation, a lonely asterisk or tilde, an underscore
    inside a word, no "](" and "![", no tag, no character reference, no space at the end of a line, no newline, no back-tick. *)
Definition literal (prev c : N) (after : str) : bool :=
  let next := hd NL after in
  if is_ch "\" c then negb (ascii_punct next) && negb (N.eqb next NL)
  else if is_ch "`" c then false
  else if is_ch "*" c || is_ch "~" c then uni_ws prev && uni_ws next
  else if is_ch "_" c then uni_ws prev && uni_ws next || word prev && word next
  else if is_ch "!" c then negb (is_ch "[" next)
  else if is_ch "]" c then negb (is_ch "(" next)
  else if is_ch "<" c then negb (angle after)
  else if is_ch "&" c then negb (reference after)
  else if N.eqb c SP then match skipn (leading SP after) after with [] => false | d :: _ => negb (N.eqb d NL) end
  else negb (N.eqb c NL).
Fixpoint ordinary (prev : N) (t after : str) : bool :=
  match t with [] => true | c :: r => literal prev c (r ++ after) && ordinary c r after end.
Definition no_brackets (t : str) : bool := forallb (fun c => negb (is_ch "[" c || is_ch "]" c)) t.
(** Code without a run of exactly two back-ticks, not only spaces. *)
Definition plain_code (t : str) : bool :=
  match closing 2 0 (t ++ [SP]) with None => true | Some _ => false end && negb (forallb (N.eqb SP) t) && negb (existsb (N.eqb NL) t).
Definition plain_href (h : str) : bool :=
  match destination 0 (h ++ s ")") with Some x => str_eqb x h | None => false end.

(** ---------------------------------------------------------------- how a text is formatted *)
(** Code or not, emphasis, a link, and emphasis around the link; the inner ones come first in the list of marks. *)
Record format := Format { f_code : bool; f_inner : list emph; f_link : option str; f_outer : list emph }.
Inductive style := SEmph (e : emph) | SCode | SLink (h : str).
Definition styles (f : format) : list style :=
  (if f_code f then [SCode] else []) ++ map SEmph (f_inner f) ++ match f_link f with Some h => [SLink h] | None => [] end ++ map SEmph (f_outer f).
(** What a mark asks for; the marks without Markdown equivalent ask for nothing.  A link shows its text (it has no title). *)
Definition asks (m : mark) (l : list style) : Prop :=
  match m_kind m with
  | Mstrong => l = [SEmph Strong]
  | Mem => l = [SEmph Em]
  | Mstrike => l = [SEmph Strike]
  | Mcode => l = [SCode]
  | Mlink => exists a h title, m_attrs m = AObj a /\ lookup (s "href") a = Some (VStr h) /\ lookup (s "title") a = Some title /\
               (forall x, title <> VStr x) /\ l = [SLink h]
  | Mindentation => False
  | _ => l = []
  end.
(** A text node with the text t whose marks ask for these styles, in this order. *)
Definition styled (n : node) (t : str) (l : list style) : Prop :=
  n_kind n = Ktext /\ n_text n = Some (VStr t) /\
  ((forall ms, n_marks n <> Items ms) /\ l = [] \/ exists ms ls, n_marks n = Items ms /\ Forall2 asks ms ls /\ List.concat ls = l).
Definition emph_eqb (a b : emph) : bool := match a, b with Strong, Strong | Em, Em | Strike, Strike => true | _, _ => false end.
Definition has (e : emph) (l : list emph) : bool := existsb (emph_eqb e) l.
Definition look_of (f : format) : look :=
  let l := f_inner f ++ f_outer f in Look (has Strong l) (has Em l) (has Strike l) (f_code f) (f_link f).

(** ---------------------------------------------------------------- when Markdown can express it *)
Definition sign (e : emph) : str := match e with Strong => s "**" | Em => s "*" | Strike => s "~~" end.
Definition signs_before (l : list emph) : str := List.concat (map sign (rev l)).
Definition signs_after (l : list emph) : str := List.concat (map sign l).
(** What stands in front of and behind the text. *)
Definition front (f : format) : str :=
  signs_before (f_outer f) ++ match f_link f with Some _ => s "[" | None => [] end ++ signs_before (f_inner f).
Definition back (f : format) : str :=
  signs_after (f_inner f) ++ match f_link f with Some h => s "](" ++ h ++ s ")" | None => [] end ++ signs_after (f_outer f).
(** All signs are of one kind and directly at the text. *)
Definition simple (f : format) : Prop :=
  f_code f = false /\ f_link f = None /\ (~ In Strike (f_outer f) \/ f_outer f = [Strike]).
(** The text t, formatted by f, between the character prev and what follows. *)
Definition expressible (prev : N) (f : format) (t after : str) : Prop :=
  let next := hd NL after in
  (* no format twice; without a link all emphasis is outer *)
  NoDup (f_inner f ++ f_outer f) /\ (f_link f = None -> f_inner f = []) /\
  (* the text: code, or text that Markdown takes literally; a link text without brackets, a simple destination *)
  (if f_code f then plain_code t = true /\ hd NL (back f ++ after) <> 96%N else ordinary (last (front f) prev) t (back f ++ after) = true) /\
  (forall h, f_link f = Some h -> plain_href h = true /\ (f_code f = false -> no_brackets t = true)) /\
  (* something to format *)
  ((f_code f = true \/ f_inner f ++ f_outer f <> []) -> exists c, In c t /\ is_ws c = false) /\
  (* emphasised text does not begin or end with white space *)
  (f_code f = false -> f_inner f ++ f_outer f <> [] -> uni_ws (hd NL t) = false /\ uni_ws (last t NL) = false) /\
  (* signs beside a letter need letters at the ends of the text *)
  (f_outer f <> [] -> word prev = true -> simple f /\ punct up (hd NL t) = false) /\
  (f_outer f <> [] -> word next = true -> simple f /\ punct up (last t NL) = false) /\
  (* no two signs of the same kind in a row *)
  (f_outer f <> [] -> next <> last (back f) NL).
(** A node of the paragraph, as written (x), and what is seen of it. *)
Inductive node_shown (prev : N) (n : node) (x after : str) : list glyph -> Prop :=
| ns_text t f : styled n t (styles f) -> expressible prev f t after -> node_shown prev n x after (map (fun c => Glyph c (look_of f)) t)
| ns_break : n_kind n = KhardBreak -> leading SP after = 0 -> node_shown prev n x after [LineBreak]
| ns_card h a : n_kind n = KinlineCard -> n_attrs n = AObj a -> lookup (s "url") a = Some (VStr h) -> expressible prev (Format false [] (Some h) []) h after ->
    node_shown prev n x after (map (fun c => Glyph c (Look false false false false (Some h))) h)
| ns_status t a : n_kind n = Kstatus -> n_attrs n = AObj a -> lookup (s "text") a = Some (VStr t) -> t <> [] -> ~ In 96%N t -> ~ In NL t ->
    hd NL t <> SP \/ last t NL <> SP -> hd NL after <> 96%N -> node_shown prev n x after (map (fun c => Glyph c (Look false false false true None)) t)
| ns_mention t a v : n_kind n = Kmention -> n_attrs n = AObj a -> lookup (s "text") a = Some v -> (v = VStr t \/ (forall y, v <> VStr y) /\ t = s "@Unknown") ->
    ordinary prev t after = true -> node_shown prev n x after (map (fun c => Glyph c plain) t)
| ns_emoji t a v : n_kind n = Kemoji -> n_attrs n = AObj a -> lookup (s "text") a = Some v ->
    (v = VStr t \/ (forall y, v <> VStr y) /\ lookup (s "shortName") a = Some (VStr t)) ->
    ordinary prev t after = true -> node_shown prev n x after (map (fun c => Glyph c plain) t)
(* a date and whatever else a paragraph may hold: as written *)
| ns_other : ~ In (n_kind n) [Ktext; KhardBreak; KinlineCard; Kstatus; Kmention; Kemoji] -> ordinary prev x after = true -> node_shown prev n x after (map (fun c => Glyph c plain) x).
(** The nodes of a paragraph, one after the other. *)
Fixpoint all_shown (prev : N) (ns : list node) (xs : list str) (gs : list glyph) : Prop :=
  match ns, xs with
  | [], [] => gs = []
  | n :: ns', x :: xs' => exists g1 g2, node_shown prev n x (List.concat xs') g1 /\ all_shown (last x prev) ns' xs' g2 /\ gs = g1 ++ g2
  | _, _ => False
  end.
End Text.

(** A text without special characters that does not end with a space. *)
Definition special (c : N) : Prop := In c (NL :: s "\`*_~![]<&").
Definition harmless (t : str) : Prop := (forall c, In c t -> ~ special c) /\ last t NL <> SP.
Definition tame (t : str) : Prop := forall c, In c t -> ~ special c.
(** Text that begins and ends with a letter (or anything else that is neither punctuation nor white space) and has no special characters. *)
Definition word_text (up : N -> bool) (t : str) : Prop :=
  harmless t /\ t <> [] /\ word up (hd NL t) = true /\ word up (last t NL) = true /\ is_ws (hd NL t) = false.
(** What the nodes write, one after the other. *)
Definition written (E : runtime) (ns : list node) (x : str) : Prop := exists xs, Forall2 (renders E) ns xs /\ List.concat xs = x.
