(** What a reader of the whole document should see (C81): the blocks, and inside them every character with its formats.
    [looks E up n ss]: the block n should be seen as ss.  Where Markdown can express the text is said by [all_shown] (SpecLook.v); when blocks
    stay apart, and which lines are text, by [all_seen] (SpecSeen.v). *)
From Coq Require Import List NArith ZArith Bool String.
From Verif Require Import PyStr Values Schema Parse Date Markdown SpecMd SpecList SpecTable SpecReader SpecSeen SpecInline SpecLook SpecCell.
Import ListNotations.
Open Scope string_scope.
Open Scope list_scope.
Open Scope nat_scope.

(** ---------------------------------------------------------------- the reader: blocks first, then the text inside them *)
Inductive sight :=
| SightQuote | SightBullet | SightNumber (n : str) | SightEnd
| SightHead (level : nat) (text : list glyph) | SightPara (text : list glyph)
| SightCode (info : str) (ls : list str) | SightRule | SightTable (header : list (list glyph)) (rows : list (list (list glyph))) | SightOther (l : str).
Definition sight_of (up : N -> bool) (e : event) : sight :=
  match e with
  | EQuote => SightQuote | EBullet => SightBullet | ENumber n => SightNumber n | EEnd => SightEnd
  | EHead k t => SightHead k (shown up t)
  | EPara ls => SightPara (shown up (join nl ls))
  | ECode i ls => SightCode i ls | ERule => SightRule | ETable h rs => SightTable (map (cell_shown up) h) (map (map (cell_shown up)) rs) | EOther l => SightOther l
  end.
(** Reading Markdown: what is seen. *)
Definition behold (up : N -> bool) (x : str) : list sight := map (sight_of up) (read x).

(** ---------------------------------------------------------------- what should be seen *)
Section Looks.
Variables (E : runtime) (up : N -> bool).
Definition in_plain (t : str) : list glyph := map (fun c => Glyph c plain) t.
Definition in_bold (t : str) : list glyph := map (fun c => Glyph c (Look true false false false None)) t.
Definition in_link (h t : str) : list glyph := map (fun c => Glyph c (Look false false false false (Some h))) t.
(** Inline nodes (behind the character prev) that write x and show gs; something other than newlines. *)
Definition inline_looks (prev : N) (cs : list node) (x : str) (gs : list glyph) : Prop :=
  exists xs, Forall2 (renders E) cs xs /\ x = List.concat xs /\ all_shown up prev cs xs gs /\ exists c, In c x /\ c <> NL.
(** Text nodes without formats, and their texts. *)
Definition bare_texts : list node -> list str -> Prop := Forall2 (fun n t => styled n t []).
(** The text does not end with white space. *)
Definition solid_end (x : str) : Prop := is_ws (last x SP) = false.

Definition sight_mark (own : nkind) (z : Z) : sight := match own with KorderedList => SightNumber (dec z) | _ => SightBullet end.
Inductive list_looks (own : nkind) : Z -> node -> list sight -> Prop :=
| ll_list z n cs ss : n_content n = Items cs -> items_look own z (filter is_item cs) ss -> list_looks own z n ss
with items_look (own : nkind) : Z -> list node -> list sight -> Prop :=
| il_nil z : items_look own z [] []
| il_cons z item p subs cs x gs ss rest ss' :
    n_content item = Items (p :: subs) -> n_kind p = Kparagraph -> bare p -> n_content p = Items cs -> inline_looks NL cs x gs -> solid_end x ->
    subs_look own subs ss -> items_look own (z + 1) rest ss' ->
    items_look own z (item :: rest) (sight_mark own z :: SightPara gs :: ss ++ SightEnd :: ss')
with subs_look (own : nkind) : list node -> list sight -> Prop :=
| sl_nil : subs_look own [] []
| sl_cons n rest ss ss' : list_looks own 1 n ss -> subs_look own rest ss' -> subs_look own (n :: rest) (ss ++ ss').

Inductive tasks_look : list node -> list sight -> Prop :=
| tl_nil : tasks_look [] []
| tl_cons c kids st done x gs subs ss rest ss' :
    n_kind c = KtaskItem -> n_content c = Items kids -> state_of c st -> (done = true <-> st = VStr (s "DONE")) ->
    inline_looks SP kids x gs -> is_ws (hd SP x) = false -> solid_end x ->
    nested_tasks_look subs ss -> tasks_look rest ss' ->
    tasks_look (c :: subs ++ rest) (SightBullet :: SightPara (in_plain (box done) ++ gs) :: ss ++ SightEnd :: ss')
with nested_tasks_look : list node -> list sight -> Prop :=
| nl_nil : nested_tasks_look [] []
| nl_cons n cs ss rest ss' : n_kind n = KtaskList -> n_content n = Items cs -> tasks_look cs ss -> nested_tasks_look rest ss' ->
    nested_tasks_look (n :: rest) (ss ++ ss').
(** A decision whose lines do not end with white space (a hard break would). *)
Definition decision_looks (c : node) (ss : list sight) : Prop :=
  exists kids x gs, n_content c = Items kids /\ inline_looks NL kids x gs /\ Forall solid_end (split_on NL x) /\ ss = [SightQuote; SightPara gs; SightEnd].

(** The rows of a table are as wide as its header: missing cells are empty, excess cells are not seen. *)
Definition fill (width : nat) (cs : list (list glyph)) : list (list glyph) := firstn width (cs ++ repeat [] width).
(** Blocks that are a text: cards are links to their URL, an external picture is a picture. *)
Inductive text_block : node -> list glyph -> Prop :=
| tb_card n a h : n_kind n = KblockCard \/ n_kind n = KembedCard -> n_attrs n = AObj a -> lookup (s "url") a = Some (VStr h) -> h <> [] ->
    expressible up NL (Format false [] (Some h) []) h [] -> text_block n (in_link h h)
| tb_picture n m a u alt v : n_kind n = KmediaSingle -> n_content n = Items [m] -> n_kind m = Kmedia -> (forall k l, n_marks m <> Items (k :: l)) -> n_attrs m = AObj a ->
    lookup (s "type") a = Some (VStr (s "external")) -> lookup (s "url") a = Some (VStr u) -> plain_href u = true ->
    lookup (s "alt") a = Some alt -> (forall x, alt = VStr x -> harmless x) -> lookup (s "id") a = Some v -> text_block n [Picture u].
Inductive looks : node -> list sight -> Prop :=
| lk_para n cs x gs : n_kind n = Kparagraph -> bare n -> n_content n = Items cs -> inline_looks NL cs x gs -> looks n [SightPara gs]
| lk_empty n cs ts : n_kind n = Kparagraph -> bare n -> n_content n = Items cs -> bare_texts cs ts -> Forall (eq NL) (List.concat ts) -> looks n []
| lk_text n gs : text_block n gs -> looks n [SightPara gs]
| lk_heading n z cs x gs : n_kind n = Kheading -> attr (n_attrs n) (s "level") = Ok (VInt z) -> n_content n = Items cs -> inline_looks NL cs x gs ->
    looks n [SightHead (Z.to_nat z) gs]
| lk_rule n : n_kind n = Krule -> looks n [SightRule]
| lk_code n lang cs ts : n_kind n = KcodeBlock -> language_of n lang -> n_content n = Items cs -> bare_texts cs ts ->
    looks n [SightCode lang (split_on NL (List.concat ts))]
| lk_bullets n ss : n_kind n = KbulletList -> list_looks KbulletList 1 n ss -> looks n ss
| lk_ordered n z ss : n_kind n = KorderedList -> starts_at n z -> list_looks KorderedList z n ss -> looks n ss
| lk_tasks n cs ss : n_kind n = KtaskList -> n_content n = Items cs -> tasks_look cs ss -> looks n ss
| lk_decisions n cs sss : n_kind n = KdecisionList -> n_content n = Items cs -> Forall2 decision_looks cs sss -> looks n (List.concat sss)
| lk_table n rows cells1 cellss gs1 gss : n_kind n = Ktable -> n_content n = Items rows -> Forall2 row_of rows (cells1 :: cellss) ->
    Forall2 (Forall2 (cell_looks E up)) (cells1 :: cellss) (gs1 :: gss) ->
    looks n [SightTable gs1 (map (fill (List.length cells1)) gss)]
| lk_quote n cs ss : n_kind n = Kblockquote -> n_content n = Items cs -> all_look cs ss -> looks n (SightQuote :: ss ++ [SightEnd])
| lk_panel n p cs ss : n_kind n = Kpanel -> attr (n_attrs n) (s "panelType") = Ok (VStr p) -> n_content n = Items cs -> word_text up (py_upper E p) ->
    all_look cs ss -> looks n (SightQuote :: SightPara (in_bold (py_upper E p)) :: ss ++ [SightEnd])
| lk_expand n cs ss : n_kind n = KnestedExpand \/ n_kind n = Kexpand -> n_content n = Items cs -> all_look cs ss -> looks n ss
with all_look : list node -> list sight -> Prop :=
| al_nil : all_look [] []
| al_cons n ss rest ss' : looks n ss -> all_look rest ss' -> all_look (n :: rest) (ss ++ ss').
End Looks.
