(** What a Markdown reader should see of a document (C75), block by block; independent of how the renderer works.
    [seen E n a es b]: the block n should be read as the events es; it brings at least a line breaks in front and b behind
    (0, 1 or 2; what the neighbours need to know to stay apart from it).  The rules state the blocks for which this holds:
    text whose lines read as text, headings of level 1 to 6 with one line of text, rules, code without a fence line,
    quotes and panels around such blocks, lists of items that hold text and lists of the same kind, task lists whose nested lists follow a task,
    decision lists, tables with a header row. *)
From Coq Require Import List NArith ZArith Bool String.
From Verif Require Import PyStr Values Schema Parse Date Markdown Basics StrFacts SpecMd SpecList SpecTable SpecReader.
Import ListNotations.
Open Scope string_scope.
Open Scope list_scope.
Open Scope nat_scope.

Definition visible_first (t : str) : Prop := exists c r, t = c :: r /\ blank_ch c = false.
Definition visible_last (t : str) : Prop := exists q d, t = q ++ [d] /\ blank_ch d = false.
Definition one_line (t : str) : Prop := ~ In CR t /\ ~ In NL t.
(** Line breaks are newlines only (no carriage returns, form feeds, U+2028 ...). *)
Definition plain_breaks (x : str) : Prop := forall c, In c x -> is_lb c = true -> c = NL.
(** The blocks around which the layout puts an empty line. *)
Definition padded_kind (k : nkind) : Prop := k = KbulletList \/ k = KorderedList \/ k = KcodeBlock.
(** The blocks with rules of their own; the others (cards, media, extensions ...) show text or nothing. *)
Definition structured (k : nkind) : Prop :=
  In k [Kheading; Krule; KcodeBlock; KbulletList; KorderedList; KtaskList; KdecisionList; Ktable; Kblockquote; Kpanel; Kexpand; KnestedExpand].
(** Blocks that show nothing when they hold nothing. *)
Definition hollow (n : node) : Prop :=
  In (n_kind n) [KtaskList; KdecisionList; Ktable; KnestedExpand] \/ n_kind n = Kexpand /\ forall m l, n_marks n <> Items (m :: l).
(** The language of a code block as shown: nothing for "none" and for none. *)
Definition language_of (n : node) (x : str) : Prop :=
  (exists l, n_attrs n = AObj l /\ lookup (s "language") l = Some (VStr x) /\ x <> s "none") \/
  (x = [] /\ exists l, n_attrs n = AObj l /\ (lookup (s "language") l = Some (VStr (s "none")) \/ lookup (s "language") l = Some VOpt)) \/
  (x = [] /\ n_attrs n = AOpt).
(** A code line does not end the code block. *)
Definition code_line (l : str) : Prop := closes_fence l = false /\ ~ In CR l.
Definition info_string (x : str) : Prop := (x = [] \/ visible_first x /\ visible_last x) /\ ~ In 96%N x /\ one_line x.

(** A paragraph without marks shows its inline nodes one after the other; other blocks that show text: what they write. *)
Definition bare (n : node) : Prop := forall m l, n_marks n <> Items (m :: l).
Inductive block_text (E : runtime) (n : node) : str -> Prop :=
| bt_para cs xs : n_kind n = Kparagraph -> bare n -> n_content n = Items cs -> Forall2 (renders E) cs xs -> block_text E n (List.concat xs)
| bt_other x : n_kind n <> Kparagraph \/ ~ bare n -> renders E n x -> block_text E n x.

(** ---------------------------------------------------------------- lists *)
(** [list_seen E own z n es]: the list n, whose first item has the number z; each item is some text and lists of the same kind.
    An item with lists inside needs a marker of at most four columns: a bullet, or a number below 100. *)
Definition item_mark (own : nkind) (z : Z) : event := match own with KorderedList => ENumber (dec z) | _ => EBullet end.
Definition number_ok (own : nkind) (z : Z) : Prop := own = KorderedList -> (0 <= z <= 999999999)%Z.
Inductive list_seen (E : runtime) (own : nkind) : Z -> node -> list event -> Prop :=
| ls_list z n cs es : n_kind n = own -> n_content n = Items cs -> filter is_item cs <> [] -> items_seen E own z (filter is_item cs) es -> list_seen E own z n es
with items_seen (E : runtime) (own : nkind) : Z -> list node -> list event -> Prop :=
| is_nil z : items_seen E own z [] []
| is_cons z item p subs x t more es rest es' :
    n_content item = Items (p :: subs) -> n_kind p <> own -> block_text E p x -> split_on NL (rstrip x) = t :: more -> text_line t -> Forall text_line more ->
    number_ok own z -> (subs <> [] -> own = KorderedList -> (z < 100)%Z) ->
    subs_seen E own subs es -> items_seen E own (z + 1) rest es' ->
    items_seen E own z (item :: rest) (item_mark own z :: EPara (t :: more) :: es ++ EEnd :: es')
with subs_seen (E : runtime) (own : nkind) : list node -> list event -> Prop :=
| ss_nil : subs_seen E own [] []
| ss_cons n rest es es' : list_seen E own 1 n es -> subs_seen E own rest es' -> subs_seen E own (n :: rest) (es ++ es').
(** Where the numbers of an ordered list start. *)
Definition starts_at (n : node) (z : Z) : Prop :=
  attr (n_attrs n) (s "order") = Ok (VInt z) \/
  (z = 1%Z /\ exists v, attr (n_attrs n) (s "order") = Ok v /\ (forall y, v <> VInt y) /\ (forall b, v <> VBool b)).

(** ---------------------------------------------------------------- task lists and decision lists *)
(** A task shows its box in front of its text; the task lists that follow it are nested in it. *)
Definition box (done : bool) : str := if done then s "[x] " else s "[ ] ".
Inductive tasks_seen (E : runtime) : list node -> list event -> Prop :=
| ts_nil : tasks_seen E [] []
| ts_cons c kids xs st done t more subs es rest es' :
    n_kind c = KtaskItem -> n_content c = Items kids -> Forall2 (renders E) kids xs -> state_of c st -> (done = true <-> st = VStr (s "DONE")) ->
    split_on NL (rstrip (List.concat xs)) = t :: more -> text_line (box done ++ t) -> Forall text_line more ->
    nested_tasks_seen E subs es -> tasks_seen E rest es' ->
    tasks_seen E (c :: subs ++ rest) (EBullet :: EPara ((box done ++ t) :: more) :: es ++ EEnd :: es')
with nested_tasks_seen (E : runtime) : list node -> list event -> Prop :=
| nt_nil : nested_tasks_seen E [] []
| nt_cons n cs es rest es' : n_kind n = KtaskList -> n_content n = Items cs -> cs <> [] -> tasks_seen E cs es -> nested_tasks_seen E rest es' ->
    nested_tasks_seen E (n :: rest) (es ++ es').
(** A decision is shown as a quote, its lines without trailing white space. *)
Definition decision_seen (E : runtime) (c : node) (es : list event) : Prop :=
  n_kind c = KdecisionItem /\ exists kids xs, n_content c = Items kids /\ Forall2 (renders E) kids xs /\
    let ls := map rstrip (split_on NL (rstrip (List.concat xs))) in Forall text_line ls /\ es = [EQuote; EPara ls; EEnd].

(** ---------------------------------------------------------------- blocks *)
Inductive seen (E : runtime) : node -> nat -> list event -> nat -> Prop :=
| seen_para n cs xs : n_kind n = Kparagraph -> bare n -> n_content n = Items cs -> Forall2 (renders E) cs xs ->
    let x := List.concat xs in Forall text_line (split_on NL x) -> seen E n 0 [EPara (split_on NL x)] 1
| seen_empty_para n cs xs k : n_kind n = Kparagraph -> bare n -> n_content n = Items cs -> Forall2 (renders E) cs xs ->
    List.concat xs = repeat NL k -> seen E n 1 [] 1
| seen_text n j k x : n_kind n <> Kparagraph \/ ~ bare n -> ~ structured (n_kind n) -> renders E n (repeat NL j ++ x ++ repeat NL k) -> Forall text_line (split_on NL x) -> j <= 2 -> k <= 2 ->
    seen E n j [EPara (split_on NL x)] k
| seen_empty n k : n_kind n <> Kparagraph \/ ~ bare n -> ~ structured (n_kind n) -> renders E n (repeat NL k) -> seen E n 1 [] 1
| seen_hollow n : hollow n -> n_content n = Items [] -> seen E n 1 [] 1
| seen_heading n z cs xs : n_kind n = Kheading -> attr (n_attrs n) (s "level") = Ok (VInt z) -> (1 <= z <= 6)%Z ->
    n_content n = Items cs -> Forall2 (renders E) cs xs -> let t := List.concat xs in one_line t -> visible_first t -> visible_last t -> (forall q, t <> q ++ s "#") ->
    seen E n 2 [EHead (Z.to_nat z) t] 2
| seen_rule n : n_kind n = Krule -> seen E n 2 [ERule] 2
| seen_code n lang cs xs : n_kind n = KcodeBlock -> language_of n lang -> info_string lang -> n_content n = Items cs -> Forall2 (renders E) cs xs ->
    let t := List.concat xs in Forall code_line (split_on NL t) -> ~ contains (nl ++ nl ++ nl) (nl ++ t ++ nl) ->
    seen E n 1 [ECode lang (split_on NL t)] 1
| seen_bullets n es : n_kind n = KbulletList -> list_seen E KbulletList 1 n es -> seen E n 1 es 1
| seen_ordered n z es : n_kind n = KorderedList -> starts_at n z -> list_seen E KorderedList z n es -> seen E n 1 es 1
| seen_tasks n cs es : n_kind n = KtaskList -> n_content n = Items cs -> cs <> [] -> tasks_seen E cs es -> seen E n 0 es 0
| seen_decisions n cs ess : n_kind n = KdecisionList -> n_content n = Items cs -> cs <> [] -> Forall2 (decision_seen E) cs ess -> seen E n 0 (List.concat ess) 0
| seen_table n rows cells1 cellss xs1 xss : n_kind n = Ktable -> n_content n = Items rows -> Forall2 row_of rows (cells1 :: cellss) ->
    Forall2 (Forall2 (renders E)) (cells1 :: cellss) (xs1 :: xss) -> header_row cells1 -> Forall (fun cells => ~ header_row cells) cellss ->
    Forall (Forall (fun x => ~ In CR x)) (xs1 :: xss) ->
    seen E n 0 [ETable (map trim xs1) (map (fun xs => fit (List.length cells1) (map trim xs)) xss)] 0
| seen_quote n cs a es b : n_kind n = Kblockquote -> n_content n = Items cs -> all_seen E cs a es b -> es <> [] ->
    Forall (fun c => forall x, renders E c x -> plain_breaks x) cs ->
    seen E n 0 (EQuote :: es ++ [EEnd]) 1
| seen_panel n p cs a es b : n_kind n = Kpanel -> attr (n_attrs n) (s "panelType") = Ok (VStr p) -> n_content n = Items cs ->
    let title := s "**" ++ py_upper E p ++ s "**" in text_line title -> plain_breaks title -> ~ In NL title ->
    all_seen E cs a es b -> Forall (fun c => forall x, renders E c x -> plain_breaks x) cs ->
    seen E n 0 (EQuote :: EPara [title] :: es ++ [EEnd]) 1
| seen_expand n cs a es b : n_kind n = KnestedExpand \/ (n_kind n = Kexpand /\ forall m l, n_marks n <> Items (m :: l)) -> n_content n = Items cs ->
    all_seen E cs a es b -> seen E n a es b
(** Blocks in a row: between two of them at least one brings a line break. *)
with all_seen (E : runtime) : list node -> nat -> list event -> nat -> Prop :=
| as_one n a es b : seen E n a es b -> all_seen E [n] a es b
| as_cons n a es b rest a' es' b' : seen E n a es b -> all_seen E rest a' es' b' -> 1 <= b + a' -> all_seen E (n :: rest) a (es ++ es') b'.
