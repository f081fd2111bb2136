(** Where blocks run together (C87): what a Markdown reader gets of a document in which texts follow tasks, decisions, tables or each other without an empty line between them.
    [SpecReader.read] is the reader, [SpecSeen.all_seen] the blocks that stay apart (C75); this file adds the rows of blocks that do not. *)
From Coq Require Import List NArith ZArith Bool String.
From Verif Require Import PyStr Values Schema Parse Date Markdown Basics StrFacts SpecMd SpecList SpecTable SpecReader SpecSeen Properties_Reader2.
Import ListNotations.
Open Scope string_scope.
Open Scope list_scope.
Open Scope nat_scope.

(** More lines for the paragraph or the table that ends the events: events of the form ..., EPara l, EEnd, ..., EEnd (see [extended_last] in FlowFacts.v) or ..., ETable h rows. *)
Fixpoint extended_back (more : list str) (back : list event) : list event :=
  match back with
  | EEnd :: r => EEnd :: extended_back more r
  | EPara l :: r => EPara (l ++ more) :: r
  | ETable h rows :: r => ETable h (rows ++ map (fun l => fit (List.length h) (cells l)) more) :: r
  | _ => back
  end.
Definition extended (more : list str) (es : list event) : list event := rev (extended_back more (rev es)).

Section Flow.
  Variable E : runtime.
  (** The block p shows text on the lines ls and brings b line breaks behind them; a paragraph without marks always brings one, the other blocks what they write. *)
  Inductive text_block (p : node) : list str -> nat -> Prop :=
  | tb_para cs xs : n_kind p = Kparagraph -> bare p -> n_content p = Items cs -> Forall2 (renders E) cs xs ->
      let x := List.concat xs in Forall text_line (split_on NL x) -> text_block p (split_on NL x) 1
  | tb_other x k : n_kind p <> Kparagraph \/ ~ bare p -> ~ structured (n_kind p) -> renders E p (x ++ repeat NL k) -> Forall text_line (split_on NL x) -> k <= 2 ->
      text_block p (split_on NL x) k.
  (** Texts without a line break of their own between them are one text. *)
  Inductive texts : list node -> list str -> nat -> Prop :=
  | tx_one p ls b : text_block p ls b -> texts [p] ls b
  | tx_cons p ls ps ms b : text_block p ls 0 -> texts ps ms b -> texts (p :: ps) (ls ++ ms) b.
  (** Task lists in a row go on like one list. *)
  Inductive task_lists : list node -> list event -> Prop :=
  | tk_one n cs es : n_kind n = KtaskList -> n_content n = Items cs -> cs <> [] -> tasks_seen E cs es -> task_lists [n] es
  | tk_cons n cs es ns es' : n_kind n = KtaskList -> n_content n = Items cs -> cs <> [] -> tasks_seen E cs es -> task_lists ns es' -> task_lists (n :: ns) (es ++ es').
  (** A table without a header row: its rows as lines. *)
  Definition headless_table (n : node) (xss : list (list str)) : Prop :=
    n_kind n = Ktable /\ exists rows cellss, n_content n = Items rows /\ rows <> [] /\ Forall2 row_of rows cellss /\ Forall (fun cells => ~ header_row cells) cellss /\
      Forall2 (Forall2 (renders E)) cellss xss /\ Forall (Forall (fun x => ~ In CR x)) xss /\ Forall (fun xs => delimiter_row (row_line xs) = false) xss.
  (** The table as C76 has it. *)
  Definition table_event (x1 : list str) (body : list (list str)) : event := ETable (map trim x1) (map (fun xs => fit (List.length x1) (map trim xs)) body).
  (** Tables after a table: all their lines are rows to the reader, the header rows and the delimiter lines below them included. *)
  Inductive more_rows : list node -> list (list str) -> Prop :=
  | mr_none : more_rows [] []
  | mr_headed t c1 cellss x1 xss ts rs : headed_table E t c1 cellss x1 xss -> more_rows ts rs -> more_rows (t :: ts) (x1 :: repeat (s "---") (List.length x1) :: body_rows cellss xss ++ rs)
  | mr_headless t xss ts rs : headless_table t xss -> more_rows ts rs -> more_rows (t :: ts) (xss ++ rs).
  (** Tables without header rows in a row: all their rows are lines of one text. *)
  Inductive headless_tables : list node -> list (list str) -> Prop :=
  | ht_one t xss : headless_table t xss -> headless_tables [t] xss
  | ht_cons t xss ts yss : headless_table t xss -> headless_tables ts yss -> headless_tables (t :: ts) (xss ++ yss).
  (** Decision lists in a row: the last decision of one and the first of the next are one quote with one text; all others stay quotes of their own. *)
  Definition quoted (ls : list str) : list event := [EQuote; EPara ls; EEnd].
  Definition decision_list (d : node) (lss : list (list str)) : Prop :=
    n_kind d = KdecisionList /\ exists cs, n_content d = Items cs /\ cs <> [] /\ Forall2 (decision_seen E) cs (map quoted lss).
  Inductive decision_lists : list node -> list (list str) -> Prop :=
  | dl_one d lss : decision_list d lss -> decision_lists [d] lss
  | dl_cons d lss l ds m mss : decision_list d (lss ++ [l]) -> decision_lists ds (m :: mss) -> decision_lists (d :: ds) (lss ++ (l ++ m) :: mss).
  (** How a block begins: with the marker of a list item, with the sign of a quote, or otherwise; how it ends: inside an item, inside a quote, or neither. *)
  Inductive opening := Marker | Quoted | Plain.
  Inductive ending := InItem | InQuote | Outside.
  (** What starts an item or a quote ends what is open before it, except that a quote goes on in a quote. *)
  Definition parted (e : ending) (o : opening) : Prop := o = Marker \/ (o = Quoted /\ e <> InQuote).
  (** Blocks without line breaks around them. *)
  Inductive base : list node -> list event -> opening -> ending -> Prop :=
  | bs_tasks ts es : task_lists ts es -> base ts es Marker InItem
  | bs_decisions ds lss : decision_lists ds lss -> base ds (flat_map quoted lss) Quoted InQuote
  | bs_table t c1 cellss x1 xss ts rs : headed_table E t c1 cellss x1 xss -> more_rows ts rs -> base (t :: ts) [table_event x1 (body_rows cellss xss ++ rs)] Plain Outside
  | bs_headless ts xss : headless_tables ts xss -> base ts [EPara (map row_line xss)] Plain Outside.
  (** Such blocks and the text after them, which goes into them. *)
  Inductive part : list node -> list event -> nat -> opening -> ending -> Prop :=
  | pt_base l es o e : base l es o e -> part l es 0 o e
  | pt_text l es o e ps ls b : base l es o e -> texts ps ls b -> part (l ++ ps) (extended ls es) b o e
  | pt_only ps ls b : texts ps ls b -> part ps [EPara ls] b Plain Outside.
  (** Parts in a row without an empty line that a reader still keeps apart. *)
  Inductive close_run : list node -> list event -> nat -> ending -> Prop :=
  | cr_one l es b o e : part l es b o e -> close_run l es b e
  | cr_then l es e l' es' b o e' : close_run l es 0 e -> part l' es' b o e' -> parted e o -> close_run (l ++ l') (es ++ es') b e'.
  (** Whole documents. *)
  Inductive flow : list node -> nat -> list event -> nat -> Prop :=
  | fl_apart l a es b : all_seen E l a es b -> flow l a es b
  | fl_close l es b e : close_run l es b e -> flow l 0 es b
  | fl_then l1 a1 e1 b1 l2 a2 e2 b2 : flow l1 a1 e1 b1 -> flow l2 a2 e2 b2 -> 1 <= b1 + a2 -> flow (l1 ++ l2) a1 (e1 ++ e2) b2.
End Flow.
