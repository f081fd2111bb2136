(** C28-C30: tables.  Vocabulary: SpecTable.v ([boundaries]: unescaped pipes; [row_line], [delimiter_line];
    [is_table n rows cellss]: n was parsed, is a table whose rows contain the given non-empty lists of cells). *)
From Coq Require Import List NArith ZArith Bool String Lia.
From Verif Require Import PyStr Values Schema Parse Date Markdown Basics StrFacts MarkFacts SpecParse ParseFacts4
  MdFacts SpecMd MdFacts2 LeafFacts Collapse LayoutFacts SpecErr ErrFacts SpecTable TableFacts
  Properties_Marks Properties_Nodes Properties_Layout.
Import ListNotations.
Open Scope string_scope.
Open Scope list_scope.

(** ================================================================ C29 *)
(** A cell: the Markdown of its children, line by line; pipes escaped, leading spaces turned into entities,
    lines joined by <br>. *)
Theorem C29_cell : forall E n cs xs ign, is_cell n -> n_content n = Items cs -> Forall2 (renders E) cs xs ->
  exists out, to_markdown E n ign = Ok (VStr out) /\
    forall ls, Forall2 (fun l l' => exists k rest, leading_spaces k rest l /\ l' = nbsp k ++ escape rest)
                       (split_on NL (List.concat xs)) ls ->
    out = join (s "<br>") ls.
Proof.
  intros E n cs xs ign HC HI HF. exists (cell_text (List.concat xs)). split.
  - destruct n as [k ty ve tx a co ma]. unfold is_cell in HC. cbn [n_kind n_content] in *. subst co.
    unfold to_markdown. destruct HC as [->| ->]; cbn [to_md]; unfold table_cell_md;
      rewrite (content_renders E cs xs) by exact HF; reflexivity.
  - intros ls HL. rewrite cell_text_lines. f_equal.
    induction HL as [|l l' ls ls' (k & rest & HS & ->) HL IH]; [reflexivity|]. cbn [map]. rewrite IH. f_equal.
    apply cell_line_spec. now apply leading_escape.
Qed.
(** The line-by-line description above always exists: every line has a number of leading spaces. *)
Theorem C29_every_line_has_leading_spaces : forall l, exists k rest, leading_spaces k rest l.
Proof. intros l. destruct (lstrip_sp_split l) as [k H]. eauto. Qed.
(** Whatever a cell contains, if it renders, its Markdown is a single line and all its pipes are escaped. *)
Theorem C29_single_line : forall E n ign x, is_cell n -> to_markdown E n ign = Ok (VStr x) -> ~ In NL x.
Proof.
  intros E n ign x HC H. destruct (cell_result_cell E n ign x HC H) as [y ->]. apply cell_text_no_nl.
Qed.
Theorem C29_pipes_escaped : forall E n ign x, is_cell n -> to_markdown E n ign = Ok (VStr x) -> pipes_escaped x.
Proof.
  intros E n ign x HC H. destruct (cell_result_cell E n ign x HC H) as [y ->]. apply boundaries_pipes. intros b. apply cell_text_boundaries.
Qed.
(** Text without pipes, newlines and leading spaces is untouched. *)
Theorem C29_plain_cell : forall E n cs xs ign, is_cell n -> n_content n = Items cs -> Forall2 (renders E) cs xs ->
  ~ In NL (List.concat xs) -> ~ In PIPE (List.concat xs) -> (forall r, List.concat xs <> SP :: r) ->
  to_markdown E n ign = Ok (VStr (List.concat xs)).
Proof.
  intros E n cs xs ign HC HI HF H1 H2 H3. destruct (C29_cell E n cs xs ign HC HI HF) as (out & -> & HO).
  rewrite (HO [List.concat xs]); [reflexivity|]. rewrite split_on_notin by exact H1. constructor; [|constructor].
  exists 0, (List.concat xs). split; [split; [reflexivity|exact H3]|]. cbn. now rewrite escape_free.
Qed.
(** Header cells and ordinary cells render alike. *)
Theorem C29_header_like_cell : forall E ty ty' ve tx a a' co ma ign,
  to_markdown E (Node KtableCell ty ve tx a co ma) ign = to_markdown E (Node KtableHeader ty' ve tx a' co ma) ign.
Proof. reflexivity. Qed.
Definition ex_cell (t : string) (cs : list value) : value := VDict [tyv t; (s "content", VList cs)].
Definition ex_t (t : string) : value := VDict [tyv "text"; (s "text", VStr (s t))].
Definition ex_pipe_cell : node := get (ex_cell "tableCell" [ex_t "  a|b"; VDict [tyv "hardBreak"]; ex_t " c"]).
Example C29_example : is_cell ex_pipe_cell /\
  to_markdown rt0 ex_pipe_cell false = Ok (VStr (s "&nbsp;&nbsp;a\|b  <br>&nbsp;c")) /\
  to_markdown rt0 (get (ex_cell "tableHeader" [ex_t "plain"])) false = Ok (VStr (s "plain")).
Proof. split; [left; vm_compute; reflexivity|]. split; vm_compute; reflexivity. Qed.
(** A backslash before a pipe is not itself escaped: cell text [\|] gives [\\|], which a reader may take as an
    escaped backslash followed by a column boundary. *)
Theorem C29_backslash_not_escaped :
  to_markdown rt0 (get (ex_cell "tableCell" [ex_t "a\|b"])) false = Ok (VStr (s "a\\|b")).
Proof. vm_compute. reflexivity. Qed.

(** ================================================================ C28 *)
(** The lines of a table, exactly: one line per row, and a delimiter line as wide as the row after each row
    that starts with a header cell; nothing in a cell can add a line. *)
Theorem C28_lines : forall E n rows cellss xss ign, is_table n rows cellss -> Forall2 (Forall2 (renders E)) cellss xss ->
  rows <> [] ->
  exists out, to_markdown E n ign = Ok (VStr out) /\
    split_on NL out = List.concat (zip_with (fun cells xs =>
      row_line xs :: (if header_rowb cells then [delimiter_line (List.length cells)] else [])) cellss xss).
Proof.
  intros E n rows cellss xss ign HT HX HN. eexists. split; [exact (table_renders E n rows cellss xss ign HT HX)|].
  assert (HZ : zip_with row_lines cellss xss = zip_with (fun cells xs =>
      row_line xs :: (if header_rowb cells then [delimiter_line (List.length cells)] else [])) cellss xss).
  { clear. revert xss. induction cellss as [|c cs IH]; intros [|x xss]; try reflexivity. cbn. rewrite IH.
    unfold row_lines at 1. now destruct (header_rowb c). }
  rewrite <- HZ. destruct HT as (_ & _ & _ & HR). apply split_join_free.
  - destruct HR as [|r cs rows cellss H HR]; [congruence|]. inversion HX; subst. cbn. unfold row_lines at 1.
    destruct (header_rowb cs); discriminate.
  - clear HZ HN. revert xss HX. induction HR as [|r cs rows cellss H HR IH]; intros xss HX; inversion HX; subst; [constructor|].
    cbn [zip_with List.concat]. apply Forall_app. split; [|auto].
    destruct H as (_ & _ & HC & _). unfold row_lines.
    match goal with K : Forall2 (renders E) cs ?y |- _ => pose proof (row_no_nl E cs y HC K) as HNR end.
    destruct (header_rowb cs); repeat constructor; auto using delimiter_no_nl.
Qed.
(** Each row line has one more column boundary than the row has cells, whatever the cells contain; and so has
    the delimiter line. *)
Theorem C28_columns : forall E row cells xs ign x, row_of row cells -> Forall2 (renders E) cells xs ->
  to_markdown E row ign = Ok (VStr x) -> boundaries false x = S (List.length cells).
Proof.
  intros E row cells xs ign x HR HF H. rewrite (row_renders E row cells xs ign HR HF) in H. apply okstr_inj in H. subst x.
  destruct HR as (_ & _ & HC & HN). rewrite (Forall2_len _ _ _ HF). apply row_line_boundaries.
  - intros ->. inversion HF. congruence.
  - eapply cells_boundaries; eassumption.
Qed.
Theorem C28_delimiter_columns : forall n, 0 < n -> boundaries false (delimiter_line n) = S n.
Proof.
  intros n H. unfold delimiter_line. rewrite row_line_boundaries.
  - now rewrite repeat_length.
  - destruct n; [lia|discriminate].
  - intros x Hx b. apply repeat_spec in Hx. subst x. reflexivity.
Qed.
(** A row that starts with a header cell is what [header_rowb] says. *)
Theorem C28_header_row : forall cells, header_row cells <-> header_rowb cells = true.
Proof.
  intros cells. split.
  - intros (c & r & -> & H). cbn. now rewrite H.
  - destruct cells as [|c r]; [discriminate|]. cbn. destruct (n_kind c) eqn:E; try discriminate. intros _. now exists c, r.
Qed.

(** ================================================================ C30 *)
(** A table with a header row: the first row, the delimiter, the remaining rows. *)
Theorem C30_header_row_table : forall E n rows c1 cellss x1 xss ign,
  is_table n rows (c1 :: cellss) -> Forall2 (Forall2 (renders E)) (c1 :: cellss) (x1 :: xss) ->
  header_row c1 -> Forall (fun cells => ~ header_row cells) cellss ->
  exists out, to_markdown E n ign = Ok (VStr out) /\
    split_on NL out = row_line x1 :: delimiter_line (List.length c1) :: map row_line xss.
Proof.
  intros E n rows c1 cellss x1 xss ign HT HX HH HN.
  destruct (C28_lines E n rows (c1 :: cellss) (x1 :: xss) ign HT HX) as (out & HO & HS).
  - destruct HT as (_ & _ & _ & HR). inversion HR. discriminate.
  - exists out. split; [exact HO|]. rewrite HS. cbn [zip_with List.concat]. apply C28_header_row in HH. rewrite HH. cbn [app].
    do 2 f_equal. inversion HX; subst. clear - HN H4. revert xss H4.
    induction HN as [|c cs H HN IH]; intros xss HX; inversion HX; subst; [reflexivity|].
    cbn [zip_with List.concat map]. destruct (header_rowb c) eqn:E'; [exfalso; apply H; now apply C28_header_row|].
    cbn [app]. f_equal. auto.
Qed.
(** A table none of whose rows starts with a header cell has no delimiter line at all ... *)
Theorem C30_no_header_no_delimiter : forall E n rows cellss xss ign,
  is_table n rows cellss -> Forall2 (Forall2 (renders E)) cellss xss -> rows <> [] ->
  Forall (fun cells => ~ header_row cells) cellss ->
  exists out, to_markdown E n ign = Ok (VStr out) /\ split_on NL out = map row_line xss.
Proof.
  intros E n rows cellss xss ign HT HX HN HH. destruct (C28_lines E n rows cellss xss ign HT HX HN) as (out & HO & HS).
  exists out. split; [exact HO|]. rewrite HS. clear - HH HX. revert xss HX.
  induction HH as [|c cs H HN IH]; intros xss HX; inversion HX; subst; [reflexivity|].
  cbn [zip_with List.concat map]. destruct (header_rowb c) eqn:E'; [exfalso; apply H; now apply C28_header_row|].
  cbn [app]. f_equal. auto.
Qed.
(** ... and a table with a header column has one below every row. *)
Theorem C30_header_column_delimiters : forall E n rows cellss xss ign,
  is_table n rows cellss -> Forall2 (Forall2 (renders E)) cellss xss -> rows <> [] ->
  Forall header_row cellss ->
  exists out, to_markdown E n ign = Ok (VStr out) /\
    split_on NL out = List.concat (zip_with (fun cells xs => [row_line xs; delimiter_line (List.length cells)]) cellss xss).
Proof.
  intros E n rows cellss xss ign HT HX HN HH. destruct (C28_lines E n rows cellss xss ign HT HX HN) as (out & HO & HS).
  exists out. split; [exact HO|]. rewrite HS. clear - HH HX. revert xss HX.
  induction HH as [|c cs H HN IH]; intros xss HX; inversion HX; subst; [reflexivity|].
  cbn [zip_with List.concat map]. apply C28_header_row in H. rewrite H. cbn [app]. do 2 f_equal. auto.
Qed.
(** Each of the two is a counterexample to "exactly one delimiter line below the first row". *)
Definition ex_table (rows : list (list (string * string))) : value :=
  VDict [tyv "table"; (s "content", VList (map (fun r =>
    VDict [tyv "tableRow"; (s "content", VList (map (fun c => ex_cell (fst c) [ex_t (snd c)]) r))]) rows))].
Definition ex_header_table : node :=
  get (ex_table [[("tableHeader", "A"); ("tableHeader", "B|C")]; [("tableCell", "1"); ("tableCell", "2")]]).
Definition ex_column_table : node :=
  get (ex_table [[("tableHeader", "A"); ("tableCell", "1")]; [("tableHeader", "B"); ("tableCell", "2")]]).
Definition ex_plain_table : node := get (ex_table [[("tableCell", "A")]; [("tableCell", "1")]]).
Theorem C30_one_delimiter_refuted :
  to_markdown rt0 ex_column_table false =
    Ok (VStr (join nl [s "| A | 1 |"; s "| --- | --- |"; s "| B | 2 |"; s "| --- | --- |"])) /\
  to_markdown rt0 ex_plain_table false = Ok (VStr (join nl [s "| A |"; s "| 1 |"])).
Proof. split; vm_compute; reflexivity. Qed.

Definition rows_of (n : node) : list node := match n_content n with Items l => l | _ => [] end.
Definition table_like (n : node) : bool :=
  (match n_kind n with Ktable => true | _ => false end) &&
  (match n_content n with
   | Items rows => forallb (fun r => (match n_kind r with KtableRow => true | _ => false end) &&
       match n_content r with
       | Items (c :: l) => forallb (fun c => match n_kind c with KtableCell | KtableHeader => true | _ => false end) (c :: l)
       | _ => false end) rows
   | _ => false end).
Lemma is_table_get v : (match snd (parse_node true v) with Ok n => table_like n | Err _ => false end) = true ->
  is_table (get v) (rows_of (get v)) (map rows_of (rows_of (get v))).
Proof.
  unfold get. destruct (snd (parse_node true v)) as [n|] eqn:E; [|discriminate]. unfold table_like. intros H.
  apply andb_true_iff in H as [HK HC]. split; [eauto|]. destruct (n_kind n); try discriminate. split; [reflexivity|].
  unfold rows_of at 1 2 4. destruct (n_content n) as [| |rows|]; try discriminate. split; [reflexivity|].
  induction rows as [|r rows IH]; [constructor|]. cbn [forallb map] in *. apply andb_true_iff in HC as [HR HC].
  constructor; [|auto]. apply andb_true_iff in HR as [H1 H2]. unfold row_of, rows_of.
  destruct (n_kind r); try discriminate. split; [reflexivity|]. destruct (n_content r) as [| |[|c l]|]; try discriminate.
  split; [reflexivity|]. split; [|discriminate]. apply Forall_forall. intros x Hx.
  change (forallb (fun c => match n_kind c with KtableCell | KtableHeader => true | _ => false end) (c :: l) = true) in H2.
  rewrite forallb_forall in H2.
  specialize (H2 x Hx). unfold is_cell. destruct (n_kind x); try discriminate; auto.
Qed.
Example C28_example : is_table ex_header_table (rows_of ex_header_table) (map rows_of (rows_of ex_header_table)) /\
  Forall2 (Forall2 (renders rt0)) (map rows_of (rows_of ex_header_table)) [[s "A"; s "B\|C"]; [s "1"; s "2"]] /\
  header_row (hd [] (map rows_of (rows_of ex_header_table))) /\
  Forall (fun cells => ~ header_row cells) (tl (map rows_of (rows_of ex_header_table))) /\
  to_markdown rt0 ex_header_table false = Ok (VStr (join nl [s "| A | B\|C |"; s "| --- | --- |"; s "| 1 | 2 |"])).
Proof.
  split; [apply is_table_get; vm_compute; reflexivity|]. split; [|split; [|split; [|vm_compute; reflexivity]]].
  - match goal with |- Forall2 _ ?l _ => let l' := eval vm_compute in l in change l with l' end.
    repeat (apply Forall2_cons || apply Forall2_nil); vm_compute; reflexivity.
  - apply C28_header_row. vm_compute. reflexivity.
  - match goal with |- Forall _ ?l => let l' := eval vm_compute in l in change l with l' end.
    constructor; [|constructor]. intros H. apply C28_header_row in H. vm_compute in H. discriminate.
Qed.
