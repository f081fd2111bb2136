(** C87: documents in which blocks run together, as a Markdown reader reads them.  Vocabulary: SpecReader.v ([read]), SpecSeen.v, SpecFlow.v. *)
From Coq Require Import List NArith ZArith Bool String Lia.
From Verif Require Import PyStr Values Schema Parse Date Markdown Basics StrFacts MarkFacts Collapse SpecParse ParseFacts4 MdFacts SpecMd MdFacts2 LeafFacts LayoutFacts SpecErr ErrFacts SpecList ListFacts2 SpecTable TableFacts
  SpecReader SpecSeen ReaderFacts ReaderFacts2 ReaderFacts3 ReaderFacts4 ReaderFacts5 ReaderFacts6 ReaderFacts7 ReaderFacts8 ReaderFacts9 ReaderFacts10 Properties_Marks Properties_Nodes Properties_Layout Properties_Table Properties_Lists Properties_Size Properties_Reader Properties_Reader2 SpecFlow FlowFacts.
Import ListNotations.
Open Scope string_scope.
Open Scope list_scope.
Open Scope nat_scope.

(** What the reader gets of a whole document, runs of blocks included. *)
Theorem C87_document : forall E n blocks a es b ign, is_document n blocks -> flow E blocks a es b ->
  exists out, to_markdown E n ign = Ok (VStr out) /\ read out = es.
Proof.
  intros E n blocks a es b ign HD HS. destruct HD as ((w & v & HP) & HK & HI). pose proof (parse_consistent _ _ _ HP) as HC. pose proof (consistent_items _ _ HC HI) as HCC.
  destruct (flow_presents E blocks a es b HS HCC) as (y & (xs & HF & <-) & HPR). exists (strip_double_empty_line (join nl (zip_with laid_out blocks xs))). split.
  - apply C27_document; [split; [eauto|split; assumption]|exact HF].
  - exact (presents_read _ _ _ _ (presents_strip _ _ _ _ HPR)).
Qed.
(** Two descriptions of the same blocks agree. *)
Theorem C87_unambiguous : forall E n blocks a es b a' es' b', is_document n blocks -> flow E blocks a es b -> flow E blocks a' es' b' -> es = es'.
Proof.
  intros E n blocks a es b a' es' b' HD H1 H2. destruct (C87_document E n blocks a es b false HD H1) as (o1 & R1 & <-). destruct (C87_document E n blocks a' es' b' false HD H2) as (o2 & R2 & <-).
  rewrite R1 in R2. now apply okstr_inj in R2 as ->.
Qed.
(** The blocks before and after: none, or blocks with a line break in between. *)
Definition blocks_before (E : runtime) (l : list node) (es : list event) : Prop := l = [] /\ es = [] \/ exists a b, flow E l a es b /\ 1 <= b.
Definition blocks_after (E : runtime) (breaks : nat) (l : list node) (es : list event) : Prop := l = [] /\ es = [] \/ exists a b, flow E l a es b /\ 1 <= breaks + a.
Lemma in_place E before e0 l a es b after e1 : blocks_before E before e0 -> flow E l a es b -> blocks_after E b after e1 -> exists a' b', flow E (before ++ l ++ after) a' (e0 ++ es ++ e1) b'.
Proof.
  intros H0 H H1. assert (HA : exists a2 b2, flow E (l ++ after) a2 (es ++ e1) b2 /\ a <= a2).
  { destruct H1 as [[-> ->]|(a1 & b1 & H1 & HB1)]; [rewrite !app_nil_r; exists a, b; auto|]. exists a, b1. split; [now apply fl_then with b a1|lia]. }
  destruct HA as (a2 & b2 & HA & _). destruct H0 as [[-> ->]|(a0 & b0 & H0 & HB0)]; [exists a2, b2; exact HA|]. exists a0, b2. apply fl_then with b0 a2; [exact H0|exact HA|lia].
Qed.
(** Text directly after task lists never stands as a text of its own: it is read as further lines of the last task, wherever they are in the document. *)
Theorem C87_text_after_tasks : forall E n before ts ps after e0 es ls b e1 ign,
  is_document n (before ++ (ts ++ ps) ++ after) -> blocks_before E before e0 -> task_lists E ts es -> texts E ps ls b -> blocks_after E b after e1 ->
  exists out pre l k, to_markdown E n ign = Ok (VStr out) /\ es = pre ++ EPara l :: repeat EEnd k /\ 0 < k /\
    read out = e0 ++ (pre ++ EPara (l ++ ls) :: repeat EEnd k) ++ e1.
Proof.
  intros E n before ts ps after e0 es ls b e1 ign HD H0 HT HP H1. destruct (in_place E _ _ _ _ _ _ _ _ H0 (fl_close E _ _ _ _ (cr_one E _ _ _ _ _ (pt_text E _ _ _ _ _ _ _ (bs_tasks E ts es HT) HP))) H1) as (a' & b' & HF).
  destruct (C87_document E n _ _ _ _ ign HD HF) as (out & HM & HR). destruct (task_lists_end E ts es HT) as (pre & l & k & -> & HK). exists out, pre, l, k. rewrite extended_last in HR. auto.
Qed.
(** The same after a decision list (or several in a row): the text joins the quote of the last decision. *)
Theorem C87_text_after_decisions : forall E n before ds ps after e0 lss l ls b e1 ign,
  is_document n (before ++ (ds ++ ps) ++ after) -> blocks_before E before e0 -> decision_lists E ds (lss ++ [l]) -> texts E ps ls b -> blocks_after E b after e1 ->
  exists out, to_markdown E n ign = Ok (VStr out) /\
    read out = e0 ++ (flat_map (fun q => [EQuote; EPara q; EEnd]) lss ++ [EQuote; EPara (l ++ ls); EEnd]) ++ e1.
Proof.
  intros E n before ds ps after e0 lss l ls b e1 ign HD H0 HDS HP H1. destruct (in_place E _ _ _ _ _ _ _ _ H0 (fl_close E _ _ _ _ (cr_one E _ _ _ _ _ (pt_text E _ _ _ _ _ _ _ (bs_decisions E ds _ HDS) HP))) H1) as (a' & b' & HF).
  destruct (C87_document E n _ _ _ _ ign HD HF) as (out & HM & HR). exists out. split; [exact HM|]. rewrite flat_map_app in HR. cbn [flat_map quoted app] in HR.
  pose proof (extended_last ls (flat_map quoted lss ++ [EQuote]) l 1) as HX. rewrite <- !app_assoc in HX. cbn [app repeat] in HX. rewrite HX in HR. exact HR.
Qed.
(** Decision lists in a row: the first decision of one joins the quote of the last decision before it. *)
Theorem C87_decisions_after_decisions : forall E n before d1 d2 after e0 lss l m mss e1 ign,
  is_document n (before ++ [d1; d2] ++ after) -> blocks_before E before e0 -> decision_list E d1 (lss ++ [l]) -> decision_list E d2 (m :: mss) -> blocks_after E 0 after e1 ->
  exists out, to_markdown E n ign = Ok (VStr out) /\
    read out = e0 ++ (flat_map (fun q => [EQuote; EPara q; EEnd]) lss ++ [EQuote; EPara (l ++ m); EEnd] ++ flat_map (fun q => [EQuote; EPara q; EEnd]) mss) ++ e1.
Proof.
  intros E n before d1 d2 after e0 lss l m mss e1 ign HD H0 HD1 HD2 H1.
  destruct (in_place E _ _ _ _ _ _ _ _ H0 (fl_close E _ _ _ _ (cr_one E _ _ _ _ _ (pt_base E _ _ _ _ (bs_decisions E _ _ (dl_cons E _ _ _ _ _ _ HD1 (dl_one E _ _ HD2)))))) H1) as (a' & b' & HF).
  destruct (C87_document E n _ _ _ _ ign HD HF) as (out & HM & HR). exists out. split; [exact HM|]. rewrite flat_map_app in HR. exact HR.
Qed.
(** The same after a table: every line of the text becomes a row. *)
Theorem C87_text_after_table : forall E n before t ps after e0 c1 cellss x1 xss ls b e1 ign,
  is_document n (before ++ (t :: ps) ++ after) -> blocks_before E before e0 -> headed_table E t c1 cellss x1 xss -> texts E ps ls b -> blocks_after E b after e1 ->
  exists out, to_markdown E n ign = Ok (VStr out) /\ read out = e0 ++ ETable (map trim x1) (map (fun xs => fit (List.length x1) (map trim xs)) (body_rows cellss xss) ++ map (fun l => fit (List.length x1) (cells l)) ls) :: e1.
Proof.
  intros E n before t ps after e0 c1 cellss x1 xss ls b e1 ign HD H0 HT HP H1. destruct (in_place E _ _ _ _ _ _ _ _ H0 (fl_close E _ _ _ _ (cr_one E _ _ _ _ _ (pt_text E _ _ _ _ _ _ _ (bs_table E t c1 cellss x1 xss [] [] HT (mr_none E)) HP))) H1) as (a' & b' & HF).
  destruct (C87_document E n _ _ _ _ ign HD HF) as (out & HM & HR). exists out. split; [exact HM|]. rewrite HR, app_nil_r. unfold table_event. pose proof (extended_table ls [] (map trim x1) (map (fun xs => fit (List.length x1) (map trim xs)) (body_rows cellss xss))) as HX.
  cbn [app] in HX. rewrite HX, map_length. reflexivity.
Qed.
(** Tables directly after a table become rows of it: their header rows and delimiter lines too, cut and filled to its width. *)
Theorem C87_table_after_table : forall E n before t ts after e0 c1 cellss x1 xss rs e1 ign,
  is_document n (before ++ (t :: ts) ++ after) -> blocks_before E before e0 -> headed_table E t c1 cellss x1 xss -> more_rows E ts rs -> blocks_after E 0 after e1 ->
  exists out, to_markdown E n ign = Ok (VStr out) /\ read out = e0 ++ ETable (map trim x1) (map (fun xs => fit (List.length x1) (map trim xs)) (body_rows cellss xss ++ rs)) :: e1.
Proof.
  intros E n before t ts after e0 c1 cellss x1 xss rs e1 ign HD H0 HT HM H1.
  destruct (in_place E _ _ _ _ _ _ _ _ H0 (fl_close E _ _ _ _ (cr_one E _ _ _ _ _ (pt_base E _ _ _ _ (bs_table E t c1 cellss x1 xss ts rs HT HM)))) H1) as (a' & b' & HF).
  exact (C87_document E n _ _ _ _ ign HD HF).
Qed.
(** Two blocks side by side without an empty line, the second of which begins an item or (not after a quote) a quote: the reader gets both, none inside the other. *)
Theorem C87_side_by_side : forall E n before l1 l2 after e0 es1 o1 n1 es2 o2 n2 e1 ign,
  is_document n (before ++ (l1 ++ l2) ++ after) -> blocks_before E before e0 -> base E l1 es1 o1 n1 -> base E l2 es2 o2 n2 ->
  o2 = Marker \/ o2 = Quoted /\ n1 <> InQuote -> blocks_after E 0 after e1 ->
  exists out, to_markdown E n ign = Ok (VStr out) /\ read out = e0 ++ (es1 ++ es2) ++ e1.
Proof.
  intros E n before l1 l2 after e0 es1 o1 n1 es2 o2 n2 e1 ign HD H0 HB1 HB2 HP H1.
  destruct (in_place E _ _ _ _ _ _ _ _ H0 (fl_close E _ _ _ _ (cr_then E _ _ _ _ _ _ _ _ (cr_one E _ _ _ _ _ (pt_base E _ _ _ _ HB1)) (pt_base E _ _ _ _ HB2) HP)) H1) as (a' & b' & HF).
  exact (C87_document E n _ _ _ _ ign HD HF).
Qed.

(** ---------------------------------------------------------------- examples *)
Lemma para_block n cs xs ls : n_kind n = Kparagraph -> bare n -> n_content n = Items cs -> Forall2 (renders rt0) cs xs ->
  Forall text_line (split_on NL (List.concat xs)) -> split_on NL (List.concat xs) = ls -> text_block rt0 n ls 1.
Proof. intros H1 H2 H3 H4 H5 <-. now apply tb_para with (cs := cs). Qed.
Ltac one_text x := apply tx_one; refine (para_block _ _ [x] _ _ _ _ _ _ _); [reflexivity|discriminate|reflexivity|xs_render|lines_ok|vm_compute; reflexivity].
Lemma intro_flow ps ls b : texts rt0 ps ls b -> flow rt0 ps 0 [EPara ls] b.
Proof. intros H. apply fl_close with Outside. apply cr_one with Plain. now apply pt_only. Qed.
(** An introduction, two task lists (the first with a nested list), a text; decisions, a text; a table, a text; a table without a header row, a text. *)
Definition ex_flow_value : value := ex_doc
  [ex_p "intro"; ex_tl [ex_task "TODO" [tx "a"]]; ex_tl [ex_task "DONE" [tx "b"]; ex_tl [ex_task "TODO" [tx "deep"]]]; ex_p "after tasks";
   ex_decisions ["yes"; "no"]; ex_p "after decisions"; ex_table [[("tableHeader", "A")]; [("tableCell", "1")]]; ex_p "after table"; ex_table [[("tableCell", "c")]; [("tableCell", "d")]]; ex_p "end"].
Definition ex_flow_events : list event :=
  [EPara [s "intro"]] ++
  ([EBullet; EPara [s "[ ] a"]; EEnd; EBullet; EPara [s "[x] b"]; EBullet; EPara [s "[ ] deep"; s "after tasks"]; EEnd; EEnd] ++
  ([EQuote; EPara [s "yes"]; EEnd; EQuote; EPara [s "no"; s "after decisions"]; EEnd] ++
  ([ETable [s "A"] [[s "1"]; [s "after table"]]] ++ [EPara [s "| c |"; s "| d |"; s "end"]]))).
Ltac s_decisions := repeat (apply Forall2_cons; [split; [reflexivity|]; do 2 eexists; split; [reflexivity|]; split; [xs_render|]; split; [|vm_compute; reflexivity]; lines_ok|]); apply Forall2_nil.
Ltac dl := split; [reflexivity|]; eexists; split; [reflexivity|]; split; [discriminate|]; cbn [map quoted]; s_decisions.
Lemma text_flow l es0 o e ps ls b es : base rt0 l es0 o e -> texts rt0 ps ls b -> extended ls es0 = es -> flow rt0 (l ++ ps) 0 es b.
Proof. intros H1 H2 <-. apply fl_close with e. apply cr_one with o. now apply pt_text. Qed.
Example C87_example : is_document (get ex_flow_value) (blocks_of (get ex_flow_value)) /\ flow rt0 (blocks_of (get ex_flow_value)) 0 ex_flow_events 1.
Proof.
  split; [apply document_get; vm_compute; reflexivity|].
  match goal with |- flow _ ?l _ _ _ => let l' := eval vm_compute in l in change l with l' end. unfold ex_flow_events.
  match goal with |- flow _ (?i :: ?t1 :: ?t2 :: ?p1 :: ?d :: ?p2 :: ?t :: ?p3 :: ?u :: ?p4 :: nil) _ _ _ =>
    change (i :: t1 :: t2 :: p1 :: d :: p2 :: t :: p3 :: u :: p4 :: nil) with ([i] ++ (([t1; t2] ++ [p1]) ++ ([d; p2] ++ ([t; p3] ++ [u; p4])))) end.
  apply fl_then with 1 0; [apply intro_flow; one_text (s "intro")| |lia]. apply fl_then with 1 0; [| |lia].
  { refine (text_flow _ ([EBullet; EPara [s "[ ] a"]; EEnd] ++ [EBullet; EPara [s "[x] b"]; EBullet; EPara [s "[ ] deep"]; EEnd; EEnd]) Marker InItem _ [s "after tasks"] 1 _ _ _ _); [|one_text (s "after tasks")|vm_compute; reflexivity].
    apply bs_tasks. eapply tk_cons; [reflexivity|reflexivity|discriminate| |].
    - refine (ts_cons rt0 _ _ [s "a"] (VStr (s "TODO")) false (s "a") [] [] [] [] [] _ _ _ _ _ _ _ _ _ _); task_ok; constructor.
    - eapply tk_one; [reflexivity|reflexivity|discriminate|].
      refine (ts_cons rt0 _ _ [s "b"] (VStr (s "DONE")) true (s "b") [] [_] [EBullet; EPara [s "[ ] deep"]; EEnd] [] [] _ _ _ _ _ _ _ _ _ _); task_ok; [|constructor].
      change [EBullet; EPara [s "[ ] deep"]; EEnd] with ([EBullet; EPara [s "[ ] deep"]; EEnd] ++ []). eapply nt_cons; [reflexivity|reflexivity|discriminate| |constructor].
      refine (ts_cons rt0 _ _ [s "deep"] (VStr (s "TODO")) false (s "deep") [] [] [] [] [] _ _ _ _ _ _ _ _ _ _); task_ok; constructor. }
  apply fl_then with 1 0; [| |lia].
  { refine (text_flow [_] (flat_map quoted [[s "yes"]; [s "no"]]) Quoted InQuote _ [s "after decisions"] 1 _ _ _ _); [apply bs_decisions, dl_one; dl|one_text (s "after decisions")|vm_compute; reflexivity]. }
  apply fl_then with 1 0; [| |lia].
  { refine (text_flow [_] _ Plain Outside _ [s "after table"] 1 _ (bs_table rt0 _ _ _ [s "A"] [[s "1"]] [] [] _ (mr_none rt0)) _ _); [headed|one_text (s "after table")|vm_compute; reflexivity]. }
  refine (text_flow [_] _ Plain Outside _ [s "end"] 1 _ (bs_headless rt0 _ [[s "c"]; [s "d"]] (ht_one rt0 _ _ _)) _ _); [|one_text (s "end")|vm_compute; reflexivity].
  split; [reflexivity|]. do 2 eexists. split; [reflexivity|]. split; [discriminate|]. split; [rows_ok|]. split.
  { repeat (apply Forall_cons; [intros (c & r & H & HK); injection H as <- _; discriminate HK|]). apply Forall_nil. }
  split; [cells_ok|]. split; [no_chars|]. repeat constructor.
Qed.
Ltac is_before x := right; exists 0, 1; split; [apply intro_flow; one_text x|lia].
Ltac is_after x := right; exists 0, 1; split; [apply intro_flow; one_text x|lia].
Example C87_text_after_tasks_example : let v := ex_doc [ex_p "intro"; ex_tl [ex_task "TODO" [tx "a"]]; ex_p "after"; ex_p "end"] in
  exists i t p e, is_document (get v) ([i] ++ ([t] ++ [p]) ++ [e]) /\ blocks_before rt0 [i] [EPara [s "intro"]] /\ task_lists rt0 [t] [EBullet; EPara [s "[ ] a"]; EEnd] /\
    texts rt0 [p] [s "after"] 1 /\ blocks_after rt0 1 [e] [EPara [s "end"]].
Proof.
  intros v. do 4 eexists. split; [split; [exists true, v; vm_compute; reflexivity|split; vm_compute; reflexivity]|]. split; [is_before (s "intro")|]. split; [|split; [one_text (s "after")|is_after (s "end")]].
  eapply tk_one; [reflexivity|reflexivity|discriminate|]. refine (ts_cons rt0 _ _ [s "a"] (VStr (s "TODO")) false (s "a") [] [] [] [] [] _ _ _ _ _ _ _ _ _ _); task_ok; constructor.
Qed.
Example C87_text_after_decisions_example : let v := ex_doc [ex_p "intro"; ex_decisions ["yes"; "no"]; ex_p "after"; ex_p "end"] in
  exists i d p e, is_document (get v) ([i] ++ ([d] ++ [p]) ++ [e]) /\ blocks_before rt0 [i] [EPara [s "intro"]] /\ decision_lists rt0 [d] ([[s "yes"]] ++ [[s "no"]]) /\
    texts rt0 [p] [s "after"] 1 /\ blocks_after rt0 1 [e] [EPara [s "end"]].
Proof.
  intros v. do 4 eexists. split; [split; [exists true, v; vm_compute; reflexivity|split; vm_compute; reflexivity]|]. split; [is_before (s "intro")|].
  split; [apply dl_one; cbn [app]; dl|]. split; [one_text (s "after")|is_after (s "end")].
Qed.
Example C87_decisions_after_decisions_example : let v := ex_doc [ex_p "intro"; ex_decisions ["a"; "b"]; ex_decisions ["c"; "d"]] in
  exists i d1 d2, is_document (get v) ([i] ++ [d1; d2] ++ []) /\ blocks_before rt0 [i] [EPara [s "intro"]] /\ decision_list rt0 d1 ([[s "a"]] ++ [[s "b"]]) /\ decision_list rt0 d2 ([s "c"] :: [[s "d"]]) /\ blocks_after rt0 0 [] [].
Proof.
  intros v. do 3 eexists. split; [split; [exists true, v; vm_compute; reflexivity|split; vm_compute; reflexivity]|]. split; [is_before (s "intro")|].
  split; [cbn [app]; dl|]. split; [dl|left; split; reflexivity].
Qed.
Example C87_text_after_table_example : let v := ex_doc [ex_p "intro"; ex_table [[("tableHeader", "A")]; [("tableCell", "1")]]; ex_p "after"; ex_p "end"] in
  exists i t p e c1 cellss, is_document (get v) ([i] ++ (t :: [p]) ++ [e]) /\ blocks_before rt0 [i] [EPara [s "intro"]] /\ headed_table rt0 t c1 cellss [s "A"] [[s "1"]] /\
    texts rt0 [p] [s "after"] 1 /\ blocks_after rt0 1 [e] [EPara [s "end"]].
Proof.
  intros v. do 6 eexists. split; [split; [exists true, v; vm_compute; reflexivity|split; vm_compute; reflexivity]|]. split; [is_before (s "intro")|]. split; [headed|]. split; [one_text (s "after")|is_after (s "end")].
Qed.
Lemma four_blocks t d l f e1 e2 e3 e4 : base rt0 [t] e1 Plain Outside -> base rt0 [d] e2 Quoted InQuote -> base rt0 [l] e3 Marker InItem -> base rt0 [f] e4 Quoted InQuote ->
  flow rt0 [t; d; l; f] 0 (e1 ++ e2 ++ e3 ++ e4) 0.
Proof.
  intros H1 H2 H3 H4. apply fl_close with InQuote. apply pt_base in H1, H2, H3, H4.
  assert (H12 : close_run rt0 [t; d] (e1 ++ e2) 0 InQuote) by (change [t; d] with ([t] ++ [d]); apply (cr_then rt0 [t] e1 Outside [d] e2 0 Quoted); [now apply cr_one with Plain|exact H2|right; split; [reflexivity|discriminate]]).
  assert (H123 : close_run rt0 [t; d; l] ((e1 ++ e2) ++ e3) 0 InItem) by (change [t; d; l] with ([t; d] ++ [l]); apply (cr_then rt0 [t; d] (e1 ++ e2) InQuote [l] e3 0 Marker); [exact H12|exact H3|now left]).
  replace (e1 ++ e2 ++ e3 ++ e4) with (((e1 ++ e2) ++ e3) ++ e4) by (now rewrite <- !app_assoc). change [t; d; l; f] with ([t; d; l] ++ [f]).
  apply (cr_then rt0 [t; d; l] ((e1 ++ e2) ++ e3) InItem [f] e4 0 Quoted); [exact H123|exact H4|right; split; [reflexivity|discriminate]].
Qed.
Lemma behind_intro i e0 l es b : flow rt0 [i] 0 e0 1 -> flow rt0 l 0 es b -> flow rt0 (i :: l) 0 (e0 ++ es) b.
Proof. intros H1 H2. exact (fl_then rt0 [i] 0 e0 1 l 0 es b H1 H2 (le_n 1)). Qed.
Lemma base_is l es o e es' : base rt0 l es o e -> es = es' -> base rt0 l es' o e. Proof. now intros H <-. Qed.
(** A table, decisions after it, a task after them, decisions after that: four blocks in a row without an empty line, all kept apart. *)
Example C87_side_by_side_example : let v := ex_doc [ex_p "intro"; ex_table [[("tableHeader", "A")]; [("tableCell", "1")]]; ex_decisions ["yes"]; ex_tl [ex_task "TODO" [tx "a"]]; ex_decisions ["no"]] in
  exists i t d1 tl d2, is_document (get v) [i; t; d1; tl; d2] /\ blocks_before rt0 [i] [EPara [s "intro"]] /\
    base rt0 [t] [ETable [s "A"] [[s "1"]]] Plain Outside /\ base rt0 [d1] [EQuote; EPara [s "yes"]; EEnd] Quoted InQuote /\
    base rt0 [tl] [EBullet; EPara [s "[ ] a"]; EEnd] Marker InItem /\ base rt0 [d2] [EQuote; EPara [s "no"]; EEnd] Quoted InQuote /\
    flow rt0 [i; t; d1; tl; d2] 0 ([EPara [s "intro"]] ++ [ETable [s "A"] [[s "1"]]] ++ [EQuote; EPara [s "yes"]; EEnd] ++ [EBullet; EPara [s "[ ] a"]; EEnd] ++ [EQuote; EPara [s "no"]; EEnd]) 0.
Proof.
  intros v. do 5 eexists. split; [split; [exists true, v; vm_compute; reflexivity|split; vm_compute; reflexivity]|]. split; [is_before (s "intro")|].
  match goal with |- base _ [?t] _ _ _ /\ base _ [?d] _ _ _ /\ base _ [?l] _ _ _ /\ base _ [?f] _ _ _ /\ _ =>
    assert (H1 : base rt0 [t] [ETable [s "A"] [[s "1"]]] Plain Outside) by (refine (base_is _ _ _ _ _ (bs_table rt0 _ _ _ [s "A"] [[s "1"]] [] [] _ (mr_none rt0)) _); [headed|vm_compute; reflexivity]);
    assert (H2 : base rt0 [d] [EQuote; EPara [s "yes"]; EEnd] Quoted InQuote) by (refine (base_is _ (flat_map quoted [[s "yes"]]) _ _ _ _ _); [apply bs_decisions, dl_one; dl|vm_compute; reflexivity]);
    assert (H3 : base rt0 [l] [EBullet; EPara [s "[ ] a"]; EEnd] Marker InItem) by (apply bs_tasks; eapply tk_one; [reflexivity|reflexivity|discriminate|]; refine (ts_cons rt0 _ _ [s "a"] (VStr (s "TODO")) false (s "a") [] [] [] [] [] _ _ _ _ _ _ _ _ _ _); task_ok; constructor);
    assert (H4 : base rt0 [f] [EQuote; EPara [s "no"]; EEnd] Quoted InQuote) by (refine (base_is _ (flat_map quoted [[s "no"]]) _ _ _ _ _); [apply bs_decisions, dl_one; dl|vm_compute; reflexivity]) end.
  split; [exact H1|]. split; [exact H2|]. split; [exact H3|]. split; [exact H4|].
  apply behind_intro; [apply intro_flow; one_text (s "intro")|]. now apply four_blocks.
Qed.
Lemma one_more t c1 cellss x1 xss rs : headed_table rt0 t c1 cellss x1 xss -> x1 :: repeat (s "---") (List.length x1) :: body_rows cellss xss ++ [] = rs -> more_rows rt0 [t] rs.
Proof. intros HT <-. exact (mr_headed rt0 t c1 cellss x1 xss [] [] HT (mr_none rt0)). Qed.
Example C87_table_after_table_example : let v := ex_doc [ex_p "intro"; ex_table [[("tableHeader", "A"); ("tableHeader", "B")]; [("tableCell", "1"); ("tableCell", "2")]]; ex_table [[("tableHeader", "C")]; [("tableCell", "3")]]] in
  exists i t u c1 cellss, is_document (get v) ([i] ++ (t :: [u]) ++ []) /\ blocks_before rt0 [i] [EPara [s "intro"]] /\ headed_table rt0 t c1 cellss [s "A"; s "B"] [[s "1"; s "2"]] /\
    more_rows rt0 [u] [[s "C"]; [s "---"]; [s "3"]] /\ blocks_after rt0 0 [] [].
Proof.
  intros v. do 5 eexists. split; [split; [exists true, v; vm_compute; reflexivity|split; vm_compute; reflexivity]|]. split; [is_before (s "intro")|]. split; [headed|]. split; [|left; split; reflexivity].
  refine (one_more _ _ _ [s "C"] [[s "3"]] _ _ _); [headed|vm_compute; reflexivity].
Qed.
