(** C75: a Markdown reader recovers the block structure of a document.  Vocabulary: SpecReader.v ([read]: the events a reader of
    GitHub Flavored Markdown reports for a text; written after the CommonMark algorithm, independent of /repo) and SpecSeen.v
    ([all_seen E blocks a es b]: the blocks should be read as the events es). *)
From Coq Require Import List NArith ZArith Bool String Lia.
From Verif Require Import PyStr Values Schema Parse Date Markdown Basics StrFacts MarkFacts Collapse SpecParse ParseFacts4 MdFacts SpecMd MdFacts2 LeafFacts LayoutFacts SpecErr ErrFacts SpecList SpecTable
  SpecReader SpecSeen ReaderFacts ReaderFacts2 ReaderFacts3 ReaderFacts6 ReaderFacts7 ReaderFacts8 ReaderFacts9 Properties_Marks Properties_Nodes Properties_Layout Properties_Table Properties_Lists.
Import ListNotations.
Open Scope string_scope.
Open Scope list_scope.
Open Scope nat_scope.

(** ================================================================ C75 *)
(** A document whose blocks should be seen as es is read as es, with either flag. *)
Theorem C75_document : forall E n blocks a es b ign, is_document n blocks -> all_seen E blocks a es b ->
  exists out, to_markdown E n ign = Ok (VStr out) /\ read out = es.
Proof.
  intros E n blocks a es b ign HD HS. destruct HD as ((w & v & HP) & HK & HI). pose proof (parse_consistent _ _ _ HP) as HC. pose proof (consistent_items _ _ HC HI) as HCC.
  destruct (proj2 (seen_presents E) blocks a es b HS HCC) as (xs & HF & HPR). exists (strip_double_empty_line (join nl (zip_with laid_out blocks xs))). split.
  - apply C27_document; [split; [eauto|split; assumption]|exact HF].
  - exact (presents_read _ _ _ _ (presents_strip _ _ _ _ HPR)).
Qed.
(** Reading is a function, so the events are determined: two ways to see the same blocks agree. *)
Theorem C75_unambiguous : forall E n blocks a es b a' es' b', is_document n blocks -> all_seen E blocks a es b -> all_seen E blocks a' es' b' -> es = es'.
Proof.
  intros E n blocks a es b a' es' b' HD H1 H2. destruct (C75_document E n blocks a es b false HD H1) as (o1 & R1 & <-). destruct (C75_document E n blocks a' es' b' false HD H2) as (o2 & R2 & <-).
  rewrite R1 in R2. now apply okstr_inj in R2 as ->.
Qed.
(** A single block on its own, wherever it stands in the tree of a parsed document. *)
Theorem C75_block : forall E w v n a es b ign, snd (parse_node w v) = Ok n -> seen E n a es b -> exists out, to_markdown E n ign = Ok (VStr out) /\ read out = es.
Proof.
  intros E w v n a es b ign HP HS. pose proof (parse_consistent _ _ _ HP) as HC. destruct (proj1 (seen_presents E) n a es b HS HC) as (x & HR & _ & HE). exists x. split; [|exact HE]. destruct ign; [now apply ignore_conservative|exact HR].
Qed.

(** ---------------------------------------------------------------- an example with every rule *)
Definition ex_head (z : Z) (l : list value) : value := VDict [tyv "heading"; (s "attrs", VDict [(s "level", VInt z)]); (s "content", VList l)].
Definition ex_rule : value := VDict [tyv "rule"].
Definition ex_panel (cs : list value) : value := VDict [tyv "panel"; (s "attrs", VDict [(s "panelType", VStr (s "info"))]); (s "content", VList cs)].
Definition ex_quote (cs : list value) : value := VDict [tyv "blockquote"; (s "content", VList cs)].
Definition ex_expand (cs : list value) : value := VDict [tyv "expand"; (s "content", VList cs)].
Definition ex_seen_value : value := ex_doc
  [ex_head 2 [tx "Title"]; ex_p "intro"; ex_ul [ex_li [ex_p "one"; ex_ul [ex_li [ex_p "deep"]]]; ex_li [ex_p "two"]]; ex_ol 3 [ex_li [ex_p "three"]];
   ex_c "x = 1"; ex_panel [ex_p "note"; ex_c "y"]; ex_quote [ex_p "said"]; ex_table [[("tableHeader", "A"); ("tableHeader", "B")]; [("tableCell", "1"); ("tableCell", "2")]];
   ex_rule; ex_expand [ex_p "end"]].
Definition ex_seen_events : list event :=
  [EHead 2 (s "Title"); EPara [s "intro"];
   EBullet; EPara [s "one"]; EBullet; EPara [s "deep"]; EEnd; EEnd; EBullet; EPara [s "two"]; EEnd;
   ENumber (s "3"); EPara [s "three"]; EEnd; ECode [] [s "x = 1"];
   EQuote; EPara [s "**INFO**"]; EPara [s "note"]; ECode [] [s "y"]; EEnd; EQuote; EPara [s "said"]; EEnd;
   ETable [s "A"; s "B"] [[s "1"; s "2"]]; ERule; EPara [s "end"]].
Lemma plain_breaks_bool x : forallb (fun c => negb (is_lb c) || N.eqb c NL) x = true -> plain_breaks x.
Proof. intros H c HI HL. rewrite forallb_forall in H. specialize (H c HI). rewrite HL in H. now apply N.eqb_eq in H. Qed.
Lemma renders_breaks E c y : renders E c y -> forallb (fun c => negb (is_lb c) || N.eqb c NL) y = true -> forall x, renders E c x -> plain_breaks x.
Proof. intros HR HB x HX. unfold renders in *. rewrite HR in HX. apply okstr_inj in HX as <-. now apply plain_breaks_bool. Qed.
Lemma para_seen E n cs xs es : n_kind n = Kparagraph -> bare n -> n_content n = Items cs -> Forall2 (renders E) cs xs ->
  Forall text_line (split_on NL (List.concat xs)) -> [EPara (split_on NL (List.concat xs))] = es -> seen E n 0 es 1.
Proof. intros H1 H2 H3 H4 H5 <-. now apply seen_para with (cs := cs). Qed.
Lemma para_text E n cs xs x : n_kind n = Kparagraph -> bare n -> n_content n = Items cs -> Forall2 (renders E) cs xs -> List.concat xs = x -> block_text E n x.
Proof. intros H1 H2 H3 H4 <-. now apply bt_para with (cs := cs). Qed.
Ltac p_text x := refine (para_text rt0 _ _ [x] _ _ _ _ _ _); [reflexivity|discriminate|reflexivity|repeat (apply Forall2_cons; [vm_compute; reflexivity|]); apply Forall2_nil|vm_compute; reflexivity].
Ltac t_line := split; [vm_compute; reflexivity|split; [vm_compute; reflexivity|intros r H; vm_compute in H; discriminate H]].
Ltac lines_ok := match goal with |- Forall _ ?l => let l' := eval vm_compute in l in change l with l' end; repeat (apply Forall_cons; [t_line|]); apply Forall_nil.
Ltac no_pad := intros [H|[H|H]]; discriminate H.
Ltac no_rule := intros H; cbn in H; repeat (destruct H as [H|H]; [discriminate H|]); exact H.
Ltac s_text j k x := first [refine (para_seen rt0 _ _ [x] _ _ _ _ _ _ eq_refl); [reflexivity|discriminate|reflexivity|repeat (apply Forall2_cons; [vm_compute; reflexivity|]); apply Forall2_nil|lines_ok] | apply (seen_text rt0 _ j k x); [left; discriminate|no_rule|vm_compute; reflexivity|lines_ok|lia|lia]].
Ltac v_first := eexists; eexists; split; [vm_compute; reflexivity|vm_compute; reflexivity].
Ltac s_breaks := repeat (apply Forall_cons; [eapply renders_breaks; [vm_compute; reflexivity|vm_compute; reflexivity]|]); apply Forall_nil.
Ltac xs_render := repeat (apply Forall2_cons; [vm_compute; reflexivity|]); apply Forall2_nil.
Ltac s_item x := eapply is_cons with (x := x); [reflexivity|discriminate|p_text x|vm_compute; reflexivity|t_line|constructor|..].
Fixpoint three (l : str) : bool := match l with a :: ((b :: c :: _) as r) => (N.eqb a NL && N.eqb b NL && N.eqb c NL) || three r | _ => false end.
Lemma three_contains l : three l = false -> ~ contains (nl ++ nl ++ nl) l.
Proof.
  intros H (p & q & HE). subst l. induction p as [|a p IH]; [discriminate H|]. apply IH. cbn [app] in H. destruct p as [|b [|c p]]; cbn in H |- *; now apply orb_false_iff in H.
Qed.
Lemma code_seen n cs x : n_kind n = KcodeBlock -> n_attrs n = AOpt -> n_content n = Items cs -> Forall2 (renders rt0) cs [x] ->
  Forall code_line (split_on NL x) -> three (nl ++ x ++ nl) = false -> seen rt0 n 1 [ECode [] (split_on NL x)] 1.
Proof.
  intros HK HA HC HR HL HN. pose proof (seen_code rt0 n [] cs [x] HK) as G. cbn [List.concat] in G. rewrite app_nil_r in G.
  apply G; [right; right; split; [reflexivity|exact HA]|split; [left; reflexivity|split; [intros []|split; intros []]]|exact HC|exact HR|exact HL|now apply three_contains].
Qed.
Ltac s_code t := eapply (code_seen _ _ t); [reflexivity|reflexivity|reflexivity|xs_render|
   repeat (apply Forall_cons; [split; [vm_compute; reflexivity|intros H; vm_compute in H; intuition discriminate]|]); apply Forall_nil|vm_compute; reflexivity].
Lemma table_seen n rows cells1 cellss xs1 xss es : n_kind n = Ktable -> n_content n = Items rows -> Forall2 row_of rows (cells1 :: cellss) ->
  Forall2 (Forall2 (renders rt0)) (cells1 :: cellss) (xs1 :: xss) -> header_row cells1 -> Forall (fun cells => ~ header_row cells) cellss ->
  Forall (Forall (fun x => ~ In CR x)) (xs1 :: xss) -> [ETable (map trim xs1) (map (fun xs => fit (List.length cells1) (map trim xs)) xss)] = es -> seen rt0 n 0 es 0.
Proof. intros H1 H2 H3 H4 H5 H6 H7 <-. now apply seen_table with (rows := rows) (cellss := cellss). Qed.
Example C75_example : is_document (get ex_seen_value) (blocks_of (get ex_seen_value)) /\ all_seen rt0 (blocks_of (get ex_seen_value)) 2 ex_seen_events 1.
Proof.
  split; [apply document_get; vm_compute; reflexivity|].
  match goal with |- all_seen _ ?l _ _ _ => let l' := eval vm_compute in l in change l with l' end.
  change ex_seen_events with ([EHead 2 (s "Title")] ++ [EPara [s "intro"]] ++ [EBullet; EPara [s "one"]; EBullet; EPara [s "deep"]; EEnd; EEnd; EBullet; EPara [s "two"]; EEnd]
    ++ [ENumber (s "3"); EPara [s "three"]; EEnd] ++ [ECode [] [s "x = 1"]] ++ [EQuote; EPara [s "**INFO**"]; EPara [s "note"]; ECode [] [s "y"]; EEnd]
    ++ [EQuote; EPara [s "said"]; EEnd] ++ [ETable [s "A"; s "B"] [[s "1"; s "2"]]] ++ [ERule] ++ [EPara [s "end"]]).
  eapply as_cons with (b := 2).
  { refine (seen_heading rt0 _ 2 _ [s "Title"] _ _ _ _ _ _ _ _ _); [reflexivity|vm_compute; reflexivity|lia|reflexivity|xs_render|split; intros H; vm_compute in H; intuition discriminate|v_first| |].
    - exists (s "Titl"). eexists. split; vm_compute; reflexivity.
    - intros q H. apply (f_equal (@rev N)) in H. rewrite rev_app_distr in H. vm_compute in H. discriminate H. }
  2: lia. eapply as_cons with (b := 1). { s_text 0 1 (s "intro"). } 2: lia.
  eapply as_cons with (b := 1).
  { apply seen_bullets; [reflexivity|]. eapply ls_list; [reflexivity|reflexivity|discriminate|]. cbn [filter is_item n_kind].
    refine (is_cons rt0 KbulletList 1 _ _ _ (s "one") (s "one") [] [EBullet; EPara [s "deep"]; EEnd] _ _ _ _ _ _ _ _ _ _ _ _); [reflexivity|discriminate|p_text (s "one")|vm_compute; reflexivity|t_line|constructor|discriminate|discriminate| |].
    - change [EBullet; EPara [s "deep"]; EEnd] with ([EBullet; EPara [s "deep"]; EEnd] ++ []). apply ss_cons; [|constructor].
      eapply ls_list; [reflexivity|reflexivity|discriminate|]. cbn [filter is_item n_kind].
      refine (is_cons rt0 KbulletList 1 _ _ _ (s "deep") (s "deep") [] [] _ [] _ _ _ _ _ _ _ _ _ _); [reflexivity|discriminate|p_text (s "deep")|vm_compute; reflexivity|t_line|constructor|discriminate|discriminate|constructor|constructor].
    - refine (is_cons rt0 KbulletList 2 _ _ _ (s "two") (s "two") [] [] _ [] _ _ _ _ _ _ _ _ _ _); [reflexivity|discriminate|p_text (s "two")|vm_compute; reflexivity|t_line|constructor|discriminate|discriminate|constructor|constructor]. }
  2: lia. eapply as_cons with (b := 1).
  { apply (seen_ordered rt0 _ 3); [reflexivity|left; vm_compute; reflexivity|]. eapply ls_list; [reflexivity|reflexivity|discriminate|]. cbn [filter is_item n_kind].
    refine (is_cons rt0 KorderedList 3 _ _ _ (s "three") (s "three") [] [] _ [] _ _ _ _ _ _ _ _ _ _); [reflexivity|discriminate|p_text (s "three")|vm_compute; reflexivity|t_line|constructor|intros _; lia|intros; lia|constructor|constructor]. }
  2: lia. eapply as_cons with (b := 1). { s_code (s "x = 1"). } 2: lia.
  eapply as_cons with (b := 1).
  { refine (seen_panel rt0 _ (s "info") _ 0 [EPara [s "note"]; ECode [] [s "y"]] 1 _ _ _ _ _ _ _ _); [reflexivity|vm_compute; reflexivity|reflexivity|t_line|apply plain_breaks_bool; vm_compute; reflexivity|intros H; vm_compute in H; intuition discriminate| |s_breaks].
    change [EPara [s "note"]; ECode [] [s "y"]] with ([EPara [s "note"]] ++ [ECode [] [s "y"]]). eapply as_cons with (b := 1). { s_text 0 1 (s "note"). } 2: lia. apply as_one. s_code (s "y"). }
  2: lia. eapply as_cons with (b := 1).
  { refine (seen_quote rt0 _ _ 0 [EPara [s "said"]] 1 _ _ _ _ _); [reflexivity|reflexivity| |discriminate|s_breaks]. apply as_one. s_text 0 1 (s "said"). }
  2: lia. eapply as_cons with (b := 0) (a' := 2).
  { eapply (table_seen _ _ _ _ [s "A"; s "B"] [[s "1"; s "2"]]); [reflexivity|reflexivity| | | | | |].
    - repeat (apply Forall2_cons; [split; [reflexivity|split; [reflexivity|split; [repeat (apply Forall_cons; [(left; reflexivity) || (right; reflexivity)|]); apply Forall_nil|discriminate]]]|]). apply Forall2_nil.
    - repeat (apply Forall2_cons; [xs_render|]). apply Forall2_nil.
    - do 2 eexists. split; reflexivity.
    - apply Forall_cons; [|apply Forall_nil]. intros (c & r & H & HK). injection H as <- _. discriminate HK.
    - repeat (apply Forall_cons; [repeat (apply Forall_cons; [intros H; vm_compute in H; intuition discriminate|]); apply Forall_nil|]). apply Forall_nil.
    - vm_compute. reflexivity. }
  2: lia. eapply as_cons with (b := 2). { apply seen_rule. reflexivity. } 2: lia.
  apply as_one. refine (seen_expand rt0 _ _ 0 _ 1 _ _ _); [right; split; [reflexivity|discriminate]|reflexivity|]. apply as_one. s_text 0 1 (s "end").
Qed.

(** Tasks and decisions. *)
Definition ex_decisions (l : list string) : value := VDict [tyv "decisionList"; (s "attrs", VDict [(s "localId", VStr (s "x"))]);
  (s "content", VList (map (fun c => VDict [tyv "decisionItem"; (s "attrs", VDict [(s "localId", VStr (s "x")); (s "state", VStr (s "x"))]); (s "content", VList [tx c])]) l))].
Definition ex_tasks_value : value := ex_doc [ex_tl [ex_task "TODO" [tx "a"]; ex_task "DONE" [tx "b"]; ex_tl [ex_task "TODO" [tx "deep"]]; ex_task "DONE" [tx "c"]]; ex_rule; ex_decisions ["yes"; "no"]].
Definition ex_tasks_events : list event :=
  [EBullet; EPara [s "[ ] a"]; EEnd; EBullet; EPara [s "[x] b"]; EBullet; EPara [s "[ ] deep"]; EEnd; EEnd; EBullet; EPara [s "[x] c"]; EEnd; ERule; EQuote; EPara [s "yes"]; EEnd; EQuote; EPara [s "no"]; EEnd].
Ltac task_ok := [>reflexivity|reflexivity|xs_render|eexists; split; [reflexivity|vm_compute; reflexivity]|split; (reflexivity || discriminate)|vm_compute; reflexivity|t_line|constructor|..].
Example C75_tasks_example : is_document (get ex_tasks_value) (blocks_of (get ex_tasks_value)) /\ all_seen rt0 (blocks_of (get ex_tasks_value)) 0 ex_tasks_events 0.
Proof.
  split; [apply document_get; vm_compute; reflexivity|].
  match goal with |- all_seen _ ?l _ _ _ => let l' := eval vm_compute in l in change l with l' end.
  change ex_tasks_events with ([EBullet; EPara [s "[ ] a"]; EEnd; EBullet; EPara [s "[x] b"]; EBullet; EPara [s "[ ] deep"]; EEnd; EEnd; EBullet; EPara [s "[x] c"]; EEnd] ++ [ERule] ++ List.concat [[EQuote; EPara [s "yes"]; EEnd]; [EQuote; EPara [s "no"]; EEnd]]).
  eapply as_cons with (b := 0) (a' := 2).
  { eapply seen_tasks; [reflexivity|reflexivity|discriminate|].
    refine (ts_cons rt0 _ _ [s "a"] (VStr (s "TODO")) false (s "a") [] [] [] _ _ _ _ _ _ _ _ _ _ _ _); task_ok; [constructor|].
    refine (ts_cons rt0 _ _ [s "b"] (VStr (s "DONE")) true (s "b") [] [_] [EBullet; EPara [s "[ ] deep"]; EEnd] _ _ _ _ _ _ _ _ _ _ _ _); task_ok.
    - refine (nt_cons rt0 _ _ [EBullet; EPara [s "[ ] deep"]; EEnd] [] [] _ _ _ _ _); [reflexivity|reflexivity|discriminate| |constructor].
      refine (ts_cons rt0 _ _ [s "deep"] (VStr (s "TODO")) false (s "deep") [] [] [] [] [] _ _ _ _ _ _ _ _ _ _); task_ok; constructor.
    - refine (ts_cons rt0 _ _ [s "c"] (VStr (s "DONE")) true (s "c") [] [] [] [] [] _ _ _ _ _ _ _ _ _ _); task_ok; constructor. }
  2: lia. eapply as_cons with (b := 2) (a' := 0). { apply seen_rule. reflexivity. } 2: lia.
  apply as_one. eapply seen_decisions; [reflexivity|reflexivity|discriminate|].
  apply Forall2_cons; [|apply Forall2_cons; [|apply Forall2_nil]].
  - split; [reflexivity|]. do 2 eexists. split; [reflexivity|]. split; [apply (Forall2_cons _ (s "yes")); [vm_compute; reflexivity|apply Forall2_nil]|]. split; [lines_ok|vm_compute; reflexivity].
  - split; [reflexivity|]. do 2 eexists. split; [reflexivity|]. split; [apply (Forall2_cons _ (s "no")); [vm_compute; reflexivity|apply Forall2_nil]|]. split; [lines_ok|vm_compute; reflexivity].
Qed.
