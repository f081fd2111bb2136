(** C23-C26: ignore_error and strict failures.  Vocabulary: SpecErr.v. *)
From Coq Require Import List NArith ZArith Bool String Lia.
From Verif Require Import PyStr Values Schema Parse Date Markdown Basics StrFacts MarkFacts SpecParse ParseFacts4
  MdFacts SpecMd MdFacts2 LeafFacts Collapse LayoutFacts SpecErr ErrFacts Properties_Marks Properties_Nodes Properties_Layout.
Import ListNotations.
Open Scope string_scope.
Open Scope list_scope.

(** ================================================================ C23 *)
Theorem C23_conservative : forall E n v, to_markdown E n false = Ok v -> to_markdown E n true = Ok v.
Proof. intros E n v. apply ignore_conservative. Qed.
(** Also for the level-taking calls. *)
Theorem C23_conservative_at_level : forall E n l v, to_md E n (Some l) false = Ok v -> to_md E n (Some l) true = Ok v.
Proof. intros E n l v. apply ignore_conservative. Qed.
(** Hence ignore_error=True fails only where the strict call fails. *)
Theorem C23_errors_shrink : forall E n e, to_markdown E n true = Err e -> exists e', to_markdown E n false = Err e'.
Proof.
  intros E n e H. destruct (to_markdown E n false) as [v|e'] eqn:S; [|eauto].
  apply C23_conservative in S. congruence.
Qed.
Example C23_example : exists v, to_markdown rt0 ex_layout false = Ok v /\ to_markdown rt0 ex_layout true = Ok v.
Proof. eexists. split; vm_compute; reflexivity. Qed.

(** ================================================================ C24 *)
Definition top_texts_are_strings (blocks : list node) : Prop :=
  Forall (fun b => n_kind b = Ktext -> exists t, n_text b = Some (VStr t)) blocks.
(** The blocks whose strict rendering succeeds. *)
Definition good_blocks (E : runtime) (blocks : list node) : list node :=
  filter (fun b => match to_markdown E b false with Ok _ => true | Err _ => false end) blocks.
Lemma good_blocks_render E blocks : top_texts_are_strings blocks -> exists xs, Forall2 (renders E) (good_blocks E blocks) xs.
Proof.
  induction 1 as [|b l HT HF (xs & IH)]; [exists []; constructor|]. unfold good_blocks in *. cbn [filter].
  destruct (to_markdown E b false) as [v|e] eqn:M; [|eauto].
  destruct (to_md_str E b None false v HT M) as [x ->]. exists (x :: xs). constructor; [exact M|exact IH].
Qed.
(** ignore_error=True on a document never raises, and is the strict rendering of the
    document whose failing top-level blocks have been taken out. *)
Theorem C24_document : forall E n blocks, is_document n blocks -> top_texts_are_strings blocks ->
  exists x, to_markdown E n true = Ok (VStr x) /\
            to_markdown E (with_content n (Items (good_blocks E blocks))) false = Ok (VStr x).
Proof.
  intros E n blocks HD HT. pose proof (document_consistent _ _ HD) as HC. destruct HD as (_ & HK & HI).
  destruct n as [k ty ve tx a co ma]. cbn [n_kind n_content] in *. subst k co. cbn [with_content].
  unfold to_markdown. cbn [to_md]. rewrite (doc_content_skip E (Items blocks)) by (intros l H; congruence).
  change (only_survivors E (Items blocks)) with (Items (good_blocks E blocks)).
  destruct (good_blocks_render E blocks HT) as [xs HX].
  rewrite (doc_renders E _ xs); [eexists; split; reflexivity| |exact HX].
  unfold good_blocks. rewrite Forall_forall in *. intros b Hb. apply filter_In in Hb as [Hb _]. auto.
Qed.
(** The same for every class that renders its children with the shared helpers: what is
    skipped are exactly the direct children that do not render strictly. *)
Theorem C24_every_container : forall E w v n cs, snd (parse_node w v) = Ok n -> plain_container (n_kind n) = true ->
  n_content n = Items cs ->
  to_markdown E n true = to_markdown E (with_content n (Items (good_blocks E cs))) false.
Proof.
  intros E w v n cs HP HK HI.
  assert (HC : Forall consistent cs) by (eapply consistent_items; [eapply parse_consistent; exact HP|exact HI]).
  destruct n as [k ty ve tx a co ma]. cbn [n_kind n_content with_content] in *. subst co. unfold to_markdown.
  change (Items (good_blocks E cs)) with (only_survivors E (Items cs)).
  assert (HC' : forall l, Items cs = Items l -> Forall consistent l) by (intros l H; congruence).
  destruct k; try discriminate; cbn [to_md];
    first [rewrite content_skip; reflexivity | rewrite doc_content_skip by exact HC'; reflexivity
          | unfold decision_item_md, table_cell_md; rewrite content_skip; reflexivity].
Qed.
(** inlineCard without url does not render. *)
Definition bad_card : value := VDict [tyv "inlineCard"; (s "attrs", VDict [(s "data", VDict [])])].
Definition ex_bad_para : value :=
  VDict [tyv "paragraph"; (s "content", VList [VDict [tyv "text"; (s "text", VStr (s "keep me"))]; bad_card])].
Definition ex_bad_doc : node := get (ex_doc [ex_p "one"; ex_bad_para; ex_p "two"]).
Lemma ex_bad_doc_facts : is_document ex_bad_doc (blocks_of ex_bad_doc) /\ top_texts_are_strings (blocks_of ex_bad_doc).
Proof.
  split; [apply document_get; vm_compute; reflexivity|].
  unfold top_texts_are_strings. let l := eval vm_compute in (blocks_of ex_bad_doc) in change (blocks_of ex_bad_doc) with l.
  repeat (apply Forall_cons || apply Forall_nil); cbn [n_kind]; discriminate.
Qed.
Example C24_example :
  to_markdown rt0 ex_bad_doc false = Err NotImplementedErr /\
  to_markdown rt0 ex_bad_doc true = Ok (VStr (s "one" ++ nls 2 ++ s "two" ++ nl)) /\
  List.length (good_blocks rt0 (blocks_of ex_bad_doc)) = 2.
Proof. repeat split; vm_compute; reflexivity. Qed.

(** ================================================================ C25 *)
(** The container's own attributes and marks cannot fail. *)
Definition usable (n : node) : Prop :=
  match n_kind n with
  | Kdoc | KlistItem | KtaskItem | KmediaSingle | Kblockquote | Kexpand | KnestedExpand | KdecisionItem | KtableCell
  | KtableHeader | KtableRow => True
  | Kparagraph => n_marks n = SOpt \/ n_marks n = Items []
  | Kheading => exists z, attr (n_attrs n) (s "level") = Ok (VInt z)
  | KcodeBlock => n_attrs n = AOpt \/ exists v, attr (n_attrs n) (s "language") = Ok v
  | Kpanel => exists p, attr (n_attrs n) (s "panelType") = Ok (VStr p)
  | _ => False
  end.
Definition first_failure (E : runtime) (cs : list node) (e : exc) : Prop :=
  exists before c after, cs = before ++ c :: after /\
    Forall (fun b => exists v, to_markdown E b false = Ok v) before /\ to_markdown E c false = Err e.
Lemma for_each_fail {A B} (f : A -> res (list B)) l e : for_each f l = Err e <->
  exists b c d, l = b ++ c :: d /\ Forall (fun x => exists y, f x = Ok y) b /\ f c = Err e.
Proof.
  induction l as [|a l IH].
  - cbn. split; [discriminate|]. intros (b & c & d & H & _). now destruct b.
  - cbn. fold (for_each f). split.
    + destruct (f a) as [x|e'] eqn:FA; cbn [rbind].
      * destruct (for_each f l) as [y|e'] eqn:FL; cbn [rbind]; [discriminate|]. intros [= ->].
        destruct IH as [IH _]. destruct (IH eq_refl) as (b & c & d & -> & HB & HC).
        exists (a :: b), c, d. split; [reflexivity|]. split; [constructor; eauto|exact HC].
      * intros [= ->]. exists [], a, l. repeat split; [constructor|exact FA].
    + intros (b & c & d & E1 & HB & HC). destruct b as [|z b].
      * cbn in E1. injection E1 as -> ->. now rewrite HC.
      * cbn in E1. injection E1 as -> ->. inversion HB as [|? ? [y Hy] HB']; subst. rewrite Hy. cbn [rbind].
        destruct IH as [_ IH]. rewrite IH; [reflexivity|]. exists b, c, d. auto.
Qed.
Lemma join_values_total sep vs : Forall (fun v => exists x, v = VStr x) vs -> exists x, join_values sep vs = Ok x.
Proof.
  intros H. assert (HX : exists xs, vs = map VStr xs).
  { induction H as [|v vs [x ->] _ (xs & ->)]; [now exists []|now exists (x :: xs)]. }
  destruct HX as [xs ->]. rewrite join_values_str. eauto.
Qed.
Lemma for_each_all {A B} (P : B -> Prop) (f : A -> res (list B)) l ys :
  Forall (fun a => forall y, f a = Ok y -> Forall P y) l -> for_each f l = Ok ys -> Forall P ys.
Proof.
  intros H. revert ys. induction H as [|a l HA _ IH]; intros ys; cbn; [intros [= <-]; constructor|].
  fold (for_each f). destruct (f a) as [x|]; [|discriminate]. destruct (for_each f l) as [y|]; [|discriminate]. cbn.
  intros [= <-]. apply Forall_app. split; auto.
Qed.
Lemma child_str E c v : (n_kind c = Ktext -> exists t, n_text c = Some (VStr t)) -> to_md E c None false = Ok v -> exists x, v = VStr x.
Proof. apply to_md_str. Qed.
Lemma content_fail E cs e : top_texts_are_strings cs ->
  content_to_markdown (to_md E) (Items cs) false = Err e <-> first_failure E cs e.
Proof.
  intros HT. unfold content_to_markdown, loop.
  assert (HA : for_each (fun n => try_ false (to_md E n None false)) cs = Err e <-> first_failure E cs e).
  { rewrite for_each_fail. unfold first_failure, to_markdown. split; intros (b & c & d & E1 & HB & HC); exists b, c, d;
      (split; [exact E1|]); (split; [eapply Forall_impl; [|exact HB]; intros x [y Hy]; unfold try_ in *|]).
    - destruct (to_md E x None false); [eauto|discriminate].
    - unfold try_ in HC. destruct (to_md E c None false); congruence.
    - rewrite Hy. eauto.
    - now rewrite HC. }
  rewrite <- HA. destruct (for_each _ cs) as [ys|e'] eqn:F; cbn [rbind]; [|split; congruence].
  destruct (join_values_total [] ys) as [x ->]; [|split; congruence].
  eapply for_each_all; [|exact F]. eapply Forall_impl; [|exact HT]. intros c Hc y. unfold try_.
  destruct (to_md E c None false) as [v|] eqn:M; [|discriminate]. intros [= <-]. constructor; [|constructor]. eapply child_str; eauto.
Qed.
Lemma doc_content_fail E cs e : Forall consistent cs -> top_texts_are_strings cs ->
  doc_content_to_markdown (to_md E) (Items cs) false = Err e <-> first_failure E cs e.
Proof.
  intros HC HT. unfold doc_content_to_markdown, loop.
  assert (HB : Forall (fun c => (exists x, to_md E c None false = Ok (VStr x) /\ block_md (to_md E) c = Ok (VStr (laid_out c x)))
                             \/ (exists e, to_md E c None false = Err e /\ block_md (to_md E) c = Err e)) cs).
  { unfold top_texts_are_strings in HT. rewrite Forall_forall in *. intros c Hc. specialize (HC c Hc). specialize (HT c Hc).
    unfold block_md. rewrite is_padded by (now apply consistent_type). unfold laid_out.
    destruct (to_md E c None false) as [v|e'] eqn:M.
    - left. destruct (child_str E c v HT M) as [x ->]. exists x. split; [reflexivity|]. destruct (pads (n_kind c)); reflexivity.
    - right. exists e'. split; [reflexivity|]. destruct (pads (n_kind c)); reflexivity. }
  assert (HA : for_each (fun n => try_ false (block_md (to_md E) n)) cs = Err e <-> first_failure E cs e).
  { rewrite for_each_fail. unfold first_failure, to_markdown. rewrite Forall_forall in HB.
    split; intros (b & c & d & E1 & HBB & HCC); exists b, c, d;
      (split; [exact E1|]);
      (split; [apply Forall_forall; rewrite Forall_forall in HBB; intros x Hx; destruct (HBB x Hx) as [y Hy];
               assert (HX : In x cs) by (rewrite E1; apply in_or_app; auto);
               destruct (HB x HX) as [(x0 & H1 & H2)|(e0 & H1 & H2)]
              |assert (HX : In c cs) by (rewrite E1; apply in_or_app; right; left; reflexivity);
               destruct (HB c HX) as [(x0 & H1 & H2)|(e0 & H1 & H2)]]).
    - eauto.
    - rewrite H2 in Hy. discriminate.
    - rewrite H2 in HCC. discriminate.
    - rewrite H2 in HCC. cbn in HCC. congruence.
    - rewrite H2. cbn. eauto.
    - congruence.
    - congruence.
    - rewrite H2. cbn. congruence. }
  rewrite <- HA. destruct (for_each _ cs) as [ys|e'] eqn:F; cbn [rbind]; [|split; congruence].
  destruct (join_values_total nl ys) as [x ->]; [|split; cbn; congruence].
  eapply for_each_all; [|exact F]. eapply Forall_impl; [|exact HB]. intros c Hc y. unfold try_.
  destruct Hc as [(x & _ & ->)|(e0 & _ & ->)]; [|discriminate]. intros [= <-]. constructor; [eauto|constructor].
Qed.
Lemma rbind_err {A B} (m : res A) (f : A -> res B) e : (forall a, exists b, f a = Ok b) -> rbind m f = Err e <-> m = Err e.
Proof. intros H. destruct m as [a|]; cbn; [destruct (H a) as [b ->]|]; split; congruence. Qed.
(** A strict container call raises e iff e is the error of its first failing child. *)
Theorem C25_first_failing_child : forall E w v n cs e, snd (parse_node w v) = Ok n -> usable n ->
  n_content n = Items cs -> top_texts_are_strings cs ->
  (to_markdown E n false = Err e <-> first_failure E cs e).
Proof.
  intros E w v n cs e HP HU HI HT.
  assert (HC : Forall consistent cs) by (eapply consistent_items; [eapply parse_consistent; exact HP|exact HI]).
  pose proof (expand_no_marks w v n HP) as HM.
  clear HP. destruct n as [k ty ve tx a co ma]. cbn [n_content n_kind n_marks] in HI, HM. subst co. unfold to_markdown.
  destruct k; cbn [usable n_kind] in HU; try tauto; cbn [to_md];
    cbn [n_attrs n_marks] in HU.
  - rewrite rbind_err by eauto. now apply doc_content_fail.
  - rewrite rbind_err by eauto. now apply content_fail.
  - rewrite rbind_err by (intros x; destruct HU as [->| ->]; eexists; reflexivity). now apply content_fail.
  - rewrite rbind_err by eauto. now apply content_fail.
  - unfold decision_item_md. rewrite rbind_err by eauto. now apply content_fail.
  - destruct HU as [z ->]. cbn [rbind times]. rewrite rbind_err by eauto. now apply content_fail.
  - rewrite rbind_err; [now apply content_fail|]. intros x. destruct HU as [->|[y Hy]]; [eexists; reflexivity|].
    unfold code_lang. destruct a; try discriminate. rewrite Hy. cbn. eauto.
  - rewrite rbind_err by eauto. now apply content_fail.
  - destruct HU as [p ->]. cbn [rbind]. rewrite rbind_err by eauto. now apply doc_content_fail.
  - rewrite rbind_err by eauto. now apply doc_content_fail.
  - rewrite (HM eq_refl). rewrite rbind_err by (intros x; eexists; reflexivity). now apply doc_content_fail.
  - rewrite rbind_err by eauto. now apply doc_content_fail.
  - unfold table_cell_md. rewrite rbind_err by eauto. now apply content_fail.
  - unfold table_cell_md. rewrite rbind_err by eauto. now apply content_fail.
  - unfold table_row_md, loop.
    assert (HE : for_each (fun c => do v <- to_md E c None false; Ok [v]) cs = for_each (fun n => try_ false (to_md E n None false)) cs).
    { apply for_each_ext2. clear. induction cs as [|c cs IH]; constructor; [|exact IH]. unfold try_. now destruct (to_md E c None false). }
    rewrite HE. rewrite <- (content_fail E cs e HT). unfold content_to_markdown, loop.
    clear HE. destruct (for_each _ cs) as [ys|e'] eqn:F; cbn [rbind]; [|split; congruence].
    assert (HY : Forall (fun v => exists x, v = VStr x) ys).
    { eapply for_each_all; [|exact F]. eapply Forall_impl; [|exact HT]. intros c Hc y. unfold try_.
      destruct (to_md E c None false) as [u|] eqn:M; [|discriminate]. intros [= <-]. constructor; [|constructor]. eapply child_str; eauto. }
    destruct (join_values_total [] ys HY) as [x1 ->]. destruct (join_values_total (s " | ") ys HY) as [x2 ->]. cbn. split; discriminate.
Qed.
Example C25_example : usable ex_bad_doc /\ first_failure rt0 (blocks_of ex_bad_doc) NotImplementedErr.
Proof.
  split; [exact I|]. let l := eval vm_compute in (blocks_of ex_bad_doc) in
    match l with ?a :: ?b :: ?r => exists [a], b, r end.
  split; [vm_compute; reflexivity|]. split; [|vm_compute; reflexivity].
  constructor; [eexists; vm_compute; reflexivity|constructor].
Qed.
Definition ex_bad_expand_value : value := VDict [tyv "expand"; (s "content", VList [ex_p "fine"; bad_card; ex_p "end"])].
Definition ex_bad_expand : node := get ex_bad_expand_value.
Example C25_expand_example : (exists w v, snd (parse_node w v) = Ok ex_bad_expand) /\ usable ex_bad_expand /\ first_failure rt0 (blocks_of ex_bad_expand) NotImplementedErr.
Proof.
  split; [exists true, ex_bad_expand_value; vm_compute; reflexivity|]. split; [exact I|].
  let l := eval vm_compute in (blocks_of ex_bad_expand) in match l with ?a :: ?b :: ?r => exists [a], b, r end.
  split; [vm_compute; reflexivity|]. split; [|vm_compute; reflexivity]. constructor; [eexists; vm_compute; reflexivity|constructor].
Qed.

(** ================================================================ C26 *)
(** Exactly what ignore_error=True skips, at every depth and for every class: the result is the
    strict rendering of [skip E n].  (Reading [skip]: only taskList, decisionList and tableRow hand
    the flag down; everywhere else a child is taken or dropped whole, by its strict rendering.) *)
Theorem C26_what_is_skipped : forall E w v n, snd (parse_node w v) = Ok n -> string_texts n -> full_rows n ->
  to_markdown E n true = to_markdown E (skip E n None) false.
Proof. intros E w v n HP HS HF. apply skip_correct; auto. eapply parse_consistent; eauto. Qed.
(** The documented recursive propagation is refuted: one bad inline node removes the whole
    paragraph from the document, although the paragraph alone keeps its text. *)
Theorem C26_propagation_refuted :
  is_document ex_bad_doc (blocks_of ex_bad_doc) /\
  to_markdown rt0 (get ex_bad_para) true = Ok (VStr (s "keep me" ++ nl)) /\
  to_markdown rt0 ex_bad_doc true = Ok (VStr (s "one" ++ nls 2 ++ s "two" ++ nl)).
Proof. split; [apply ex_bad_doc_facts|]. split; vm_compute; reflexivity. Qed.
(** And a task list raises in spite of the flag when an item has no content. *)
Definition ex_task_no_content : value :=
  VDict [tyv "taskList"; (s "attrs", VDict [(s "localId", VStr [])]);
         (s "content", VList [VDict [tyv "taskItem"; (s "attrs", VDict [(s "localId", VStr []); (s "state", VStr (s "TODO"))])]])].
Theorem C26_task_list_raises_anyway :
  (exists n, snd (parse_node true ex_task_no_content) = Ok n) /\
  to_markdown rt0 (get ex_task_no_content) true = Err TypeError.
Proof. split; [eexists; vm_compute; reflexivity|vm_compute; reflexivity]. Qed.
(** So does an ordered list without attrs, which ADF allows. *)
Definition ex_ordered_bare : value := VDict [tyv "orderedList"; (s "content", VList [])].
Theorem C26_ordered_list_raises_anyway :
  (exists n, snd (parse_node true ex_ordered_bare) = Ok n) /\
  to_markdown rt0 (get ex_ordered_bare) true = Err AttributeError.
Proof. split; [eexists; vm_compute; reflexivity|vm_compute; reflexivity]. Qed.
Example C26_example : string_texts (get ex_bad_para) /\ full_rows (get ex_bad_para) /\
  to_markdown rt0 (skip rt0 (get ex_bad_para) None) false = Ok (VStr (s "keep me" ++ nl)).
Proof.
  split; [|split; [|vm_compute; reflexivity]].
  - let n := eval vm_compute in (get ex_bad_para) in change (get ex_bad_para) with n.
    constructor; [|discriminate]. intros l H. injection H as <-.
    repeat constructor; try (intros l H; discriminate H); try discriminate; eexists; reflexivity.
  - let n := eval vm_compute in (get ex_bad_para) in change (get ex_bad_para) with n.
    constructor; [|discriminate]. intros l H. injection H as <-.
    repeat constructor; try (intros l H; discriminate H); discriminate.
Qed.
