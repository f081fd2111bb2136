(** C21, C22, C27, C36: blank-line collapsing, document layout, quoted blocks.
    Vocabulary: [nls k] = k newlines; [starts_clean]/[ends_clean]: no newline at that end;
    [visible_chars]: the non-newline characters; [full_lines]: the non-empty lines;
    [laid_out]: a block's Markdown with the documented padding; [line_list]: the lines of a
    string with their terminators (LayoutFacts.v). *)
From Coq Require Import List NArith ZArith Bool String Lia Arith.
From Verif Require Import PyStr Values Schema Parse Date Markdown Basics StrFacts MarkFacts SpecParse ParseFacts4
  MdFacts SpecMd MdFacts2 LeafFacts Collapse LayoutFacts Properties_Marks Properties_Nodes.
Import ListNotations.
Open Scope string_scope.
Open Scope list_scope.
Open Scope nat_scope.

(** ================================================================ C21 *)
(** What is left of a run of k newlines: every group of three becomes two, three times over. *)
Definition shrink (k : nat) : nat := 2 * (k / 3) + k mod 3.
Theorem C21_every_run : forall a k b, ends_clean a -> starts_clean b ->
  strip_double_empty_line (a ++ nls k ++ b) =
  strip_double_empty_line a ++ nls (shrink (shrink (shrink k))) ++ strip_double_empty_line b.
Proof. exact strip_context. Qed.
Theorem C21_without_newline_unchanged : forall x, ~ In NL x -> strip_double_empty_line x = x.
Proof. exact strip_free. Qed.
Theorem C21_short_runs_stay : forall k, k <= 2 -> shrink (shrink (shrink k)) = k.
Proof. exact squeeze_small. Qed.
Theorem C21_up_to_six_become_two : forall k, 2 <= k <= 6 -> shrink (shrink (shrink k)) = 2.
Proof. exact squeeze_two. Qed.
Theorem C21_from_seven_on_a_double_blank_line_stays : forall k, 7 <= k -> 3 <= shrink (shrink (shrink k)) < k.
Proof.
  intros k H. split; [now apply squeeze_many|]. change (squeeze k < k). unfold squeeze.
  pose proof (pass_le k). pose proof (pass_le (pass k)). pose proof (pass_le (pass (pass k))).
  assert (pass k < k); [|lia]. unfold pass. pose proof (Nat.div_mod k 3).
  assert (1 <= k / 3) by (apply Nat.div_le_lower_bound; lia). lia.
Qed.
(** Only newlines are deleted, and only next to other newlines: the result is the input with
    some newlines left out, the other characters and the non-empty lines are the same. *)
Theorem C21_only_deletes : forall x, subseq (strip_double_empty_line x) x.
Proof. exact strip_subseq. Qed.
Theorem C21_visible_characters_kept : forall x, visible_chars (strip_double_empty_line x) = visible_chars x.
Proof. exact strip_visible. Qed.
Theorem C21_full_lines_kept : forall x, full_lines (strip_double_empty_line x) = full_lines x.
Proof. exact strip_full_lines. Qed.
Theorem C21_three_newlines_iff_seven : forall x,
  contains (nls 3) (strip_double_empty_line x) <-> contains (nls 7) x.
Proof. exact strip_three_iff. Qed.
(** The documented promise fails for seven newlines. *)
Theorem C21_at_most_one_blank_line_refuted :
  strip_double_empty_line (s "a" ++ nls 7 ++ s "b") = s "a" ++ nls 3 ++ s "b".
Proof. vm_compute. reflexivity. Qed.
Example C21_example : ends_clean (s "ab") /\ starts_clean (s "cd") /\
  strip_double_empty_line (s "ab" ++ nls 5 ++ s "cd") = s "ab" ++ nls 2 ++ s "cd".
Proof. repeat split; vm_compute; congruence. Qed.

(** ================================================================ C27 *)
Definition is_document (n : node) (blocks : list node) : Prop :=
  (exists w v, snd (parse_node w v) = Ok n) /\ n_kind n = Kdoc /\ n_content n = Items blocks.
(** bulletList, orderedList and codeBlock blocks are padded, the others are not. *)
Theorem C27_padding : forall n x,
  laid_out n x = (if in_dec nk_eq_dec (n_kind n) [KbulletList; KorderedList; KcodeBlock] then nl ++ x ++ nl else x).
Proof.
  intros n x. unfold laid_out. destruct (in_dec nk_eq_dec (n_kind n) _) as [H|H].
  - destruct H as [<-|[<-|[<-|[]]]]; reflexivity.
  - destruct (n_kind n); try reflexivity; exfalso; apply H; cbn; tauto.
Qed.
Lemma document_consistent n blocks : is_document n blocks -> Forall consistent blocks.
Proof. intros ((w & v & H) & _ & HC). eapply consistent_items; [eapply parse_consistent; exact H|exact HC]. Qed.
Theorem C27_document : forall E n blocks xs ign, is_document n blocks -> Forall2 (renders E) blocks xs ->
  to_markdown E n ign = Ok (VStr (strip_double_empty_line (join nl (zip_with laid_out blocks xs)))).
Proof.
  intros E n blocks xs ign HD HF. pose proof (document_consistent _ _ HD) as HC. destruct HD as (_ & HK & HI).
  destruct n as [k ty ve tx a co ma]. cbn [n_kind n_content] in *. subst k co.
  unfold to_markdown. cbn [to_md]. now rewrite (doc_renders E blocks xs ign HC HF).
Qed.
(** expand has no marks (the class declares none, so marks in the input are dropped). *)
Lemma expand_no_marks w v n : snd (parse_node w v) = Ok n -> n_kind n = Kexpand -> n_marks n = NoField.
Proof.
  intros HP HK. pose proof (parse_represents v w n HP) as HR. inversion HR as [d k ty ve tx a co ma HT HF HG]; subst. cbn [n_kind] in HK. subst k.
  inversion HG; subst. match goal with H : slot_from _ _ _ _ ma |- _ => inversion H; try discriminate; reflexivity end.
Qed.
(** nestedExpand and expand are laid out the same way. *)
Theorem C27_expand : forall E w v n blocks xs ign, snd (parse_node w v) = Ok n -> (n_kind n = KnestedExpand \/ n_kind n = Kexpand) ->
  n_content n = Items blocks -> Forall2 (renders E) blocks xs ->
  to_markdown E n ign = Ok (VStr (strip_double_empty_line (join nl (zip_with laid_out blocks xs)))).
Proof.
  intros E w v n blocks xs ign HP HK HI HF.
  assert (HC : Forall consistent blocks) by (eapply consistent_items; [eapply parse_consistent; exact HP|exact HI]).
  pose proof (expand_no_marks w v n HP) as HM.
  destruct n as [k ty ve tx a co ma]. cbn [n_kind n_content n_marks] in *. subst co.
  unfold to_markdown. destruct HK as [->| ->]; cbn [to_md]; rewrite (doc_renders E blocks xs ign HC HF); [reflexivity|].
  cbn [rbind]. rewrite (HM eq_refl). reflexivity.
Qed.
Lemma Forall2_len {A B} (R : A -> B -> Prop) l m : Forall2 R l m -> List.length l = List.length m.
Proof. induction 1; cbn; congruence. Qed.
(** Layout adds and removes newlines only: the visible characters and the non-empty lines of a
    document are those of its blocks, in order. *)
Theorem C27_visible_characters : forall E n blocks xs ign out, is_document n blocks -> Forall2 (renders E) blocks xs ->
  to_markdown E n ign = Ok (VStr out) -> visible_chars out = List.concat (map visible_chars xs).
Proof.
  intros E n blocks xs ign out HD HF H. rewrite (C27_document E n blocks xs ign HD HF) in H. apply okstr_inj in H. subst out.
  now rewrite strip_visible, visible_join_nl, zip_visible by (eapply Forall2_len; exact HF).
Qed.
Theorem C27_full_lines : forall E n blocks xs ign out, is_document n blocks -> Forall2 (renders E) blocks xs ->
  to_markdown E n ign = Ok (VStr out) -> full_lines out = List.concat (map full_lines xs).
Proof.
  intros E n blocks xs ign out HD HF H. rewrite (C27_document E n blocks xs ign HD HF) in H. apply okstr_inj in H. subst out.
  now rewrite strip_full_lines, full_lines_join, zip_full_lines by (eapply Forall2_len; exact HF).
Qed.
Definition ex_doc (blocks : list value) : value :=
  VDict [tyv "doc"; (s "version", VInt 1); (s "content", VList blocks)].
Definition ex_p (t : string) : value :=
  VDict [tyv "paragraph"; (s "content", VList [VDict [tyv "text"; (s "text", VStr (s t))]])].
Definition ex_c (t : string) : value :=
  VDict [tyv "codeBlock"; (s "content", VList [VDict [tyv "text"; (s "text", VStr (s t))]])].
Definition blocks_of (n : node) : list node := match n_content n with Items l => l | _ => [] end.
Definition ex_layout : node := get (ex_doc [ex_p "one"; ex_c "x"; ex_p "two"]).
Lemma document_get v : (match snd (parse_node true v) with
                        | Ok (Node Kdoc _ _ _ _ (Items _) _) => true | _ => false end) = true ->
  is_document (get v) (blocks_of (get v)).
Proof.
  intros H. unfold get. destruct (snd (parse_node true v)) as [n|] eqn:E; [|discriminate].
  destruct n as [k ty ve tx a co ma]. destruct k; try discriminate. destruct co; try discriminate.
  split; [exists true, v; exact E|]. split; reflexivity.
Qed.
Ltac all_render :=
  match goal with |- Forall2 _ ?l _ => let l' := eval vm_compute in l in change l with l' end;
  repeat (apply Forall2_cons || apply Forall2_nil); vm_compute; reflexivity.
Example C27_example : is_document ex_layout (blocks_of ex_layout) /\
  Forall2 (renders rt0) (blocks_of ex_layout) [s "one" ++ nl; s "```" ++ nl ++ s "x" ++ nl ++ s "```"; s "two" ++ nl] /\
  to_markdown rt0 ex_layout false =
    Ok (VStr (s "one" ++ nls 2 ++ s "```" ++ nl ++ s "x" ++ nl ++ s "```" ++ nls 2 ++ s "two" ++ nl)).
Proof.
  split; [apply document_get; vm_compute; reflexivity|]. split; [|vm_compute; reflexivity].
  all_render.
Qed.

Example C27_expand_example : let v := VDict [tyv "expand"; (s "content", VList [ex_p "one"; ex_c "x"])] in
  snd (parse_node true v) = Ok (get v) /\ n_kind (get v) = Kexpand /\ n_content (get v) = Items (blocks_of (get v)) /\
  Forall2 (renders rt0) (blocks_of (get v)) [s "one" ++ nl; s "```" ++ nl ++ s "x" ++ nl ++ s "```"] /\
  to_markdown rt0 (get v) false = Ok (VStr (s "one" ++ nl ++ nl ++ s "```" ++ nl ++ s "x" ++ nl ++ s "```" ++ nl)).
Proof. cbv zeta. split; [vm_compute; reflexivity|]. split; [vm_compute; reflexivity|]. split; [vm_compute; reflexivity|]. split; [all_render|vm_compute; reflexivity]. Qed.
(** ================================================================ C22 *)
Theorem C22_two_blank_lines_iff : forall E n blocks xs ign out, is_document n blocks -> Forall2 (renders E) blocks xs ->
  to_markdown E n ign = Ok (VStr out) ->
  (contains (nls 3) out <-> contains (nls 7) (join nl (zip_with laid_out blocks xs))).
Proof.
  intros E n blocks xs ign out HD HF H. rewrite (C27_document E n blocks xs ign HD HF) in H. apply okstr_inj in H. subst out.
  apply strip_three_iff.
Qed.
(** The property as documented is false: two rules around an empty paragraph. *)
Definition ex_gap : node :=
  get (ex_doc [VDict [tyv "rule"]; VDict [tyv "paragraph"; (s "content", VList [])]; VDict [tyv "rule"]]).
Theorem C22_no_double_blank_line_refuted :
  is_document ex_gap (blocks_of ex_gap) /\
  to_markdown rt0 ex_gap false = Ok (VStr (nls 2 ++ s "---" ++ nls 3 ++ s "---" ++ nls 2)).
Proof. split; [apply document_get; vm_compute; reflexivity|vm_compute; reflexivity]. Qed.

(** ================================================================ C36 *)
Definition quote : str := s "> ".
(** [x] with every line quoted. *)
Definition quoted (x out : str) : Prop :=
  exists ls, line_list x ls /\ out = List.concat (map (fun l => quote ++ l) ls).
Lemma quoted_indent x : quoted x (indent_all quote x).
Proof. exists (splitlines_keep x). split; [apply splitlines_spec|reflexivity]. Qed.
Theorem C36_lines_determined : forall x ls1 ls2, line_list x ls1 -> line_list x ls2 -> ls1 = ls2.
Proof. intros x l1 l2 H1 H2. now rewrite (line_list_unique _ _ H1), (line_list_unique _ _ H2). Qed.
(** Removing "> " from the start of every line of a quoted text gives the text back. *)
Theorem C36_unquote : forall x out, quoted x out ->
  exists ls, line_list out ls /\ Forall (fun l => exists r, l = quote ++ r) ls /\ List.concat (map (skipn 2) ls) = x.
Proof.
  intros x out (ls & HL & ->). pose proof (line_list_unique _ _ HL) as ->.
  exists (splitlines_keep (indent_all quote x)). split; [apply splitlines_spec|]. split.
  - rewrite splitlines_indent by (reflexivity || discriminate). apply Forall_forall. intros l H.
    apply in_map_iff in H as (r & <- & _). eauto.
  - apply (indent_recover quote); [reflexivity|discriminate].
Qed.
Theorem C36_blockquote : forall E w v n blocks xs ign, snd (parse_node w v) = Ok n -> n_kind n = Kblockquote ->
  n_content n = Items blocks -> Forall2 (renders E) blocks xs ->
  exists q, to_markdown E n ign = Ok (VStr (q ++ nl)) /\
    quoted (strip_double_empty_line (strip_double_empty_line (join nl (zip_with laid_out blocks xs)))) q.
Proof.
  intros E w v n blocks xs ign HP HK HI HF.
  assert (HC : Forall consistent blocks) by (eapply consistent_items; [eapply parse_consistent; exact HP|exact HI]).
  destruct n as [k ty ve tx a co ma]. cbn [n_kind n_content n_marks] in *. subst co k.
  unfold to_markdown. cbn [to_md]. rewrite (doc_renders E blocks xs ign HC HF). cbn [rbind].
  eexists. split; [reflexivity|apply quoted_indent].
Qed.
Theorem C36_panel : forall E a n p blocks xs ign, parsed "panel" a n -> input a "panelType" = VStr p ->
  n_content n = Items blocks -> Forall2 (renders E) blocks xs ->
  exists q, to_markdown E n ign = Ok (VStr (q ++ nl)) /\
    quoted (strip_double_empty_line (s "**" ++ py_upper E p ++ s "**" ++ nl ++ nl ++
              strip_double_empty_line (join nl (zip_with laid_out blocks xs)))) q.
Proof.
  intros E a n p blocks xs ign HP HA HI HF.
  assert (HC : Forall consistent blocks).
  { destruct HP as (w & d & _ & _ & HP). eapply consistent_items; [eapply parse_consistent; exact HP|exact HI]. }
  leaf "panel" Kpanel "panelType" HP HK HT.
  destruct n as [k ty ve tx a0 co ma]. cbn [n_kind n_content n_marks n_attrs] in *. subst co k.
  unfold to_markdown. cbn [to_md]. rewrite HT, HA. cbn [rbind]. rewrite (doc_renders E blocks xs ign HC HF). cbn [rbind].
  eexists. split; [reflexivity|]. fold quote. cbn [join]. rewrite <- !app_assoc. cbn [app]. apply quoted_indent.
Qed.
(** A panel whose type is lower-case ASCII letters starts with the type in bold capitals and a quoted
    empty line, whatever its content is. *)
Lemma nls_plus a b : nls (a + b) = nls a ++ nls b.
Proof. apply repeat_app. Qed.
Lemma leading_run x : exists k b, x = nls k ++ b /\ starts_clean b.
Proof.
  induction x as [|c x (k & b & -> & H)]; [now exists 0, []|].
  destruct (N.eq_dec c NL) as [->|HC]; [exists (S k), b; auto|]. exists 0, (c :: nls k ++ b). auto.
Qed.
Theorem C36_panel_title : forall E a n p blocks xs ign out, parsed "panel" a n -> input a "panelType" = VStr p ->
  Forall (fun c => (97 <= c <= 122)%N) p ->
  n_content n = Items blocks -> Forall2 (renders E) blocks xs ->
  to_markdown E n ign = Ok (VStr out) ->
  exists rest, out = s "> **" ++ map (fun c => (c - 32)%N) p ++ s "**" ++ nl ++ s "> " ++ nl ++ rest.
Proof.
  intros E a n p blocks xs ign out HP HA HL HI HF H.
  destruct (C36_panel E a n p blocks xs ign HP HA HI HF) as (q & HQ & ls & HLL & Eq). rewrite HQ in H.
  apply okstr_inj in H. subst out q.
  assert (HU : py_upper E p = map (fun c => (c - 32)%N) p).
  { unfold py_upper. assert (forallb is_ascii p = true) as ->.
    { apply forallb_forall. intros c Hc. rewrite Forall_forall in HL. specialize (HL c Hc). unfold is_ascii. apply N.ltb_lt. lia. }
    apply map_ext_in. intros c Hc. rewrite Forall_forall in HL. specialize (HL c Hc). unfold upper_ascii.
    destruct (N.leb_spec 97 c); destruct (N.leb_spec c 122); cbn; lia. }
  rewrite HU in HLL. set (T := map _ p) in *. set (inner := strip_double_empty_line (join nl _)) in *.
  destruct (leading_run inner) as (k & b & EI & HB).
  assert (HTL : forallb (fun c => negb (is_lb c)) (s "**" ++ T ++ s "**") = true).
  { rewrite !forallb_app. apply andb_true_iff. split; [reflexivity|]. apply andb_true_iff. split; [|reflexivity].
    unfold T. apply forallb_forall. intros c Hc. apply in_map_iff in Hc as (c' & <- & Hc'). rewrite Forall_forall in HL.
    specialize (HL c' Hc'). unfold is_lb.
    repeat match goal with |- context [(?x <=? ?y)%N] => destruct (N.leb_spec x y) end;
    repeat match goal with |- context [(?x =? ?y)%N] => destruct (N.eqb_spec x y) end; cbn; try reflexivity; lia. }
  assert (EB : exists r, strip_double_empty_line (s "**" ++ T ++ s "**" ++ nl ++ nl ++ inner) = (s "**" ++ T ++ s "**") ++ nl ++ nl ++ r).
  { rewrite EI. assert (E1 : s "**" ++ T ++ s "**" ++ nl ++ nl ++ nls k ++ b = (s "**" ++ T ++ s "**") ++ nls (2 + k) ++ b).
    { rewrite nls_plus. rewrite <- !app_assoc. reflexivity. }
    rewrite E1, strip_context.
    - rewrite strip_free.
      + assert (HS : 2 <= squeeze (2 + k)) by (change 2 with (squeeze 2) at 1; apply squeeze_mono; lia).
        exists (nls (squeeze (2 + k) - 2) ++ strip_double_empty_line b). f_equal.
        replace (squeeze (2 + k)) with (2 + (squeeze (2 + k) - 2)) at 1 by lia. rewrite nls_plus. now rewrite <- !app_assoc.
      + intros HN. rewrite forallb_forall in HTL. apply HTL in HN. discriminate.
    - unfold ends_clean. rewrite !rev_app_distr. cbn. discriminate.
    - exact HB. }
  assert (HTN : terminator nl) by (apply term_one; reflexivity).
  destruct EB as (r & EB). rewrite EB in HLL. pose proof (line_list_unique _ _ HLL) as ->.
  rewrite (splitlines_line (s "**" ++ T ++ s "**") nl (nl ++ r) HTL) by (exact HTN || discriminate || reflexivity).
  change (nl ++ r) with ([] ++ nl ++ r). rewrite (splitlines_line [] nl r) by (exact HTN || discriminate || reflexivity).
  cbn [map List.concat]. eexists. unfold quote. rewrite <- !app_assoc. cbn [app]. reflexivity.
Qed.
Definition ex_panel : value :=
  VDict [tyv "panel"; (s "attrs", VDict [(s "panelType", VStr (s "info"))]); (s "content", VList [ex_p "hi"])].
Example C36_example : parsed "panel" [(s "panelType", VStr (s "info"))] (get ex_panel) /\
  to_markdown rt0 (get ex_panel) false = Ok (VStr (s "> **INFO**" ++ nl ++ s "> " ++ nl ++ s "> hi" ++ nl ++ nl)).
Proof. split; [apply parsed_get; vm_compute; reflexivity|vm_compute; reflexivity]. Qed.
