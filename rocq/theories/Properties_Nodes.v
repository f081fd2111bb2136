(** C16 (trees), C37, C39-C42, C46, C48: what single nodes render to, and what never matters.
    Vocabulary: SpecMd.v; [parsed name a n] (LeafFacts.v): n was parsed from an ADF element of
    type [name] whose attrs dictionary is [a]; [input a f]: the attribute as given. *)
From Coq Require Import List NArith ZArith Bool String Lia.
From Verif Require Import PyStr Values Schema Parse Date Markdown Basics StrFacts MarkFacts SpecParse ParseFacts4
  MdFacts SpecMd MdFacts2 LeafFacts Properties_Marks.
Import ListNotations.
Open Scope string_scope.
Open Scope list_scope.

(** ================================================================ C16 on trees *)
(** Two parsed trees that differ only by marks without Markdown equivalent, at any depth,
    render the same, or fail the same. *)
Theorem C16_marks_without_markdown_irrelevant : forall E w1 w2 v1 v2 n1 n2 ign,
  snd (parse_node w1 v1) = Ok n1 -> snd (parse_node w2 v2) = Ok n2 ->
  drop_marks n1 = drop_marks n2 -> to_markdown E n1 ign = to_markdown E n2 ign.
Proof.
  intros E w1 w2 v1 v2 n1 n2 ign H1 H2 HD. unfold to_markdown.
  rewrite <- (drop_marks_same E n1), <- (drop_marks_same E n2), HD by (eapply parse_consistent; eauto). reflexivity.
Qed.
Theorem C16_drop_all : forall E w v n ign, snd (parse_node w v) = Ok n ->
  to_markdown E (drop_marks n) ign = to_markdown E n ign.
Proof. intros. apply drop_marks_same. eapply parse_consistent; eauto. Qed.

(** ================================================================ C48 *)
Theorem C48_presentation_irrelevant : forall E w1 w2 v1 v2 n1 n2 ign,
  snd (parse_node w1 v1) = Ok n1 -> snd (parse_node w2 v2) = Ok n2 ->
  drop_presentation n1 = drop_presentation n2 -> to_markdown E n1 ign = to_markdown E n2 ign.
Proof.
  intros E w1 w2 v1 v2 n1 n2 ign H1 H2 HD. unfold to_markdown.
  rewrite <- (drop_presentation_same E n1), <- (drop_presentation_same E n2), HD by (eapply parse_consistent; eauto).
  reflexivity.
Qed.
(** Classes without content attribute: their attrs never matter, present or not. *)
Theorem C48_unread_attrs : forall E k ty ve tx a a' co ma ign, content_attrs k = [] ->
  to_markdown E (Node k ty ve tx a co ma) ign = to_markdown E (Node k ty ve tx a' co ma) ign.
Proof. intros E k ty ve tx a a' co ma ign H. destruct k; try reflexivity; discriminate. Qed.

Definition get (v : value) : node :=
  match snd (parse_node true v) with Ok n => n | Err _ => Node Krule VNone None None AOpt NoField NoField end.
Lemma parsed_get name d a : lookup (s "type") d = Some (VStr (s name)) -> lookup (s "attrs") d = Some (VDict a) ->
  (match snd (parse_node true (VDict d)) with Ok _ => true | Err _ => false end) = true -> parsed name a (get (VDict d)).
Proof.
  intros HT HA HO. exists true, d. split; [exact HT|]. split; [exact HA|]. unfold get.
  destruct (snd (parse_node true (VDict d))); [reflexivity|discriminate].
Qed.
Definition para (lid : string) (col : string) : value :=
  VDict [tyv "paragraph"; (s "attrs", VDict [(s "localId", VStr (s lid))]);
         (s "content", VList [VDict [tyv "text"; (s "text", VStr (s "hi"));
            (s "marks", VList [VDict [tyv "textColor"; (s "attrs", VDict [(s "color", VStr (s col))])];
                               VDict [tyv "strong"]])]])].
Example C48_example :
  drop_presentation (get (para "a" "#fff")) = drop_presentation (get (para "b" "#000")) /\
  get (para "a" "#fff") <> get (para "b" "#000") /\
  to_markdown rt0 (get (para "a" "#fff")) false = Ok (VStr (s "**hi**" ++ nl)) /\
  drop_marks (get (para "a" "#fff")) = drop_marks (get (para "a" "#000")).
Proof. repeat split; try (vm_compute; reflexivity). intros H. vm_compute in H. discriminate. Qed.

(** ================================================================ C46 *)
(** Replacing, adding or deleting children that their parent does not render changes nothing. *)
Theorem C46_ignored_children : forall E w1 w2 v1 v2 n1 n2 ign,
  snd (parse_node w1 v1) = Ok n1 -> snd (parse_node w2 v2) = Ok n2 ->
  tables_have_rows n1 -> tables_have_rows n2 ->
  drop_ignored n1 = drop_ignored n2 -> to_markdown E n1 ign = to_markdown E n2 ign.
Proof.
  intros E w1 w2 v1 v2 n1 n2 ign H1 H2 T1 T2 HD. unfold to_markdown.
  rewrite <- (drop_ignored_same E n1), <- (drop_ignored_same E n2), HD by (assumption || (eapply parse_consistent; eauto)).
  reflexivity.
Qed.
Theorem C46_empty_containers : forall E n ign, In (n_kind n) [KmediaGroup; Kcaption; KmediaInline] ->
  to_markdown E n ign = Ok (VStr []).
Proof.
  intros E [k ty ve tx a co ma] ign H. cbn in H.
  destruct H as [<-|[<-|[<-|[]]]]; reflexivity.
Qed.
Definition ex_list (extra : list value) : value :=
  VDict [tyv "bulletList"; (s "content", VList (extra ++
     [VDict [tyv "listItem"; (s "content", VList [VDict [tyv "paragraph"]])]]))].
Example C46_example :
  drop_ignored (get (ex_list [])) = drop_ignored (get (ex_list [VDict [tyv "rule"]])) /\
  tables_have_rows (get (ex_list [VDict [tyv "rule"]])) /\
  get (ex_list []) <> get (ex_list [VDict [tyv "rule"]]) /\
  to_markdown rt0 (get (ex_list [])) false = Ok (VStr (s "- ")).
Proof.
  split; [vm_compute; reflexivity|]. split.
  - vm_compute. constructor; [|discriminate]. intros l H. injection H as <-.
    repeat constructor; intros l' H'; try discriminate; injection H' as <-; repeat constructor; intros; discriminate.
  - split; [intros H; vm_compute in H; discriminate|vm_compute; reflexivity].
Qed.

(** ================================================================ C42 *)
Theorem C42_result_is_str : forall E n ign v,
  (n_kind n = Ktext -> exists t, n_text n = Some (VStr t)) ->
  to_markdown E n ign = Ok v -> exists x, v = VStr x.
Proof. intros E n ign v. apply to_md_str. Qed.
(** The exception: a text node whose text is not a string may return that very value. *)
Theorem C42_text_returns_its_text : forall E ty ve t a co ma ign,
  ma = SOpt \/ ma = Items [] ->
  to_markdown E (Node Ktext ty ve (Some t) a co ma) ign = Ok t.
Proof. intros E ty ve t a co ma ign [->| ->]; reflexivity. Qed.

(** ================================================================ C37 *)
Fixpoint hashes (n : nat) : str := match n with O => [] | S k => s "#" ++ hashes k end.
Lemma repeat_hashes z : repeat_str (s "#") z = hashes (Z.to_nat z).
Proof. unfold repeat_str. induction (Z.to_nat z) as [|n IH]; cbn [repeat_nat hashes]; now rewrite ?IH. Qed.
Theorem C37_heading : forall E a n z cs xs ign,
  parsed "heading" a n -> input a "level" = VInt z -> n_content n = Items cs -> Forall2 (renders E) cs xs ->
  to_markdown E n ign = Ok (VStr (nl ++ nl ++ hashes (Z.to_nat z) ++ s " " ++ List.concat xs ++ nl ++ nl)).
Proof.
  intros E a n z cs xs ign HP HL HC HF.
  destruct (parsed_attr_value "heading" Kheading a n Req [(s "level", Req); lid] "level" eq_refl HP eq_refl) as [HK HA];
    [cbn; tauto|]. destruct n as [k ty ve tx a0 co ma]. cbn [n_kind n_content n_attrs] in *. subst k co.
  unfold to_markdown. cbn [to_md]. rewrite HA, HL. cbn [rbind times]. rewrite (content_renders E cs xs) by exact HF.
  cbn [rbind]. now rewrite repeat_hashes.
Qed.
(** No content: just the marker. *)
Theorem C37_heading_without_content : forall E a n z ign,
  parsed "heading" a n -> input a "level" = VInt z -> n_content n = SOpt ->
  to_markdown E n ign = Ok (VStr (nl ++ nl ++ hashes (Z.to_nat z) ++ s " " ++ nl ++ nl)).
Proof.
  intros E a n z ign HP HL HC.
  destruct (parsed_attr_value "heading" Kheading a n Req [(s "level", Req); lid] "level" eq_refl HP eq_refl) as [HK HA];
    [cbn; tauto|]. destruct n as [k ty ve tx a0 co ma]. cbn [n_kind n_content n_attrs] in *. subst k co.
  unfold to_markdown. cbn [to_md]. rewrite HA, HL. cbn [rbind times content_to_markdown]. now rewrite repeat_hashes.
Qed.
Theorem C37_heading_marks_irrelevant : forall E ty ve tx a co ma ma' ign,
  to_markdown E (Node Kheading ty ve tx a co ma) ign = to_markdown E (Node Kheading ty ve tx a co ma') ign.
Proof. reflexivity. Qed.
Theorem C37_heading_level_must_be_int : forall E a n ign,
  parsed "heading" a n -> (forall z, input a "level" <> VInt z) -> (forall b, input a "level" <> VBool b) ->
  to_markdown E n ign = Err TypeError.
Proof.
  intros E a n ign HP HZ HB.
  destruct (parsed_attr_value "heading" Kheading a n Req [(s "level", Req); lid] "level" eq_refl HP eq_refl) as [HK HA];
    [cbn; tauto|]. destruct n as [k ty ve tx a0 co ma]. cbn [n_kind n_content n_attrs] in *. subst k.
  unfold to_markdown. cbn [to_md]. rewrite HA. cbn [rbind].
  destruct (input a "level"); try reflexivity; [now destruct (HB b)|now destruct (HZ z)].
Qed.
Definition ex_heading : value :=
  VDict [tyv "heading"; (s "attrs", VDict [(s "level", VInt 3); (s "localId", VStr (s "x"))]);
         (s "content", VList [VDict [tyv "text"; (s "text", VStr (s "Intro"))]])].
Example C37_example : parsed "heading" [(s "level", VInt 3); (s "localId", VStr (s "x"))] (get ex_heading) /\
  to_markdown rt0 (get ex_heading) false = Ok (VStr (nl ++ nl ++ s "### Intro" ++ nl ++ nl)).
Proof. split; [apply parsed_get; vm_compute; reflexivity|vm_compute; reflexivity]. Qed.

(** ================================================================ C39 *)
Definition fence : str := s "```".
Definition shown_language (v : value) : str :=
  match v with VStr x => if str_eqb x (s "none") then [] else x | _ => [] end.
Theorem C39_code_block : forall E a n cs xs ign,
  parsed "codeBlock" a n -> n_content n = Items cs -> Forall2 (renders E) cs xs ->
  to_markdown E n ign = Ok (VStr (fence ++ shown_language (input a "language") ++ nl ++ List.concat xs ++ nl ++ fence)).
Proof.
  intros E a n cs xs ign HP HC HF.
  destruct (parsed_attr_value "codeBlock" KcodeBlock a n Opt [(s "language", Opt); (s "uniqueId", Opt); lid] "language"
              eq_refl HP eq_refl) as [HK HA]; [cbn; tauto|].
  destruct n as [k ty ve tx a0 co ma]. cbn [n_kind n_content n_attrs] in *. subst k co.
  unfold to_markdown. cbn [to_md]. rewrite (content_renders E cs xs) by exact HF. cbn [rbind]. unfold code_lang.
  destruct a0 as [| |l]; try discriminate. rewrite HA. reflexivity.
Qed.
Theorem C39_code_block_without_attrs : forall E n cs xs ign,
  parsed_bare "codeBlock" n -> n_content n = Items cs -> Forall2 (renders E) cs xs ->
  to_markdown E n ign = Ok (VStr (fence ++ nl ++ List.concat xs ++ nl ++ fence)).
Proof.
  intros E n cs xs ign HP HC HF.
  destruct (parsed_bare_inv "codeBlock" KcodeBlock n _ _ eq_refl HP eq_refl) as [HK HA].
  destruct n as [k ty ve tx a0 co ma]. cbn [n_kind n_content n_attrs] in *. subst k co a0.
  unfold to_markdown. cbn [to_md]. now rewrite (content_renders E cs xs) by exact HF.
Qed.
(** The code itself is verbatim: text nodes without marks contribute exactly their text. *)
Theorem C39_code_verbatim : forall E t ty ve a co, renders E (Node Ktext ty ve (Some (VStr t)) a co SOpt) t.
Proof. reflexivity. Qed.
(** Line view: opening fence, the lines of the code, closing fence. *)
Theorem C39_code_block_lines : forall E a n cs xs ign out,
  parsed "codeBlock" a n -> n_content n = Items cs -> Forall2 (renders E) cs xs ->
  ~ In NL (shown_language (input a "language")) ->
  to_markdown E n ign = Ok (VStr out) ->
  split_on NL out = [fence ++ shown_language (input a "language")] ++ split_on NL (List.concat xs) ++ [fence].
Proof.
  intros E a n cs xs ign out HP HC HF HL H. rewrite (C39_code_block E a n cs xs ign HP HC HF) in H.
  apply okstr_inj in H. subst out. set (L := shown_language _) in *.
  assert (E1 : fence ++ L ++ nl ++ List.concat xs ++ nl ++ fence = (fence ++ L) ++ NL :: (List.concat xs ++ NL :: fence)).
  { unfold nl. cbn [app]. rewrite <- !app_assoc. reflexivity. }
  rewrite E1, !split_on_app_sep. rewrite (split_on_notin NL fence), (split_on_notin NL (fence ++ L)); [reflexivity| |].
  - rewrite in_app_iff. intros [H|H]; [|auto]. vm_compute in H. intuition discriminate.
  - intros H. vm_compute in H. intuition discriminate.
Qed.
(** Fence safety is refuted: this code block closes after its first code line. *)
Definition ex_fence : value :=
  VDict [tyv "codeBlock"; (s "content", VList [VDict [tyv "text"; (s "text", VStr (s "```" ++ nl ++ s "x"))]])].
Theorem C39_fence_safety_refuted :
  exists n out, snd (parse_node true ex_fence) = Ok n /\ renders rt0 n out /\
  split_on NL out = [fence; fence; s "x"; fence].
Proof. eexists _, _. split; [vm_compute; reflexivity|]. split; vm_compute; reflexivity. Qed.
Definition ex_code : value :=
  VDict [tyv "codeBlock"; (s "attrs", VDict [(s "language", VStr (s "python"))]);
         (s "content", VList [VDict [tyv "text"; (s "text", VStr (s "x = 1"))]])].
Example C39_example : parsed "codeBlock" [(s "language", VStr (s "python"))] (get ex_code) /\
  to_markdown rt0 (get ex_code) false = Ok (VStr (s "```python" ++ nl ++ s "x = 1" ++ nl ++ s "```")).
Proof. split; [apply parsed_get; vm_compute; reflexivity|vm_compute; reflexivity]. Qed.

(** ================================================================ C40 *)
Ltac leaf name k f HP HK HA :=
  match type of HP with parsed _ ?a ?n =>
    destruct (parsed_attr_value name k a n _ _ f eq_refl HP eq_refl) as [HK HA]; [cbn; tauto|] end.
Theorem C40_emoji : forall E a n ign, parsed "emoji" a n ->
  to_markdown E n ign =
  match input a "text", input a "shortName" with
  | VStr x, _ => Ok (VStr x)
  | _, VStr x => Ok (VStr x)
  | _, _ => Err NotImplementedErr
  end.
Proof.
  intros E a n ign HP. leaf "emoji" Kemoji "text" HP HK HA. leaf "emoji" Kemoji "shortName" HP HK2 HB.
  destruct n as [k ty ve tx a0 co ma]. cbn [n_kind n_attrs] in *. subst k. unfold to_markdown. cbn [to_md].
  rewrite HA. cbn [rbind]. rewrite HB. cbn [rbind]. destruct (input a "text"), (input a "shortName"); reflexivity.
Qed.
Theorem C40_mention : forall E a n ign, parsed "mention" a n ->
  to_markdown E n ign = Ok (VStr (match input a "text" with VStr x => x | _ => s "@Unknown" end)).
Proof.
  intros E a n ign HP. leaf "mention" Kmention "text" HP HK HA.
  destruct n as [k ty ve tx a0 co ma]. cbn [n_kind n_attrs] in *. subst k. unfold to_markdown. cbn [to_md].
  rewrite HA. cbn [rbind]. destruct (input a "text"); reflexivity.
Qed.
Theorem C40_status : forall E a n ign x, parsed "status" a n -> input a "text" = VStr x ->
  to_markdown E n ign = Ok (VStr (s "`" ++ x ++ s "`")).
Proof.
  intros E a n ign x HP HX. leaf "status" Kstatus "text" HP HK HA.
  destruct n as [k ty ve tx a0 co ma]. cbn [n_kind n_attrs] in *. subst k. unfold to_markdown. cbn [to_md].
  rewrite HA, HX. reflexivity.
Qed.
Definition md_link (u : str) : str := s "[" ++ u ++ s "](" ++ u ++ s ")".
Theorem C40_inline_card : forall E a n ign, parsed "inlineCard" a n ->
  to_markdown E n ign = match input a "url" with VStr u => Ok (VStr (md_link u)) | _ => Err NotImplementedErr end.
Proof.
  intros E a n ign HP. leaf "inlineCard" KinlineCard "url" HP HK HA.
  destruct n as [k ty ve tx a0 co ma]. cbn [n_kind n_attrs] in *. subst k. unfold to_markdown. cbn [to_md].
  rewrite HA. cbn [rbind]. destruct (input a "url"); reflexivity.
Qed.
Theorem C40_block_card : forall E a n ign, parsed "blockCard" a n ->
  to_markdown E n ign =
  match input a "url" with VStr u => Ok (VStr (nl ++ md_link u ++ nl)) | _ => Err NotImplementedErr end.
Proof.
  intros E a n ign HP. leaf "blockCard" KblockCard "url" HP HK HA.
  destruct n as [k ty ve tx a0 co ma]. cbn [n_kind n_attrs] in *. subst k. unfold to_markdown. cbn [to_md].
  rewrite HA. cbn [rbind]. unfold md_link. destruct (input a "url"); try reflexivity. now rewrite <- !app_assoc.
Qed.
Theorem C40_embed_card : forall E a n ign u, parsed "embedCard" a n -> input a "url" = VStr u ->
  to_markdown E n ign = Ok (VStr (nl ++ md_link u ++ nl)).
Proof.
  intros E a n ign u HP HU. leaf "embedCard" KembedCard "url" HP HK HA.
  destruct n as [k ty ve tx a0 co ma]. cbn [n_kind n_attrs] in *. subst k. unfold to_markdown. cbn [to_md].
  rewrite HA, HU. cbn [rbind py_str]. unfold md_link. now rewrite <- !app_assoc.
Qed.
Theorem C40_extension : forall E a n ign key ety, parsed "extension" a n ->
  input a "extensionKey" = VStr key -> input a "extensionType" = VStr ety ->
  to_markdown E n ign =
  Ok (VStr (match input a "text" with
            | VStr (c :: r) => s "[Extension: " ++ key ++ s "] " ++ (c :: r)
            | _ => s "[Extension: " ++ ety ++ s "/" ++ key ++ s "]"
            end)).
Proof.
  intros E a n ign key ety HP H1 H2. leaf "extension" Kextension "extensionKey" HP HK HA.
  leaf "extension" Kextension "extensionType" HP HK2 HB. leaf "extension" Kextension "text" HP HK3 HC.
  destruct n as [k ty ve tx a0 co ma]. cbn [n_kind n_attrs] in *. subst k. unfold to_markdown. cbn [to_md].
  rewrite HA, HB, HC, H1, H2. cbn [rbind py_str]. destruct (input a "text") as [| | | |[|c r]| | |]; reflexivity.
Qed.
(** Whatever the attributes hold: status, embedCard and extension print them (as f-strings do) and never fail. *)
Theorem C40_any_value : forall E a n ign,
  (parsed "status" a n -> to_markdown E n ign = Ok (VStr (s "`" ++ py_str E (input a "text") ++ s "`"))) /\
  (parsed "embedCard" a n -> to_markdown E n ign = Ok (VStr (nl ++ md_link (py_str E (input a "url")) ++ nl))) /\
  (parsed "extension" a n -> exists x, to_markdown E n ign = Ok (VStr x)).
Proof.
  intros E a n ign. split; [|split]; intros HP.
  - leaf "status" Kstatus "text" HP HK HA.
    destruct n as [k ty ve tx a0 co ma]. cbn [n_kind n_attrs] in *. subst k. unfold to_markdown. cbn [to_md]. rewrite HA. reflexivity.
  - leaf "embedCard" KembedCard "url" HP HK HA.
    destruct n as [k ty ve tx a0 co ma]. cbn [n_kind n_attrs] in *. subst k. unfold to_markdown. cbn [to_md].
    rewrite HA. cbn [rbind]. unfold md_link. now rewrite <- !app_assoc.
  - leaf "extension" Kextension "extensionKey" HP HK HA. leaf "extension" Kextension "extensionType" HP HK2 HB. leaf "extension" Kextension "text" HP HK3 HC.
    destruct n as [k ty ve tx a0 co ma]. cbn [n_kind n_attrs] in *. subst k. unfold to_markdown. cbn [to_md].
    rewrite HA, HB, HC. cbn [rbind]. eauto.
Qed.
Theorem C40_rule_and_break : forall E n ign,
  (n_kind n = Krule -> to_markdown E n ign = Ok (VStr (nl ++ nl ++ s "---" ++ nl ++ nl))) /\
  (n_kind n = KhardBreak -> to_markdown E n ign = Ok (VStr (s "  " ++ nl))).
Proof. intros E [k ty ve tx a co ma] ign. split; cbn [n_kind]; intros ->; reflexivity. Qed.
Definition ex_emoji : value := VDict [tyv "emoji"; (s "attrs", VDict [(s "shortName", VStr (s ":a:")); (s "text", VNone)])].
Example C40_example : parsed "emoji" [(s "shortName", VStr (s ":a:")); (s "text", VNone)] (get ex_emoji) /\
  to_markdown rt0 (get ex_emoji) false = Ok (VStr (s ":a:")).
Proof. split; [apply parsed_get; vm_compute; reflexivity|vm_compute; reflexivity]. Qed.

(** ================================================================ C41 *)
Definition image (alt : value) (target : str) : str :=
  s "![" ++ (match alt with VStr x => x | _ => s "media" end) ++ s "](" ++ target ++ s ")".
Definition kmedia_fields := [(s "type", Req); (s "id", Opt); (s "collection", Opt); (s "url", Opt)].
Lemma media_attrs a n : parsed "media" a n -> n_kind n = Kmedia /\
  attr (n_attrs n) (s "type") = Ok (input a "type") /\ attr (n_attrs n) (s "url") = Ok (input a "url") /\
  attr (n_attrs n) (s "alt") = Ok (input a "alt") /\ attr (n_attrs n) (s "id") = Ok (input a "id").
Proof.
  intros HP. leaf "media" Kmedia "type" HP HK H1. leaf "media" Kmedia "url" HP HK2 H2.
  leaf "media" Kmedia "alt" HP HK3 H3. leaf "media" Kmedia "id" HP HK4 H4. auto.
Qed.
Theorem C41_external_media : forall E a n ign u, parsed "media" a n ->
  input a "type" = VStr (s "external") -> input a "url" = VStr u ->
  to_markdown E n ign = add_style E (n_marks n) (VStr (image (input a "alt") u)).
Proof.
  intros E a n ign u HP HT HU. destruct (media_attrs a n HP) as (HK & H1 & H2 & H3 & H4).
  destruct n as [k ty ve tx a0 co ma]. cbn [n_kind n_attrs n_marks] in *. subst k. unfold to_markdown. cbn [to_md].
  unfold media_md. rewrite H1, H2, H3, H4, HT, HU. reflexivity.
Qed.
Theorem C41_file_media : forall E a n ign i, parsed "media" a n ->
  input a "type" = VStr (s "file") -> input a "id" = VStr i ->
  to_markdown E n ign = add_style E (n_marks n) (VStr (image (input a "alt") (s "media:" ++ i))).
Proof.
  intros E a n ign i HP HT HU. destruct (media_attrs a n HP) as (HK & H1 & H2 & H3 & H4).
  destruct n as [k ty ve tx a0 co ma]. cbn [n_kind n_attrs n_marks] in *. subst k. unfold to_markdown. cbn [to_md].
  unfold media_md. rewrite H1, H2, H3, H4, HT, HU. cbn [rbind].
  change (is_media (VStr (s "file")) "external") with false. change (is_media (VStr (s "file")) "file") with true.
  cbn iota. unfold image. cbn [py_str]. reflexivity.
Qed.
(** A file without an id, or with one that is no string: it is printed as an f-string prints it. *)
Theorem C41_any_id : forall E a n ign, parsed "media" a n -> input a "type" = VStr (s "file") ->
  to_markdown E n ign = add_style E (n_marks n) (VStr (image (input a "alt") (s "media:" ++ py_str E (input a "id")))).
Proof.
  intros E a n ign HP HT. destruct (media_attrs a n HP) as (HK & H1 & H2 & H3 & H4).
  destruct n as [k ty ve tx a0 co ma]. cbn [n_kind n_attrs n_marks] in *. subst k. unfold to_markdown. cbn [to_md].
  unfold media_md. rewrite H1, H2, H3, H4, HT. cbn [rbind].
  change (is_media (VStr (s "file")) "external") with false. change (is_media (VStr (s "file")) "file") with true.
  cbn iota. unfold image. reflexivity.
Qed.
(** The marks of an image are applied like those of a text node (C17) whose text is the image. *)
Theorem C41_marks : forall E a n ign x ms, parsed "media" a n -> n_marks n = Items ms \/ n_marks n = SOpt /\ ms = [] ->
  (input a "type" = VStr (s "external") /\ exists u, input a "url" = VStr u /\ x = image (input a "alt") u) \/
  (input a "type" = VStr (s "file") /\ x = image (input a "alt") (s "media:" ++ py_str E (input a "id"))) ->
  to_markdown E n ign = to_markdown E (text_node x ms) ign.
Proof.
  intros E a n ign x ms HP HM HX.
  assert (HE : to_markdown E n ign = add_style E (n_marks n) (VStr x)).
  { destruct HX as [(HT & u & HU & ->)|[HT ->]]; [exact (C41_external_media E a n ign u HP HT HU)|exact (C41_any_id E a n ign HP HT)]. }
  rewrite HE. destruct HM as [->|[-> ->]]; reflexivity.
Qed.
Theorem C41_link_media : forall E a n ign, parsed "media" a n -> input a "type" = VStr (s "link") ->
  to_markdown E n ign = Ok (VStr (s "[media]")).
Proof.
  intros E a n ign HP HT. destruct (media_attrs a n HP) as (HK & H1 & H2 & H3 & H4).
  destruct n as [k ty ve tx a0 co ma]. cbn [n_kind n_attrs n_marks] in *. subst k. unfold to_markdown. cbn [to_md].
  unfold media_md. rewrite H1, H2, H3, H4, HT. reflexivity.
Qed.
Theorem C41_other_media : forall E a n ign, parsed "media" a n ->
  ~ (input a "type" = VStr (s "external") /\ exists u, input a "url" = VStr u) ->
  input a "type" <> VStr (s "file") -> input a "type" <> VStr (s "link") ->
  to_markdown E n ign = Err TypeError.
Proof.
  intros E a n ign HP HX HF HL. destruct (media_attrs a n HP) as (HK & H1 & H2 & H3 & H4).
  destruct n as [k ty ve tx a0 co ma]. cbn [n_kind n_attrs n_marks] in *. subst k. unfold to_markdown. cbn [to_md].
  unfold media_md. rewrite H1, H2, H3, H4. cbn [rbind].
  assert (K1 : is_media (input a "type") "file" = false).
  { unfold is_media. destruct (input a "type") as [| | | |x| | |]; try reflexivity. apply str_eqb_neq. congruence. }
  assert (K2 : is_media (input a "type") "link" = false).
  { unfold is_media. destruct (input a "type") as [| | | |x| | |]; try reflexivity. apply str_eqb_neq. congruence. }
  rewrite K1, K2. destruct (is_media (input a "type") "external") eqn:K3; [|reflexivity].
  unfold is_media in K3. destruct (input a "type") as [| | | |x| | |] eqn:T; try discriminate. apply str_eqb_eq in K3. subst x.
  destruct (input a "url") eqn:U; try reflexivity. exfalso. apply HX. eauto.
Qed.
Definition ex_media : value :=
  VDict [tyv "media"; (s "attrs", VDict [(s "type", VStr (s "external")); (s "url", VStr (s "http://u"))]);
         (s "marks", VList [VDict [tyv "link"; (s "attrs", VDict [(s "href", VStr (s "h"))])]])].
Example C41_example :
  parsed "media" [(s "type", VStr (s "external")); (s "url", VStr (s "http://u"))] (get ex_media) /\
  to_markdown rt0 (get ex_media) false = Ok (VStr (s "[![media](http://u)](h)")).
Proof. split; [apply parsed_get; vm_compute; reflexivity|vm_compute; reflexivity]. Qed.

Print Assumptions C16_marks_without_markdown_irrelevant.
Print Assumptions C48_presentation_irrelevant.
Print Assumptions C46_ignored_children.
Print Assumptions C42_result_is_str.
Print Assumptions C37_heading.
Print Assumptions C39_code_block_lines.
Print Assumptions C40_emoji.
Print Assumptions C40_extension.
Print Assumptions C41_external_media.
Print Assumptions C41_other_media.
