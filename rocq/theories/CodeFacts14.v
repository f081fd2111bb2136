(** Running the source text (RepoCode.v): every class, and every parsed document. *)
From Coq Require Import List NArith ZArith Bool String Lia.
From Verif Require Import PyStr Values Schema Parse Date Markdown Basics StrFacts ParseFacts ParseFacts3 ParseFacts4 SpecParse SpecRaise SpecSize SizeFacts2 PySyntax PySem RepoCode
  CodeFacts CodeFacts2 CodeFacts3 CodeFacts4 CodeFacts5 CodeFacts6 CodeFacts7 CodeFacts8 CodeFacts9 CodeFacts10 CodeFacts11 CodeFacts12 CodeFacts13.
Import ListNotations.
Open Scope string_scope.
Open Scope list_scope.

Lemma class_any E n : class_ok2 E n.
Proof.
  destruct n as [k ty ve tx a co ma]. destruct k.
  all: try solve [intros k0 HF HK _; revert k0 HF HK;
    first [apply class_blockquote | apply class_codeBlock | apply class_doc | apply class_emoji | apply class_expand | apply class_hardBreak | apply class_heading
      | apply class_inlineCard | apply class_listItem | apply class_mediaGroup | apply class_mediaSingle | apply class_media | apply class_mention | apply class_nestedExpand
      | apply class_panel | apply class_paragraph | apply class_rule | apply class_status | apply class_table | apply class_tableCell | apply class_tableHeader | apply class_tableRow
      | apply class_text | apply class_date | apply class_caption | apply class_mediaInline | apply class_blockCard | apply class_embedCard | apply class_extension
      | apply class_decisionItem | apply class_decisionList | apply class_taskItem]].
  all: first [apply class_bulletList | apply class_orderedList | apply class_taskList].
Qed.
Lemma kid_depth n c : In c (kids n) -> (depth c < depth n)%nat.
Proof.
  intros HI. rewrite (depth_eq n). pose proof (list_max_le (map depth (kids n)) (list_max (map depth (kids n)))) as [H _]. specialize (H (le_n _)).
  rewrite Forall_forall in H. specialize (H (depth c) (in_map depth _ _ HI)). lia.
Qed.
Lemma kids_items n l : n_content n = Items l -> kids n = l.
Proof. unfold kids. now intros ->. Qed.
Lemma fits_kid n c : fits n -> In c (kids n) -> fits c.
Proof.
  intros H HI. inversion H as [k ty ve tx a co ma HTX HA HC HM HCI HMI]; subst. unfold kids in HI. cbn [n_content] in HI.
  destruct co as [| |l|]; try contradiction. specialize (HCI l eq_refl). rewrite Forall_forall in HCI. auto.
Qed.
Lemma fits_run E : forall d n, (depth n <= d)%nat -> fits n -> forall k, (2 * depth n + 2 <= k)%nat -> child_ok E k n.
Proof.
  induction d as [|d IH]; intros n HD HF k HK; [rewrite depth_eq in HD; lia|].
  assert (HP : (1 <= depth n)%nat) by (rewrite depth_eq; lia).
  destruct k as [|[|[|[|k]]]]; try lia.
  assert (HKID : forall c k', In c (kids n) -> (S (S k) <= k')%nat -> child_ok E k' c).
  { intros c k' HI HL. pose proof (kid_depth n c HI). apply IH; [lia|exact (fits_kid n c HF HI)|lia]. }
  apply (class_any E n k HF).
  - intros k' HL l Hl. rewrite Forall_forall. intros c HI. apply HKID; [|exact HL]. now rewrite (kids_items n l Hl).
  - intros l Hl. rewrite Forall_forall. intros c HI k' HL l' Hl'. rewrite Forall_forall. intros g HG.
    assert (HIC : In c (kids n)) by now rewrite (kids_items n l Hl). assert (HIG : In g (kids c)) by now rewrite (kids_items c l' Hl').
    pose proof (kid_depth n c HIC). pose proof (kid_depth c g HIG).
    apply IH; [lia|exact (fits_kid c g (fits_kid n c HF HIC) HIG)|lia].
Qed.

(** ---------------------------------------------------------------- what from_dict makes fits *)
Lemma collect_all_of {A} w (P : A -> Prop) (ms : list (M A)) lg xs : Forall (fun m => forall a, snd m = Ok a -> P a) ms -> collect w ms = (lg, Ok xs) -> Forall P xs.
Proof.
  intros HF. revert lg xs. induction HF as [|m ms HM HMS IH]; intros lg xs H.
  - cbn in H. injection H as <- <-. constructor.
  - assert (H0 := eq_trans (eq_sym (collect_cons w m ms)) H). clear H. rename H0 into H. destruct m as [l [a|e]].
    + destruct (collect w ms) as [lg' [ys|e]]; [|discriminate]. injection H as <- <-. constructor; [now apply HM|]. eapply IH. reflexivity.
    + destruct e; try discriminate. destruct (collect w ms) as [lg' r]. injection H as <- ->. eapply IH. reflexivity.
Qed.
Lemma fits_entry {A} w (P : A -> Prop) fk (e : entry A) lg o x :
  run_entry w e = (lg, Ok o) -> slot_field fk o = Ok x ->
  match e with EList ms => Forall (fun m => forall a, snd m = Ok a -> P a) ms | EOther (VList _) => False | _ => True end ->
  fits_slot fk x /\ forall l, x = Items l -> Forall P l.
Proof.
  intros HR HS HE. unfold slot_field in HS. destruct fk as [fk|]; [|injection HS as <-; split; [exact I|discriminate]].
  destruct e as [|ms|v].
  - cbn in HR. injection HR as <- <-. destruct fk; try discriminate. injection HS as <-. split; [exact I|discriminate].
  - rewrite run_entry_list in HR. destruct (collect w ms) as [lg' [xs|]] eqn:D; [|discriminate]. injection HR as <- <-. injection HS as <-.
    split; [exact I|]. intros l [= <-]. exact (collect_all_of w P ms _ _ HE D).
  - destruct v; cbn in HR; injection HR as <- <-; injection HS as <-; (split; [exact I || contradiction|discriminate || contradiction]).
Qed.
Lemma attrs_names fs v l : attrs_from_dict fs v = Ok l -> map fst l = map fst fs.
Proof. intros H. apply attrs_from_dict_holds in H as (d & _ & HH). exact (proj1 HH). Qed.
Lemma mark_fits v m : parse_mark v = Ok m -> fits_mark m.
Proof.
  intros H. apply parse_mark_represents in H. unfold fits_mark. destruct H as [d k HL HA|d k fs a HL HA HF HN]; cbn [m_kind m_attrs]; rewrite HA; [exact I|].
  destruct HF as [|d' l [HH _]]; [exact I|exact HH].
Qed.
Lemma from_dict_fits w k d n :
  (forall l, lookup (s "content") d = Some (VList l) -> Forall (fun v => forall w n, snd (parse_node w v) = Ok n -> fits n) l) ->
  snd (from_dict w k (VDict d)) = Ok n -> fits n.
Proof.
  intros HF H. cbn [from_dict] in H. unfold node_from_entry in H.
  destruct (attrs_entry (nk_class k) d) as [oa|] eqn:EA; [|discriminate]. unfold lift in H. cbn [bind] in H.
  destruct (run_entry w (content_entry w d)) as [lg [oc|]] eqn:EC; [|discriminate]. cbn [bind] in H.
  destruct (run_entry w (marks_entry d)) as [lg' [om|]] eqn:EM; [|discriminate]. cbn [bind snd app] in H.
  unfold construct in H.
  destruct (if nc_text (nk_class k) then _ else _) as [tx|] eqn:ET; [|discriminate]. cbn [rbind] in H.
  destruct (attrs_field (nk_class k) oa) as [a|] eqn:EF; [|discriminate]. cbn [rbind] in H.
  destruct (slot_field (nc_content (nk_class k)) oc) as [co|] eqn:ES; [|discriminate]. cbn [rbind] in H.
  destruct (slot_field (nc_marks (nk_class k)) om) as [ma|] eqn:EN; [|discriminate]. cbn [rbind] in H.
  injection H as <-.
  apply (fits_entry w fits) with (1 := EC) in ES as [HC1 HC2].
  2:{ unfold content_entry. destruct (lookup (s "content") d) as [v|]; [|exact I]. destruct v; try exact I.
      specialize (HF _ eq_refl). rewrite Forall_forall in HF |- *. intros m HI b HB. apply in_map_iff in HI as (v & <- & HV). exact (HF v HV w b HB). }
  apply (fits_entry w fits_mark) with (1 := EM) in EN as [HM1 HM2].
  2:{ unfold marks_entry. destruct (lookup (s "marks") d) as [v|]; [|exact I]. destruct v; try exact I.
      rewrite Forall_forall. intros m HI b HB. apply in_map_iff in HI as (v & <- & HV). exact (mark_fits v b HB). }
  constructor; [| |exact HC1|exact HM1|exact HC2|exact HM2].
  - destruct (nc_text (nk_class k)); [|congruence]. destruct (lookup (s "text") d); [|discriminate]. injection ET as <-. eauto.
  - unfold attrs_entry, attrs_field in *. destruct (nc_attrs (nk_class k)) as [[fk fs]|]; [|injection EF as <-; exact I].
    cbn [option_map snd]. destruct (lookup (s "attrs") d) as [v|].
    + destruct (attrs_from_dict fs v) as [l|] eqn:D; [|discriminate]. injection EA as <-. injection EF as <-. exact (attrs_names _ _ _ D).
    + injection EA as <-. destruct fk; try discriminate. injection EF as <-. exact I.
Qed.
Lemma parse_fits v : forall w n, snd (parse_node w v) = Ok n -> fits n.
Proof.
  induction v as [v HX|d IH] using doc_ind; intros w n H.
  - rewrite parse_node_nondict in H by exact HX. discriminate.
  - rewrite parse_node_dict in H. destruct (lookup (s "type") d) as [ty|] eqn:L; [|discriminate].
    destruct (node_class_of ty) as [k| |] eqn:R; try discriminate.
    apply (from_dict_fits w k d); [|exact H]. intros l HL. exact (IH _ _ HL).
Qed.
Lemma made_fits w k v n : snd (from_dict w k v) = Ok n -> fits n.
Proof.
  intros H. destruct v; try discriminate. apply (from_dict_fits w k d); [|exact H]. intros l HL. rewrite Forall_forall. intros x _. exact (parse_fits x).
Qed.
