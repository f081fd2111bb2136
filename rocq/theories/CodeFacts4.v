(** Running the source text (RepoCode.v): node classes without loops of their own. *)
From Coq Require Import List NArith ZArith Bool String Lia.
From Verif Require Import PyStr Values Schema Parse Date Markdown Basics StrFacts PySyntax PySem RepoCode CodeFacts CodeFacts2 CodeFacts3.
Import ListNotations.
Open Scope string_scope.
Open Scope list_scope.

Section Run.
Variable E : runtime.
Notation RF cl := (run_func E repo node_cls mark_cls cl).
Definition kids_ok (k : nat) (c : slot node) : Prop := forall k', (k <= k')%nat -> children_ok E k' c.
(** The class's to_markdown is right on this object if it is right on its children. *)
Definition class_ok (n : node) : Prop :=
  forall k, fits n -> kids_ok (S (S k)) (n_content n) -> child_ok E (S (S (S (S k)))) n.

Lemma simple_kws cl f o lv oi : f_params f = [("self", None); ("ignore_error", Some (VBool false))] ->
  RF cl f [o] (kw_lv lv ++ kw_ign oi) = match lv with Some _ => Exc TypeError | None => RF cl f [o] [("ignore_error", PV (VBool (ign_of oi)))] end.
Proof. intros H. unfold run_func. rewrite H. destruct lv, oi; reflexivity. Qed.
Definition lvl (lv : option nat) : nat := match lv with Some l => l | None => O end.
Lemma level_kws cl f o lv oi : f_params f = [("self", None); ("level", Some (VInt 0)); ("ignore_error", Some (VBool false))] ->
  RF cl f [o] (kw_lv lv ++ kw_ign oi) = RF cl f [o] [("level", PV (VInt (Z.of_nat (lvl lv)))); ("ignore_error", PV (VBool (ign_of oi)))].
Proof. intros H. unfold run_func. rewrite H. destruct lv, oi; reflexivity. Qed.
Lemma fits_attrs_class n : fits n ->
  match n_attrs n with AObj l => exists q c, class_of node_cls mark_cls (PN n) = Some q /\ assoc q (p_attrs repo) = Some c | _ => True end.
Proof. intros H. apply node_attrs_class. now inversion H. Qed.
Lemma fits_content n : fits n -> nc_content (nk_class (n_kind n)) <> None -> has_field (n_content n) /\ proper_slot (n_content n).
Proof.
  intros H. inversion H as [k ty ve tx a co ma HTX HA HC HM HCI HMI]; subst. cbn [n_kind n_content]. intros HN.
  destruct (nc_content (nk_class k)); [|now contradiction HN]. destruct co; cbn in HC; [contradiction| | |]; (split; [intros D; discriminate D|exact HC]).
Qed.
Lemma fits_text n : fits n -> nc_text (nk_class (n_kind n)) = true -> exists t, n_text n = Some t.
Proof. intros H. inversion H as [k ty ve tx a co ma HTX HA HC HM HCI HMI]; subst. cbn [n_kind n_text]. intros HN. rewrite HN in HTX. exact HTX. Qed.
Lemma fits_marks n : fits n -> fits_slot (nc_marks (nk_class (n_kind n))) (n_marks n) /\ (forall l, n_marks n = Items l -> Forall fits_mark l).
Proof. intros H. now inversion H. Qed.
Lemma fits_fields n : fits n -> fits_attrs (option_map snd (nc_attrs (nk_class (n_kind n)))) (n_attrs n).
Proof. intros H. now inversion H. Qed.
Lemma kids_at k k' c : kids_ok k c -> (k <= k')%nat -> children_ok E k' c.
Proof. intros H HL. exact (H k' HL). Qed.
Lemma add_style_run k n v args kws : fits n ->
  (args = [PV v; PN n] /\ kws = [] \/ args = [] /\ kws = [("md", PV v); ("node", PN n)]) ->
  call E repo node_cls mark_cls (S (S k)) (PFun "markdown_helpers.add_style_to_markdown") args kws = of_res (rmap PV (add_style E (n_marks n) v)).
Proof. intros H. destruct (fits_marks n H). now apply style_run. Qed.
End Run.

(** Start the proof for a class whose to_markdown is [f]. *)
Ltac class_ E f k HF HK HAC ign :=
  let lv := fresh "lv" in let oi := fresh "oi" in
  intros k HF HK lv oi; rewrite (call_bound E _ _ _ f) by (vm_compute; reflexivity);
  rewrite simple_kws by reflexivity; destruct lv as [lv|]; [reflexivity|]; cbn [to_md]; generalize (ign_of oi) as ign; clear oi; intros ign;
  enter f; pose proof (fits_attrs_class _ HF) as HAC; cbn [n_attrs] in HAC; py.
Ltac take HAC a f v H := fieldr HAC f; destruct (attr a (s f)) as [v|?e] eqn:H; cbn [rmap of_res obind withv rbind]; [|reflexivity].

Section Leaf.
Variable E : runtime.
Notation class_ok := (class_ok E).
Lemma class_rule ty ve tx a co ma : class_ok (Node Krule ty ve tx a co ma).
Proof. class_ E m_NodeRule_to_markdown k HF HK HAC ign. reflexivity. Qed.
Lemma class_hardBreak ty ve tx a co ma : class_ok (Node KhardBreak ty ve tx a co ma).
Proof. class_ E m_NodeHardBreak_to_markdown k HF HK HAC ign. reflexivity. Qed.
Lemma class_mediaGroup ty ve tx a co ma : class_ok (Node KmediaGroup ty ve tx a co ma).
Proof. class_ E m_NodeMediaGroup_to_markdown k HF HK HAC ign. reflexivity. Qed.
Lemma class_caption ty ve tx a co ma : class_ok (Node Kcaption ty ve tx a co ma).
Proof. class_ E m_NodeCaption_to_markdown k HF HK HAC ign. reflexivity. Qed.
Lemma class_mediaInline ty ve tx a co ma : class_ok (Node KmediaInline ty ve tx a co ma).
Proof. class_ E m_NodeMediaInline_to_markdown k HF HK HAC ign. reflexivity. Qed.
Lemma class_emoji ty ve tx a co ma : class_ok (Node Kemoji ty ve tx a co ma).
Proof.
  class_ E m_NodeEmoji_to_markdown k HF HK HAC ign. take HAC a "text" t HT.
  destruct t; py; try reflexivity; (take HAC a "shortName" u HN; destruct u; py; fieldr HAC "shortName"; rewrite ?HN; py; reflexivity).
Qed.
Lemma class_mention ty ve tx a co ma : class_ok (Node Kmention ty ve tx a co ma).
Proof. class_ E m_NodeMention_to_markdown k HF HK HAC ign. take HAC a "text" t HT. destruct t; py; reflexivity. Qed.
Lemma class_status ty ve tx a co ma : class_ok (Node Kstatus ty ve tx a co ma).
Proof. class_ E m_NodeStatus_to_markdown k HF HK HAC ign. take HAC a "text" t HT. py. reflexivity. Qed.
Lemma class_inlineCard ty ve tx a co ma : class_ok (Node KinlineCard ty ve tx a co ma).
Proof. class_ E m_NodeInlineCard_to_markdown k HF HK HAC ign. take HAC a "url" t HT. destruct t; py; reflexivity. Qed.
Lemma class_blockCard ty ve tx a co ma : class_ok (Node KblockCard ty ve tx a co ma).
Proof. class_ E m_NodeBlockCard_to_markdown k HF HK HAC ign. take HAC a "url" t HT. destruct t; py; reflexivity. Qed.
Lemma class_embedCard ty ve tx a co ma : class_ok (Node KembedCard ty ve tx a co ma).
Proof. class_ E m_NodeEmbedCard_to_markdown k HF HK HAC ign. take HAC a "url" t HT. py. reflexivity. Qed.
Lemma class_extension ty ve tx a co ma : class_ok (Node Kextension ty ve tx a co ma).
Proof.
  class_ E m_NodeExtension_to_markdown k HF HK HAC ign. take HAC a "extensionKey" key HK1. py. take HAC a "extensionType" et HK2. py. take HAC a "text" t HT.
  destruct t; py; try reflexivity. destruct x; py; fieldr HAC "text"; rewrite ?HT; py; reflexivity.
Qed.
End Leaf.
