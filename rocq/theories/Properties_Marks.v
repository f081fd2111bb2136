(** C15-C19 (marks on text), C43 (type tests), C47 (warning text). *)
From Coq Require Import List NArith ZArith Bool String Lia Permutation.
From Verif Require Import PyStr Values Schema Parse Date Markdown Basics StrFacts MarkFacts SpecParse ParseFacts4.
Import ListNotations.
Open Scope string_scope.
Open Scope list_scope.

(** A text has something to show if one of its characters is not white space. *)
Definition visible (t : str) : Prop := exists c, In c t /\ is_ws c = false.
Definition invisible (t : str) : Prop := forall c, In c t -> is_ws c = true.
Lemma visible_nonblank t : visible t <-> nonblank t = true.
Proof. symmetry. apply nonblank_true. Qed.
Lemma invisible_nonblank t : invisible t <-> nonblank t = false.
Proof. symmetry. apply nonblank_false. Qed.

Lemma some_inj {A} (a b : A) : Some a = Some b -> a = b.
Proof. congruence. Qed.
(** ================================================================ C15 *)
Definition emphasis (k : mkind) : option str :=
  match k with Mstrong => Some (s "**") | Mem => Some (s "*") | Mstrike => Some (s "~~") | _ => None end.
Theorem C15_emphasis_wraps : forall E m d t, emphasis (m_kind m) = Some d ->
  (visible t -> mark_to_markdown E m (VStr t) = Ok (VStr (d ++ t ++ d))) /\
  (invisible t -> mark_to_markdown E m (VStr t) = Ok (VStr t)).
Proof.
  intros E m d t HD. unfold mark_to_markdown.
  split; [intros HV; apply visible_nonblank in HV|intros HV; apply invisible_nonblank in HV];
    destruct (m_kind m); cbn [emphasis] in HD; try discriminate;
    apply some_inj in HD; subst d; unfold wrap_mark; rewrite HV; reflexivity.
Qed.
(** The text can be recovered from the output: two texts never render the same. *)
Theorem C15_text_recoverable : forall E m t1 t2, emphasis (m_kind m) <> None ->
  mark_to_markdown E m (VStr t1) = mark_to_markdown E m (VStr t2) -> t1 = t2.
Proof.
  intros E m t1 t2 HD. unfold mark_to_markdown.
  destruct (m_kind m); cbn [emphasis] in HD; try congruence; unfold wrap_mark; intros H; apply okstr_inj in H;
    (eapply wrap_inj; [|exact H]); eexists; (split; [left; reflexivity|reflexivity]).
Qed.
Example C15_example : visible (s " a ") /\ invisible (s "  ") /\ emphasis Mstrike = Some (s "~~").
Proof.
  split; [exists 97%N; split; [right; left; reflexivity|reflexivity]|]. split; [|reflexivity].
  intros c [<-|[<-|[]]]; reflexivity.
Qed.

(** ================================================================ C16 (on mark lists) *)
Theorem C16_transparent : forall E m v, In (m_kind m) transparent_kinds -> mark_to_markdown E m v = Ok v.
Proof. exact transparent. Qed.
Theorem C16_insert_anywhere : forall E ms1 m ms2 v, In (m_kind m) transparent_kinds ->
  add_style E (Items (ms1 ++ m :: ms2)) v = add_style E (Items (ms1 ++ ms2)) v.
Proof. intros E a m b v H. cbn. now apply apply_marks_drop. Qed.

(** ================================================================ C17 *)
(** A text node. *)
Definition text_node (t : str) (ms : list mark) : node :=
  Node Ktext (VStr (s "text")) None (Some (VStr t)) NoAttrs NoField (Items ms).
(** Marks apply from first to last: m_n(... m_1(text)). *)
Theorem C17_no_marks : forall E t ign, to_markdown E (text_node t []) ign = Ok (VStr t).
Proof. reflexivity. Qed.
Theorem C17_marks_in_order : forall E t ms m ign, Forall parsed_mark ms -> parsed_mark m ->
  to_markdown E (text_node t (ms ++ [m])) ign =
  do x <- to_markdown E (text_node t ms) ign; mark_to_markdown E m x.
Proof. intros E t ms m ign H1 H2. exact (apply_marks_snoc E ms m t H1 H2). Qed.
(** Without indentation marks and titled links the rendering contains the text. *)
Theorem C17_text_kept : forall E t ms ign y, Forall parsed_mark ms ->
  (forall m, In m ms -> m_kind m <> Mindentation) ->
  (forall m l x, In m ms -> m_kind m = Mlink -> m_attrs m = AObj l -> lookup (s "title") l <> Some (VStr x)) ->
  to_markdown E (text_node t ms) ign = Ok (VStr y) ->
  exists before after, y = before ++ t ++ after.
Proof.
  intros E t ms ign y HP HI HL H. cbn in H. apply (apply_keeps E ms t y HP); [|exact H].
  apply forallb_forall. intros m Hm. unfold keeps_text, indents, titled.
  destruct (m_kind m) eqn:K; try reflexivity.
  - cbn. destruct (m_attrs m) as [| |l] eqn:A; try reflexivity.
    destruct (lookup (s "title") l) as [v|] eqn:T; [|reflexivity]. destruct v; try reflexivity.
    exfalso. exact (HL m l x Hm K A T).
  - exfalso. exact (HI m Hm K).
Qed.
(** The two exceptions lose the text, whatever it is. *)
Theorem C17_indentation_loses_text : forall E m v1 v2, m_kind m = Mindentation ->
  mark_to_markdown E m v1 = mark_to_markdown E m v2.
Proof. intros E m v1 v2 H. unfold mark_to_markdown. now rewrite H. Qed.
Theorem C17_titled_link_loses_text : forall E m l x v1 v2, m_kind m = Mlink -> m_attrs m = AObj l ->
  lookup (s "title") l = Some (VStr x) -> mark_to_markdown E m v1 = mark_to_markdown E m v2.
Proof.
  intros E m l x v1 v2 H HA HT. unfold mark_to_markdown. rewrite H. unfold link_mark. rewrite HA. cbn [attr].
  rewrite HT. reflexivity.
Qed.
Definition rt0 : runtime := Runtime (fun _ => []) (fun x => x) (fun _ => None).
Definition get_mark (v : value) : mark :=
  match parse_mark v with Ok m => m | Err _ => Mark Mem VNone NoAttrs end.
Definition tyv (x : string) : str * value := (s "type", VStr (s x)).
Definition link_dict (kvs : list (str * value)) : value := VDict [tyv "link"; (s "attrs", VDict kvs)].
Definition indent_dict : value := VDict [tyv "indentation"; (s "attrs", VDict [(s "level", VInt 1)])].
(** Documented principle "preserve content" refuted: the word "secret" disappears. *)
Theorem C17_content_preservation_refuted :
  (exists m, parsed_mark m /\ to_markdown rt0 (text_node (s "secret") [m]) false = Ok (VStr [9%N])) /\
  (exists m, parsed_mark m /\
     to_markdown rt0 (text_node (s "secret") [m]) false = Ok (VStr (s "[t](u)"))).
Proof.
  split.
  - exists (get_mark indent_dict). split; [exists indent_dict; reflexivity|vm_compute; reflexivity].
  - exists (get_mark (link_dict [(s "href", VStr (s "u")); (s "title", VStr (s "t"))])).
    split; [exists (link_dict [(s "href", VStr (s "u")); (s "title", VStr (s "t"))]); reflexivity|vm_compute; reflexivity].
Qed.
Example C17_example :
  to_markdown rt0 (text_node (s "x") [get_mark (VDict [tyv "strong"]); get_mark (link_dict [(s "href", VStr (s "u"))]);
                                      get_mark (VDict [tyv "em"])]) false = Ok (VStr (s "*[**x**](u)*")).
Proof. vm_compute. reflexivity. Qed.

(** ================================================================ C18 *)
Theorem C18_code_mark : forall E m t, m_kind m = Mcode ->
  (In NL t -> mark_to_markdown E m (VStr t) = Err ValueError) /\
  (~ In NL t -> visible t -> mark_to_markdown E m (VStr t) = Ok (VStr (s "`` " ++ t ++ s " ``"))) /\
  (~ In NL t -> invisible t -> mark_to_markdown E m (VStr t) = Ok (VStr t)).
Proof.
  intros E m t HK. unfold mark_to_markdown, code_mark. rewrite HK.
  destruct (existsb (N.eqb NL) t) eqn:X.
  - apply existsb_NL in X. repeat split; intros; tauto || reflexivity.
  - assert (~ In NL t) by (rewrite <- existsb_NL; congruence). repeat split; try tauto; intros _ HV.
    + apply visible_nonblank in HV. now rewrite HV.
    + apply invisible_nonblank in HV. now rewrite HV.
Qed.
(** Hence it fails exactly on a newline. *)
Theorem C18_code_fails_iff : forall E m t, m_kind m = Mcode ->
  (exists e, mark_to_markdown E m (VStr t) = Err e) <-> In NL t.
Proof.
  intros E m t HK. unfold mark_to_markdown, code_mark. rewrite HK.
  destruct (existsb (N.eqb NL) t) eqn:X; split; intros H; try (now apply existsb_NL); eauto.
  - destruct H as [e H]. discriminate.
  - apply existsb_NL in H. congruence.
Qed.

(** ================================================================ C19 *)
(** In terms of the ADF dictionary the mark was parsed from. *)
Theorem C19_link : forall E d a h m t, lookup (s "type") d = Some (VStr (s "link")) ->
  lookup (s "attrs") d = Some (VDict a) -> lookup (s "href") a = Some h ->
  parse_mark (VDict d) = Ok m ->
  mark_to_markdown E m (VStr t) =
  Ok (VStr (s "[" ++ (match lookup (s "title") a with Some (VStr x) => x | _ => t end)
            ++ s "](" ++ py_str E h ++ s ")")).
Proof.
  intros E d a h m t HT HA HH HP. apply parse_mark_inv in HP as (d' & Hd & HT' & _ & HP).
  assert (d' = d) by congruence. subst d'. rewrite HT in HT'.
  assert (K : m_kind m = Mlink) by (apply mk_name_inj; change (mk_name Mlink) with (s "link"); congruence).
  rewrite K in HP. cbn [mk_attrs] in HP. destruct HP as (a' & l & HA' & HL & HM).
  assert (a' = a) by congruence. subst a'. apply attrs_from_dict_ok in HL.
  unfold mark_to_markdown. rewrite K. unfold link_mark. rewrite HM, HL. cbn [attr].
  pose (g := fun n => match lookup n a with Some x => x | None => VOpt end).
  rewrite (lookup_table _ g (s "title")) by (cbn; tauto). cbn [rbind].
  rewrite (lookup_table _ g (s "href")) by (cbn; tauto). cbn [rbind]. unfold g. rewrite HH.
  destruct (lookup (s "title") a) as [[| | | |x| | |]|]; reflexivity.
Qed.
Theorem C19_link_href_required : forall d, lookup (s "type") d = Some (VStr (s "link")) ->
  forall m, parse_mark (VDict d) = Ok m ->
  exists a h, lookup (s "attrs") d = Some (VDict a) /\ lookup (s "href") a = Some h.
Proof.
  intros d HT m HP. pose proof HP as HP0. apply parse_mark_inv in HP as (d' & Hd & HT' & _ & HP).
  assert (d' = d) by congruence. subst d'. rewrite HT in HT'.
  assert (K : m_kind m = Mlink) by (apply mk_name_inj; change (mk_name Mlink) with (s "link"); congruence).
  rewrite K in HP. cbn [mk_attrs] in HP. destruct HP as (a & l & HA & HL & _). exists a.
  destruct (lookup (s "href") a) as [h|] eqn:H; [eauto|]. exfalso.
  cbn [attrs_from_dict] in HL. unfold missing in HL. cbn [existsb is_Pos is_Req fst snd andb] in HL.
  unfold has in HL. rewrite H in HL. cbn in HL. discriminate.
Qed.
Example C19_example :
  mark_to_markdown rt0 (get_mark (link_dict [(s "title", VStr []); (s "href", VStr (s "u"))])) (VStr (s "x"))
  = Ok (VStr (s "[](u)")) /\
  mark_to_markdown rt0 (get_mark (link_dict [(s "title", VNone); (s "href", VStr (s "u"))])) (VStr (s "x"))
  = Ok (VStr (s "[x](u)")).
Proof. split; vm_compute; reflexivity. Qed.

(** ================================================================ C43 *)
Definition members (e : expected) (t : str) : Prop :=
  match e with One x => t = x | Many l => In t l end.
Theorem C43_is_type_of : forall n e,
  node_is_type_of n e = true <-> exists t, members e t /\ n_type n = VStr t.
Proof.
  intros n e. unfold node_is_type_of, check_type_match. destruct (n_type n) as [| | | |x| | |];
    try (split; [discriminate|intros (t & _ & H); discriminate]).
  rewrite existsb_exists. split.
  - intros (t & HI & HE). apply str_eqb_eq in HE. subst t. exists x. split; [|reflexivity].
    destruct e; cbn in HI |- *; [|exact HI]. destruct HI as [H|[]]; now symmetry.
  - intros (t & HM & HE). assert (x = t) by congruence. subst x. exists t. split; [|apply str_eqb_refl].
    destruct e; cbn in HM |- *; [left; now symmetry|exact HM].
Qed.
Theorem C43_is_type_of_mark : forall m e,
  mark_is_type_of m e = true <-> exists t, members e t /\ m_type m = VStr t.
Proof.
  intros m e. unfold mark_is_type_of, check_type_match. destruct (m_type m) as [| | | |x| | |];
    try (split; [discriminate|intros (t & _ & H); discriminate]).
  rewrite existsb_exists. split.
  - intros (t & HI & HE). apply str_eqb_eq in HE. subst t. exists x. split; [|reflexivity].
    destruct e; cbn in HI |- *; [|exact HI]. destruct HI as [H|[]]; now symmetry.
  - intros (t & HM & HE). assert (x = t) by congruence. subst x. exists t. split; [|apply str_eqb_refl].
    destruct e; cbn in HM |- *; [left; now symmetry|exact HM].
Qed.
Theorem C43_single_is_one_element_list : forall n t, node_is_type_of n (One t) = node_is_type_of n (Many [t]).
Proof. reflexivity. Qed.
Theorem C43_monotone : forall n l l', (forall t, In t l -> In t l') ->
  node_is_type_of n (Many l) = true -> node_is_type_of n (Many l') = true.
Proof. intros n l l' H. rewrite !C43_is_type_of. intros (t & HM & HT). exists t. split; [now apply H|exact HT]. Qed.
Theorem C43_order_irrelevant : forall n l l', Permutation l l' ->
  node_is_type_of n (Many l) = node_is_type_of n (Many l').
Proof.
  intros n l l' HP. apply eq_true_iff_eq. split; apply C43_monotone; intros t H.
  - eapply Permutation_in; eauto.
  - eapply Permutation_in; [apply Permutation_sym|]; eauto.
Qed.
Example C43_example : node_is_type_of (text_node (s "x") []) (Many [s "rule"; s "text"]) = true
  /\ node_is_type_of (text_node (s "x") []) (One (s "rule")) = false.
Proof. split; reflexivity. Qed.

(** ================================================================ C47 *)
(** The logged text: [str(e)] of the swallowed UnimplementedTypeError. *)
Definition warning_text (E : runtime) (w : warning) : str :=
  match w with Warn c t => unimplemented_message c (py_str E t) end.
Theorem C47_message_identifies : forall E c t, exists rest,
  warning_text E (Warn c (VStr t)) =
  s (match c with CNode => "Node" | CMark => "Mark" end) ++ s " type '" ++ t ++ s "'" ++ rest.
Proof.
  intros E c t. unfold warning_text, unimplemented_message. cbn [py_str].
  exists (s " is not yet implemented. Please submit an issue at https://github.com/MacHu-GWU/atlas_doc_parser-project/issues with this type name so it can be added in a future release.").
  reflexivity.
Qed.
Theorem C47_message_injective : forall E c t c' t',
  warning_text E (Warn c (VStr t)) = warning_text E (Warn c' (VStr t')) -> c = c' /\ t = t'.
Proof.
  intros E c t c' t'. unfold warning_text, unimplemented_message. cbn [py_str]. intros H.
  assert (c = c') as <-.
  { destruct c, c'; try reflexivity; apply (f_equal (hd 0%N)) in H; vm_compute in H; discriminate. }
  split; [reflexivity|]. apply app_inv_head in H. apply app_inv_head in H. now apply app_inv_tail in H.
Qed.

Print Assumptions C15_emphasis_wraps.
Print Assumptions C15_text_recoverable.
Print Assumptions C16_insert_anywhere.
Print Assumptions C17_marks_in_order.
Print Assumptions C17_text_kept.
Print Assumptions C18_code_mark.
Print Assumptions C19_link.
Print Assumptions C43_is_type_of.
Print Assumptions C47_message_injective.
