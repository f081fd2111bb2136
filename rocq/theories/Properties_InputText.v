(** C20 from the input dictionary to the Markdown: the texts are read off the dictionary (SpecInputText.v), not off the objects. *)
From Coq Require Import List NArith ZArith Bool String Lia.
From Verif Require Import PyStr Values Schema Parse Date Markdown Basics StrFacts MarkFacts LeafFacts SpecParse ParseFacts ParseFacts2 ParseFacts3 ParseFacts4
  SpecMd MdFacts SpecTable SpecText TextFacts TextFacts2 SpecRender RenderFacts RenderFacts2 SpecInputText
  Properties_Marks Properties_Nodes Properties_Layout Properties_Lists Properties_Render Properties_Text.
Import ListNotations.
Open Scope string_scope.
Open Scope list_scope.

Lemma over_content_own f d : over_content f d = flat_map f (own_children d).
Proof.
  unfold own_children, list_at. induction d as [|[k x] r IH]; [reflexivity|]. cbn [over_content lookup].
  destruct (str_eqb k (s "content")) eqn:E; [|exact IH].
  destruct x; try reflexivity. induction l as [|y l IHl]; [reflexivity|]. cbn [flat_map filter].
  destruct (unregistered node_names y); cbn [negb]; [exact IHl|]. cbn [flat_map]. now rewrite IHl.
Qed.

Lemma mark_keeps_rep m x : represents_mark m x -> mark_keeps_text m -> replaces_text x = false.
Proof.
  intros HR [HI HL]. destruct (mark_rep m x HR) as [HT HA]. unfold replaces_text. destruct (m_kind x) eqn:EK; try reflexivity.
  2: { exfalso. apply HI. rewrite HT. reflexivity. }
  - destruct (HA _ "title"%string eq_refl) as (l & HE & HK); [right; left; reflexivity|]. rewrite HE, HK.
    destruct (mark_attr m "title") eqn:EM; try reflexivity. now destruct (HL HT x0).
Qed.
Lemma none_replaces ms xs : Forall2 represents_mark ms xs -> Forall mark_keeps_text ms -> existsb replaces_text xs = false.
Proof.
  induction 1 as [|m x l l' H H2 IH]; [reflexivity|]. intros HF. apply Forall_cons_iff in HF as [HF1 HF2]. cbn [existsb].
  now rewrite (mark_keeps_rep m x H HF1), IH.
Qed.

Lemma child_kept_rep k y c : represents y c -> child_type y = nk_name (n_kind c) ->
  child_kept (nk_name k) y = true -> kept_child k c = true.
Proof.
  intros HR HT HK. assert (HC : n_type c = VStr (nk_name (n_kind c))).
  { pose proof (represents_consistent y c HR) as H. inversion H; reflexivity. }
  unfold child_kept in HK. rewrite HT in HK. unfold kept_child. rewrite HC. clear - HK.
  destruct k; try reflexivity; try (vm_compute in HK; discriminate HK); destruct (n_kind c); try reflexivity; vm_compute in HK; discriminate HK.
Qed.

(** The objects of a preserving document hold exactly the texts of the document, and no construct that drops text. *)
Lemma preserving_rep v : preserving v -> forall n, represents v n ->
  child_type v = nk_name (n_kind n) /\ lossless n = true /\ all_texts n = input_texts v.
Proof.
  induction v as [v HX|d IHD] using doc_ind; intros HP n HR.
  { inversion HP; subst. exfalso. eapply HX. reflexivity. }
  inversion HP as [d' t HT HK HM HE]; subst d'.
  inversion HR as [d' k ty ve tx a co ma HTy HCl HRF HE1 HE2]; subst n d'. rewrite HT in HTy. subst ty.
  apply node_class_of_found in HCl. injection HCl as ->.
  split; [unfold child_type; cbn [elem_type n_kind]; now rewrite HT|].
  assert (HSL : slot_from (unregistered node_names) represents (declares (nc_content (nk_class k))) (lookup (s "content") d) co)
    by (inversion HRF; subst; assumption).
  assert (HMS : slot_from (unregistered mark_names) represents_mark (declares (nc_marks (nk_class k))) (lookup (s "marks") d) ma)
    by (inversion HRF; subst; assumption).
  assert (HKIDS : forall cs, co = Items cs -> Forall2 represents (own_children d) cs).
  { intros cs ->. inversion HSL as [| | |l xs _ HF2 HE3 HEE|]; subst. unfold own_children, list_at. now rewrite <- HE3. }
  assert (HALL : Forall (fun y => forall c, represents y c -> kept_child k c = true /\ lossless c = true /\ all_texts c = input_texts y) (own_children d)).
  { apply Forall_forall. intros y Hy. destruct (HK y Hy) as [H1 H2]. intros c HC.
    assert (HIn : exists l, lookup (s "content") d = Some (VList l) /\ In y l).
    { unfold own_children, list_at in Hy. apply filter_In in Hy as [Hy _]. destruct (lookup (s "content") d) as [x|]; [|destruct Hy].
      destruct x; try destruct Hy as []. all: eauto. }
    destruct HIn as (l & HL & HIn). specialize (IHD _ _ HL). rewrite Forall_forall in IHD.
    destruct (IHD y HIn H2 c HC) as (H3 & H4 & H5). split; [|now split]. eapply child_kept_rep; eauto. }
  assert (HNOT : (forall cs, co <> Items cs) -> declares (nc_content (nk_class k)) = true -> own_children d = []).
  { intros HN HD. unfold own_children, list_at.
    inversion HSL as [o HE3|HE3 HE4|HE3 HE4|l xs HE3 HF2 HE4|v HE3 HN2 HL HE4]; subst; try congruence; try reflexivity.
    - now destruct (HN xs).
    - destruct v; try reflexivity. now destruct (HL l). }
  assert (HSUB : declares (nc_content (nk_class k)) = true ->
     match co with Items l => List.concat (map all_texts l) | _ => [] end = flat_map input_texts (own_children d)).
  { intros HD. destruct co as [| |cs|]; try (rewrite HNOT; [reflexivity|congruence|exact HD]).
    specialize (HKIDS cs eq_refl). clear - HKIDS HALL. set (ch := own_children d) in *. clearbody ch.
    induction HKIDS as [|y c l l' HR HF IHF]; [reflexivity|]. apply Forall_cons_iff in HALL as [HA HALL].
    cbn [map List.concat flat_map]. destruct (HA c HR) as (_ & _ & ->). now rewrite IHF. }
  split.
  - cbn [lossless]. apply andb_true_intro. split.
    + destruct co as [| |cs|]; try reflexivity. specialize (HKIDS cs eq_refl). clear - HKIDS HALL. set (ch := own_children d) in *. clearbody ch.
      induction HKIDS as [|y c l l' HR HF IHF]; [reflexivity|]. apply Forall_cons_iff in HALL as [HA HALL].
      cbn [forallb]. destruct (HA c HR) as (-> & -> & _). now rewrite IHF.
    + assert (HN : is_one (nk_name k) ["text"; "paragraph"] = true -> match ma with Items ms => negb (existsb replaces_text ms) | _ => true end = true).
      { intros H. destruct ma as [| |ms|]; try reflexivity. rewrite (none_replaces (own_marks d) ms); [reflexivity|eapply marks_rep; eauto|now apply HM]. }
      destruct k; try reflexivity; try (apply HN; reflexivity).
      (* expand has no marks *) cbn in HMS. inversion HMS; subst; try discriminate. reflexivity.
  - assert (HTX : tx = if nc_text (nk_class k) then lookup (s "text") d else None) by (inversion HRF; subst; reflexivity).
    cbn [all_texts input_texts]. rewrite over_content_own. unfold typed. rewrite HT.
    assert (HEMPTY : is_one (nk_name k) childless = true -> own_children d = []).
    { intros H. destruct (own_children d) as [|y l]; [reflexivity|]. destruct (HK y (or_introl eq_refl)) as [H1 _]. unfold child_kept in H1.
      rewrite H in H1. discriminate. }
    clear - HSUB HEMPTY HTX HSL.
    destruct k; try (rewrite HSUB by reflexivity; reflexivity).
    all: try (rewrite HEMPTY by reflexivity; reflexivity).
    + (* text *) cbn [nc_text nk_class] in HTX. subst tx. reflexivity.
    + (* mediaInline: no content field *) rewrite HEMPTY by reflexivity. cbn in HSL. inversion HSL; subst; try discriminate. reflexivity.
Qed.

(** ---------------------------------------------------------------- the property, end to end *)
(** A dictionary with documented values and no text-dropping construct parses and renders, and every line of every text of the
    dictionary occurs in the Markdown, in document order, without overlap. *)
Theorem C20_input_text_kept : forall E w v, documented v -> preserving v ->
  exists n x, snd (parse_node w v) = Ok n /\ to_markdown E n false = Ok (VStr x) /\
    in_order (List.concat (map pieces (input_texts v))) x.
Proof.
  intros E w v HD HP. destruct (C44_documented_input_renders E w v false HD) as (n & x & HN & HX).
  destruct (preserving_rep v HP n (parse_represents v w n HN)) as (_ & HL & HT).
  exists n, x. split; [exact HN|]. split; [exact HX|]. rewrite <- HT. exact (C20_no_text_lost E w v n x HN HL HX).
Qed.
(** If the texts are one-line strings without surrounding blanks, they occur themselves. *)
Theorem C20_input_text_verbatim : forall E w v, documented v -> preserving v ->
  (forall t, In t (input_texts v) ->
     (forall c, In c t -> is_lb c = false) /\ (exists c r, t = c :: r /\ is_ws c = false) /\ (exists r c, t = r ++ [c] /\ is_ws c = false)) ->
  exists n x, snd (parse_node w v) = Ok n /\ to_markdown E n false = Ok (VStr x) /\ in_order (input_texts v) x.
Proof.
  intros E w v HD HP HS. destruct (C44_documented_input_renders E w v false HD) as (n & x & HN & HX).
  destruct (preserving_rep v HP n (parse_represents v w n HN)) as (_ & HL & HT).
  exists n, x. split; [exact HN|]. split; [exact HX|]. rewrite <- HT. eapply C20_leaves_verbatim; eauto. now rewrite HT.
Qed.
(** Without the assumption that the values are documented: whenever the document parses and renders. *)
Theorem C20_input_text_in_output : forall E w v n x, preserving v -> snd (parse_node w v) = Ok n ->
  to_markdown E n false = Ok (VStr x) -> in_order (List.concat (map pieces (input_texts v))) x.
Proof.
  intros E w v n x HP HN HX. destruct (preserving_rep v HP n (parse_represents v w n HN)) as (_ & HL & HT).
  rewrite <- HT. exact (C20_no_text_lost E w v n x HN HL HX).
Qed.

(** ---------------------------------------------------------------- a case *)
Ltac pr_step :=
  match goal with
  | |- preserving ?v => let v' := eval hnf in v in lazymatch v with VDict _ => fail | _ => change v with v' end
  | |- preserving (VDict ?d) => let t := eval cbv in (lookup (s "type") d) in
        match t with Some (VStr ?t) => apply (preserving_element d t) end
  | |- lookup _ _ = Some _ => vm_compute; reflexivity
  | |- forall y, In y (own_children ?d) -> _ =>
        let l := eval cbv in (own_children d) in change (own_children d) with l;
        let H := fresh in intros y H; cbn [In] in H; repeat (destruct H as [<-|H]); [..|destruct H];
        (split; [vm_compute; reflexivity|])
  | |- is_one _ _ = true -> _ => let H := fresh in intros H; first [vm_compute in H; discriminate H | clear H]
  | |- Forall mark_keeps_text (own_marks ?d) =>
        let l := eval cbv in (own_marks d) in change (own_marks d) with l;
        repeat (apply Forall_cons; [split; [intros HH; vm_compute in HH; discriminate HH|intros _ tt HH; vm_compute in HH; discriminate HH]|]); apply Forall_nil
  end.
Example C20_input_example : preserving ex_kept /\ input_texts ex_kept =
  map s ["Title"; "one"; "deep"; "deeper"; "next"; "two
lines"; "more"; "label"; "rest"; "a\|b"; "  x = 1



  y"].
Proof. split; [repeat pr_step|vm_compute; reflexivity]. Qed.
Example C20_input_example_documented : documented ex_small /\ preserving ex_small /\ input_texts ex_small = [s "c"].
Proof. split; [exact C44_documented_example|]. split; [repeat pr_step|vm_compute; reflexivity]. Qed.
