(** Replacing an object by one that prints the same changes nothing above it. *)
From Coq Require Import List NArith ZArith Bool String Lia.
From Verif Require Import PyStr Values Schema Parse Date Markdown Basics MdFacts SpecSubst.
Import ListNotations.
Open Scope string_scope.
Open Scope list_scope.

(** Same type, same printing; and, if the parent looks inside, same attributes and contents
    that are the same in this weaker sense. *)
Definition weak (E : runtime) (a b : node) : Prop := n_type a = n_type b /\ prints_same E a b.
Definition view (E : runtime) (a b : node) : Prop :=
  n_attrs a = n_attrs b /\ slot_rel (weak E) (n_content a) (n_content b).
Definition strong (E : runtime) (par : option nkind) (a b : node) : Prop :=
  weak E a b /\ (inspected par a -> view E a b).

Lemma forall2_len {A B} (R : A -> B -> Prop) l l' : Forall2 R l l' -> List.length l = List.length l'.
Proof. induction 1; cbn; congruence. Qed.

Section Subst.
  Variable E : runtime.

  Lemma weak_refl n : weak E n n.
  Proof. split; [reflexivity|]. intros lv ign. reflexivity. Qed.
  Lemma view_refl n : view E n n.
  Proof.
    split; [reflexivity|]. destruct (n_content n) as [| |l|v]; constructor.
    induction l; constructor; [apply weak_refl|assumption].
  Qed.
  Lemma strong_refl par n : strong E par n n.
  Proof. split; [apply weak_refl|]. intros _. apply view_refl. Qed.
  Lemma strong_at par l1 l2 a b : strong E par a b ->
    slot_rel (strong E par) (Items (l1 ++ a :: l2)) (Items (l1 ++ b :: l2)).
  Proof.
    intros H. constructor. apply Forall2_app; [|constructor; [exact H|]].
    - induction l1; constructor; [apply strong_refl|assumption].
    - induction l2; constructor; [apply strong_refl|assumption].
  Qed.
  Lemma weak_type a b ts : weak E a b -> is_type_of a ts = is_type_of b ts.
  Proof. intros [H _]. unfold is_type_of. now rewrite H. Qed.
  Lemma strong_weak par co co' : slot_rel (strong E par) co co' -> slot_rel (weak E) co co'.
  Proof. apply slot_rel_impl. now intros a b [H _]. Qed.

  Lemma weak_content co co' ign : slot_rel (weak E) co co' ->
    content_to_markdown (to_md E) co ign = content_to_markdown (to_md E) co' ign.
  Proof.
    intros HR. unfold content_to_markdown. destruct HR as [| |v|l l' HF]; try reflexivity.
    rewrite (loop_ext (Items l) (Items l') (fun n => try_ ign (to_md E n None false)) (fun n => try_ ign (to_md E n None false))).
    - reflexivity.
    - eapply slot_rel_impl; [|constructor; exact HF]. intros a b [_ HA]. cbn. now rewrite (HA None false).
  Qed.
  Lemma weak_doc_content co co' ign : slot_rel (weak E) co co' ->
    doc_content_to_markdown (to_md E) co ign = doc_content_to_markdown (to_md E) co' ign.
  Proof.
    intros HR. unfold doc_content_to_markdown. destruct HR as [| |v|l l' HF]; try reflexivity.
    rewrite (loop_ext (Items l) (Items l') (fun n => try_ ign (block_md (to_md E) n))
               (fun n => try_ ign (block_md (to_md E) n))).
    - reflexivity.
    - eapply slot_rel_impl; [|constructor; exact HF]. intros a b HA. unfold block_md.
      rewrite (weak_type _ _ _ HA). destruct HA as [_ HA]. now rewrite (HA None false).
  Qed.
  Lemma view_item_lines own level ign n n' : view E n n' ->
    item_lines (to_md E) own level ign n = item_lines (to_md E) own level ign n'.
  Proof.
    intros [_ HR]. unfold item_lines.
    rewrite (loop_ext (n_content n) (n_content n') _
               (fun nd => if is_type_of nd [own] then try_ ign (to_md E nd (Some (S level)) false)
                          else try_ ign (do v <- to_md E nd None false; rstrip_value v))); [reflexivity|].
    eapply slot_rel_impl; [|exact HR]. intros a b HA. rewrite (weak_type _ _ _ HA). destruct HA as [_ HA].
    now rewrite (HA (Some (S level)) false), (HA None false).
  Qed.
  Lemma typed a t : is_type_of a [t] = true -> n_type a = VStr t.
  Proof.
    unfold is_type_of. unfold check_type_match. destruct (n_type a); try discriminate.
    cbn [existsb]. rewrite orb_false_r. intros H. apply str_eqb_eq in H. now subst.
  Qed.
  Lemma strong_list_items par own co co' level ign :
    (par = Some KbulletList \/ par = Some KorderedList) -> slot_rel (strong E par) co co' ->
    list_items (to_md E) own co level ign = list_items (to_md E) own co' level ign.
  Proof.
    intros HP HR. unfold list_items. apply loop_ext. eapply slot_rel_impl; [|exact HR].
    intros a b [HW HV]. cbn. rewrite <- (weak_type _ _ _ HW).
    destruct (is_type_of a [s "listItem"]) eqn:T; [|reflexivity].
    rewrite (view_item_lines own level ign a b); [reflexivity|]. apply HV. apply typed in T.
    destruct HP; subst par; exact T.
  Qed.
  Lemma view_task_item level ign n n' : view E n n' ->
    task_item_line (to_md E) level ign n = task_item_line (to_md E) level ign n'.
  Proof.
    intros [HA HC]. unfold task_item_line. rewrite HA.
    rewrite (loop_ext (n_content n) (n_content n') _ (fun nd => try_ ign (to_md E nd None false))); [reflexivity|].
    eapply slot_rel_impl; [|exact HC]. intros a b [_ H]. now rewrite (H None false).
  Qed.
  Lemma view_width a b : view E a b -> header_width a = header_width b.
  Proof.
    intros [_ HC]. unfold header_width. destruct HC as [| |v|l l' HF]; try reflexivity.
    destruct HF as [|x y l l' HX HF]; [reflexivity|]. rewrite (weak_type _ _ _ HX).
    now rewrite (forall2_len _ _ _ HF).
  Qed.

  Lemma same_parts k ty ve tx a ma co co' : slot_rel (strong E (Some k)) co co' ->
    prints_same E (Node k ty ve tx a co ma) (Node k ty ve tx a co' ma).
  Proof.
    intros HS lv ign. pose proof (strong_weak _ _ _ HS) as HW.
    pose proof (fun i => weak_doc_content co co' i HW) as HCD.
    pose proof (fun i => weak_content co co' i HW) as HCC.
    destruct k; cbn [to_md]; try (destruct lv; [reflexivity|]);
      try rewrite HCD; try rewrite HCC; try reflexivity.
    - unfold bullet_list_md. rewrite (strong_list_items (Some KbulletList) _ co co'); auto.
    - unfold ordered_list_md. rewrite (strong_list_items (Some KorderedList) _ co co'); auto.
    - unfold task_list_md. f_equal. apply loop_ext. eapply slot_rel_impl; [|exact HS].
      intros x y [HXW HXV]. cbn. rewrite <- !(weak_type _ _ _ HXW).
      destruct (is_type_of x [s "taskItem"]) eqn:T.
      + rewrite (view_task_item _ ign x y); [reflexivity|]. apply HXV. exact (typed _ _ T).
      + destruct HXW as [_ HX]. now rewrite HX.
    - unfold decision_item_md. now rewrite HCC.
    - unfold decision_list_md. f_equal. apply loop_ext. eapply slot_rel_impl; [|exact HW].
      intros x y HX. cbn. rewrite <- !(weak_type _ _ _ HX). destruct HX as [_ HX]. now rewrite HX.
    - unfold table_cell_md. now rewrite HCC.
    - unfold table_cell_md. now rewrite HCC.
    - unfold table_row_md. f_equal. apply loop_ext. eapply slot_rel_impl; [|exact HW].
      intros x y [_ HX]. now rewrite HX.
    - unfold table_md. f_equal. apply loop_ext. eapply slot_rel_impl; [|exact HS].
      intros x y [[_ HX] HV]. unfold table_row_lines. rewrite HX.
      destruct (to_md E y None false); [|reflexivity]. rewrite (view_width x y); [reflexivity|].
      apply HV. exact I.
  Qed.

  Lemma replaced_strong par a b : replaced E par a b -> strong E par a b.
  Proof.
    induction 1 as [par a b HT HN HP|par k ty ve tx at_ ma l1 l2 a b HR IH].
    - split; [split; assumption|]. intros HI. destruct (HN HI).
    - pose proof (strong_at (Some k) l1 l2 a b IH) as HS. split.
      + split; [reflexivity|]. apply same_parts. exact HS.
      + intros _. split; [reflexivity|]. cbn. apply strong_weak with (par := Some k). exact HS.
  Qed.
End Subst.
