(** Applications of the simulation theorem. *)
From Coq Require Import List NArith ZArith Bool String Lia.
From Verif Require Import PyStr Values Schema Parse Date Markdown Basics StrFacts MarkFacts SpecParse MdFacts SpecMd.
Import ListNotations.
Open Scope string_scope.
Open Scope list_scope.

Lemma consistent_type n : consistent n -> n_type n = VStr (nk_name (n_kind n)).
Proof. now destruct 1. Qed.
Lemma consistent_items n l : consistent n -> n_content n = Items l -> Forall consistent l.
Proof. destruct 1 as [k ve tx a co ma HC _]. cbn. intros ->. now apply HC. Qed.

Lemma Forall2_map_self {A B} (P : A -> Prop) (R : A -> B -> Prop) (f : A -> B) l :
  Forall P l -> (forall a, P a -> R a (f a)) -> Forall2 R l (map f l).
Proof. induction 1; cbn; constructor; auto. Qed.
Lemma slot_rel_map {A B} (P : A -> Prop) (R : A -> B -> Prop) (f : A -> B) c :
  (forall l, c = Items l -> Forall P l) -> (forall a, P a -> R a (f a)) ->
  slot_rel R c (match c with Items l => Items (map f l) | NoField => NoField | SOpt => SOpt | Raw v => Raw v end).
Proof. intros HP HR. destruct c; constructor. eapply Forall2_map_self; eauto. Qed.
Lemma slot_rel_map_filter {A B} (P : A -> Prop) (R : A -> B -> Prop) (f : A -> B) p q c :
  (forall l, c = Items l -> Forall P l) -> (forall a, P a -> R a (f a)) -> (forall a, P a -> p a = q (f a)) ->
  slot_rel R (slot_filter p c)
    (slot_filter q (match c with Items l => Items (map f l) | NoField => NoField | SOpt => SOpt | Raw v => Raw v end)).
Proof.
  intros HP HR HQ. destruct c as [| |l|v]; constructor. specialize (HP l eq_refl).
  induction HP as [|a l HA HP IH]; cbn; [constructor|]. rewrite <- (HQ a HA). destruct (p a); auto.
Qed.

(** ---------------------------------------------------------------- C16 *)
Lemma drop_marks_type n : n_type (drop_marks n) = n_type n.
Proof. now destruct n. Qed.
Lemma drop_marks_kind n : n_kind (drop_marks n) = n_kind n.
Proof. now destruct n. Qed.
Lemma header_width_map f n : n_content (f n) = match n_content n with Items l => Items (map f l)
    | NoField => NoField | SOpt => SOpt | Raw v => Raw v end ->
  (forall c, n_type (f c) = n_type c) -> header_width n = header_width (f n).
Proof.
  intros HC HT. unfold header_width. rewrite HC. destruct (n_content n) as [| |[|c l]|v]; try reflexivity.
  cbn. rewrite map_length. unfold is_type_of. now rewrite HT.
Qed.
Lemma drop_marks_sim E : simulation E (fun n n' => consistent n /\ n' = drop_marks n).
Proof.
  intros n n' [HC ->]. destruct n as [k ty ve tx a co ma]. pose proof (consistent_type _ HC) as HT.
  cbn [drop_marks n_kind n_type n_text n_attrs n_content n_marks] in *.
  split; [reflexivity|]. split; [exact HT|]. split; [reflexivity|]. split; [reflexivity|].
  split; [split; [reflexivity|tauto]|]. split; [|split].
  - intros _ v. destruct ma as [| |ms|]; try reflexivity. cbn [keep_slot add_style].
    rewrite <- (apply_marks_opaque E ms v).
    f_equal. apply filter_ext. intros m. unfold opaque.
    destruct (in_dec mk_eq_dec (m_kind m) transparent_kinds) as [H|H]; destruct (m_kind m); cbn in *; intuition congruence.
  - intros _. apply slot_rel_map_filter with (P := consistent).
    + intros l ->. now apply (consistent_items _ l HC).
    + auto.
    + intros c _. unfold relevant. destruct (child_types k); [|reflexivity]. unfold is_type_of. now rewrite drop_marks_type.
  - intros _. apply slot_rel_map with (P := consistent).
    + intros l ->. now apply (consistent_items _ l HC).
    + intros c _. apply header_width_map; [now destruct c|apply drop_marks_type].
Qed.
Lemma drop_marks_same E n lv ign : consistent n -> to_md E (drop_marks n) lv ign = to_md E n lv ign.
Proof. intros HC. symmetry. apply (to_md_sim E _ (drop_marks_sim E) n). auto. Qed.

(** ---------------------------------------------------------------- C48 *)
Lemma keep_attrs_attr names a f : In f names -> attr (keep_attrs names a) f = attr a f.
Proof.
  intros HI. destruct a as [| |l]; try reflexivity. cbn.
  assert (HF : existsb (str_eqb f) names = true) by (apply existsb_exists; exists f; split; [exact HI|apply str_eqb_refl]).
  rewrite (lookup_filter (fun k => existsb (str_eqb k) names)). now rewrite HF.
Qed.
Lemma mark_presentation E m v :
  mark_to_markdown E (Mark (m_kind m) VNone (keep_attrs (mark_content_attrs (m_kind m)) (m_attrs m))) v =
  mark_to_markdown E m v.
Proof.
  unfold mark_to_markdown. cbn [m_kind m_attrs]. destruct (m_kind m); try reflexivity; cbn [mark_content_attrs].
  - unfold link_mark. rewrite !keep_attrs_attr by (cbn; tauto). reflexivity.
  - rewrite !keep_attrs_attr by (cbn; tauto). reflexivity.
Qed.
Lemma apply_presentation E ms : forall v,
  apply_marks E (map (fun m => Mark (m_kind m) VNone (keep_attrs (mark_content_attrs (m_kind m)) (m_attrs m))) ms) v
  = apply_marks E ms v.
Proof.
  induction ms as [|m ms IH]; intros v; [reflexivity|]. cbn [map apply_marks]. rewrite mark_presentation.
  destruct (mark_to_markdown E m v); [apply IH|reflexivity].
Qed.
Lemma drop_presentation_sim E : simulation E (fun n n' => consistent n /\ n' = drop_presentation n).
Proof.
  intros n n' [HC ->]. destruct n as [k ty ve tx a co ma]. pose proof (consistent_type _ HC) as HT.
  cbn [drop_presentation n_kind n_type n_text n_attrs n_content n_marks] in *.
  split; [reflexivity|]. split; [exact HT|]. split; [reflexivity|]. split; [reflexivity|].
  split; [split|].
  - intros f HF. symmetry. apply keep_attrs_attr. now destruct k.
  - intros _. destruct a; cbn; split; congruence.
  - split; [|split].
    + intros _ v. destruct ma as [| |ms|]; try reflexivity. cbn [map_slot add_style]. now rewrite apply_presentation.
    + intros _. apply slot_rel_map_filter with (P := consistent).
      * intros l ->. now apply (consistent_items _ l HC).
      * auto.
      * intros c _. unfold relevant. destruct (child_types k); [|reflexivity]. unfold is_type_of. now destruct c.
    + intros _. apply slot_rel_map with (P := consistent).
      * intros l ->. now apply (consistent_items _ l HC).
      * intros c _. apply header_width_map; [now destruct c|now intros []].
Qed.
Lemma drop_presentation_same E n lv ign : consistent n -> to_md E (drop_presentation n) lv ign = to_md E n lv ign.
Proof. intros HC. symmetry. apply (to_md_sim E _ (drop_presentation_sim E) n). auto. Qed.

(** ---------------------------------------------------------------- C46 *)
Lemma tables_items n l : tables_have_rows n -> n_content n = Items l -> Forall tables_have_rows l.
Proof. destruct 1. cbn. intros ->. auto. Qed.
Lemma drop_ignored_type n : n_type (drop_ignored n) = n_type n.
Proof. now destruct n. Qed.
Lemma keep_slot_all {A} (p : A -> bool) c : (forall a, p a = true) -> keep_slot p c = c.
Proof.
  intros H. destruct c as [| |l|]; cbn; try reflexivity. f_equal. induction l; cbn; [reflexivity|].
  rewrite H. congruence.
Qed.
Lemma filter_idem {A} (p : A -> bool) l : filter p (filter p l) = filter p l.
Proof. induction l as [|a l IH]; cbn; [reflexivity|]. destruct (p a) eqn:E; cbn; rewrite ?E; congruence. Qed.
Lemma kept_relevant k n : ignores_content k = false -> kept_child k n = relevant k n.
Proof.
  unfold kept_child, relevant. destruct k; cbn; try discriminate; try reflexivity; intros _;
    unfold is_type_of, check_type_match; destruct (n_type n); reflexivity.
Qed.
Lemma drop_ignored_sim E :
  simulation E (fun n n' => (consistent n /\ tables_have_rows n) /\ n' = drop_ignored n).
Proof.
  intros n n' [[HC HR] ->]. destruct n as [k ty ve tx a co ma]. pose proof (consistent_type _ HC) as HT.
  cbn [drop_ignored n_kind n_type n_text n_attrs n_content n_marks] in *.
  assert (HP : forall l, co = Items l -> Forall (fun c => consistent c /\ tables_have_rows c) l).
  { intros l ->. pose proof (consistent_items _ l HC eq_refl) as H1. pose proof (tables_items _ l HR eq_refl) as H2.
    rewrite Forall_forall in *. auto. }
  split; [reflexivity|]. split; [exact HT|]. split; [reflexivity|]. split; [reflexivity|].
  split; [split; [reflexivity|tauto]|]. split; [reflexivity|]. split.
  - intros HI.
    assert (E1 : forall c, slot_filter (relevant k) (keep_slot (kept_child k) c) = slot_filter (relevant k) c).
    { intros c. destruct c as [| |l|]; try reflexivity. cbn. f_equal.
      rewrite (filter_ext (kept_child k) (relevant k)) by (intros; now apply kept_relevant). apply filter_idem. }
    rewrite E1. apply slot_rel_map_filter with (P := fun c => consistent c /\ tables_have_rows c).
    + exact HP.
    + auto.
    + intros c _. unfold relevant. destruct (child_types k); [|reflexivity]. unfold is_type_of. now rewrite drop_ignored_type.
  - intros ->. rewrite keep_slot_all by reflexivity.
    apply slot_rel_map with (P := fun c => n_kind c = KtableRow).
    + intros l ->. inversion HR as [? ? ? ? ? ? ? _ HRow]; subst. now apply HRow.
    + intros c HK. apply header_width_map; [|apply drop_ignored_type].
      destruct c as [kc ? ? ? ? cc ?]. cbn in HK. subst kc. cbn. rewrite keep_slot_all by reflexivity. reflexivity.
Qed.
Lemma drop_ignored_same E n lv ign : consistent n -> tables_have_rows n ->
  to_md E (drop_ignored n) lv ign = to_md E n lv ign.
Proof. intros HC HR. symmetry. apply (to_md_sim E _ (drop_ignored_sim E) n). auto. Qed.

(** ---------------------------------------------------------------- children that render *)
Lemma mapM_ok {A B} (f : A -> res B) l ys : Forall2 (fun a b => f a = Ok b) l ys -> mapM f l = Ok ys.
Proof. induction 1 as [|a b l ys H _ IH]; [reflexivity|]. cbn. rewrite H. cbn. fold (mapM f). now rewrite IH. Qed.
Lemma join_values_str sep xs : join_values sep (map VStr xs) = Ok (join sep xs).
Proof.
  unfold join_values. rewrite (mapM_ok as_str (map VStr xs) xs); [reflexivity|].
  induction xs; constructor; auto.
Qed.
Lemma for_each_single {A B} (f : A -> res (list B)) l ys :
  Forall2 (fun a y => f a = Ok [y]) l ys -> for_each f l = Ok ys.
Proof. induction 1 as [|a b l ys H _ IH]; [reflexivity|]. cbn. rewrite H. cbn. fold (for_each f). now rewrite IH. Qed.
Lemma join_nil l : join [] l = List.concat l.
Proof. induction l as [|x [|y l] IH]; [reflexivity|cbn; now rewrite app_nil_r|]. cbn in *. now rewrite IH. Qed.
Lemma content_renders E l xs ign : Forall2 (renders E) l xs ->
  content_to_markdown (to_md E) (Items l) ign = Ok (List.concat xs).
Proof.
  intros HF. unfold content_to_markdown, loop.
  rewrite (for_each_single _ l (map VStr xs)).
  - cbn [rbind]. rewrite join_values_str. now rewrite join_nil.
  - induction HF as [|n x l xs H HF IH]; constructor; [|exact IH].
    unfold renders, to_markdown in H. rewrite H. reflexivity.
Qed.
