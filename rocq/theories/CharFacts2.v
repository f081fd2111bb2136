(** Rendering related objects gives related Markdown (C74). *)
From Coq Require Import List NArith ZArith Bool String Lia.
From Verif Require Import PyStr Values Schema Parse Date Markdown Basics SpecChars CharFacts MdFacts.
Import ListNotations.
Open Scope string_scope.
Open Scope list_scope.

Definition rel_res {A B} (P : A -> B -> Prop) (r : res A) (r' : res B) : Prop :=
  match r, r' with Ok a, Ok b => P a b | Err e, Err e' => e = e' | _, _ => False end.
Lemma rel_bind {A A' B B'} (P : A -> A' -> Prop) (Q : B -> B' -> Prop) m m' f g :
  rel_res P m m' -> (forall a b, P a b -> rel_res Q (f a) (g b)) -> rel_res Q (rbind m f) (rbind m' g).
Proof. destruct m, m'; cbn; intros H HF; try contradiction; auto. Qed.
Lemma rel_try {A A'} (P : A -> A' -> Prop) ign r r' : rel_res P r r' -> rel_res (Forall2 P) (try_ ign r) (try_ ign r').
Proof. destruct r, r'; cbn; intros H; try contradiction; [repeat constructor; exact H|]. subst. destruct ign; cbn; [constructor|reflexivity]. Qed.
Lemma rel_for_each {A A' B B'} (P : B -> B' -> Prop) (f : A -> res (list B)) (g : A' -> res (list B')) l l' :
  Forall2 (fun a b => rel_res (Forall2 P) (f a) (g b)) l l' -> rel_res (Forall2 P) (for_each f l) (for_each g l').
Proof.
  induction 1 as [|a b l l' H H2 IH]; [constructor|]. cbn [for_each].
  eapply rel_bind; [exact H|]. intros x y HX. eapply rel_bind; [exact IH|]. intros x2 y2 HX2. now apply Forall2_app.
Qed.
Lemma Forall2_refl_on {A} (P : A -> A -> Prop) l : (forall x, P x x) -> Forall2 P l l.
Proof. intros H. induction l; constructor; auto. Qed.
Lemma rel_loop {B B'} (P : B -> B' -> Prop) (G : node -> node -> Prop) c c' f g raw raw' :
  like_slot G c c' -> (forall a b, G a b -> rel_res (Forall2 P) (f a) (g b)) -> rel_res (Forall2 P) raw raw' ->
  rel_res (Forall2 P) (loop c f raw) (loop c' g raw').
Proof.
  intros HS HF HW. destruct HS as [| |l l' H|v]; cbn [loop]; try reflexivity.
  - apply rel_for_each. induction H; constructor; auto.
  - destruct v; try reflexivity; apply rel_for_each; apply Forall2_refl_on; intros _; exact HW.
Qed.

Section Facts.
  Variable E : runtime.
  Variable R : N -> N -> Prop.
  Hypothesis HR : respects R.
  Notation lk := (like R).
  Notation lv_ := (like_value E R).
  Notation rv_ := (rel_res lv_).
  Notation rs_ := (rel_res lk).

  Lemma lit x : forallb is_ascii x = true -> lk x x. Proof. exact (lit_self R HR x). Qed.
  Lemma like_value_str x y : lk x y -> lv_ (VStr x) (VStr y). Proof. exact (fun H => H). Qed.
  Lemma like_print v w : lv_ v w -> lk (py_str E v) (py_str E w).
  Proof. destruct v, w; cbn [like_value]; intros H; try (destruct H as [H _]; discriminate H); try (destruct H as [H1 H2]; injection H1 as <-; exact H2); try (destruct H as [_ H]; exact H). exact H. Qed.
  (** Related values are equal unless they are strings. *)
  Lemma like_cases v w : lv_ v w -> (exists x y, v = VStr x /\ w = VStr y /\ lk x y) \/ (v = w /\ (forall x, v <> VStr x) /\ lk (py_str E v) (py_str E v)).
  Proof. destruct v, w; cbn [like_value]; intros H; try (destruct H as [H _]; discriminate H); try (right; destruct H as [H1 H2]; split; [exact H1|]; split; [discriminate|exact H2]); left; eauto. Qed.
  Lemma like_as_str v w : lv_ v w -> rs_ (as_str v) (as_str w).
  Proof. intros H. destruct (like_cases v w H) as [(x & y & -> & -> & HX)|(-> & HN & _)]; [exact HX|]. destruct w; try reflexivity. now destruct (HN x). Qed.
  Lemma like_mapM_as_str l l' : Forall2 lv_ l l' -> rel_res (Forall2 lk) (mapM as_str l) (mapM as_str l').
  Proof.
    induction 1 as [|a b l l' H H2 IH]; [constructor|]. cbn [mapM]. eapply rel_bind; [exact (like_as_str a b H)|]. intros x y HX. eapply rel_bind; [exact IH|].
    intros x2 y2 HX2. now constructor.
  Qed.
  Lemma like_join_values sep l l' : forallb is_ascii sep = true -> Forall2 lv_ l l' -> rs_ (join_values sep l) (join_values sep l').
  Proof.
    intros HS H. unfold join_values. eapply rel_bind; [exact (like_mapM_as_str l l' H)|]. intros x y HX. apply like_join; [now apply lit|exact HX].
  Qed.
  Lemma like_lookup f l l' : Forall2 (like_attr E R) l l' ->
    match lookup f l, lookup f l' with Some v, Some w => like_attr E R (f, v) (f, w) | None, None => True | _, _ => False end.
  Proof.
    induction 1 as [|[k v] [k' w] l l' H H2 IH]; [exact I|]. cbn [lookup]. destruct H as [HK H]. cbn [fst snd] in *. subst k'.
    destruct (str_eqb k f) eqn:EF; [|exact IH]. apply str_eqb_eq in EF. subst k. split; [reflexivity|exact H].
  Qed.
  Lemma like_attr_any a a' f : like_attrs E R a a' -> rel_res (fun v w => like_attr E R (f, v) (f, w)) (attr a f) (attr a' f).
  Proof.
    intros [| |l l' H]; try reflexivity. cbn [attr]. pose proof (like_lookup f l l' H) as HL. destruct (lookup f l), (lookup f l'); try contradiction; [exact HL|reflexivity].
  Qed.
  Lemma like_attr_of a a' f : like_attrs E R a a' -> str_eqb f (s "timestamp") = false -> str_eqb f (s "panelType") = false -> rv_ (attr a f) (attr a' f).
  Proof.
    intros H H1 H2. pose proof (like_attr_any a a' f H) as HA. destruct (attr a f), (attr a' f); try exact HA. destruct HA as [_ HA]. cbn [fst snd] in HA. rewrite H1, H2 in HA. exact HA.
  Qed.
  Lemma like_times v w x : forallb is_ascii x = true -> lv_ v w -> rs_ (times v x) (times w x).
  Proof.
    intros HX H. destruct (like_cases v w H) as [(a & b & -> & -> & _)|(-> & _ & _)]; [reflexivity|]. destruct w; try reflexivity; cbn [times rel_res].
    - destruct b; [now apply lit|constructor].
    - apply like_repeat. now apply lit.
  Qed.
  Ltac ap := repeat first [apply like_app | apply lit; reflexivity | assumption].

  (** ---------------------------------------------------------------- marks *)
  Lemma like_wrap d v w : forallb is_ascii d = true -> lv_ v w -> rv_ (wrap_mark d v) (wrap_mark d w).
  Proof.
    intros HD H. destruct (like_cases v w H) as [(x & y & -> & -> & HX)|(-> & HN & _)].
    - cbn [wrap_mark]. rewrite (like_nonblank R HR x y HX). apply like_value_str. destruct (nonblank y); [|exact HX]. apply like_app; [now apply lit|]. apply like_app; [exact HX|now apply lit].
    - destruct w; try reflexivity. now destruct (HN x).
  Qed.
  Lemma like_code v w : lv_ v w -> rv_ (code_mark v) (code_mark w).
  Proof.
    intros H. destruct (like_cases v w H) as [(x & y & -> & -> & HX)|(-> & HN & _)].
    - cbn [code_mark]. rewrite (has_nl R HR x y HX), (like_nonblank R HR x y HX). destruct (existsb (N.eqb NL) y); [reflexivity|]. apply like_value_str. destruct (nonblank y); [ap|exact HX].
    - destruct w; try reflexivity; cbn [code_mark]; [now destruct (HN x)| |];
        match goal with |- rel_res _ (if ?b then _ else _) _ => destruct b; reflexivity end.
  Qed.
  Lemma like_mark_md m m' v w : like_mark E R m m' -> lv_ v w -> rv_ (mark_to_markdown E m v) (mark_to_markdown E m' w).
  Proof.
    intros (HK & _ & HA) H. unfold mark_to_markdown. rewrite <- HK. destruct (m_kind m); try exact H; try (apply like_wrap; [reflexivity|exact H]).
    - exact (like_code v w H).
    - unfold link_mark. eapply rel_bind; [exact (like_attr_of _ _ (s "title") HA eq_refl eq_refl)|]. intros t t' HT.
      eapply rel_bind; [exact (like_attr_of _ _ (s "href") HA eq_refl eq_refl)|]. intros h h' HH. apply like_value_str.
      apply like_app; [ap|]. apply like_app; [|apply like_app; [ap|apply like_app; [now apply like_print|ap]]].
      destruct (like_cases t t' HT) as [(x & y & -> & -> & HX)|(-> & HN & _)]; [exact HX|]. destruct t'; try (destruct (HN x); reflexivity); now apply like_print.
    - eapply rel_bind; [exact (like_attr_of _ _ (s "level") HA eq_refl eq_refl)|]. intros l l' HL. eapply rel_bind; [exact (like_times l l' [9%N] eq_refl HL)|]. intros x y HX. exact HX.
  Qed.
  Lemma like_marks ms ms' : Forall2 (like_mark E R) ms ms' -> forall v w, lv_ v w -> rv_ (apply_marks E ms v) (apply_marks E ms' w).
  Proof.
    induction 1 as [|m m' ms ms' H H2 IH]; intros v w HV; [exact HV|]. cbn [apply_marks]. pose proof (like_mark_md m m' v w H HV) as HM.
    destruct (mark_to_markdown E m v) as [a|e], (mark_to_markdown E m' w) as [b|e']; try contradiction; [now apply IH|]. cbn in HM. subst e'. destruct e; try reflexivity. exact HV.
  Qed.
  Lemma like_style ma ma' v w : like_slot (like_mark E R) ma ma' -> lv_ v w -> rv_ (add_style E ma v) (add_style E ma' w).
  Proof. intros [| |l l' H|x] HV; try exact HV. now apply like_marks. Qed.

  (** ---------------------------------------------------------------- containers *)
  Definition good (a b : node) : Prop := n_type a = n_type b /\ like_attrs E R (n_attrs a) (n_attrs b) /\ forall lv ign, rv_ (to_md E a lv ign) (to_md E b lv ign).
  Definition good2 (a b : node) : Prop := good a b /\ like_slot good (n_content a) (n_content b).
  Lemma good_type a b l : good a b -> is_type_of a l = is_type_of b l.
  Proof. intros [H _]. unfold is_type_of. now rewrite H. Qed.
  Lemma like_content c c' ign : like_slot good c c' -> rs_ (content_to_markdown (to_md E) c ign) (content_to_markdown (to_md E) c' ign).
  Proof.
    intros H. assert (HL : rs_ (do lst <- loop c (fun n => try_ ign (to_md E n None false)) (try_ ign (Err AttributeError)); join_values [] lst)
                             (do lst <- loop c' (fun n => try_ ign (to_md E n None false)) (try_ ign (Err AttributeError)); join_values [] lst)).
    { eapply rel_bind; [|intros x y HX; exact (like_join_values [] x y eq_refl HX)]. eapply rel_loop; [exact H| |].
      - intros a b HG. apply rel_try. apply HG.
      - apply rel_try. reflexivity. }
    unfold content_to_markdown. destruct H; try exact HL. constructor.
  Qed.
  Lemma like_block a b : good a b -> rv_ (block_md (to_md E) a) (block_md (to_md E) b).
  Proof.
    intros H. unfold block_md. rewrite (good_type a b _ H). destruct (is_type_of b padded); [|apply H]. eapply rel_bind; [apply H|]. intros v w HV.
    eapply rel_bind; [exact (like_as_str v w HV)|]. intros x y HX. apply like_value_str. ap.
  Qed.
  Lemma like_doc_content c c' ign : like_slot good c c' -> rs_ (doc_content_to_markdown (to_md E) c ign) (doc_content_to_markdown (to_md E) c' ign).
  Proof.
    intros H. assert (HL : rs_ (do lst <- loop c (fun n => try_ ign (block_md (to_md E) n)) (try_ ign (Err AttributeError)); do x <- join_values nl lst; Ok (strip_double_empty_line x))
                             (do lst <- loop c' (fun n => try_ ign (block_md (to_md E) n)) (try_ ign (Err AttributeError)); do x <- join_values nl lst; Ok (strip_double_empty_line x))).
    { eapply rel_bind; [|intros l l' HX; eapply rel_bind; [exact (like_join_values nl l l' eq_refl HX)|intros x y HXY; now apply like_strip_double]].
      eapply rel_loop; [exact H| |].
      - intros a b HG. apply rel_try. now apply like_block.
      - apply rel_try. reflexivity. }
    unfold doc_content_to_markdown. destruct H; try exact HL. constructor.
  Qed.
  Lemma like_rstrip_value v w : lv_ v w -> rv_ (rstrip_value v) (rstrip_value w).
  Proof.
    intros H. destruct (like_cases v w H) as [(x & y & -> & -> & HX)|(-> & HN & _)]; [|destruct w; try reflexivity; now destruct (HN x)].
    cbn [rstrip_value]. apply like_value_str. apply like_rstrip; [exact (same_ws R HR)|exact HX].
  Qed.
  Lemma like_item_lines own level ign a b : good2 a b -> rel_res (Forall2 lk) (item_lines (to_md E) own level ign a) (item_lines (to_md E) own level ign b).
  Proof.
    intros [_ H]. unfold item_lines. eapply rel_bind; [|intros l l' HX; eapply rel_bind; [exact (like_join_values nl l l' eq_refl HX)|intros x y HXY; now apply like_split]].
    eapply rel_loop; [exact H| |reflexivity]. intros x y HG. rewrite (good_type x y _ HG). destruct (is_type_of y [own]); apply rel_try; [apply HG|].
    eapply rel_bind; [apply HG|exact like_rstrip_value].
  Qed.
  Lemma like_list_items own c c' level ign : like_slot good2 c c' -> rel_res (Forall2 (Forall2 lk)) (list_items (to_md E) own c level ign) (list_items (to_md E) own c' level ign).
  Proof.
    intros H. unfold list_items. eapply rel_loop; [exact H| |reflexivity]. intros a b HG. rewrite (good_type a b _ (proj1 HG)). destruct (is_type_of b _); [|constructor].
    eapply rel_bind; [exact (like_item_lines own level ign a b HG)|]. intros x y HX. repeat constructor. exact HX.
  Qed.
  Lemma like_hd l l' : Forall2 lk l l' -> lk (hd [] l) (hd [] l'). Proof. intros [|x y r r' H H2]; [constructor|exact H]. Qed.
  Lemma like_tl l l' : Forall2 lk l l' -> Forall2 lk (tl l) (tl l'). Proof. intros [|x y r r' H H2]; [constructor|exact H2]. Qed.
  Lemma like_indent_of level : lk (indent_of level) (indent_of level). Proof. apply like_repeat. ap. Qed.
  Lemma like_bullet c c' level ign : like_slot good2 c c' -> rv_ (bullet_list_md (to_md E) c level ign) (bullet_list_md (to_md E) c' level ign).
  Proof.
    intros H. unfold bullet_list_md. eapply rel_bind; [exact (like_list_items _ c c' level ign H)|]. intros l l' HL. apply like_value_str. apply like_join; [ap|].
    induction HL as [|x y l l' HX HL IH]; [constructor|]. cbn [map List.concat bullet_item]. apply Forall2_app; [|exact IH].
    constructor; [|now apply like_tl]. apply like_app; [apply like_indent_of|]. apply like_app; [ap|now apply like_hd].
  Qed.
  Lemma like_ordered_items level start l l' : Forall2 (Forall2 lk) l l' -> forall i, Forall2 lk (ordered_items level start i l) (ordered_items level start i l').
  Proof.
    induction 1 as [|x y l l' HX HL IH]; intros i; [constructor|]. cbn [ordered_items ordered_item]. apply Forall2_app; [|apply IH].
    constructor; [|now apply like_tl]. apply like_app; [apply like_indent_of|]. apply like_app; [|apply like_app; [ap|now apply like_hd]].
    destruct start; cbn [ol_number]; try apply (like_dec R HR). destruct i; [destruct b; ap|apply (like_dec R HR)].
  Qed.
  Lemma like_ordered a a' c c' level ign : like_attrs E R a a' -> like_slot good2 c c' -> rv_ (ordered_list_md (to_md E) a c level ign) (ordered_list_md (to_md E) a' c' level ign).
  Proof.
    intros HA H. unfold ordered_list_md. apply rel_bind with (P := eq).
    { destruct level; [|reflexivity]. eapply rel_bind; [exact (like_attr_of _ _ (s "order") HA eq_refl eq_refl)|]. intros v w HV.
      destruct (like_cases v w HV) as [(x & y & -> & -> & _)|(-> & _ & _)]; reflexivity. }
    intros st st' <-. eapply rel_bind; [exact (like_list_items _ c c' level ign H)|]. intros l l' HL. apply like_value_str. apply like_join; [ap|]. now apply like_ordered_items.
  Qed.
  Lemma like_task_item level ign a b : good2 a b -> rv_ (task_item_line (to_md E) level ign a) (task_item_line (to_md E) level ign b).
  Proof.
    intros [HG H]. unfold task_item_line. eapply rel_bind.
    { eapply rel_loop; [exact H|intros x y HXY; apply rel_try; apply HXY|apply rel_try; reflexivity]. }
    intros l l' HL. eapply rel_bind; [exact (like_join_values [] l l' eq_refl HL)|]. intros x y HX.
    eapply rel_bind; [exact (like_attr_of _ _ (s "state") (proj1 (proj2 HG)) eq_refl eq_refl)|]. intros v w HV. apply like_value_str.
    apply like_app; [apply like_indent_of|]. apply like_app; [ap|]. apply like_app; [|apply like_app; [ap|apply like_rstrip; [exact (same_ws R HR)|exact HX]]].
    destruct (like_cases v w HV) as [(p & q & -> & -> & HP)|(-> & _ & _)].
    - rewrite (str_eqb_like R HR p q (s "DONE") eq_refl HP). destruct (str_eqb q (s "DONE")); ap.
    - destruct w; try ap. destruct (str_eqb x0 (s "DONE")); ap.
  Qed.
  Lemma like_task c c' level ign : like_slot good2 c c' -> rv_ (task_list_md (to_md E) c level ign) (task_list_md (to_md E) c' level ign).
  Proof.
    intros H. unfold task_list_md. eapply rel_bind; [|intros l l' HL; eapply rel_bind; [exact (like_join_values nl l l' eq_refl HL)|intros x y HX; exact HX]].
    eapply rel_loop; [exact H| |reflexivity]. intros a b HG. rewrite !(good_type a b _ (proj1 HG)). destruct (is_type_of b _).
    - eapply rel_bind; [exact (like_task_item level ign a b HG)|]. intros x y HX. now repeat constructor.
    - destruct (is_type_of b _); [|constructor]. apply rel_try. apply HG.
  Qed.
  Lemma like_decision_list c c' ign : like_slot good c c' -> rv_ (decision_list_md (to_md E) c ign) (decision_list_md (to_md E) c' ign).
  Proof.
    intros H. unfold decision_list_md. eapply rel_bind; [|intros l l' HL; eapply rel_bind; [exact (like_join_values (nl ++ nl) l l' eq_refl HL)|intros x y HX; exact HX]].
    eapply rel_loop; [exact H| |reflexivity]. intros a b HG. rewrite (good_type a b _ HG). destruct (is_type_of b _); [|constructor]. apply rel_try. apply HG.
  Qed.
  Lemma like_decision_item c c' ign : like_slot good c c' -> rv_ (decision_item_md (to_md E) c ign) (decision_item_md (to_md E) c' ign).
  Proof.
    intros H. unfold decision_item_md. eapply rel_bind; [exact (like_content c c' ign H)|]. intros x y HX. apply like_value_str. apply like_join; [ap|].
    apply (like_quote_lines R HR). apply (like_split R HR); [reflexivity|]. apply like_rstrip; [exact (same_ws R HR)|exact HX].
  Qed.
  Lemma like_row c c' ign : like_slot good c c' -> rv_ (table_row_md (to_md E) c ign) (table_row_md (to_md E) c' ign).
  Proof.
    intros H. unfold table_row_md. eapply rel_bind; [|intros l l' HL; eapply rel_bind; [exact (like_join_values (s " | ") l l' eq_refl HL)|intros x y HX; apply like_value_str; ap]].
    eapply rel_loop; [exact H| |reflexivity]. intros a b HG. eapply rel_bind; [apply HG|]. intros x y HX. now repeat constructor.
  Qed.
  Lemma like_width a b : good2 a b -> header_width a = header_width b.
  Proof.
    intros [_ H]. unfold header_width. destruct H as [| |l l' H|v]; try reflexivity. destruct H as [|x y l l' HX H]; [reflexivity|].
    rewrite (good_type x y _ HX). f_equal. destruct (is_type_of y _); [|reflexivity]. f_equal. f_equal. clear - H. induction H; cbn; congruence.
  Qed.
  Lemma delimiter_ascii n : forallb is_ascii (delimiter n) = true.
  Proof.
    unfold delimiter. rewrite !forallb_app. assert (H : forallb is_ascii (join (s " | ") (repeat (s "---") n)) = true).
    { induction n as [|[|n] IH]; [reflexivity|reflexivity|]. change (join (s " | ") (repeat (s "---") (S (S n)))) with (s "---" ++ s " | " ++ join (s " | ") (repeat (s "---") (S n))).
      rewrite !forallb_app, IH. reflexivity. }
    rewrite H. reflexivity.
  Qed.
  Lemma like_table c c' ign : like_slot good2 c c' -> rv_ (table_md (to_md E) c ign) (table_md (to_md E) c' ign).
  Proof.
    intros H. unfold table_md. eapply rel_bind; [|intros l l' HL; eapply rel_bind; [exact (like_join_values nl l l' eq_refl HL)|intros x y HX; exact HX]].
    eapply rel_loop; [exact H| |apply rel_try; reflexivity]. intros a b HG. unfold table_row_lines. rewrite (like_width a b HG).
    pose proof (proj2 (proj2 (proj1 HG)) None false) as HM. destruct (to_md E a None false) as [v|e], (to_md E b None false) as [w|e']; try contradiction.
    - cbn in HM. destruct (header_width b) as [[n|]|e]; [constructor; [exact HM|constructor; [apply like_value_str, lit, delimiter_ascii|constructor]]|constructor; [exact HM|constructor]|destruct ign; [constructor; [exact HM|constructor]|reflexivity]].
    - cbn in HM. subst e'. destruct ign; [constructor|reflexivity].
  Qed.
  Lemma like_media_type v w x : lv_ v w -> forallb is_ascii (s x) = true -> is_media v x = is_media w x.
  Proof.
    intros H HX. destruct (like_cases v w H) as [(p & q & -> & -> & HP)|(-> & _ & _)]; [|reflexivity]. exact (str_eqb_like R HR p q (s x) HX HP).
  Qed.
  Lemma like_media a a' ma ma' : like_attrs E R a a' -> like_slot (like_mark E R) ma ma' -> rv_ (media_md E a ma) (media_md E a' ma').
  Proof.
    intros HA HM. unfold media_md. eapply rel_bind; [exact (like_attr_of _ _ (s "type") HA eq_refl eq_refl)|]. intros t t' HT.
    eapply rel_bind; [exact (like_attr_of _ _ (s "url") HA eq_refl eq_refl)|]. intros u u' HU. eapply rel_bind; [exact (like_attr_of _ _ (s "alt") HA eq_refl eq_refl)|]. intros al al' HL.
    eapply rel_bind; [exact (like_attr_of _ _ (s "id") HA eq_refl eq_refl)|]. intros i i' HI. cbv zeta.
    rewrite !(like_media_type t t' _ HT) by reflexivity.
    assert (HAL : lk (match al with VStr x => x | _ => s "media" end) (match al' with VStr x => x | _ => s "media" end)).
    { destruct (like_cases al al' HL) as [(x & y & -> & -> & HX)|(-> & HN & _)]; [exact HX|]. destruct al'; try (destruct (HN x); reflexivity); ap. }
    assert (HN : rv_ (if is_media t' "file" then add_style E ma (VStr (s "![" ++ match al with VStr x => x | _ => s "media" end ++ s "](media:" ++ py_str E i ++ s ")"))
                      else if is_media t' "link" then Ok (VStr (s "[media]")) else Err TypeError)
                     (if is_media t' "file" then add_style E ma' (VStr (s "![" ++ match al' with VStr x => x | _ => s "media" end ++ s "](media:" ++ py_str E i' ++ s ")"))
                      else if is_media t' "link" then Ok (VStr (s "[media]")) else Err TypeError)).
    { destruct (is_media t' "file"); [apply like_style; [exact HM|]; apply like_value_str; pose proof (like_print i i' HI); ap|]. destruct (is_media t' "link"); [apply like_value_str; ap|reflexivity]. }
    destruct (is_media t' "external"); [|exact HN].
    destruct (like_cases u u' HU) as [(x & y & -> & -> & HX)|(-> & HX & _)].
    - apply like_style; [exact HM|]. apply like_value_str. ap.
    - destruct u'; try exact HN. now destruct (HX x).
  Qed.
  Lemma like_lang a a' : like_attrs E R a a' -> rs_ (code_lang a) (code_lang a').
  Proof.
    intros HA. assert (HC : rs_ (do v <- attr a (s "language"); Ok (match v with VStr x => if str_eqb x (s "none") then [] else x | _ => [] end))
                               (do v <- attr a' (s "language"); Ok (match v with VStr x => if str_eqb x (s "none") then [] else x | _ => [] end))).
    { eapply rel_bind; [exact (like_attr_of _ _ (s "language") HA eq_refl eq_refl)|]. intros v w HV. destruct (like_cases v w HV) as [(x & y & -> & -> & HX)|(-> & HX & _)].
      - rewrite (str_eqb_like R HR x y (s "none") eq_refl HX). cbn [rel_res]. destruct (str_eqb y (s "none")); [constructor|exact HX].
      - destruct w; try constructor. now destruct (HX x). }
    unfold code_lang. destruct HA; try exact HC. constructor.
  Qed.
  Lemma like_pad w n : lk (pad w n) (pad w n).
  Proof. unfold pad. apply like_app; [apply like_repeat; ap|apply (like_dec R HR)]. Qed.
  Lemma like_date v : rs_ (date_to_markdown (rt_digit E) v) (date_to_markdown (rt_digit E) v).
  Proof.
    assert (H : forall sec, rs_ (date_of_seconds sec) (date_of_seconds sec)).
    { intros sec. unfold date_of_seconds. destruct (civil_of_days (sec / 86400)) as [[y m] d]. destruct ((1 <=? y)%Z && (y <=? 9999)%Z); [|reflexivity].
      cbn [rel_res]. apply like_app; [apply like_pad|]. apply like_app; [ap|]. apply like_app; [apply like_pad|]. apply like_app; [ap|apply like_pad]. }
    unfold date_to_markdown. destruct (py_int (rt_digit E) v) as [n|e]; [|reflexivity]. cbn [rbind]. destruct (n =? 0)%Z; [apply H|].
    destruct (div1000 (Z.abs n)) as [m e]. apply H.
  Qed.
  Theorem like_md n : forall n', like_node E R n n' -> forall lv ign, rv_ (to_md E n lv ign) (to_md E n' lv ign).
  Proof.
    induction n as [k ty ve tx a co ma IH] using node_ind2. intros n' HN. inversion HN as [k0 ty0 ve0 tx0 tx' a0 a' co0 co' ma0 ma' HT HA HC HM]; subst. clear HN.
    assert (H2 : like_slot good2 co co').
    { assert (HG : forall x y, (forall n', like_node E R x n' -> forall lv ign, rv_ (to_md E x lv ign) (to_md E n' lv ign)) -> like_node E R x y -> good x y).
      { intros x y HX HY. split; [|split; [|exact (HX y HY)]]; destruct HY; [reflexivity|assumption]. }
      destruct HC as [| |l l' HC|v]; try constructor. cbn [on_items] in IH. revert IH. induction HC as [|x y l l' HX HC IHC]; intros IH; constructor.
      - apply Forall_cons_iff in IH as [[HI1 HI2] _]. split; [exact (HG x y HI1 HX)|]. destruct HX as [k1 ty1 ve1 t1 t2 a1 a2 c1 c2 m1 m2 _ _ HX _]. cbn [n_content] in *.
        destruct HX as [| |cs cs' HX|v]; try constructor. cbn [on_items] in HI2. clear HI1. induction HX as [|p q cs cs' HP HX IHX]; constructor.
        + apply Forall_cons_iff in HI2 as [HI2 _]. exact (HG p q HI2 HP).
        + apply Forall_cons_iff in HI2 as [_ HI2]. exact (IHX HI2).
      - apply Forall_cons_iff in IH as [_ IH]. exact (IHC IH). }
    assert (H1 : like_slot good co co').
    { clear - H2. destruct H2 as [| |l l' H|v]; constructor. induction H as [|x y l l' H _ IHH]; [constructor|]. constructor; [exact (proj1 H)|exact IHH]. }
    intros lv ign.
    pose proof (like_content co co' ign H1) as HCM. pose proof (like_doc_content co co' ign H1) as HDC.
    assert (HAT : forall f, str_eqb f (s "timestamp") = false -> str_eqb f (s "panelType") = false -> rv_ (attr a f) (attr a' f)) by (intros f; now apply like_attr_of).
    assert (HX : forall v w, lv_ v w -> rv_ (match v with VStr _ => Ok v | _ => Ok (VStr (s "@Unknown")) end) (match w with VStr _ => Ok w | _ => Ok (VStr (s "@Unknown")) end)).
    { intros v w HV. destruct (like_cases v w HV) as [(x & y & -> & -> & HX)|(-> & HN & _)]; [exact HX|]. destruct w; try (destruct (HN x); reflexivity); apply like_value_str; ap. }
    destruct k; cbn [to_md]; try (destruct lv; [reflexivity|]);
      try exact (like_bullet co co' _ ign H2); try exact (like_task co co' _ ign H2); try exact (like_ordered a a' co co' _ ign HA H2);
      try exact (like_decision_list co co' ign H1); try exact (like_decision_item co co' ign H1); try exact (like_row co co' ign H1);
      try exact (like_table co co' ign H2); try exact (like_media a a' ma ma' HA HM);
      try (eapply rel_bind; [exact HCM|]; intros x y HXY; exact HXY); try (eapply rel_bind; [exact HDC|]; intros x y HXY; exact HXY);
      try (unfold table_cell_md; eapply rel_bind; [exact HCM|]; intros x y HXY; exact (like_cell_text R HR x y HXY));
      try (apply like_value_str; ap; fail); try (apply like_value_str; constructor; fail).
    - destruct HT as [|v w HV]; [reflexivity|]. now apply like_style.
    - eapply rel_bind; [exact HCM|]. intros x y HXY. eapply rel_bind; [apply like_style; [exact HM|exact (like_value_str x y HXY)]|]. intros v w HV.
      eapply rel_bind; [exact (like_as_str v w HV)|]. intros p q HP. apply like_value_str. ap.
    - eapply rel_bind; [exact (HAT (s "text") eq_refl eq_refl)|]. intros v w HV.
      assert (HSN : rv_ (do sn <- attr a (s "shortName"); match sn with VStr _ => Ok sn | _ => Err NotImplementedErr end)
                        (do sn <- attr a' (s "shortName"); match sn with VStr _ => Ok sn | _ => Err NotImplementedErr end)).
      { eapply rel_bind; [exact (HAT (s "shortName") eq_refl eq_refl)|]. intros v2 w2 HV2.
        destruct (like_cases v2 w2 HV2) as [(x & y & -> & -> & HXY)|(-> & HN & _)]; [exact HXY|]. destruct w2; try reflexivity. now destruct (HN x). }
      destruct (like_cases v w HV) as [(x & y & -> & -> & HXY)|(-> & HN & _)]; [exact HXY|]. destruct w; try exact HSN. now destruct (HN x).
    - pose proof (like_attr_any a a' (s "timestamp") HA) as HTS. destruct (attr a (s "timestamp")) as [v|e], (attr a' (s "timestamp")) as [w|e']; try contradiction; [|exact HTS].
      destruct HTS as [_ HTS]. cbn [fst snd] in HTS. change (str_eqb (s "timestamp") (s "timestamp")) with true in HTS. cbn iota in HTS. subst w. cbn [rbind].
      eapply rel_bind; [exact (like_date v)|]. intros x y HXY. exact HXY.
    - eapply rel_bind; [exact (HAT (s "text") eq_refl eq_refl)|]. intros v w HV. pose proof (HX v w HV) as HV2. destruct v, w; exact HV2.
    - eapply rel_bind; [exact (HAT (s "text") eq_refl eq_refl)|]. intros v w HV. pose proof (like_print v w HV) as HP. apply like_value_str. ap.
    - eapply rel_bind; [exact (HAT (s "level") eq_refl eq_refl)|]. intros v w HV. eapply rel_bind; [exact (like_times v w (s "#") eq_refl HV)|]. intros x y HXY.
      eapply rel_bind; [exact HCM|]. intros p q HP. apply like_value_str. ap.
    - eapply rel_bind; [exact HCM|]. intros p q HP. eapply rel_bind; [exact (like_lang a a' HA)|]. intros x y HXY. apply like_value_str. ap.
    - eapply rel_bind; [exact (HAT (s "url") eq_refl eq_refl)|]. intros v w HV. destruct (like_cases v w HV) as [(x & y & -> & -> & HXY)|(-> & HN & _)]; [|destruct w; try reflexivity; now destruct (HN x)].
      apply like_value_str. ap.
    - eapply rel_bind; [exact (HAT (s "url") eq_refl eq_refl)|]. intros v w HV. destruct (like_cases v w HV) as [(x & y & -> & -> & HXY)|(-> & HN & _)]; [|destruct w; try reflexivity; now destruct (HN x)].
      apply like_value_str. ap.
    - eapply rel_bind; [exact (HAT (s "url") eq_refl eq_refl)|]. intros v w HV. pose proof (like_print v w HV) as HP. apply like_value_str. ap.
    - eapply rel_bind; [exact (HAT (s "extensionKey") eq_refl eq_refl)|]. intros key key' HK. eapply rel_bind; [exact (HAT (s "extensionType") eq_refl eq_refl)|]. intros et et' HE.
      eapply rel_bind; [exact (HAT (s "text") eq_refl eq_refl)|]. intros v w HV. pose proof (like_print key key' HK) as HKP. pose proof (like_print et et' HE) as HEP.
      apply like_value_str. destruct (like_cases v w HV) as [(x & y & -> & -> & HXY)|(-> & HN & _)]; [|destruct w; try (destruct (HN x); reflexivity); ap].
      destruct HXY as [|c d x y HCD HXY]; [ap|]. assert (HCX : lk (c :: x) (d :: y)) by (constructor; assumption). ap.
    - pose proof (like_attr_any a a' (s "panelType") HA) as HTS. destruct (attr a (s "panelType")) as [v|e], (attr a' (s "panelType")) as [w|e']; try contradiction; [|exact HTS].
      destruct HTS as [_ HTS]. cbn [fst snd] in HTS. change (str_eqb (s "panelType") (s "panelType")) with true in HTS.
      change (str_eqb (s "panelType") (s "timestamp")) with false in HTS. cbn iota in HTS. destruct HTS as [<- HU]. cbn [rbind].
      destruct v; try reflexivity. cbn [rbind]. eapply rel_bind; [exact HDC|]. intros p q HP. apply like_value_str. apply like_app; [|ap].
      apply (like_indent R HR); [reflexivity|]. apply (like_strip_double R HR). apply like_join; [ap|]. constructor; [ap|]. constructor; [constructor|]. constructor; [exact HP|constructor].
    - eapply rel_bind; [exact HDC|]. intros p q HP. apply like_value_str. apply like_app; [|ap]. apply (like_indent R HR); [reflexivity|]. now apply (like_strip_double R HR).
    - eapply rel_bind; [exact HDC|]. intros p q HP. now apply like_style.
  Qed.
End Facts.
