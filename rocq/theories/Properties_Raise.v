(** C67: what has to be caught. *)
From Coq Require Import List NArith ZArith Bool String Lia.
From Verif Require Import PyStr Values Schema Parse Serialize Date Markdown Basics MdFacts SpecRaise ParseFacts Properties_Marks Properties_Nodes Properties_Layout Properties_Errors.
Import ListNotations.
Open Scope string_scope.
Open Scope list_scope.

(** ================================================================ rendering *)
Definition blamed (E : runtime) (e : exc) (n : node) : Prop := exists m, within m n /\ origin E e m.
Definition plain (e : exc) : Prop := e = TypeError \/ e = AttributeError.
Lemma plain_blamed E e n : plain e -> blamed E e n.
Proof. intros H. exists n. split; [constructor|]. destruct H; subst; exact I. Qed.
Lemma blamed_here E e n : origin E e n -> blamed E e n.
Proof. intros H. exists n. split; [constructor|exact H]. Qed.
Lemma blamed_below E e n c l : n_content n = Items l -> In c l -> blamed E e c -> blamed E e n.
Proof. intros H1 H2 (m & HW & HO). exists m. split; [econstructor; eauto|exact HO]. Qed.

Lemma for_each_err {A B} (f : A -> res (list B)) l e : for_each f l = Err e -> exists a, In a l /\ f a = Err e.
Proof.
  intros H. apply for_each_fail in H as (b & c & d & -> & _ & H). exists c. split; [apply in_or_app; right; now left|exact H].
Qed.
Lemma loop_err {B} c (f : node -> res (list B)) raw e : loop c f raw = Err e ->
  plain e \/ raw = Err e \/ exists l a, c = Items l /\ In a l /\ f a = Err e.
Proof.
  unfold plain. destruct c as [| |l|[]]; cbn [loop]; intros H; try (injection H as <-; auto; fail); try discriminate.
  - apply for_each_err in H as (a & H1 & H2). right. right. eauto.
  - apply for_each_err in H as (a & H1 & H2). auto.
  - apply for_each_err in H as (a & H1 & H2). auto.
Qed.
Lemma try_err {A} ign (r : res A) e : try_ ign r = Err e -> r = Err e.
Proof. unfold try_. destruct r; [discriminate|]. destruct ign; congruence. Qed.
Lemma as_str_err v e : as_str v = Err e -> plain e.
Proof. destruct v; cbn; intros H; try discriminate; injection H as <-; now left. Qed.
Lemma mapM_err {A B} (f : A -> res B) l e : mapM f l = Err e -> exists a, In a l /\ f a = Err e.
Proof.
  induction l as [|a l IH]; cbn; [discriminate|]. destruct (f a) eqn:F; cbn [rbind].
  - destruct (mapM f l); cbn; [discriminate|]. intros [= ->]. destruct (IH eq_refl) as (x & H1 & H2). eauto.
  - intros [= ->]. eauto.
Qed.
Lemma join_err sep vs e : join_values sep vs = Err e -> plain e.
Proof.
  unfold join_values. destruct (mapM as_str vs) eqn:M; cbn [rbind]; [discriminate|]. intros [= ->].
  apply mapM_err in M as (a & _ & H). eapply as_str_err; eauto.
Qed.
Lemma attr_err a f e : attr a f = Err e -> plain e.
Proof.
  unfold plain. destruct a as [| |l]; cbn; intros H; try (injection H as <-; auto; fail).
  destruct (lookup f l); [discriminate|]. injection H as <-. auto.
Qed.
Lemma plain_raw (e : exc) : Err (A := list value) AttributeError = Err e -> plain e.
Proof. intros [= <-]. now right. Qed.
Lemma times_err v x e : times v x = Err e -> plain e.
Proof. destruct v; cbn; intros H; try discriminate; injection H as <-; now left. Qed.
Lemma wrap_err d v e : wrap_mark d v = Err e -> plain e.
Proof. destruct v; cbn; intros H; try discriminate; injection H as <-; now right. Qed.

Lemma rbind_Err {A B} (m : res A) (f : A -> res B) e : rbind m f = Err e -> (exists x, m = Ok x /\ f x = Err e) \/ m = Err e.
Proof. destruct m; cbn; [eauto|]. intros [= ->]. now right. Qed.
(** [rcase H]: split a failed sequence of operations. *)
Ltac rcase H :=
  let M := fresh "M" in let x := fresh "rv" in let H' := fresh "H" in
  destruct (rbind_Err _ _ _ H) as [(x & M & H')|M]; clear H; [rename H' into H|].

Lemma mark_err E m v e : mark_to_markdown E m v = Err e -> plain e \/ (e = ValueError /\ m_kind m = Mcode).
Proof.
  unfold mark_to_markdown. destruct (m_kind m); intros H; try discriminate; try (left; exact (wrap_err _ _ _ H)).
  all: try (left; unfold link_mark in H; rcase H; [|eapply attr_err; eassumption]; rcase H; [discriminate|first [eapply attr_err; eassumption|eapply times_err; eassumption]]; fail).
  unfold code_mark in H. unfold plain. destruct v; try discriminate; try (injection H as <-; auto; fail);
    destruct (existsb _ _); try discriminate; injection H as <-; auto.
Qed.
Lemma marks_err E ms v e : apply_marks E ms v = Err e -> plain e \/ (e = ValueError /\ exists m, In m ms /\ m_kind m = Mcode).
Proof.
  revert v. induction ms as [|m ms IH]; intros v; cbn [apply_marks]; [discriminate|].
  destruct (mark_to_markdown E m v) as [v'|e'] eqn:M.
  - intros H. destruct (IH v' H) as [|(-> & x & H1 & H2)]; [now left|]. right. split; [reflexivity|]. exists x. split; [now right|exact H2].
  - destruct (mark_err E m v e' M) as [HP|[-> HK]].
    + destruct HP as [-> | ->]; [intros [= <-]; left; now left|discriminate].
    + intros [= <-]. right. split; [reflexivity|]. exists m. split; [now left|exact HK].
Qed.
Lemma style_err E ma v e : add_style E ma v = Err e -> plain e \/ (e = ValueError /\ exists l m, ma = Items l /\ In m l /\ m_kind m = Mcode).
Proof.
  destruct ma as [| |l|r]; cbn [add_style]; try discriminate.
  intros H. apply marks_err in H as [|(-> & m & H1 & H2)]; [now left|]. right. split; [reflexivity|]. eauto.
Qed.
Lemma date_err E t e : date_to_markdown (rt_digit E) t = Err e -> plain e \/ e = ValueError \/ e = ERange.
Proof.
  unfold date_to_markdown. intros H. unfold plain. rcase H.
  - assert (HD : forall x, date_of_seconds x = Err e -> e = ERange).
    { intros sec. unfold date_of_seconds. destruct (civil_of_days _) as [[y m] d]. destruct (_ && _)%bool; [discriminate|]. now intros [= <-]. }
    destruct (_ =? 0)%Z; [right; right; eapply HD; exact H|].
    repeat match type of H with context [let (_, _) := ?x in _] => destruct x | (if ?b then _ else _) = _ => destruct b end;
      right; right; eapply HD; exact H.
  - unfold py_int in M. destruct t as [| | |[]|x| | |]; try discriminate; try (injection M as <-; auto; fail).
    right. left. unfold int_of_str in M.
    match type of M with context [let '(_, _) := ?x in _] => destruct x end.
    destruct (int_digits _ _ _ _ _) as [[]|]; [destruct (_ <? _)%N; [|discriminate]|]; now injection M as <-.
Qed.

Section Origin.
  Variable E : runtime.
  Let Q (n : node) : Prop := forall lv ign e, to_md E n lv ign = Err e -> blamed E e n.
  Let Q2 (n : node) : Prop := Q n /\ on_items Q (n_content n).

  Lemma on_items_in {A} (P : A -> Prop) c l a : on_items P c -> c = Items l -> In a l -> P a.
  Proof. intros H -> Hi. cbn in H. rewrite Forall_forall in H. auto. Qed.

  Lemma content_err n ign e : on_items Q2 (n_content n) -> content_to_markdown (to_md E) (n_content n) ign = Err e -> blamed E e n.
  Proof.
    intros HQ H. unfold content_to_markdown in H.
    assert (HL : (do lst <- loop (n_content n) (fun n => try_ ign (to_md E n None false)) (try_ ign (Err AttributeError)); join_values [] lst) = Err e
                 -> blamed E e n).
    { intros HL. rcase HL; [apply plain_blamed; eapply join_err; exact HL|]. apply loop_err in M as [HP|[HR|(l & a & H1 & H2 & H3)]].
      - now apply plain_blamed.
      - apply try_err in HR. apply plain_blamed. injection HR as <-. now right.
      - apply try_err in H3. eapply blamed_below; [exact H1|exact H2|]. destruct (on_items_in _ _ _ _ HQ H1 H2) as [HA _]. eapply HA; exact H3. }
    destruct (n_content n); try (apply HL; exact H). discriminate.
  Qed.
  Lemma block_err n e : Q n -> block_md (to_md E) n = Err e -> blamed E e n \/ plain e.
  Proof.
    intros HQ. unfold block_md. destruct (is_type_of n padded); intros H.
    - rcase H; [|left; eapply HQ; exact M]. rcase H; [discriminate|]. right. eapply as_str_err; exact M0.
    - left. eapply HQ; exact H.
  Qed.
  Lemma doc_content_err n ign e : on_items Q2 (n_content n) -> doc_content_to_markdown (to_md E) (n_content n) ign = Err e -> blamed E e n.
  Proof.
    intros HQ H. unfold doc_content_to_markdown in H.
    assert (HL : (do lst <- loop (n_content n) (fun n => try_ ign (block_md (to_md E) n)) (try_ ign (Err AttributeError));
                  do x <- join_values nl lst; Ok (strip_double_empty_line x)) = Err e -> blamed E e n).
    { intros HL. rcase HL; [rcase HL; [discriminate|]; apply plain_blamed; eapply join_err; exact M0|].
      apply loop_err in M as [HP|[HR|(l & a & H1 & H2 & H3)]].
      - now apply plain_blamed.
      - apply try_err in HR. apply plain_blamed. injection HR as <-. now right.
      - apply try_err in H3. destruct (on_items_in _ _ _ _ HQ H1 H2) as [HA _].
        destruct (block_err a e HA H3) as [HB|HB]; [eapply blamed_below; eauto|now apply plain_blamed]. }
    destruct (n_content n); try (apply HL; exact H). discriminate.
  Qed.
  Lemma item_err own level ign i e : on_items Q (n_content i) -> item_lines (to_md E) own level ign i = Err e -> blamed E e i.
  Proof.
    intros HQ H. unfold item_lines in H. rcase H.
    - rcase H; [discriminate|]. apply plain_blamed. eapply join_err; exact M0.
    - apply loop_err in M as [HP|[HR|(l & a & H1 & H2 & H3)]].
      + now apply plain_blamed.
      + apply plain_blamed. injection HR as <-. now right.
      + pose proof (on_items_in _ _ _ _ HQ H1 H2) as HA. destruct (is_type_of a [own]); apply try_err in H3.
        * eapply blamed_below; [exact H1|exact H2|]. eapply HA; exact H3.
        * rcase H3; [|eapply blamed_below; [exact H1|exact H2|]; eapply HA; exact M].
          apply plain_blamed. match type of H3 with rstrip_value ?v = _ => destruct v end; try discriminate; injection H3 as <-; now right.
  Qed.
  Lemma list_err n own level ign e : on_items Q2 (n_content n) -> list_items (to_md E) own (n_content n) level ign = Err e -> blamed E e n.
  Proof.
    intros HQ H. unfold list_items in H. apply loop_err in H as [HP|[HR|(l & a & H1 & H2 & H3)]].
    - now apply plain_blamed.
    - apply plain_blamed. injection HR as <-. now right.
    - destruct (on_items_in _ _ _ _ HQ H1 H2) as [_ HA]. destruct (is_type_of a _); [|discriminate]. rcase H3; [discriminate|].
      eapply blamed_below; [exact H1|exact H2|]. eapply item_err; eauto.
  Qed.

  Theorem to_md_blamed n : Q n.
  Proof.
    induction n as [k ty ve tx a co ma IH] using node_ind2. change (on_items Q2 co) in IH.
    set (n := Node k ty ve tx a co ma). intros lv ign e H.
    pose proof (content_err n ign e IH) as HC. pose proof (doc_content_err n ign e IH) as HD. change (n_content n) with co in HC, HD.
    pose proof (fun own level => list_err n own level ign e IH) as HL. change (n_content n) with co in HL.
    assert (HT : plain e -> blamed E e n) by apply plain_blamed.
    assert (HA : forall f, attr a f = Err e -> blamed E e n) by (intros f Hf; apply HT; eapply attr_err; exact Hf).
    assert (HS : forall v, add_style E ma v = Err e -> k = Ktext \/ k = Kparagraph \/ k = Kexpand \/ k = Kmedia -> blamed E e n).
    { intros v Hv HK. apply style_err in Hv as [HP|(-> & l & m & H1 & H2 & H3)]; [now apply HT|].
      apply blamed_here. right. split; [exact HK|]. exists l, m. auto. }
    unfold n in H. destruct k; cbn [to_md] in H; try (destruct lv; [injection H as <-; apply HT; now left|]); try discriminate.
    all: unfold table_cell_md, decision_item_md, bullet_list_md in H.
    all: try (rcase H; [discriminate|]; first [exact (HC M)|exact (HD M)|exact (HL _ _ M)]; fail).
    - (* text *) destruct tx; [|injection H as <-; apply HT; now right]. eapply HS; [exact H|now left].
    - (* orderedList *) unfold ordered_list_md in H. rcase H; [rcase H; [discriminate|exact (HL _ _ M0)]|].
      destruct lv as [[|l]|]; try discriminate; (rcase M; [discriminate|exact (HA _ M0)]).
    - (* paragraph *) rcase H; [|exact (HC M)]. rcase H; [|eapply HS; [exact M0|auto]]. rcase H; [discriminate|].
      apply HT. eapply as_str_err; exact M1.
    - (* taskList *) unfold task_list_md in H. rcase H; [rcase H; [discriminate|apply HT; eapply join_err; exact M0]|].
      apply loop_err in M as [HP|[HR|(l & i & H1 & H2 & H3)]].
      + now apply HT.
      + apply HT. injection HR as <-. now right.
      + destruct (on_items_in _ _ _ _ IH H1 H2) as [HI1 HI2]. apply (blamed_below E e n i l H1 H2).
        destruct (is_type_of i [s "taskItem"]).
        * rcase H3; [discriminate|]. unfold task_item_line in M. rcase M.
          -- rcase M; [|apply plain_blamed; eapply join_err; exact M1]. rcase M; [discriminate|]. apply plain_blamed. eapply attr_err; exact M2.
          -- apply loop_err in M0 as [HP|[HR|(l' & c & H4 & H5 & H6)]].
             ++ now apply plain_blamed.
             ++ apply try_err in HR. apply plain_blamed. injection HR as <-. now right.
             ++ apply try_err in H6. eapply blamed_below; [exact H4|exact H5|]. exact (on_items_in _ _ _ _ HI2 H4 H5 _ _ _ H6).
        * destruct (is_type_of i [s "taskList"]); [|discriminate]. apply try_err in H3. exact (HI1 _ _ _ H3).
    - (* decisionList *) unfold decision_list_md in H. rcase H; [rcase H; [discriminate|apply HT; eapply join_err; exact M0]|].
      apply loop_err in M as [HP|[HR|(l & i & H1 & H2 & H3)]].
      + now apply HT.
      + apply HT. injection HR as <-. now right.
      + destruct (on_items_in _ _ _ _ IH H1 H2) as [HI1 HI2]. apply (blamed_below E e n i l H1 H2).
        destruct (is_type_of i [s "decisionItem"]); [|discriminate]. apply try_err in H3. exact (HI1 _ _ _ H3).
    - (* emoji *) rcase H; [|exact (HA _ M)].
      assert (HN : (forall x, rv <> VStr x) /\
                   (do sn <- attr a (s "shortName"); match sn with VStr _ => Ok sn | _ => Err NotImplementedErr end) = Err e)
        by (destruct rv; first [discriminate H|split; [discriminate|exact H]]).
      destruct HN as [HN1 HN2]. clear H. rcase HN2; [|exact (HA _ M0)].
      assert (HN3 : (forall x, rv0 <> VStr x) /\ e = NotImplementedErr)
        by (destruct rv0; first [discriminate HN2|split; [discriminate|congruence]]).
      destruct HN3 as [HN3 ->]. apply blamed_here. left. split; [reflexivity|]. split; eexists; (split; [eassumption|assumption]).
    - (* date *) rcase H; [|exact (HA _ M)]. rcase H; [discriminate|]. destruct (date_err E _ _ M0) as [HP|[-> | ->]].
      + now apply HT.
      + apply blamed_here. left. split; [reflexivity|]. eauto.
      + apply blamed_here. split; [reflexivity|]. eauto.
    - (* mention *) rcase H; [|exact (HA _ M)]. discriminate.
    - (* status *) rcase H; [|exact (HA _ M)]. discriminate.
    - (* heading *) rcase H; [|exact (HA _ M)]. rcase H; [|apply HT; eapply times_err; exact M0]. rcase H; [discriminate|exact (HC M1)].
    - (* codeBlock *) rcase H; [|exact (HC M)]. rcase H; [discriminate|]. unfold code_lang in M0. destruct a; try discriminate;
        (rcase M0; [discriminate|exact (HA _ M1)]).
    - (* inlineCard *) rcase H; [|exact (HA _ M)].
      assert (HN : (forall x, rv <> VStr x) /\ e = NotImplementedErr) by (destruct rv; first [discriminate H|split; [discriminate|congruence]]).
      destruct HN as [HN ->]. apply blamed_here. right. split; [now left|]. eexists. split; [eassumption|assumption].
    - (* blockCard *) rcase H; [|exact (HA _ M)].
      assert (HN : (forall x, rv <> VStr x) /\ e = NotImplementedErr) by (destruct rv; first [discriminate H|split; [discriminate|congruence]]).
      destruct HN as [HN ->]. apply blamed_here. right. split; [now right|]. eexists. split; [eassumption|assumption].
    - (* media *) unfold media_md in H. rcase H; [|exact (HA _ M)]. rcase H; [|exact (HA _ M0)]. rcase H; [|exact (HA _ M1)].
      rcase H; [|exact (HA _ M2)]. destruct (if is_media _ _ then _ else _); [eapply HS; [exact H|auto]|].
      destruct (is_media rv "file"); [eapply HS; [exact H|auto]|]. destruct (is_media rv "link"); [discriminate|].
      injection H as <-. apply HT. now left.
    - (* embedCard *) rcase H; [|exact (HA _ M)]. discriminate.
    - (* extension *) rcase H; [|exact (HA _ M)]. rcase H; [|exact (HA _ M0)]. rcase H; [|exact (HA _ M1)]. discriminate.
    - (* panel *) rcase H; [|exact (HA _ M)]. rcase H; [|destruct rv; try discriminate; injection M0 as <-; apply HT; now right].
      rcase H; [discriminate|exact (HD M1)].
    - (* expand *) rcase H; [|exact (HD M)]. eapply HS; [exact H|auto].
    - (* tableRow *) unfold table_row_md in H. rcase H; [rcase H; [discriminate|apply HT; eapply join_err; exact M0]|].
      apply loop_err in M as [HP|[HR|(l & i & H1 & H2 & H3)]].
      + now apply HT.
      + apply HT. injection HR as <-. now right.
      + destruct (on_items_in _ _ _ _ IH H1 H2) as [HI1 HI2]. apply (blamed_below E e n i l H1 H2).
        rcase H3; [discriminate|]. exact (HI1 _ _ _ M).
    - (* table *) unfold table_md in H. rcase H; [rcase H; [discriminate|apply HT; eapply join_err; exact M0]|].
      apply loop_err in M as [HP|[HR|(l & i & H1 & H2 & H3)]].
      + now apply HT.
      + apply try_err in HR. apply HT. injection HR as <-. now right.
      + destruct (on_items_in _ _ _ _ IH H1 H2) as [HI1 HI2]. unfold table_row_lines in H3.
        destruct (to_md E i None false) as [v|e'] eqn:MI.
        * destruct (header_width i) as [[w|]|e'] eqn:HW; try discriminate. destruct ign; [discriminate|].
          injection H3 as ->. unfold header_width in HW.
          destruct (n_content i) as [| |[|c cs]|r] eqn:CI; try discriminate.
          -- injection HW as <-. apply HT. now right.
          -- injection HW as <-. apply HT. now left.
          -- injection HW as <-. apply blamed_here. split; [reflexivity|]. exists l, i. auto.
          -- destruct r as [| | | |[|ch x]|lv|d|]; injection HW as <-;
               try (apply HT; first [now left|now right]); apply blamed_here; (split; [reflexivity|]).
             ++ exists l, i. auto.
             ++ exists l, i, d. auto.
        * destruct ign; [discriminate|]. injection H3 as ->. apply (blamed_below E e n i l H1 H2). exact (HI1 _ _ _ MI).
  Qed.
End Origin.

(** C67: every exception of to_markdown comes from an object of the tree that has its cause in it: see [origin] in SpecRaise.v.
    In particular no ParamError and no UnimplementedTypeError. *)
Theorem C67_rendering : forall E n ign e, to_markdown E n ign = Err e -> exists m, within m n /\ origin E e m.
Proof. intros E n ign e H. exact (to_md_blamed E n None ign e H). Qed.

(** ================================================================ reading *)
Definition readable (e : exc) : Prop := e = TypeError \/ e = ParamError.
Lemma attrs_read_err fs v e : attrs_from_dict fs v = Err e -> readable e.
Proof.
  unfold attrs_from_dict, readable. destruct v; try (intros [= <-]; auto; fail).
  destruct (missing is_Pos _ _); [intros [= <-]; auto|]. destruct (missing is_Req _ _); [intros [= <-]; auto|discriminate].
Qed.
Lemma mark_read_err k v e : mark_from_dict k v = Err e -> readable e.
Proof.
  unfold mark_from_dict, readable. destruct v; try (intros [= <-]; auto; fail).
  destruct (mk_attrs k); [|discriminate]. destruct (lookup _ _); [|intros [= <-]; auto].
  intros H. rcase H; [discriminate|]. eapply attrs_read_err; exact M.
Qed.
Lemma parse_mark_err v e : parse_mark v = Err e ->
  readable e \/ (e = KeyError /\ no_type v) \/ exists c ty, e = Unimplemented c ty.
Proof.
  unfold parse_mark, readable. destruct v; try (intros [= <-]; auto; fail).
  destruct (lookup (s "type") d) eqn:L; [|intros [= <-]; right; left; split; [reflexivity|exists d; auto]].
  destruct (mark_class_of v); try (intros [= <-]; eauto; fail). intros H. left. eapply mark_read_err; exact H.
Qed.
Lemma collect_err {A} w (ms : list (M A)) e : snd (collect w ms) = Err e ->
  (exists m, In m ms /\ snd m = Err e) /\ forall c ty, e <> Unimplemented c ty.
Proof.
  intros H. split; [|intros c ty ->; exact (collect_nu w ms c ty H)]. revert H.
  induction ms as [|[lg [a|e']] ms IH]; [discriminate| |]; rewrite collect_cons.
  - destruct (collect w ms) as [lg' [l|e'']]; cbn; [discriminate|]. intros [= ->].
    destruct (IH eq_refl) as (m & H1 & H2). exists m. split; [now right|exact H2].
  - destruct e'.
    all: try (cbn; intros [= <-]; eexists; split; [now left|reflexivity]).
    destruct (collect w ms) as [lg' r]. cbn. intros ->. destruct (IH eq_refl) as (m & H1 & H2). exists m. split; [now right|exact H2].
Qed.
Lemma run_entry_err {A} w (en : entry A) e : snd (run_entry w en) = Err e ->
  exists ms, en = EList ms /\ (exists m, In m ms /\ snd m = Err e) /\ forall c ty, e <> Unimplemented c ty.
Proof.
  destruct en as [|ms|v]; [discriminate| |destruct v; discriminate]. intros H. exists ms. split; [reflexivity|]. apply (collect_err w).
  cbn [run_entry] in H. destruct (collect w ms) as [lg [l|e']]; cbn in *; congruence.
Qed.
Lemma bind_err {A B} (m : M A) (f : A -> M B) e : snd (bind m f) = Err e -> snd m = Err e \/ exists a, snd m = Ok a /\ snd (f a) = Err e.
Proof.
  destruct m as [lg [a|e']]; intros H; [|left; cbn in *; congruence]. right. exists a. split; [reflexivity|].
  cbn [bind] in H. destruct (f a) as [lg' r]. exact H.
Qed.
Lemma attrs_entry_err c d e : attrs_entry c d = Err e -> readable e.
Proof.
  unfold attrs_entry. destruct (nc_attrs c) as [[fk fs]|]; [|discriminate]. destruct (lookup _ d); [|discriminate].
  intros H. rcase H; [discriminate|]. eapply attrs_read_err; exact M.
Qed.
(** One class: only what its children raise, and its marks. *)
Lemma from_dict_err w k d e : snd (from_dict w k (VDict d)) = Err e ->
  readable e \/ (e = KeyError /\ exists y, mark_element y (VDict d) /\ no_type y) \/
  ((forall c ty, e <> Unimplemented c ty) /\ exists l y, lookup (s "content") d = Some (VList l) /\ In y l /\ snd (parse_node w y) = Err e).
Proof.
  unfold from_dict, node_from_entry. intros H. apply bind_err in H as [H|(oa & _ & H)].
  { left. eapply attrs_entry_err; exact H. }
  apply bind_err in H as [H|(oc & _ & H)].
  { apply run_entry_err in H as (ms & H1 & (m & H2 & H3) & H4). right. right. split; [exact H4|]. unfold content_entry in H1.
    destruct (lookup (s "content") d) as [x|] eqn:L; [|discriminate]. destruct x; try discriminate. injection H1 as <-.
    apply in_map_iff in H2 as (y & <- & H2). eauto. }
  apply bind_err in H as [H|(om & _ & H)].
  { apply run_entry_err in H as (ms & H1 & (m & H2 & H3) & H4). unfold marks_entry in H1.
    destruct (lookup (s "marks") d) as [x|] eqn:L; [|discriminate]. destruct x; try discriminate. injection H1 as <-.
    apply in_map_iff in H2 as (y & <- & H2). cbn in H3. destruct (parse_mark_err y e H3) as [HR|[[-> HN]|(c & ty & ->)]].
    - now left.
    - right. left. split; [reflexivity|]. exists y. split; [|exact HN]. exists d, l. split; [constructor|]. auto.
    - now destruct (H4 c ty). }
  left. right. eapply construct_err; exact H.
Qed.
Lemma key_below v y d l : lookup (s "content") d = Some (VList l) -> In y l ->
  element v y \/ mark_element v y -> element v (VDict d) \/ mark_element v (VDict d).
Proof.
  intros H1 H2 [H|(d' & l' & H & H3 & H4)]; [left; econstructor; eauto|]. right. exists d', l'. split; [econstructor; eauto|auto].
Qed.
Lemma read_origin_below e y d l : lookup (s "content") d = Some (VList l) -> In y l -> read_origin e y -> read_origin e (VDict d).
Proof.
  intros H1 H2. destruct e; cbn; auto. intros (v & H & HN). exists v. split; [eapply key_below; eauto|exact HN].
Qed.
Lemma readable_origin e v : readable e -> read_origin e v.
Proof. intros [-> | ->]; exact I. Qed.
Lemma parse_read w v : forall e, snd (parse_node w v) = Err e ->
  read_origin e v \/ exists d ty, v = VDict d /\ lookup (s "type") d = Some ty /\ node_class_of ty = Missing /\ e = Unimplemented CNode ty.
Proof.
  induction v as [v HV|d IH] using doc_ind; intros e.
  { destruct v; try (intros [= <-]; left; exact I). now destruct (HV d). }
  rewrite parse_node_dict. destruct (lookup (s "type") d) as [ty|] eqn:L.
  2:{ intros [= <-]. left. exists (VDict d). split; [left; constructor|exists d; auto]. }
  destruct (node_class_of ty) as [k| |] eqn:R; [|intros [= <-]; right; exists d, ty; auto|intros [= <-]; left; exact I].
  intros H. left. apply from_dict_err in H as [H|[[-> (y & H1 & H2)]|(HU & l & y & H1 & H2 & H3)]].
  - now apply readable_origin.
  - exists y. auto.
  - eapply read_origin_below; [exact H1|exact H2|].
    specialize (IH _ _ H1). rewrite Forall_forall in IH.
    destruct (IH y H2 e H3) as [HO|(d' & ty' & _ & _ & _ & ->)]; [exact HO|]. now destruct (HU CNode ty').
Qed.
(** C67: reading raises TypeError, ParamError, or KeyError for an element or mark without "type"; nothing else. *)
Theorem C67_reading : forall w k v e, snd (from_dict w k v) = Err e -> read_origin e v.
Proof.
  intros w k v e. destruct v; try (intros [= <-]; exact I).
  intros H. apply from_dict_err in H as [H|[[-> (y & H1 & H2)]|(HU & l & y & H1 & H2 & H3)]].
  - now apply readable_origin.
  - exists y. auto.
  - eapply read_origin_below; [exact H1|exact H2|].
    destruct (parse_read w y e H3) as [HO|(d' & ty' & _ & _ & _ & ->)]; [exact HO|]. now destruct (HU CNode ty').
Qed.
(** parse_node, in addition, UnimplementedTypeError: exactly when the "type" of its own argument names no class. *)
Theorem C67_parse_node : forall w v e, snd (parse_node w v) = Err e ->
  read_origin e v \/ exists d ty, v = VDict d /\ lookup (s "type") d = Some ty /\ node_class_of ty = Missing /\ e = Unimplemented CNode ty.
Proof. exact parse_read. Qed.
Theorem C67_parse_mark : forall v e, parse_mark v = Err e ->
  e = TypeError \/ e = ParamError \/ (e = KeyError /\ no_type v) \/
  exists d ty, v = VDict d /\ lookup (s "type") d = Some ty /\ mark_class_of ty = Missing /\ e = Unimplemented CMark ty.
Proof.
  intros v e. unfold parse_mark. destruct v; try (intros [= <-]; auto; fail).
  destruct (lookup (s "type") d) eqn:L; [|intros [= <-]; right; right; left; split; [reflexivity|exists d; auto]].
  destruct (mark_class_of v) as [k| |] eqn:R; [|intros [= <-]; do 3 right; exists d, v; auto|intros [= <-]; auto].
  intros H. destruct (mark_read_err k _ e H); auto.
Qed.

(** ================================================================ writing *)
Lemma raw_err {A} v (c : slot A) e : c = Raw v -> raw_to_dicts v = Err e -> (e = TypeError \/ e = AttributeError) /\ not_a_list c.
Proof.
  intros -> H. split.
  - destruct v as [| | | |[|]| |[|]|]; cbn in H; try discriminate; injection H as <-; auto.
  - exists v. split; [reflexivity|]. split; intros ->; discriminate.
Qed.
(** C67: to_dict raises TypeError or AttributeError only, and only for an object whose content or marks was not a list. *)
Theorem C67_writing : forall n e, node_to_dict n = Err e -> exists m, within m n /\ write_origin e m.
Proof.
  intros n. induction n as [k ty ve tx a co ma IH] using node_ind'. intros e H. cbn [node_to_dict] in H. rcase H.
  - rcase H; [discriminate|]. exists (Node k ty ve tx a co ma). split; [constructor|].
    destruct ma; try discriminate. rcase M0; [discriminate|].
    destruct (raw_err v (Raw (A := mark) v) e eq_refl M1) as [H1 H2]. split; [exact H1|right; exact H2].
  - destruct co; try discriminate.
    + rcase M; [discriminate|]. apply mapM_err in M0 as (c & H1 & H2). cbn in IH. rewrite Forall_forall in IH.
      destruct (IH c H1 e H2) as (m & H3 & H4). exists m. split; [econstructor; [reflexivity|exact H1|exact H3]|exact H4].
    + exists (Node k ty ve tx a (Raw v) ma). split; [constructor|]. rcase M; [discriminate|].
      destruct (raw_err v (Raw (A := node) v) e eq_refl M0) as [H1 H2]. split; [exact H1|left; exact H2].
Qed.

(** ================================================================ each exception occurs *)
Definition ex_read (v : value) : res node := snd (from_dict false Kdoc (ex_doc [v])).
Definition ex_show (v : value) : res value := to_markdown rt0 (get (ex_doc [v])) false.
Definition ex_write (v : value) : res value := node_to_dict (get (ex_doc [v])).
Definition ex_obj (ty : string) (l : list (str * value)) : value := VDict (tyv ty :: l).
Definition ex_attrs (l : list (string * value)) : str * value := (s "attrs", VDict (map (fun e => (s (fst e), snd e)) l)).
Definition ex_in (l : list value) : str * value := (s "content", VList l).
Definition ex_with_marks (ms : value) : value :=
  ex_obj "paragraph" [ex_in [ex_obj "text" [(s "text", VStr (s "a" ++ nl ++ s "b")); (s "marks", ms)]]].
(** Reading. *)
Example C67_reading_example :
  ex_read (VStr (s "x")) = Err TypeError /\
  ex_read (VDict [(s "typ", VStr (s "paragraph"))]) = Err KeyError /\
  ex_read (ex_with_marks (VList [VDict []])) = Err KeyError /\
  ex_read (ex_obj "table" [ex_in [VStr (s "x")]]) = Err TypeError /\
  ex_read (ex_obj "heading" []) = Err ParamError /\
  snd (parse_node false (ex_obj "nosuch" [])) = Err (Unimplemented CNode (VStr (s "nosuch"))) /\
  parse_mark (ex_obj "nosuch" []) = Err (Unimplemented CMark (VStr (s "nosuch"))).
Proof. repeat split; vm_compute; reflexivity. Qed.
(** Rendering. *)
Example C67_rendering_example :
  ex_show (ex_obj "emoji" [ex_attrs [("shortName", VInt 1)]]) = Err NotImplementedErr /\
  ex_show bad_card = Err NotImplementedErr /\
  ex_show (ex_obj "table" [ex_in [ex_obj "tableRow" [ex_in []]]]) = Err IndexError /\
  ex_show (ex_obj "date" [ex_attrs [("timestamp", VStr (s "99999999999999999999"))]]) = Err ERange /\
  ex_show (ex_obj "date" [ex_attrs [("timestamp", VStr (s "today"))]]) = Err ValueError /\
  ex_show (ex_with_marks (VList [ex_obj "code" []])) = Err ValueError /\
  ex_show (ex_obj "table" [ex_in [ex_obj "tableRow" [(s "content", VDict [])]]]) = Err KeyError /\
  ex_show (ex_obj "heading" [ex_attrs [("level", VNone)]; ex_in []]) = Err TypeError /\
  ex_show (ex_obj "listItem" [(s "content", VStr (s "x"))]) = Err AttributeError.
Proof. repeat split; vm_compute; reflexivity. Qed.
(** Writing. *)
Example C67_writing_example :
  ex_write (ex_obj "paragraph" [(s "content", VStr (s "x"))]) = Err AttributeError /\
  ex_write (ex_with_marks (VInt 3)) = Err TypeError.
Proof. repeat split; vm_compute; reflexivity. Qed.
