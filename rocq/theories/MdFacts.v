(** Induction over object trees with access to grandchildren; extensionality of the
    rendering helpers; the simulation theorem. *)
From Coq Require Import List NArith ZArith Bool String Lia.
From Verif Require Import PyStr Values Schema Parse Date Markdown Basics.
Import ListNotations.
Open Scope string_scope.
Open Scope list_scope.

Section NodeInd2.
  Variable Q : node -> Prop.
  Hypothesis H : forall k ty ve tx a co ma,
    on_items (fun c => Q c /\ on_items Q (n_content c)) co -> Q (Node k ty ve tx a co ma).
  Lemma node_ind2_aux n : Q n /\ on_items Q (n_content n).
  Proof.
    induction n as [k ty ve tx a co ma IH] using node_ind'. split; [apply H; exact IH|].
    destruct co; cbn in *; auto. eapply Forall_impl; [|exact IH]. now intros c [? _].
  Qed.
  Lemma node_ind2 n : Q n.
  Proof. exact (proj1 (node_ind2_aux n)). Qed.
End NodeInd2.

(** ---------------------------------------------------------------- extensionality *)
Lemma for_each_ext2 {A A' B} (f : A -> res (list B)) (f' : A' -> res (list B)) l l' :
  Forall2 (fun a a' => f a = f' a') l l' -> for_each f l = for_each f' l'.
Proof. induction 1 as [|a a' l l' E _ IH]; [reflexivity|]. cbn. now rewrite E, IH. Qed.
Lemma for_each_filter {A B} (p : A -> bool) (f : A -> res (list B)) l :
  (forall a, p a = false -> f a = Ok []) -> for_each f (filter p l) = for_each f l.
Proof.
  intros H. induction l as [|a l IH]; [reflexivity|]. cbn. destruct (p a) eqn:P; cbn.
  - now rewrite IH.
  - rewrite (H a P), IH. cbn. now destruct (for_each f l).
Qed.

(** Slots related element by element. *)
Inductive slot_rel {A B} (R : A -> B -> Prop) : slot A -> slot B -> Prop :=
| sr_none : slot_rel R NoField NoField
| sr_opt : slot_rel R SOpt SOpt
| sr_raw v : slot_rel R (Raw v) (Raw v)
| sr_items l l' : Forall2 R l l' -> slot_rel R (Items l) (Items l').

Lemma loop_ext {B} c c' (f f' : node -> res (list B)) raw :
  slot_rel (fun n n' => f n = f' n') c c' -> loop c f raw = loop c' f' raw.
Proof. destruct 1; cbn [loop]; try reflexivity. now apply for_each_ext2. Qed.
Lemma slot_rel_impl {A B} (R S : A -> B -> Prop) c c' :
  (forall a b, R a b -> S a b) -> slot_rel R c c' -> slot_rel S c c'.
Proof.
  intros H. destruct 1; constructor.
  match goal with HF : Forall2 _ _ _ |- _ => induction HF; constructor; auto end.
Qed.
(** Use facts known about every left element. *)
Lemma slot_rel_on {A B} (P : A -> Prop) (R S : A -> B -> Prop) c c' :
  on_items P c -> (forall a b, P a -> R a b -> S a b) -> slot_rel R c c' -> slot_rel S c c'.
Proof.
  intros HP H HR. destruct HR; constructor. cbn in HP.
  match goal with HF : Forall2 _ _ _ |- _ => induction HF; constructor end.
  - inversion HP; auto.
  - inversion HP; auto.
Qed.
Definition slot_filter {A} (p : A -> bool) (c : slot A) : slot A :=
  match c with Items l => Items (filter p l) | _ => c end.
Lemma loop_filter {B} c (p : node -> bool) (f : node -> res (list B)) raw :
  (forall n, p n = false -> f n = Ok []) -> loop (slot_filter p c) f raw = loop c f raw.
Proof. intros H. destruct c; cbn [slot_filter loop]; try reflexivity. now apply for_each_filter. Qed.
Lemma on_items_filter {A} (P : A -> Prop) p c : on_items P c -> on_items P (slot_filter p c).
Proof.
  destruct c; cbn; auto. intros H. induction H; cbn; [constructor|]. destruct (p x); auto.
Qed.

(** ---------------------------------------------------------------- what rendering reads *)
(** The attributes a class's to_markdown reads (for taskItem: read by its taskList). *)
Definition read_attrs (k : nkind) : list str :=
  match k with
  | KorderedList => [s "order"]
  | KtaskItem => [s "state"]
  | Kheading => [s "level"]
  | KcodeBlock => [s "language"]
  | Kpanel => [s "panelType"]
  | Kmedia => [s "type"; s "url"; s "alt"; s "id"]
  | Kemoji => [s "text"; s "shortName"]
  | Kmention | Kstatus => [s "text"]
  | KinlineCard | KblockCard | KembedCard => [s "url"]
  | Kextension => [s "extensionKey"; s "extensionType"; s "text"]
  | Kdate => [s "timestamp"]
  | _ => []
  end.
(** The classes whose to_markdown applies marks. *)
Definition uses_marks (k : nkind) : bool :=
  match k with Ktext | Kparagraph | Kexpand | Kmedia => true | _ => false end.
(** The classes whose to_markdown ignores content. *)
Definition ignores_content (k : nkind) : bool :=
  match k with
  | Ktext | Krule | KhardBreak | Kdate | Kmention | Kstatus | Kemoji | KinlineCard | KblockCard | KembedCard
  | Kextension | Kmedia | KmediaGroup | Kcaption | KmediaInline => true
  | _ => false
  end.
(** The child types a list class looks at (None: all). *)
Definition child_types (k : nkind) : option (list str) :=
  match k with
  | KbulletList | KorderedList => Some [s "listItem"]
  | KtaskList => Some [s "taskItem"; s "taskList"]
  | KdecisionList => Some [s "decisionItem"]
  | _ => None
  end.
Definition relevant (k : nkind) (n : node) : bool :=
  match child_types k with Some ts => is_type_of n ts | None => true end.

Definition attrs_agree (k : nkind) (a a' : attrs) : Prop :=
  (forall f, In f (read_attrs k) -> attr a f = attr a' f) /\ (k = KcodeBlock -> (a = AOpt <-> a' = AOpt)).

(** [R] relates objects that render the same: same class and type; same text; same read
    attributes; marks with the same effect; related relevant children. *)
Definition simulation (E : runtime) (R : node -> node -> Prop) : Prop :=
  forall n n', R n n' ->
    n_kind n = n_kind n' /\ n_type n = VStr (nk_name (n_kind n)) /\ n_type n' = n_type n /\
    (n_kind n = Ktext -> n_text n = n_text n') /\
    attrs_agree (n_kind n) (n_attrs n) (n_attrs n') /\
    (uses_marks (n_kind n) = true -> forall v, add_style E (n_marks n) v = add_style E (n_marks n') v) /\
    (ignores_content (n_kind n) = false ->
       slot_rel R (slot_filter (relevant (n_kind n)) (n_content n)) (slot_filter (relevant (n_kind n)) (n_content n'))) /\
    (n_kind n = Ktable -> slot_rel (fun r r' => header_width r = header_width r') (n_content n) (n_content n')).

Lemma is_type_of_name n k ts : n_type n = VStr (nk_name k) -> is_type_of n ts = existsb (str_eqb (nk_name k)) ts.
Proof. intros H. unfold is_type_of. rewrite H. reflexivity. Qed.
Lemma is_type_of_type n n' ts : n_type n' = n_type n -> is_type_of n' ts = is_type_of n ts.
Proof. intros H. unfold is_type_of. now rewrite H. Qed.

Lemma filter_all {A} (l : list A) : filter (fun _ => true) l = l.
Proof. induction l; cbn; congruence. Qed.
Lemma slot_filter_all {A} (c : slot A) : slot_filter (fun _ => true) c = c.
Proof. destruct c; cbn; try reflexivity. now rewrite filter_all. Qed.
Lemma relevant_all k c : child_types k = None -> slot_filter (relevant k) c = c.
Proof. intros H. unfold relevant. rewrite H. apply slot_filter_all. Qed.

Section Sim.
  Variable E : runtime.
  Variable R : node -> node -> Prop.
  Hypothesis SIM : simulation E R.
  Let Q (n : node) : Prop := forall n', R n n' -> forall lv ign, to_md E n lv ign = to_md E n' lv ign.
  Let Q2 (n : node) : Prop := Q n /\ on_items Q (n_content n).

  Lemma sim_type n n' ts : R n n' -> is_type_of n ts = is_type_of n' ts.
  Proof. intros H. destruct (SIM _ _ H) as (_ & _ & H2 & _). symmetry. now apply is_type_of_type. Qed.

  Lemma sim_content co co' ign : on_items Q2 co -> slot_rel R co co' ->
    content_to_markdown (to_md E) co ign = content_to_markdown (to_md E) co' ign.
  Proof.
    intros HQ HR. unfold content_to_markdown. destruct HR as [| |v|l l' HF]; try reflexivity.
    rewrite (loop_ext (Items l) (Items l') (fun n => try_ ign (to_md E n None false)) (fun n => try_ ign (to_md E n None false))).
    - reflexivity.
    - eapply slot_rel_on; [exact HQ| |constructor; exact HF]. intros a b [HA _] HAB. cbn. now rewrite (HA b HAB).
  Qed.
  Lemma sim_block n n' : Q n -> R n n' -> block_md (to_md E) n = block_md (to_md E) n'.
  Proof. intros HQ HR. unfold block_md. rewrite (sim_type _ _ _ HR), (HQ n' HR). reflexivity. Qed.
  Lemma sim_doc_content co co' ign : on_items Q2 co -> slot_rel R co co' ->
    doc_content_to_markdown (to_md E) co ign = doc_content_to_markdown (to_md E) co' ign.
  Proof.
    intros HQ HR. unfold doc_content_to_markdown. destruct HR as [| |v|l l' HF]; try reflexivity.
    rewrite (loop_ext (Items l) (Items l') (fun n => try_ ign (block_md (to_md E) n))
               (fun n => try_ ign (block_md (to_md E) n))).
    - reflexivity.
    - eapply slot_rel_on; [exact HQ| |constructor; exact HF]. intros a b [HA _] HAB. cbn. now rewrite (sim_block a b HA HAB).
  Qed.

  Lemma sim_item_content n n' ts k : R n n' -> is_type_of n ts = true -> (forall t, In t ts -> t = nk_name k) ->
    ignores_content k = false -> child_types k = None -> slot_rel R (n_content n) (n_content n').
  Proof.
    intros HR HT HK HI HC. destruct (SIM _ _ HR) as (_ & HT1 & _ & _ & _ & _ & HCo & _).
    rewrite (is_type_of_name n (n_kind n)) in HT by exact HT1. apply existsb_exists in HT as (t & Ht & He).
    apply str_eqb_eq in He. apply HK in Ht. subst t. apply nk_name_inj in He.
    rewrite He in HCo.
    specialize (HCo HI). now rewrite !relevant_all in HCo.
  Qed.

  Lemma sim_item_lines own level ign n n' :
    on_items Q (n_content n) -> slot_rel R (n_content n) (n_content n') ->
    item_lines (to_md E) own level ign n = item_lines (to_md E) own level ign n'.
  Proof.
    intros HQ HR. unfold item_lines.
    rewrite (loop_ext (n_content n) (n_content n') _
               (fun nd => if is_type_of nd [own] then try_ ign (to_md E nd (Some (S level)) false)
                          else try_ ign (do v <- to_md E nd None false; rstrip_value v))); [reflexivity|].
    eapply slot_rel_on; [exact HQ| |exact HR]. intros a b HA HAB. cbn.
    rewrite (sim_type _ _ _ HAB), !(HA b HAB). reflexivity.
  Qed.
  Lemma sim_list_items k own co co' level ign : child_types k = Some [s "listItem"] ->
    on_items Q2 co -> slot_rel R (slot_filter (relevant k) co) (slot_filter (relevant k) co') ->
    list_items (to_md E) own co level ign = list_items (to_md E) own co' level ign.
  Proof.
    intros HK HQ HR. unfold list_items.
    rewrite <- (loop_filter co (relevant k)), <- (loop_filter co' (relevant k)).
    - apply loop_ext. eapply slot_rel_on; [apply on_items_filter; exact HQ| |exact HR].
      intros a b [HA HA2] HAB. cbn. rewrite (sim_type _ _ _ HAB).
      destruct (is_type_of b [s "listItem"]) eqn:T; [|reflexivity].
      rewrite (sim_item_lines own level ign a b); [reflexivity|exact HA2|].
      eapply (sim_item_content a b [s "listItem"] KlistItem); eauto.
      + now rewrite (sim_type _ _ _ HAB).
      + intros t [<-|[]]. reflexivity.
    - intros n. unfold relevant. rewrite HK. now intros ->.
    - intros n. unfold relevant. rewrite HK. now intros ->.
  Qed.

  Lemma sim_task_item level ign n n' : R n n' -> is_type_of n [s "taskItem"] = true ->
    on_items Q (n_content n) -> task_item_line (to_md E) level ign n = task_item_line (to_md E) level ign n'.
  Proof.
    intros HR HT HQ. assert (HC : slot_rel R (n_content n) (n_content n')).
    { eapply (sim_item_content n n' [s "taskItem"] KtaskItem); eauto. intros t [<-|[]]. reflexivity. }
    assert (HA : attr (n_attrs n) (s "state") = attr (n_attrs n') (s "state")).
    { destruct (SIM _ _ HR) as (_ & HT1 & _ & _ & [HA _] & _).
      rewrite (is_type_of_name n (n_kind n)) in HT by exact HT1. cbn [existsb] in HT. rewrite orb_false_r in HT.
      apply str_eqb_eq in HT. change (s "taskItem") with (nk_name KtaskItem) in HT. apply nk_name_inj in HT.
      apply HA. rewrite HT. now left. }
    unfold task_item_line. rewrite HA.
    rewrite (loop_ext (n_content n) (n_content n') _ (fun nd => try_ ign (to_md E nd None false))); [reflexivity|].
    eapply slot_rel_on; [exact HQ| |exact HC]. intros a b HAq HAB. cbn. now rewrite (HAq b HAB).
  Qed.

  Theorem to_md_sim n : Q n.
  Proof.
    induction n as [k ty ve tx a co ma IH] using node_ind2. change (on_items Q2 co) in IH.
    intros n' HR lv ign. destruct (SIM _ _ HR) as (HK & HT & HT' & HX & [HA HO] & HM & HC & HW).
    destruct n' as [k' ty' ve' tx' a' co' ma']. cbn [n_kind n_type n_text n_attrs n_marks n_content] in *. subst k'.
    assert (HC1 : ignores_content k = false -> child_types k = None -> slot_rel R co co').
    { intros H1 H2. specialize (HC H1). now rewrite !relevant_all in HC. }
    assert (HCD : ignores_content k = false -> child_types k = None ->
                  forall i, doc_content_to_markdown (to_md E) co i = doc_content_to_markdown (to_md E) co' i).
    { intros H1 H2 i. apply sim_doc_content; auto. }
    assert (HCC : ignores_content k = false -> child_types k = None ->
                  forall i, content_to_markdown (to_md E) co i = content_to_markdown (to_md E) co' i).
    { intros H1 H2 i. apply sim_content; auto. }
    destruct k; cbn [to_md];
      try (specialize (HCD eq_refl eq_refl)); try (specialize (HCC eq_refl eq_refl));
      try (specialize (HC1 eq_refl eq_refl));
      try (destruct lv; [reflexivity|]);
      try rewrite HCD; try rewrite HCC; try reflexivity.
    - (* text *) rewrite <- (HX eq_refl). destruct tx; [|reflexivity]. now apply HM.
    - (* bulletList *) unfold bullet_list_md. rewrite (sim_list_items KbulletList _ co co'); auto.
    - (* orderedList *) unfold ordered_list_md. rewrite (sim_list_items KorderedList _ co co'); auto.
      rewrite (HA (s "order")); [reflexivity|now left].
    - (* paragraph *) destruct (content_to_markdown _ co' _); [|reflexivity]. cbn [rbind]. now rewrite HM.
    - (* taskList *) unfold task_list_md. specialize (HC eq_refl).
      match goal with |- rbind (loop co ?f ?r) _ = _ =>
        rewrite <- (loop_filter co (relevant KtaskList) f r), <- (loop_filter co' (relevant KtaskList) f r) end.
      + f_equal. apply loop_ext. eapply slot_rel_on; [apply on_items_filter; exact IH| |exact HC].
        intros x y [HX1 HX2] HXY. cbn. rewrite !(sim_type _ _ _ HXY).
        destruct (is_type_of y [s "taskItem"]) eqn:T1.
        * rewrite (sim_task_item _ ign x y); auto. now rewrite (sim_type _ _ _ HXY).
        * now rewrite (HX1 y HXY).
      + intros x. unfold relevant, child_types, is_type_of, check_type_match. destruct (n_type x); try reflexivity.
        cbn [existsb]. intros H. apply orb_false_iff in H as [H1 H2]. rewrite H1, H2. reflexivity.
      + intros x. unfold relevant, child_types, is_type_of, check_type_match. destruct (n_type x); try reflexivity.
        cbn [existsb]. intros H. apply orb_false_iff in H as [H1 H2]. rewrite H1, H2. reflexivity.
    - (* decisionItem *) unfold decision_item_md. now rewrite HCC.
    - (* decisionList *) unfold decision_list_md. specialize (HC eq_refl).
      match goal with |- rbind (loop co ?f ?r) _ = _ =>
        rewrite <- (loop_filter co (relevant KdecisionList) f r), <- (loop_filter co' (relevant KdecisionList) f r) end.
      + f_equal. apply loop_ext. eapply slot_rel_on; [apply on_items_filter; exact IH| |exact HC].
        intros x y [HX1 HX2] HXY. cbn. rewrite !(sim_type _ _ _ HXY). now rewrite (HX1 y HXY).
      + intros x. unfold relevant, child_types. now intros ->.
      + intros x. unfold relevant, child_types. now intros ->.
    - (* emoji *) rewrite (HA (s "text")), (HA (s "shortName")); cbn; tauto.
    - (* date *) rewrite (HA (s "timestamp")); cbn; tauto.
    - (* mention *) rewrite (HA (s "text")); cbn; tauto.
    - (* status *) rewrite (HA (s "text")); cbn; tauto.
    - (* heading *) rewrite (HA (s "level")); cbn; tauto.
    - (* codeBlock *) destruct (content_to_markdown _ co' _); [|reflexivity]. cbn [rbind].
      assert (HL : code_lang a = code_lang a').
      { specialize (HO eq_refl). unfold code_lang.
        destruct a, a'; try (rewrite (HA (s "language")) by (cbn; tauto)); try reflexivity;
          destruct HO as [H1 H2]; try (discriminate (H1 eq_refl)); discriminate (H2 eq_refl). }
      now rewrite HL.
    - (* inlineCard *) rewrite (HA (s "url")); cbn; tauto.
    - (* blockCard *) rewrite (HA (s "url")); cbn; tauto.
    - (* media *) unfold media_md. rewrite (HA (s "type")), (HA (s "url")), (HA (s "alt")), (HA (s "id")) by (cbn; tauto).
      destruct (attr a' (s "type")); [|reflexivity]. destruct (attr a' (s "url")); [|reflexivity].
      destruct (attr a' (s "alt")); [|reflexivity]. destruct (attr a' (s "id")); [|reflexivity]. cbn [rbind].
      specialize (HM eq_refl).
      destruct (if is_media _ _ then _ else _); [apply HM|]. destruct (is_media _ _); [apply HM|reflexivity].
    - (* embedCard *) rewrite (HA (s "url")); cbn; tauto.
    - (* extension *) rewrite (HA (s "extensionKey")), (HA (s "extensionType")), (HA (s "text")); cbn; tauto.
    - (* panel *) rewrite (HA (s "panelType")); cbn; tauto.
    - (* expand *) destruct (doc_content_to_markdown _ co' _); [|reflexivity]. cbn [rbind]. now apply HM.
    - (* tableCell *) unfold table_cell_md. now rewrite HCC.
    - (* tableHeader *) unfold table_cell_md. now rewrite HCC.
    - (* tableRow *) unfold table_row_md. f_equal. apply loop_ext.
      eapply slot_rel_on; [exact IH| |exact HC1]. intros x y [HX1 _] HXY. cbn. now rewrite (HX1 y HXY).
    - (* table *) unfold table_md. f_equal. apply loop_ext. specialize (HW eq_refl).
      destruct HC1 as [| |v|l l' HF]; try constructor. inversion HW as [| | |? ? HF2]; subst. clear HW HC HR.
      cbn in IH. clear HCD HCC. revert HF2. induction HF as [|x y l l' HXY HF IHF]; intros HF2; constructor.
      + inversion IH as [|? ? [HX1 _] _]; subst. inversion HF2; subst. unfold table_row_lines.
        rewrite (HX1 y HXY). destruct (to_md E y None false); [|reflexivity].
        match goal with H : header_width x = _ |- _ => now rewrite H end.
      + apply IHF; [now inversion IH|now inversion HF2].
  Qed.
End Sim.
