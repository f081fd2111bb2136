(** C44: well-formed objects always render. *)
From Coq Require Import List NArith ZArith Bool String Lia.
From Verif Require Import PyStr Values Schema Parse Date Markdown Basics StrFacts MarkFacts SpecParse ParseFacts4
  MdFacts SpecMd MdFacts2 LeafFacts LayoutFacts SpecErr ErrFacts SpecDate DateFacts DateFacts2 Properties_Date
  SpecTable TableFacts SpecRender.
Import ListNotations.
Open Scope string_scope.
Open Scope list_scope.
Open Scope nat_scope.

Lemma has_attr_ok n f v : has_attr n f v -> attr (n_attrs n) (s f) = Ok v.
Proof. intros (l & -> & H). cbn. now rewrite H. Qed.
Lemma mark_has_attr_ok m f v : mark_has_attr m f v -> attr (m_attrs m) (s f) = Ok v.
Proof. intros (l & -> & H). cbn. now rewrite H. Qed.

Lemma marks_render E ms : Forall indentation_fine ms -> forall t,
  (Exists is_code ms -> one_line t /\ Forall link_one_line ms) -> exists x, apply_marks E ms (VStr t) = Ok (VStr x).
Proof.
  induction 1 as [|m ms HI _ IH]; intros t HC; [exists t; reflexivity|]. cbn [apply_marks].
  assert (HR : forall x, (Exists is_code ms -> one_line x) -> exists y, apply_marks E ms (VStr x) = Ok (VStr y)).
  { intros x Hx. apply IH. intros HE. split; [auto|]. destruct HC as [_ HL]; [now right|]. now apply Forall_cons_iff in HL as [_ HL]. }
  assert (HT : Exists is_code ms -> one_line t) by (intros HE; apply HC; now right).
  assert (HW : forall d, one_line d -> exists y, apply_marks E ms (VStr (if nonblank t then d ++ t ++ d else t)) = Ok (VStr y)).
  { intros d Hd. apply HR. intros HE. specialize (HT HE). destruct (nonblank t); [|exact HT]. intros K.
    apply in_app_or in K as [K|K]; [auto|]. apply in_app_or in K as [K|K]; auto. }
  unfold mark_to_markdown. destruct (m_kind m) eqn:EK; cbn [wrap_mark]; try (now apply HR);
    try (apply HW; intros K; vm_compute in K; intuition congruence).
  - (* code *) assert (H1 : one_line t) by (apply HC; now left). unfold code_mark.
    assert (existsb (N.eqb NL) t = false) as ->.
    { apply not_true_is_false. intros K. apply existsb_exists in K as (c & K & Hc). apply N.eqb_eq in Hc. subst c. auto. }
    apply HR. intros _. destruct (nonblank t); [|exact H1]. intros K.
    apply in_app_or in K as [K|K]; [vm_compute in K; intuition congruence|]. apply in_app_or in K as [K|K]; [auto|vm_compute in K; intuition congruence].
  - (* link *) unfold link_mark. destruct (attr (m_attrs m) (s "title")) as [title|e] eqn:ET; [|].
    + cbn [rbind]. destruct (attr (m_attrs m) (s "href")) as [href|e] eqn:EH.
      * cbn [rbind]. apply HR. intros HE. specialize (HT HE). destruct HC as [_ HL]; [now right|].
        apply Forall_cons_iff in HL as [HL _]. destruct (HL EK) as (h & t' & Hh & Hh1 & Ht & Ht1).
        apply mark_has_attr_ok in Hh, Ht. rewrite EH in Hh. rewrite ET in Ht. injection Hh as ->. injection Ht as ->.
        intros K. apply in_app_or in K as [K|K]; [vm_compute in K; intuition congruence|]. apply in_app_or in K as [K|K].
        -- destruct t'; cbn [py_str] in K; try (now apply HT). revert K. now apply Ht1.
        -- apply in_app_or in K as [K|K]; [vm_compute in K; intuition congruence|]. apply in_app_or in K as [K|K]; [auto|vm_compute in K; intuition congruence].
      * cbn [rbind]. unfold attr in EH. destruct (m_attrs m); [| |destruct (lookup (s "href") l)]; try discriminate; injection EH as <-; eexists; reflexivity.
    + cbn [rbind]. unfold attr in ET. destruct (m_attrs m); [| |destruct (lookup (s "title") l)]; try discriminate; injection ET as <-; eexists; reflexivity.
  - (* indentation *) destruct (HI EK) as [z Hz]. apply mark_has_attr_ok in Hz. rewrite Hz. cbn [rbind times].
    apply HR. intros _ K. unfold repeat_str in K. clear - K. induction (Z.to_nat z) as [|k IHk]; cbn in K; [destruct K|].
    destruct K as [K|K]; [discriminate|auto].
Qed.
Lemma style_renders E n t : block_marks_fine n -> exists x, add_style E (n_marks n) (VStr t) = Ok (VStr x).
Proof.
  unfold block_marks_fine, marks_of. intros [H1 H2]. unfold add_style. destruct (n_marks n) as [| |ms|]; try (eexists; reflexivity).
  apply marks_render; [exact H1|]. intros HE. exfalso. apply Exists_exists in HE as (m & Hm & HK). rewrite Forall_forall in H2. now apply (H2 m).
Qed.

Section Render.
Variable E : runtime.
Definition list_kind (k : nkind) : bool := match k with KbulletList | KorderedList | KtaskList => true | _ => false end.
Definition fine (c : node) : Prop := forall lv, lv = None \/ list_kind (n_kind c) = true -> exists x, to_md E c lv false = Ok (VStr x).
Lemma fine_all cs : Forall fine cs -> exists xs, Forall2 (renders E) cs xs.
Proof.
  induction 1 as [|c cs H _ [xs IH]]; [exists []; constructor|]. destruct (H None (or_introl eq_refl)) as [x Hx]. exists (x :: xs). now constructor.
Qed.
Lemma content_fine n ign : may_hold_children n -> (forall cs, n_content n = Items cs -> Forall fine cs) ->
  exists x, content_to_markdown (to_md E) (n_content n) ign = Ok x.
Proof.
  intros [->|[cs H]] HF; [eexists; reflexivity|]. unfold children in H. specialize (HF cs H). rewrite H.
  destruct (fine_all cs HF) as [xs HX]. eexists. apply content_renders. exact HX.
Qed.
Lemma doc_fine n ign : consistent n -> may_hold_children n -> (forall cs, n_content n = Items cs -> Forall fine cs) ->
  exists x, doc_content_to_markdown (to_md E) (n_content n) ign = Ok x.
Proof.
  intros HC [->|[cs H]] HF; [eexists; reflexivity|]. unfold children in H. specialize (HF cs H).
  pose proof (consistent_items _ _ HC H) as HCC. rewrite H.
  destruct (fine_all cs HF) as [xs HX]. eexists. apply doc_renders; [exact HCC|exact HX].
Qed.
Lemma for_each_total {A B} (P : B -> Prop) (f : A -> res (list B)) l :
  (forall a, In a l -> exists ys, f a = Ok ys /\ Forall P ys) -> exists ys, for_each f l = Ok ys /\ Forall P ys.
Proof.
  induction l as [|a l IH]; intros H; [exists []; split; [reflexivity|constructor]|].
  destruct (H a (or_introl eq_refl)) as (x & Hx & HPx). destruct IH as (y & Hy & HPy); [intros; apply H; now right|].
  exists (x ++ y). split; [|apply Forall_app; now split]. cbn. fold (for_each f). rewrite Hx. cbn [rbind]. now rewrite Hy.
Qed.
Definition is_str (v : value) : Prop := exists x, v = VStr x.
Lemma join_total sep vs : Forall is_str vs -> exists x, join_values sep vs = Ok x.
Proof.
  intros H. assert (exists xs, vs = map VStr xs) as [xs ->]; [|eexists; apply join_values_str].
  induction H as [|v vs [x ->] _ [xs ->]]; [now exists []|]. now exists (x :: xs).
Qed.
Lemma item_total own level item cs : n_content item = Items cs -> Forall consistent cs -> Forall fine cs ->
  (exists k, s own = nk_name k /\ list_kind k = true) -> exists ls, item_lines (to_md E) (s own) level false item = Ok ls.
Proof.
  intros HI HC HF (k & HK & HL). unfold item_lines. rewrite HI. unfold loop.
  match goal with |- exists ls, rbind (for_each ?f _) _ = _ =>
    destruct (for_each_total is_str f cs) as (ys & -> & HY) end.
  - intros c Hc. rewrite Forall_forall in HC, HF. specialize (HC c Hc). specialize (HF c Hc).
    rewrite (type_is c own k) by assumption. destruct (nk_eq_dec (n_kind c) k) as [HE|_].
    + destruct (HF (Some (S level))) as [x ->]; [right; now rewrite HE|]. cbn. eexists. split; [reflexivity|]. repeat constructor. now exists x.
    + destruct (HF None (or_introl eq_refl)) as [x ->]. cbn. eexists. split; [reflexivity|]. repeat constructor. now eexists.
  - cbn [rbind]. destruct (join_total nl ys HY) as [x ->]. eexists. reflexivity.
Qed.
Lemma items_total own level n cs : n_content n = Items cs -> Forall consistent cs ->
  (forall c, In c cs -> n_kind c = KlistItem -> exists l, n_content c = Items l /\ Forall fine l) ->
  (exists k, s own = nk_name k /\ list_kind k = true) -> exists ls, list_items (to_md E) (s own) (n_content n) level false = Ok ls.
Proof.
  intros HI HC HF HK. unfold list_items. rewrite HI. unfold loop.
  match goal with |- exists ls, for_each ?f _ = _ => destruct (for_each_total (fun _ => True) f cs) as (ys & -> & HY) end; [|eexists; reflexivity].
  intros c Hc. rewrite Forall_forall in HC. specialize (HC c Hc). rewrite (type_is c "listItem" KlistItem) by (assumption || reflexivity).
  destruct (nk_eq_dec (n_kind c) KlistItem) as [HKc|_]; [|exists []; split; [reflexivity|constructor]].
  destruct (HF c Hc HKc) as (l & HL & HFl). destruct (item_total own level c l HL) as [ls ->]; try assumption.
  - exact (consistent_items _ _ HC HL).
  - exists [ls]. split; [reflexivity|]. repeat constructor.
Qed.
Lemma cards_fine n c cs : children n cs -> well_formed n -> In c cs -> rendered_children (n_kind n) = AllChildren -> well_formed c.
Proof. intros HC HW HIn HR. destruct HW as [n _ H]. apply (H cs c HC HIn). unfold kept_child. now rewrite HR. Qed.
Lemma kept_kind k c t kc : rendered_children k = Only [t] \/ (exists t', rendered_children k = Only [t; t']) \/ (exists t', rendered_children k = Only [t'; t]) ->
  consistent c -> t = nk_name kc -> n_kind c = kc -> kept_child k c = true.
Proof.
  intros HR HC HT HK. unfold kept_child. rewrite (consistent_type c HC), HK, <- HT.
  destruct HR as [->|[[t' ->]|[t' ->]]]; cbn [existsb]; rewrite str_eqb_refl; rewrite ?orb_true_r; reflexivity.
Qed.

Lemma render_all n : (consistent n -> well_formed n -> fine n) /\
  (forall cs, n_content n = Items cs -> Forall (fun c => consistent c -> well_formed c -> fine c) cs).
Proof.
  induction n as [k ty ve tx a co ma IH] using node_ind'. split.
  2:{ cbn [n_content]. intros cs ->. cbn [on_items] in IH. rewrite Forall_forall in *. intros c Hc. exact (proj1 (IH c Hc)). }
  intros HC HW. set (n := Node k ty ve tx a co ma) in *.
  assert (HKIDS : forall cs, n_content n = Items cs -> Forall consistent cs) by (intros cs; now apply consistent_items).
  assert (HIH : forall cs, n_content n = Items cs -> forall c, In c cs -> kept_child (n_kind n) c = true ->
                 fine c /\ well_formed c /\ consistent c /\
                 forall l, n_content c = Items l -> Forall (fun c => consistent c -> well_formed c -> fine c) l).
  { intros cs H c Hc HK. cbn [n_content n] in H. subst co. cbn [on_items] in IH. rewrite Forall_forall in IH. specialize (IH c Hc). destruct IH as [I1 I2].
    pose proof (HKIDS cs eq_refl) as HKs. rewrite Forall_forall in HKs. specialize (HKs c Hc).
    assert (HWc : well_formed c) by (inversion HW as [? _ HH]; now apply (HH cs)). exact (conj (I1 HKs HWc) (conj HWc (conj HKs I2))). }
  assert (HALL : rendered_children k = AllChildren -> forall cs, n_content n = Items cs -> Forall fine cs).
  { intros HR cs H. apply Forall_forall. intros c Hc. apply (HIH cs H c Hc). unfold kept_child. cbn [n_kind n]. now rewrite HR. }
  assert (HITEM : forall own cs, k = own -> (own = KbulletList \/ own = KorderedList) -> n_content n = Items cs -> forall c, In c cs -> n_kind c = KlistItem ->
                   exists l, n_content c = Items l /\ Forall fine l).
  { intros own cs HO HOK H c Hc HKc. pose proof (HKIDS cs H) as HKs. rewrite Forall_forall in HKs. specialize (HKs c Hc).
    assert (HKK : kept_child (n_kind n) c = true).
    { apply (kept_kind _ c (s "listItem") KlistItem); [|assumption|reflexivity|assumption]. left. cbn [n_kind n]. rewrite HO. destruct HOK as [->| ->]; reflexivity. }
    destruct (HIH cs H c Hc HKK) as (_ & HWc & _ & HD). inversion HWc as [? HV HS HEq]; subst. unfold values_fine in HV. rewrite HKc in HV.
    destruct HV as [l HL]. exists l. split; [exact HL|]. specialize (HD l HL). pose proof (consistent_items _ _ HKs HL) as HCl.
    rewrite Forall_forall in *. intros g Hg. apply HD; auto. apply (HS l g HL Hg). unfold kept_child. now rewrite HKc. }
  inversion HW as [? HV _ HEq]; subst. clear IH. intros lv Hlv. unfold values_fine in HV. cbn [n_kind n] in HV, Hlv, HALL. cbn [n_content n] in *.
  pose proof (fun b : bool => content_fine n b) as HCF. pose proof (fun b => doc_fine n b HC) as HDF. cbn [n_content n] in HCF, HDF.
  destruct k; cbn [list_kind] in Hlv;
    try (destruct Hlv as [->|Hlv]; [|discriminate Hlv]).
  all: cbn [to_md n].
  all: try (specialize (HALL eq_refl)).
  - (* doc *) destruct (HDF false HV HALL) as [x ->]. eexists. reflexivity.
  - (* text *) destruct HV as (t & HT & HI & HM). cbn [n_text n] in HT. subst tx. unfold add_style. unfold marks_of in *. cbn [n_marks n] in *.
    destruct ma; try (eexists; reflexivity). now apply marks_render.
  - eexists; reflexivity.
  - (* listItem *) destruct (HCF false (or_intror HV) HALL) as [x ->]. cbn [rbind]. eexists. reflexivity.
  - (* bulletList *) destruct HV as [cs HI]. unfold children in HI. cbn [n_content n] in HI. unfold bullet_list_md.
    destruct (items_total "bulletList" (match lv with Some l => l | None => 0 end) n cs HI (HKIDS cs HI)) as [ls HL].
    + now apply (HITEM KbulletList cs eq_refl (or_introl eq_refl) HI).
    + exists KbulletList. split; reflexivity.
    + cbn [n_content n] in HL. rewrite HL. cbn [rbind]. eexists. reflexivity.
  - (* orderedList *) destruct HV as [[cs HI] [v HA]]. unfold children in HI. cbn [n_content n] in HI. unfold ordered_list_md.
    apply has_attr_ok in HA. cbn [n_attrs n] in HA. rewrite HA.
    destruct (items_total "orderedList" (match lv with Some l => l | None => 0 end) n cs HI (HKIDS cs HI)) as [ls HL].
    + now apply (HITEM KorderedList cs eq_refl (or_intror eq_refl) HI).
    + exists KorderedList. split; reflexivity.
    + cbn [n_content n] in HL. rewrite HL. destruct lv as [[|l]|]; cbn [rbind]; eexists; reflexivity.
  - (* paragraph *) destruct HV as [HV HM]. destruct (HCF false HV HALL) as [x ->]. cbn [rbind].
    destruct (style_renders E n x HM) as [y HY]. cbn [n_marks n] in HY. rewrite HY. eexists. reflexivity.
  - (* taskItem *) destruct HV as [HV _]. destruct (HCF false (or_intror HV) HALL) as [x ->]. cbn [rbind]. eexists. reflexivity.
  - (* taskList *) destruct HV as [cs HI]. unfold children in HI. cbn [n_content n] in HI. unfold task_list_md. set (level := match lv with Some l => l | None => 0 end). clearbody level.
    rewrite HI. unfold loop. match goal with |- exists x, rbind (for_each ?f _) _ = _ => destruct (for_each_total is_str f cs) as (ys & -> & HY) end.
    + intros c Hc. pose proof (HKIDS cs HI) as HKs. rewrite Forall_forall in HKs. specialize (HKs c Hc).
      rewrite (type_is c "taskItem" KtaskItem) by (assumption || reflexivity). rewrite (type_is c "taskList" KtaskList) by (assumption || reflexivity).
      destruct (nk_eq_dec (n_kind c) KtaskItem) as [HKc|_].
      * destruct (HIH cs HI c Hc) as (_ & HWc & _ & HD).
        { apply (kept_kind _ c (s "taskItem") KtaskItem); [right; left; now eexists|assumption|reflexivity|assumption]. }
        inversion HWc as [? HVc HS HEq2]; subst. unfold values_fine in HVc. rewrite HKc in HVc. destruct HVc as [[l HL] [st HA]].
        unfold children in HL. specialize (HD l HL). pose proof (consistent_items _ _ HKs HL) as HCl. unfold task_item_line. rewrite HL. unfold loop.
        assert (HFl : Forall fine l).
        { rewrite Forall_forall in *. intros g Hg. apply HD; auto. apply (HS l g HL Hg). unfold kept_child. now rewrite HKc. }
        match goal with |- exists ys, rbind (rbind (for_each ?f _) _) _ = _ /\ _ => destruct (for_each_total is_str f l) as (ys & -> & HY) end.
        { intros g Hg. rewrite Forall_forall in HFl. destruct (HFl g Hg None (or_introl eq_refl)) as [x ->]. eexists. split; [reflexivity|]. repeat constructor. now exists x. }
        cbn [rbind]. destruct (join_total [] ys HY) as [x ->]. cbn [rbind]. rewrite (has_attr_ok c "state" st HA). cbn [rbind].
        eexists. split; [reflexivity|]. repeat constructor. now eexists.
      * destruct (nk_eq_dec (n_kind c) KtaskList) as [HKc|_]; [|exists []; split; [reflexivity|constructor]].
        destruct (HIH cs HI c Hc) as (HFc & _).
        { apply (kept_kind _ c (s "taskList") KtaskList); [right; right; now eexists|assumption|reflexivity|assumption]. }
        destruct (HFc (Some (S level))) as [x ->]; [right; now rewrite HKc|]. eexists. split; [reflexivity|]. repeat constructor. now exists x.
    + cbn [rbind]. destruct (join_total nl ys HY) as [x ->]. eexists. reflexivity.
  - (* decisionItem *) unfold decision_item_md. destruct (HCF false HV HALL) as [x ->]. eexists. reflexivity.
  - (* decisionList *) destruct HV as [cs HI]. unfold children in HI. cbn [n_content n] in HI. unfold decision_list_md.
    rewrite HI. unfold loop. match goal with |- exists x, rbind (for_each ?f _) _ = _ => destruct (for_each_total is_str f cs) as (ys & -> & HY) end.
    + intros c Hc. pose proof (HKIDS cs HI) as HKs. rewrite Forall_forall in HKs. specialize (HKs c Hc).
      rewrite (type_is c "decisionItem" KdecisionItem) by (assumption || reflexivity).
      destruct (nk_eq_dec (n_kind c) KdecisionItem) as [HKc|_]; [|exists []; split; [reflexivity|constructor]].
      destruct (HIH cs HI c Hc) as (HFc & _).
      { apply (kept_kind _ c (s "decisionItem") KdecisionItem); [left; reflexivity|assumption|reflexivity|assumption]. }
      destruct (HFc None (or_introl eq_refl)) as [x ->]. eexists. split; [reflexivity|]. repeat constructor. now exists x.
    + cbn [rbind]. destruct (join_total (nl ++ nl) ys HY) as [x ->]. eexists. reflexivity.
  - (* emoji *) destruct HV as [[t HA]|(v & t & HA & HB)].
    + apply has_attr_ok in HA. cbn [n_attrs n] in HA. rewrite HA. eexists. reflexivity.
    + apply has_attr_ok in HA, HB. cbn [n_attrs n] in HA, HB. rewrite HA, HB. cbn [rbind]. destruct v; eexists; reflexivity.
  - eexists; reflexivity.
  - (* date *) destruct HV as (v & ts & HA & HM & HR). apply has_attr_ok in HA. cbn [n_attrs n] in HA. rewrite HA. cbn [rbind].
    rewrite (date_spec _ _ ts) by (now apply milliseconds_int). cbn zeta.
    assert (HD : (-719162 <= ts / 86400000 <= 2932896)%Z) by (Z.to_euclidean_division_equations; lia).
    apply year_range in HD as [H1 H2]. apply Z.leb_le in H1, H2. rewrite H1, H2. eexists. reflexivity.
  - (* mention *) destruct HV as [v HA]. apply has_attr_ok in HA. cbn [n_attrs n] in HA. rewrite HA. cbn [rbind]. destruct v; eexists; reflexivity.
  - (* status *) destruct HV as [v HA]. apply has_attr_ok in HA. cbn [n_attrs n] in HA. rewrite HA. eexists; reflexivity.
  - (* heading *) destruct HV as (HV & z & HA). apply has_attr_ok in HA. cbn [n_attrs n] in HA. rewrite HA. cbn [rbind times].
    destruct (HCF false HV HALL) as [x ->]. eexists; reflexivity.
  - (* codeBlock *) destruct HV as [HV HA]. destruct (HCF false HV HALL) as [x ->]. cbn [rbind]. unfold code_lang.
    destruct HA as [HA|[v HA]]; [cbn [n_attrs n] in HA; subst a; eexists; reflexivity|]. pose proof (has_attr_ok n _ _ HA) as HB.
    destruct HA as (l & HL & _). cbn [n_attrs n] in HL, HB. rewrite HL in *. rewrite HB. eexists. reflexivity.
  - destruct HV as [v HA]. apply has_attr_ok in HA. cbn [n_attrs n] in HA. rewrite HA. eexists; reflexivity.
  - destruct HV as [v HA]. apply has_attr_ok in HA. cbn [n_attrs n] in HA. rewrite HA. eexists; reflexivity.
  - (* media *) destruct HV as (HM & t & u & i & al & H1 & H2 & H3 & H4 & HT). apply has_attr_ok in H1, H2, H3, H4. cbn [n_attrs n] in *.
    unfold media_md. rewrite H1, H2, H4, H3. cbn [rbind].
    assert (HST : forall x, exists y, add_style E ma (VStr x) = Ok (VStr y)) by (intros x; apply (style_renders E n x HM)).
    destruct HT as [->|[->|[-> [x ->]]]]; unfold is_media;
      repeat match goal with |- context [str_eqb (s ?p) (s ?q)] => let r := eval vm_compute in (str_eqb (s p) (s q)) in change (str_eqb (s p) (s q)) with r end;
      cbn iota; try apply HST; eexists; reflexivity.
  - eexists; reflexivity.
  - destruct (HCF false HV HALL) as [x ->]. eexists; reflexivity.
  - destruct HV as [v HA]. apply has_attr_ok in HA. cbn [n_attrs n] in HA. rewrite HA. eexists; reflexivity.
  - destruct HV as (k & t & x & H1 & H2 & H3). apply has_attr_ok in H1, H2, H3. cbn [n_attrs n] in *. rewrite H1, H2, H3. eexists; reflexivity.
  - eexists; reflexivity.
  - eexists; reflexivity.
  - (* panel *) destruct HV as (HV & t & HA). apply has_attr_ok in HA. cbn [n_attrs n] in HA. rewrite HA. cbn [rbind].
    destruct (HDF false HV HALL) as [x ->]. eexists; reflexivity.
  - (* blockquote *) destruct (HDF false HV HALL) as [x ->]. eexists; reflexivity.
  - (* expand *) destruct HV as [HV HM]. destruct (HDF false HV HALL) as [x ->]. cbn [rbind]. apply (style_renders E n x HM).
  - (* nestedExpand *) destruct (HDF false HV HALL) as [x ->]. eexists; reflexivity.
  - (* tableCell *) unfold table_cell_md. destruct (HCF false HV HALL) as [x ->]. eexists. reflexivity.
  - unfold table_cell_md. destruct (HCF false HV HALL) as [x ->]. eexists. reflexivity.
  - (* tableRow *) destruct HV as [cs HI]. unfold children in HI. cbn [n_content n] in HI. specialize (HALL cs HI). unfold table_row_md. rewrite HI. unfold loop.
    match goal with |- exists x, rbind (for_each ?f _) _ = _ => destruct (for_each_total is_str f cs) as (ys & -> & HY) end.
    + intros c Hc. rewrite Forall_forall in HALL. destruct (HALL c Hc None (or_introl eq_refl)) as [x ->]. eexists. split; [reflexivity|]. repeat constructor. now exists x.
    + cbn [rbind]. destruct (join_total (s " | ") ys HY) as [x ->]. eexists. reflexivity.
  - (* table *) destruct HV as (cs & HI & HRows). unfold children in HI. cbn [n_content n] in HI. specialize (HALL cs HI). unfold table_md. rewrite HI. unfold loop.
    destruct (for_each_total is_str (table_row_lines (to_md E) false) cs) as (ys & -> & HY).
    + intros c Hc. rewrite Forall_forall in HALL. destruct (HALL c Hc None (or_introl eq_refl)) as [x Hx]. destruct (HRows c Hc) as (h & t & HL). unfold children in HL.
      unfold table_row_lines, header_width. rewrite Hx, HL. destruct (is_type_of h [s "tableHeader"]); eexists; (split; [reflexivity|]); repeat constructor; now eexists.
    + cbn [rbind]. destruct (join_total nl ys HY) as [x ->]. eexists. reflexivity.
Qed.
End Render.
