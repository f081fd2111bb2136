(** No text is lost: the induction over the object tree. *)
From Coq Require Import List NArith ZArith Bool String Lia.
From Verif Require Import PyStr Values Schema Parse Date Markdown Basics StrFacts MarkFacts Collapse LayoutFacts SpecParse SpecMd
  MdFacts MdFacts2 SpecErr ErrFacts SpecTable TableFacts SpecList ListFacts ListFacts3 LeafFacts SpecText TextFacts.
Import ListNotations.
Open Scope string_scope.
Open Scope list_scope.

Lemma texts_solid n : Forall solid (texts n).
Proof.
  induction n as [k ty ve tx a co ma IH] using node_ind'.
  assert (HS : Forall solid (match co with Items l => List.concat (map (fun c => if kept_child k c then texts c else []) l) | _ => [] end)).
  { destruct co as [| |l|]; try constructor. cbn [on_items] in IH. apply solid_concat. apply Forall_map.
    eapply Forall_impl; [|exact IH]. intros c Hc. destruct (kept_child k c); auto. }
  cbn [texts]. set (sub := match co with Items _ => _ | _ => _ end) in *. clearbody sub.
  assert (HL : Forall solid (leaf_texts k a ma)).
  { unfold leaf_texts. destruct k; auto using pieces_of_solid.
    - destruct (is_string _); apply pieces_of_solid.
    - destruct (equals _ _); [|destruct (equals _ _); [|constructor]];
        apply solid_kept; apply Forall_app; split; apply pieces_of_solid. }
  destruct k; auto using solid_kept.
  - destruct tx; apply solid_kept; [apply pieces_of_solid|constructor].
  - apply Forall_map. eapply Forall_impl; [|exact HS]. apply solid_escape.
  - apply Forall_map. eapply Forall_impl; [|exact HS]. apply solid_escape.
Qed.

(** ---------------------------------------------------------------- loops *)
Lemma for_each_gen {A B} (H : list str -> list B -> Prop) (f : A -> res (list B)) (g : A -> list str) l :
  H [] [] -> (forall a b x y, H a x -> H b y -> H (a ++ b) (x ++ y)) ->
  Forall (fun a => forall y, f a = Ok y -> H (g a) y) l ->
  forall ys, for_each f l = Ok ys -> H (List.concat (map g l)) ys.
Proof.
  intros H0 HA HF. induction HF as [|a l HH HF IH]; intros ys HE.
  - cbn in HE. assert (ys = []) by congruence. subst. exact H0.
  - apply for_each_cons_inv in HE as (x & y & H1 & H2 & ->). cbn [map List.concat]. auto.
Qed.
Definition hv (ts : list str) (vs : list value) : Prop := forall xs, vs = map VStr xs -> holds ts xs.
Lemma hv_nil : hv [] [].
Proof. intros xs H. destruct xs; [apply holds_nil|discriminate]. Qed.
Lemma hv_app a b x y : hv a x -> hv b y -> hv (a ++ b) (x ++ y).
Proof. intros HA HB xs E. symmetry in E. apply map_eq_app in E as (p & q & -> & E1 & E2). apply holds_app; [now apply HA|now apply HB]. Qed.
Lemma hv_join sep ts vs x : hv ts vs -> join_values sep vs = Ok x -> in_order ts x.
Proof. intros H HJ. apply join_values_inv in HJ as (xs & HV & ->). apply holds_join. now apply H. Qed.
Lemma hv_one ts v : (forall x, v = VStr x -> in_order ts x) -> hv ts [v].
Proof.
  intros H xs E. destruct xs as [|x [|y xs]]; try discriminate. apply holds_one. apply H. cbn in E. congruence.
Qed.
Lemma hv_try ts r y : (forall x, r = Ok (VStr x) -> in_order ts x) -> try_ false r = Ok y -> hv ts y.
Proof.
  intros H. unfold try_. destruct r as [v|]; [|discriminate]. intros E. assert (y = [v]) by congruence. subst. apply hv_one.
  intros x ->. now apply H.
Qed.

Definition hl (ts : list str) (lss : list (list str)) : Prop :=
  exists tss, List.concat tss = ts /\ Forall2 (fun t ls => holds t ls /\ ls <> []) tss lss.
Lemma hl_app a b x y : hl a x -> hl b y -> hl (a ++ b) (x ++ y).
Proof. intros (p & <- & HP) (q & <- & HQ). exists (p ++ q). split; [apply concat_app|now apply Forall2_app]. Qed.

Section T.
Context (E : runtime).
Definition shows (n : node) : Prop := forall lv x, to_md E n lv false = Ok (VStr x) -> in_order (texts n) x.
Definition kids_shown (c : slot node) : Prop := on_items shows c.

Lemma map_all_kept k l : rendered_children k = AllChildren ->
  map (fun c => if kept_child k c then texts c else []) l = map texts l.
Proof. intros H. apply map_ext. intros c. unfold kept_child. now rewrite H. Qed.
Definition sub (c : slot node) : list str := match c with Items l => List.concat (map texts l) | _ => [] end.

Lemma for_each_raw {A B} (l : list A) ys : for_each (fun _ => @Err (list B) AttributeError) l = Ok ys -> ys = [].
Proof. destruct l; cbn; [congruence|discriminate]. Qed.
Lemma loop_shown (c : slot node) (f : node -> res (list value)) e ys g :
  on_items (fun a => forall y, f a = Ok y -> hv (g a) y) c ->
  loop c f (Err e) = Ok ys ->
  hv (match c with Items l => List.concat (map g l) | _ => [] end) ys.
Proof.
  intros HF HL. destruct c as [| |l|v]; cbn [loop] in HL; try discriminate.
  - eapply for_each_gen; eauto using hv_nil, hv_app.
  - assert (ys = []) as ->; [|apply hv_nil].
    destruct v; try discriminate; match type of HL with for_each _ ?l = _ => destruct l end; cbn in HL; congruence.
Qed.
Lemma content_shown c x : kids_shown c -> content_to_markdown (to_md E) c false = Ok x -> in_order (sub c) x.
Proof.
  intros HK HX. unfold content_to_markdown in HX. destruct c as [| |l|v]; try (constructor; fail); try discriminate.
  apply rbind_ok in HX as (vs & HL & HJ). eapply hv_join; [|exact HJ]. eapply loop_shown with (c := Items l); [|exact HL].
  cbn [on_items] in *. eapply Forall_impl; [|exact HK]. intros n Hn y. apply hv_try. intros z. apply Hn.
Qed.
Lemma block_shown n y : shows n -> try_ false (block_md (to_md E) n) = Ok y -> hv (texts n) y.
Proof.
  intros H. apply hv_try. intros x. unfold block_md. destruct (is_type_of n padded); [|apply H].
  intros HX. apply rbind_ok in HX as (v & HV & HX). apply rbind_ok in HX as (z & HZ & HX). apply okstr_inj in HX. subst x.
  destruct v; try discriminate. cbn in HZ. assert (z = x) by congruence. subst. apply io_mid. eapply H; eauto.
Qed.
Lemma sub_solid c : Forall solid (sub c).
Proof. destruct c; try constructor. cbn. apply solid_concat, Forall_map, Forall_forall. intros; apply texts_solid. Qed.
Lemma doc_shown c x : kids_shown c -> doc_content_to_markdown (to_md E) c false = Ok x -> in_order (sub c) x.
Proof.
  intros HK HX. unfold doc_content_to_markdown in HX. destruct c as [| |l|v]; try (constructor; fail); try discriminate.
  apply rbind_ok in HX as (vs & HL & HJ). apply rbind_ok in HJ as (z & HJ & HX). assert (x = strip_double_empty_line z) by congruence. subst x.
  apply io_collapse; [apply sub_solid|]. eapply hv_join; [|exact HJ]. eapply loop_shown with (c := Items l); [|exact HL].
  cbn [on_items] in *. eapply Forall_impl; [|exact HK]. intros n Hn y. now apply block_shown.
Qed.

(** Lists. *)
Lemma item_shown own level item ls : kids_shown (n_content item) ->
  item_lines (to_md E) own level false item = Ok ls -> holds (sub (n_content item)) ls /\ ls <> [].
Proof.
  intros HK HX. unfold item_lines in HX. apply rbind_ok in HX as (vs & HL & HX). apply rbind_ok in HX as (z & HJ & HX).
  assert (ls = split_on NL z) by congruence. subst ls. split; [|apply split_on_nonnil].
  apply holds_split; [apply sub_solid|]. eapply hv_join; [|exact HJ]. eapply loop_shown; [|exact HL].
  destruct (n_content item) as [| |l|]; cbn [on_items] in *; auto. eapply Forall_impl; [|exact HK].
  intros n Hn y. cbv beta. destruct (is_type_of n [own]).
  - apply hv_try. intros x. apply Hn.
  - apply hv_try. clear HX. intros x HX. apply rbind_ok in HX as (v & HV & HX). destruct v; try discriminate. cbn in HX. apply okstr_inj in HX.
    subst x. apply io_rstrip; [apply texts_solid|]. eapply Hn; eauto.
Qed.
Lemma kept_item k c : k = KbulletList \/ k = KorderedList -> kept_child k c = is_type_of c [s "listItem"].
Proof. intros [-> | ->]; unfold kept_child, is_type_of, check_type_match; cbn [rendered_children]; destruct (n_type c); reflexivity. Qed.
Lemma item_texts c : consistent c -> is_type_of c [s "listItem"] = true -> texts c = sub (n_content c).
Proof.
  intros HC HT. rewrite (type_is c "listItem" KlistItem) in HT by auto.
  destruct (nk_eq_dec (n_kind c) KlistItem) as [HK|]; [|discriminate].
  destruct c as [k ty ve tx a co ma]. cbn [n_kind n_content] in *. subst k. cbn [texts]. destruct co as [| |l|]; try exact eq_refl.
Qed.
Lemma list_shown k own level c lss : k = KbulletList \/ k = KorderedList ->
  on_items (fun i => consistent i /\ kids_shown (n_content i)) c ->
  list_items (to_md E) own c level false = Ok lss ->
  hl (match c with Items l => List.concat (map (fun c => if kept_child k c then texts c else []) l) | _ => [] end) lss.
Proof.
  intros HK HC HL. unfold list_items in HL. destruct c as [| |l|v]; cbn [loop] in HL; try discriminate.
  - eapply for_each_gen in HL; [exact HL|exists []; split; [reflexivity|constructor]|exact hl_app|].
    cbn [on_items] in HC. eapply Forall_impl; [|exact HC]. intros i [Hi Hs] y. cbv beta. rewrite (kept_item k i HK).
    destruct (is_type_of i [s "listItem"]) eqn:HT.
    + intros HX. apply rbind_ok in HX as (ls & HI & HX). assert (y = [ls]) by congruence. subst y.
      exists [texts i]. split; [apply app_nil_r|]. constructor; [|constructor]. rewrite item_texts by auto. eapply item_shown; eauto.
    + intros HX. assert (y = []) by congruence. subst y. exists []. split; [reflexivity|constructor].
  - assert (lss = []) as ->; [|exists []; split; [reflexivity|constructor]].
    destruct v; try discriminate; match type of HL with for_each _ ?l = _ => destruct l end; cbn in HL; congruence.
Qed.
Lemma holds_head p ts ls : holds ts ls -> ls <> [] -> holds ts ((p ++ hd [] ls) :: tl ls).
Proof.
  intros (tss & <- & H) HN. destruct H as [|a x tss xs HA H]; [congruence|]. cbn [hd tl List.concat].
  apply holds_cons; [now apply io_pre|]. now exists tss.
Qed.
Lemma bullets_shown level ts lss : hl ts lss -> holds ts (List.concat (map (bullet_item level) lss)).
Proof.
  intros (tss & <- & H). induction H as [|t ls tss lss [H1 H2] H IH]; [apply holds_nil|]. cbn [map List.concat].
  apply holds_app; [|exact IH]. unfold bullet_item. rewrite app_assoc. now apply holds_head.
Qed.
Lemma ordered_shown level start ts lss : hl ts lss -> forall i, holds ts (ordered_items level start i lss).
Proof.
  intros (tss & <- & H). induction H as [|t ls tss lss [H1 H2] H IH]; intros i; [apply holds_nil|]. cbn [ordered_items List.concat].
  apply holds_app; [|apply IH]. unfold ordered_item. rewrite !app_assoc. now apply holds_head.
Qed.

(** Leaves. *)
Lemma attr_value_ok a f v : attr a (s f) = Ok v -> attr_value a f = v.
Proof. unfold attr, attr_value. destruct a as [| |l]; try discriminate. destruct (lookup (s f) l); [congruence|discriminate]. Qed.
Lemma py_str_pieces v : in_order (pieces_of v) (py_str E v).
Proof. destruct v; cbn; try constructor. apply io_pieces. Qed.
Lemma media_shown a ma x : media_md E a ma = Ok (VStr x) -> in_order (leaf_texts Kmedia a ma) x.
Proof.
  unfold media_md. intros H. apply rbind_ok in H as (t & HT & H). apply rbind_ok in H as (u & HU & H).
  apply rbind_ok in H as (al & HA & H). apply rbind_ok in H as (i & HI & H).
  cbn [leaf_texts]. rewrite (attr_value_ok _ _ _ HT), (attr_value_ok _ _ _ HU), (attr_value_ok _ _ _ HA), (attr_value_ok _ _ _ HI).
  assert (HP : in_order (pieces_of al) (match al with VStr z => z | _ => s "media" end)).
  { destruct al; cbn; try constructor. apply io_pieces. }
  change (is_media t "external") with (equals t "external") in H. change (is_media t "file") with (equals t "file") in H.
  assert (HB : forall p b ts, in_order ts p -> in_order (pieces_of al ++ ts)
     (s "![" ++ match al with VStr z => z | _ => s "media" end ++ b ++ p ++ s ")")).
  { intros p b ts Hp. apply io_pre. apply io_app; [exact HP|]. now apply io_mid. }
  destruct (equals t "external") eqn:E1.
  - destruct u; cbn [pieces_of].
    5: { eapply io_style; [|exact H]. apply HB. apply io_pieces. }
    all: destruct (equals t "file") eqn:E2; [exfalso; destruct t; try discriminate; cbn in E1, E2;
      apply str_eqb_eq in E1; apply str_eqb_eq in E2; rewrite E1 in E2; discriminate|].
    all: destruct (is_media t "link") eqn:E3; [exfalso; destruct t; try discriminate; cbn in E1, E3;
      apply str_eqb_eq in E1; apply str_eqb_eq in E3; rewrite E1 in E3; discriminate|discriminate].
  - destruct (equals t "file") eqn:E2; [|constructor]. eapply io_style; [|exact H]. apply HB. apply py_str_pieces.
Qed.

Lemma no_kids k l : rendered_children k = NoChildren ->
  List.concat (map (fun c => if kept_child k c then texts c else []) l) = [].
Proof. intros H. induction l as [|c l IH]; [reflexivity|]. cbn [map List.concat]. unfold kept_child at 1. now rewrite H. Qed.

Lemma task_shown level c ys : on_items (fun i => consistent i /\ shows i /\ kids_shown (n_content i)) c ->
  loop c (fun item => if is_type_of item [s "taskItem"]
                      then do l <- task_item_line (to_md E) level false item; Ok [l]
                      else if is_type_of item [s "taskList"]
                      then try_ false (to_md E item (Some (S level)) false) else Ok []) (Err AttributeError) = Ok ys ->
  hv (match c with Items l => List.concat (map (fun c => if kept_child KtaskList c then texts c else []) l) | _ => [] end) ys.
Proof.
  intros HC. apply loop_shown with (c := c). destruct c as [| |l|]; cbn [on_items] in *; auto.
  eapply Forall_impl; [|exact HC]. intros i (Hi & Hs & Hk) y. cbv beta.
  assert (HKC : kept_child KtaskList i = (is_type_of i [s "taskItem"] || is_type_of i [s "taskList"])%bool).
  { unfold kept_child, is_type_of, check_type_match. cbn [rendered_children]. destruct (n_type i); try reflexivity.
    cbn [existsb]. now rewrite !orb_false_r. }
  rewrite HKC. destruct (is_type_of i [s "taskItem"]) eqn:T1; cbn [orb].
  - intros HX. apply rbind_ok in HX as (l1 & HT & HX). assert (y = [l1]) by congruence. subst y. apply hv_one. intros x ->.
    unfold task_item_line in HT. apply rbind_ok in HT as (ps & HL & HT). apply rbind_ok in HT as (z & HJ & HT).
    apply rbind_ok in HT as (st & _ & HT). apply okstr_inj in HT. subst x.
    assert (HX2 : texts i = sub (n_content i)).
    { rewrite (type_is i "taskItem" KtaskItem) in T1 by auto. destruct (nk_eq_dec (n_kind i) KtaskItem) as [HK|]; [|discriminate].
      destruct i as [k ty ve tx a co ma]. cbn [n_kind n_content] in *. subst k. cbn [texts]. destruct co as [| |l0|]; exact eq_refl. }
    rewrite HX2. rewrite !app_assoc. apply io_pre. apply io_rstrip; [apply sub_solid|]. eapply hv_join; [|exact HJ].
    eapply loop_shown; [|exact HL]. destruct (n_content i) as [| |l2|]; cbn [on_items] in *; auto.
    eapply Forall_impl; [|exact Hk]. intros n Hn y. apply hv_try. intros x. apply Hn.
  - destruct (is_type_of i [s "taskList"]); [apply hv_try; intros x; apply Hs|]. intros HX. assert (y = []) by congruence. subst. apply hv_nil.
Qed.

Theorem texts_shown n : consistent n -> shows n.
Proof.
  induction n as [k ty ve tx a co ma IH] using node_ind2. intros HC lv x HX.
  assert (HS : on_items (fun i => consistent i /\ shows i /\ kids_shown (n_content i)) co).
  { destruct co as [| |l|]; cbn [on_items]; auto. cbn [on_items] in IH. pose proof (consistent_items _ l HC eq_refl) as HCL.
    rewrite Forall_forall in *. intros i Hi. specialize (HCL i Hi). destruct (IH i Hi) as [H1 H2]. split; [exact HCL|]. split; [auto|].
    unfold kids_shown. destruct (n_content i) as [| |l2|] eqn:EC; cbn [on_items] in *; auto.
    pose proof (consistent_items _ l2 HCL EC) as HC2. rewrite Forall_forall in *. auto. }
  assert (HK : kids_shown co). { unfold kids_shown. destruct co; cbn [on_items] in *; auto. eapply Forall_impl; [|exact HS]. intros i H; exact (proj1 (proj2 H)). }
  assert (HI : on_items (fun i => consistent i /\ kids_shown (n_content i)) co).
  { destruct co; cbn [on_items] in *; auto. eapply Forall_impl; [|exact HS]. intros i (H1 & _ & H2); exact (conj H1 H2). }
  clear IH.
  assert (HSub : rendered_children k = AllChildren ->
    match co with Items l => List.concat (map (fun c => if kept_child k c then texts c else []) l) | _ => [] end = sub co).
  { intros HR. destruct co; try reflexivity. cbn [sub]. now rewrite map_all_kept. }
  cbn [texts]. set (subk := match co with Items _ => _ | _ => _ end) in *.
  assert (HNo : rendered_children k = NoChildren -> subk = []).
  { intros HR. unfold subk. destruct co as [| |l|]; try reflexivity. now apply no_kids. }
  destruct k; cbn [to_md] in HX; try (destruct lv; [discriminate|]);
    try (rewrite (HSub eq_refl)); try (rewrite (HNo eq_refl)); try (constructor; fail).
  - (* doc *) apply rbind_ok in HX as (z & HZ & HX). apply okstr_inj in HX. subst x. now apply doc_shown.
  - (* text *) destruct tx as [v|]; [|discriminate]. destruct v; cbn [pieces_of]; try (unfold kept_by; destruct ma; try constructor; destruct (existsb _ _); constructor).
    eapply io_style; [|exact HX]. apply io_pieces.
  - apply rbind_ok in HX as (z & HZ & HX). apply okstr_inj in HX. subst x. now apply content_shown.
  - (* bulletList *) unfold bullet_list_md in HX. apply rbind_ok in HX as (lss & HL & HX). apply okstr_inj in HX. subst x.
    apply holds_join, bullets_shown. eapply list_shown; eauto.
  - (* orderedList *) unfold ordered_list_md in HX. apply rbind_ok in HX as (st & _ & HX). apply rbind_ok in HX as (lss & HL & HX). apply okstr_inj in HX. subst x.
    apply holds_join, ordered_shown. eapply list_shown; eauto.
  - (* paragraph *) apply rbind_ok in HX as (z & HZ & HX). apply rbind_ok in HX as (v & HV & HX). apply rbind_ok in HX as (y & HY & HX).
    apply okstr_inj in HX. subst x. destruct v; try discriminate. cbn in HY. assert (y = x) by congruence. subst. apply io_suf.
    eapply io_style; [|exact HV]. now apply content_shown.
  - apply rbind_ok in HX as (z & HZ & HX). apply okstr_inj in HX. subst x. now apply content_shown.
  - (* taskList *) unfold task_list_md in HX. apply rbind_ok in HX as (vs & HL & HX). apply rbind_ok in HX as (z & HJ & HX). apply okstr_inj in HX. subst x.
    eapply hv_join; [|exact HJ]. eapply task_shown; eauto.
  - (* decisionItem *) unfold decision_item_md in HX. apply rbind_ok in HX as (z & HZ & HX). apply okstr_inj in HX. subst x.
    apply holds_join, holds_quote; [apply sub_solid|]. apply holds_split; [apply sub_solid|]. apply io_rstrip; [apply sub_solid|].
    now apply content_shown.
  - (* decisionList *) unfold decision_list_md in HX. apply rbind_ok in HX as (vs & HL & HX). apply rbind_ok in HX as (z & HJ & HX). apply okstr_inj in HX. subst x.
    eapply hv_join; [|exact HJ]. eapply loop_shown in HL; [exact HL|]. destruct co as [| |l|]; cbn [on_items] in *; auto.
    eapply Forall_impl; [|exact HK]. intros n Hn y. cbv beta. assert (HD : kept_child KdecisionList n = is_type_of n [s "decisionItem"])
      by (unfold kept_child, is_type_of, check_type_match; cbn [rendered_children]; destruct (n_type n); reflexivity).
    rewrite HD.
    destruct (is_type_of n [s "decisionItem"]); [apply hv_try; intros x; apply Hn|]. intros HX. assert (y = []) by congruence. subst. apply hv_nil.
  - (* emoji *) apply rbind_ok in HX as (t & HT & HX). cbn [leaf_texts]. rewrite (attr_value_ok _ _ _ HT).
    destruct t; cbn [is_string].
    5: { apply okstr_inj in HX. subst. apply io_pieces. }
    all: apply rbind_ok in HX as (sn & HN & HX); rewrite (attr_value_ok _ _ _ HN); destruct sn; try discriminate;
      apply okstr_inj in HX; subst; apply io_pieces.
  - (* mention *) apply rbind_ok in HX as (t & HT & HX). cbn [leaf_texts]. rewrite (attr_value_ok _ _ _ HT).
    destruct t; try constructor. apply okstr_inj in HX. subst. apply io_pieces.
  - (* status *) apply rbind_ok in HX as (t & HT & HX). cbn [leaf_texts]. rewrite (attr_value_ok _ _ _ HT). apply okstr_inj in HX. subst x.
    apply io_mid. apply py_str_pieces.
  - (* heading *) apply rbind_ok in HX as (l & _ & HX). apply rbind_ok in HX as (h & _ & HX). apply rbind_ok in HX as (z & HZ & HX).
    apply okstr_inj in HX. subst x. rewrite !app_assoc. rewrite <- app_assoc. rewrite <- (app_assoc _ z). apply io_mid. now apply content_shown.
  - (* codeBlock *) apply rbind_ok in HX as (z & HZ & HX). apply rbind_ok in HX as (la & _ & HX).
    apply okstr_inj in HX. subst x. do 3 apply io_pre. apply io_suf. now apply content_shown.
  - (* inlineCard *) apply rbind_ok in HX as (t & HT & HX). cbn [leaf_texts]. rewrite (attr_value_ok _ _ _ HT). destruct t; try discriminate.
    apply okstr_inj in HX. subst x. apply io_mid. apply io_pieces.
  - apply rbind_ok in HX as (t & HT & HX). cbn [leaf_texts]. rewrite (attr_value_ok _ _ _ HT). destruct t; try discriminate.
    apply okstr_inj in HX. subst x. apply io_pre. apply io_mid. apply io_pieces.
  - (* media *) now apply media_shown.
  - apply rbind_ok in HX as (z & HZ & HX). apply okstr_inj in HX. subst x. now apply content_shown.
  - (* embedCard *) apply rbind_ok in HX as (t & HT & HX). cbn [leaf_texts]. rewrite (attr_value_ok _ _ _ HT).
    apply okstr_inj in HX. subst x. apply io_pre. apply io_mid. apply py_str_pieces.
  - (* extension *) apply rbind_ok in HX as (ke & _ & HX). apply rbind_ok in HX as (et & _ & HX). apply rbind_ok in HX as (t & HT & HX).
    cbn [leaf_texts]. rewrite (attr_value_ok _ _ _ HT). apply okstr_inj in HX. subst x. destruct t as [| | | |[|c r]| | |]; cbn [pieces_of]; try constructor.
    do 3 apply io_pre. apply io_pieces.
  - (* panel *) apply rbind_ok in HX as (t & _ & HX). apply rbind_ok in HX as (pt & _ & HX). apply rbind_ok in HX as (z & HZ & HX).
    apply okstr_inj in HX. subst x. apply io_suf. apply io_indent; [apply sub_solid|]. apply io_collapse; [apply sub_solid|].
    cbn [join]. do 4 apply io_pre. now apply doc_shown.
  - (* blockquote *) apply rbind_ok in HX as (z & HZ & HX). apply okstr_inj in HX. subst x. apply io_suf.
    apply io_indent; [apply sub_solid|]. apply io_collapse; [apply sub_solid|]. now apply doc_shown.
  - (* expand *) apply rbind_ok in HX as (z & HZ & HX). eapply io_style; [|exact HX]. now apply doc_shown.
  - apply rbind_ok in HX as (z & HZ & HX). apply okstr_inj in HX. subst x. now apply doc_shown.
  - (* tableCell *) unfold table_cell_md in HX. apply rbind_ok in HX as (z & HZ & HX). apply okstr_inj in HX. subst x.
    apply io_cell_text; [apply sub_solid|]. now apply content_shown.
  - unfold table_cell_md in HX. apply rbind_ok in HX as (z & HZ & HX). apply okstr_inj in HX. subst x.
    apply io_cell_text; [apply sub_solid|]. now apply content_shown.
  - (* tableRow *) unfold table_row_md in HX. apply rbind_ok in HX as (vs & HL & HX). apply rbind_ok in HX as (z & HJ & HX). apply okstr_inj in HX. subst x.
    apply io_mid. eapply hv_join; [|exact HJ]. eapply loop_shown in HL; [exact HL|]. destruct co as [| |l|]; cbn [on_items] in *; auto.
    eapply Forall_impl; [|exact HK]. intros n Hn y. cbv beta. intros HX. apply rbind_ok in HX as (v & HV & HX). assert (y = [v]) by congruence. subst.
    apply hv_one. intros x ->. eapply Hn; eauto.
  - (* table *) unfold table_md in HX. apply rbind_ok in HX as (vs & HL & HX). apply rbind_ok in HX as (z & HJ & HX). apply okstr_inj in HX. subst x.
    eapply hv_join; [|exact HJ]. eapply loop_shown in HL; [exact HL|]. destruct co as [| |l|]; cbn [on_items] in *; auto.
    eapply Forall_impl; [|exact HK]. intros n Hn y. unfold table_row_lines.
    destruct (to_md E n None false) as [v|] eqn:EM; [|discriminate].
    assert (H1 : hv (texts n) [v]) by (apply hv_one; intros x ->; eapply Hn; eauto).
    destruct (header_width n) as [[w|]|]; [| |discriminate]; intros HX.
    + assert (y = [v] ++ [VStr (delimiter w)]) by (cbn [app]; congruence). subst. rewrite <- (app_nil_r (texts n)). apply hv_app; [exact H1|].
      apply hv_one. constructor.
    + assert (y = [v]) by congruence. subst. exact H1.
Qed.
End T.
