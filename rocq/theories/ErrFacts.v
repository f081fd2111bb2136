(** ignore_error. *)
From Coq Require Import List NArith ZArith Bool String Lia.
From Verif Require Import PyStr Values Schema Parse Date Markdown Basics StrFacts MarkFacts SpecParse ParseFacts4
  MdFacts SpecMd MdFacts2 LeafFacts SpecErr.
Import ListNotations.
Open Scope string_scope.
Open Scope list_scope.

(** ---------------------------------------------------------------- C23 *)
Lemma for_each_mono {A B} (f g : A -> res (list B)) l ys :
  Forall (fun a => forall y, f a = Ok y -> g a = Ok y) l -> for_each f l = Ok ys -> for_each g l = Ok ys.
Proof.
  intros HF. revert ys. induction HF as [|a l HA HF IH]; intros ys; [auto|]. cbn.
  destruct (f a) as [x|] eqn:EA; [|discriminate]. cbn [rbind]. rewrite (HA x eq_refl). cbn [rbind].
  fold (for_each f) (for_each g). destruct (for_each f l) as [y|]; [|discriminate]. rewrite (IH y eq_refl). auto.
Qed.
Lemma for_each_mono' {A B} (f g : A -> res (list B)) l ys :
  (forall a y, f a = Ok y -> g a = Ok y) -> for_each f l = Ok ys -> for_each g l = Ok ys.
Proof. intros H. apply for_each_mono. apply Forall_forall. auto. Qed.
Lemma loop_mono {B} c (f g : node -> res (list B)) r r' ys :
  on_items (fun a => forall y, f a = Ok y -> g a = Ok y) c -> (forall y, r = Ok y -> r' = Ok y) ->
  loop c f r = Ok ys -> loop c g r' = Ok ys.
Proof.
  intros HF HR. destruct c as [| |l|v]; cbn [loop]; auto.
  - apply for_each_mono. exact HF.
  - destruct v; auto; apply for_each_mono'; auto.
Qed.
Lemma try_mono {A} (r r' : res A) y : (forall x, r = Ok x -> r' = Ok x) -> try_ false r = Ok y -> try_ true r' = Ok y.
Proof. unfold try_. destruct r as [x|]; [|discriminate]. intros H. now rewrite (H x eq_refl). Qed.
Lemma on_items_all {A} (P : A -> Prop) c : (forall a, P a) -> on_items P c.
Proof. intros H. destruct c; cbn; auto. apply Forall_forall. auto. Qed.

Lemma rbind_mono {A B} (m m' : res A) (f f' : A -> res B) y :
  (forall a, m = Ok a -> m' = Ok a) -> (forall a, f a = Ok y -> f' a = Ok y) -> rbind m f = Ok y -> rbind m' f' = Ok y.
Proof. intros H1 H2 H. apply rbind_ok in H as (a & HA & H). rewrite (H1 a HA). cbn. auto. Qed.

Lemma content_mono md c x : content_to_markdown md c false = Ok x -> content_to_markdown md c true = Ok x.
Proof.
  unfold content_to_markdown. destruct c; auto; apply rbind_mono; auto; intros ys; apply loop_mono; auto using on_items_all;
    try discriminate; try (apply on_items_all; intros a y; apply try_mono; auto).
Qed.
Lemma doc_content_mono md c x : doc_content_to_markdown md c false = Ok x -> doc_content_to_markdown md c true = Ok x.
Proof.
  unfold doc_content_to_markdown. destruct c; auto; apply rbind_mono; auto; intros ys; apply loop_mono; auto using on_items_all;
    try discriminate; try (apply on_items_all; intros a y; apply try_mono; auto).
Qed.
Lemma list_items_mono md own c level ys : list_items md own c level false = Ok ys -> list_items md own c level true = Ok ys.
Proof.
  unfold list_items. apply loop_mono; [|auto]. apply on_items_all. intros item y.
  destruct (is_type_of item _); [|auto]. apply rbind_mono; [|auto]. intros z. unfold item_lines. apply rbind_mono; [|auto].
  intros w. apply loop_mono; [|auto]. apply on_items_all. intros nd u. destruct (is_type_of nd [own]); apply try_mono; auto.
Qed.
Lemma ignore_conservative E n : forall lv v, to_md E n lv false = Ok v -> to_md E n lv true = Ok v.
Proof.
  induction n as [k ty ve tx a co ma IH] using node_ind2. intros lv v.
  assert (HD : forall c, on_items (fun c => (forall lv v, to_md E c lv false = Ok v -> to_md E c lv true = Ok v)
                /\ on_items (fun c => forall lv v, to_md E c lv false = Ok v -> to_md E c lv true = Ok v) (n_content c)) c ->
               on_items (fun c => forall lv v, to_md E c lv false = Ok v -> to_md E c lv true = Ok v) c).
  { intros c. destruct c; cbn; auto. intros H. eapply Forall_impl; [|exact H]. now intros c0 [H1 _]. }
  destruct k; cbn [to_md]; try (destruct lv; [exact (fun H => H)|]);
    try match goal with |- ?a = ?v -> ?a = ?v => exact (fun H => H) end;
    try solve [apply rbind_mono; [|exact (fun _ H => H)]; intros x; first [apply content_mono|apply doc_content_mono]];
    try solve [do 2 (apply rbind_mono; [exact (fun _ H => H)|intros ?x]); apply rbind_mono; [|exact (fun _ H => H)]; intros z;
               first [apply content_mono|apply doc_content_mono]].
  - (* bulletList *) apply rbind_mono; auto. intros x. apply list_items_mono.
  - apply rbind_mono; auto. intros x. apply rbind_mono; auto. intros y. apply list_items_mono.
  - (* taskList *) apply rbind_mono; auto. intros y. apply loop_mono; [|auto]. apply HD in IH. destruct co; cbn in *; auto.
    eapply Forall_impl; [|exact IH]. intros i Hi z. cbv beta. destruct (is_type_of i [s "taskItem"]).
    + apply rbind_mono; auto. intros w. apply rbind_mono; auto. intros u. apply loop_mono; auto.
      * apply on_items_all. intros b d. apply try_mono; auto.
      * discriminate.
    + destruct (is_type_of i [s "taskList"]); [|auto]. apply try_mono. apply Hi.
  - (* decisionList *) apply rbind_mono; auto. intros y. apply loop_mono; [|auto]. apply HD in IH. destruct co; cbn in *; auto.
    eapply Forall_impl; [|exact IH]. intros i Hi z. cbv beta. destruct (is_type_of i _); [|auto]. apply try_mono. apply Hi.
  - (* row *) apply rbind_mono; auto. intros y. apply loop_mono; [|auto]. apply HD in IH. destruct co; cbn in *; auto.
    eapply Forall_impl; [|exact IH]. intros i Hi z. cbv beta. apply rbind_mono; auto.
  - (* table *) apply rbind_mono; auto. intros y. apply loop_mono; [|discriminate]. apply on_items_all.
    intros i z. unfold table_row_lines. destruct (to_md E i None false); [|discriminate].
    destruct (header_width i); [auto|discriminate].
Qed.

(** ---------------------------------------------------------------- skipping *)
Definition okb {A} (r : res A) : bool := match r with Ok _ => true | Err _ => false end.
Lemma for_each_try {A B} (g : A -> res B) (p : A -> bool) l : Forall (fun a => p a = okb (g a)) l ->
  for_each (fun a => try_ true (g a)) l = for_each (fun a => try_ false (g a)) (filter p l).
Proof.
  induction 1 as [|a l H HF IH]; [reflexivity|]. cbn. fold (for_each (fun a => try_ true (g a))). rewrite H, IH.
  unfold try_ at 1. destruct (g a) as [b|e] eqn:G; cbn.
  - unfold try_ at 2. rewrite G. reflexivity.
  - fold (for_each (fun a => try_ false (g a))). now destruct (for_each _ (filter p l)).
Qed.
Lemma for_each_skip {A B} (l : list A) : for_each (fun _ => @Ok (list B) []) l = Ok [].
Proof. induction l as [|a l IH]; [reflexivity|]. cbn. fold (for_each (fun _ : A => @Ok (list B) [])). now rewrite IH. Qed.

Lemma content_skip E co : content_to_markdown (to_md E) co true = content_to_markdown (to_md E) (only_survivors E co) false.
Proof.
  destruct co as [| |l|v]; try reflexivity; unfold content_to_markdown, only_survivors, loop.
  - rewrite (for_each_try (fun n => to_md E n None false) (survives E None)); [reflexivity|].
    apply Forall_forall. intros n _. reflexivity.
  - destruct v; try reflexivity; unfold try_; rewrite for_each_skip; reflexivity.
Qed.
Lemma block_survives E n : n_type n = VStr (nk_name (n_kind n)) -> survives E None n = okb (block_md (to_md E) n).
Proof.
  intros HT. unfold survives, block_md. rewrite (is_type_of_name n (n_kind n)) by exact HT.
  destruct (existsb (str_eqb (nk_name (n_kind n))) padded) eqn:P; [|reflexivity].
  destruct (to_md E n None false) as [v|e] eqn:M; [|reflexivity].
  apply to_md_str in M as [x ->]; [reflexivity|]. intros HK. rewrite HK in P. vm_compute in P. discriminate.
Qed.
Lemma doc_content_skip E co : (forall l, co = Items l -> Forall consistent l) ->
  doc_content_to_markdown (to_md E) co true = doc_content_to_markdown (to_md E) (only_survivors E co) false.
Proof.
  intros HC. destruct co as [| |l|v]; try reflexivity; unfold doc_content_to_markdown, only_survivors, loop.
  - rewrite (for_each_try (fun n => block_md (to_md E) n) (survives E None)); [reflexivity|].
    specialize (HC l eq_refl). eapply Forall_impl; [|exact HC]. intros n Hn. apply block_survives. now apply consistent_type.
  - destruct v; try reflexivity; unfold try_; rewrite for_each_skip; reflexivity.
Qed.

Lemma type_is n t k : consistent n -> s t = nk_name k -> is_type_of n [s t] = if nk_eq_dec (n_kind n) k then true else false.
Proof.
  intros HC HT. rewrite (is_type_of_name n (n_kind n)) by (now apply consistent_type). cbn [existsb]. rewrite orb_false_r, HT.
  destruct (nk_eq_dec (n_kind n) k) as [->|HN]; [apply str_eqb_refl|]. apply str_eqb_neq. intros H. apply HN. now apply nk_name_inj.
Qed.
Lemma string_text_str n : string_texts n -> n_kind n = Ktext -> exists t, n_text n = Some (VStr t).
Proof. destruct 1 as [k ty ve tx a co ma _ H]. exact H. Qed.
Lemma string_texts_items n l : string_texts n -> n_content n = Items l -> Forall string_texts l.
Proof. destruct 1 as [k ty ve tx a co ma H _]. cbn. apply H. Qed.
Lemma full_rows_items n l : full_rows n -> n_content n = Items l -> Forall full_rows l.
Proof. destruct 1 as [k ty ve tx a co ma H _]. cbn. apply H. Qed.

Lemma for_each_flat_map {A B C} (f : A -> res (list C)) (g : B -> res (list C)) (h : A -> list B) l :
  Forall (fun a => f a = for_each g (h a)) l -> for_each f l = for_each g (flat_map h l).
Proof.
  induction 1 as [|a l H HF IH]; [reflexivity|]. cbn [flat_map].
  assert (HA : forall x y : list B, for_each g (x ++ y) = do u <- for_each g x; do v <- for_each g y; Ok (u ++ v)).
  { clear. induction x as [|b x IH]; intros y.
    - cbn. now destruct (for_each g y).
    - cbn. destruct (g b) as [u|]; [|reflexivity]. cbn. fold (for_each g). rewrite IH.
      destruct (for_each g x) as [v|]; [|reflexivity]. cbn. destruct (for_each g y) as [w|]; [|reflexivity]. cbn.
      now rewrite app_assoc. }
  rewrite HA. cbn. fold (for_each f). now rewrite H, IH.
Qed.
Lemma for_each_map {A B C} (f : A -> res (list C)) (g : B -> res (list C)) (h : A -> B) l :
  Forall (fun a => f a = g (h a)) l -> for_each f l = for_each g (map h l).
Proof. induction 1 as [|a l H HF IH]; [reflexivity|]. cbn. fold (for_each f) (for_each g). now rewrite H, IH. Qed.

Lemma with_content_fields n c : n_kind (with_content n c) = n_kind n /\ n_type (with_content n c) = n_type n /\
  n_attrs (with_content n c) = n_attrs n /\ n_content (with_content n c) = c.
Proof. now destruct n. Qed.
Lemma skip_fields E n lv : n_kind (skip E n lv) = n_kind n /\ n_type (skip E n lv) = n_type n /\ n_attrs (skip E n lv) = n_attrs n.
Proof. now destruct n. Qed.

Lemma list_skip E own k level l : s own = nk_name k ->
  Forall consistent l -> Forall string_texts l ->
  list_items (to_md E) (s own) (Items l) level true =
  list_items (to_md E) (s own)
    (Items (map (fun i => match n_kind i, n_content i with
                          | KlistItem, Items cs =>
                              with_content i (Items (filter (fun c => if nk_eq_dec (n_kind c) k
                                                                      then survives E (Some (S level)) c
                                                                      else survives E None c) cs))
                          | _, _ => i
                          end) l)) level false.
Proof.
  intros HO HC HS. unfold list_items, loop. apply for_each_map. rewrite Forall_forall in *. intros i Hi.
  specialize (HC i Hi). specialize (HS i Hi).
  rewrite (type_is i "listItem" KlistItem HC eq_refl).
  destruct (n_kind i) eqn:KI; cbn [nk_eq_dec]; try (destruct (nk_eq_dec _ _); [congruence|]);
    try solve [rewrite (type_is i "listItem" KlistItem HC eq_refl), KI; reflexivity].
  destruct (nk_eq_dec KlistItem KlistItem) as [_|]; [|congruence].
  destruct (n_content i) as [| |cs|v] eqn:CI.
  - rewrite (type_is i "listItem" KlistItem HC eq_refl), KI. cbn. unfold item_lines. now rewrite CI.
  - rewrite (type_is i "listItem" KlistItem HC eq_refl), KI. cbn. unfold item_lines. now rewrite CI.
  - destruct (with_content_fields i (Items (filter (fun c => if nk_eq_dec (n_kind c) k then survives E (Some (S level)) c
                                                             else survives E None c) cs))) as (K1 & K2 & _ & K4).
    rewrite (is_type_of_type _ (with_content i _) [s "listItem"] K2), (type_is i "listItem" KlistItem HC eq_refl), KI.
    cbn [nk_eq_dec]. destruct (nk_eq_dec KlistItem KlistItem) as [_|]; [|congruence].
    unfold item_lines. rewrite K4, CI. f_equal. f_equal.
    pose proof (consistent_items _ _ HC CI) as HCC. pose proof (string_texts_items _ _ HS CI) as HSC.
    assert (EX : forall ign (ll : list node), (forall c, In c ll -> In c cs) ->
               for_each (fun nd => if is_type_of nd [s own] then try_ ign (to_md E nd (Some (S level)) false)
                                   else try_ ign (do v <- to_md E nd None false; rstrip_value v)) ll =
               for_each (fun nd => try_ ign (if nk_eq_dec (n_kind nd) k then to_md E nd (Some (S level)) false
                                   else do v <- to_md E nd None false; rstrip_value v)) ll).
    { intros ign ll HI. apply for_each_ext2. assert (HF : Forall (fun c => In c cs) ll) by (apply Forall_forall; auto).
      clear HI. induction HF as [|c ll Hc HF IH]; constructor; auto.
      rewrite Forall_forall in HCC. rewrite (type_is c own k (HCC c Hc) HO). destruct (nk_eq_dec (n_kind c) k); reflexivity. }
    unfold loop. rewrite (EX true cs) by auto. rewrite (EX false).
    + apply for_each_try. rewrite Forall_forall in *. intros c Hc. specialize (HCC c Hc). specialize (HSC c Hc).
      destruct (nk_eq_dec (n_kind c) k); [reflexivity|]. unfold survives.
      destruct (to_md E c None false) as [v|] eqn:M; [|reflexivity].
      apply to_md_str in M as [x ->]; [reflexivity|]. now apply string_text_str.
    + intros c Hc. now apply filter_In in Hc.
  - rewrite (type_is i "listItem" KlistItem HC eq_refl), KI. cbn. unfold item_lines. now rewrite CI.
Qed.

Theorem skip_correct E n : consistent n -> string_texts n -> full_rows n ->
  forall lv, to_md E n lv true = to_md E (skip E n lv) lv false.
Proof.
  induction n as [k ty ve tx a co ma IH] using node_ind2. intros HC HS HF lv.
  assert (HCC : forall l, co = Items l -> Forall consistent l) by (intros l ->; now apply (consistent_items _ l HC)).
  assert (HSC : forall l, co = Items l -> Forall string_texts l) by (intros l ->; now apply (string_texts_items _ l HS)).
  assert (HFC : forall l, co = Items l -> Forall full_rows l) by (intros l ->; now apply (full_rows_items _ l HF)).
  assert (HQ : forall l, co = Items l -> Forall (fun c => forall lv, to_md E c lv true = to_md E (skip E c lv) lv false) l).
  { intros l ->. cbn in IH. specialize (HCC l eq_refl). specialize (HSC l eq_refl). specialize (HFC l eq_refl).
    rewrite Forall_forall in *. intros c Hc. apply IH; auto. }
  clear IH.
  destruct k; cbn [skip plain_container to_md]; try (destruct lv; [reflexivity|]); try reflexivity;
    try (rewrite content_skip; reflexivity); try (rewrite doc_content_skip by auto; reflexivity).
  all: try (unfold decision_item_md, table_cell_md; rewrite content_skip; reflexivity).
  all: destruct co as [| |l|v]; try reflexivity.
  - (* bulletList *) unfold bullet_list_md. rewrite (list_skip E "bulletList" KbulletList) by auto. reflexivity.
  - unfold ordered_list_md. rewrite (list_skip E "orderedList" KorderedList) by auto. reflexivity.
  - (* taskList *) unfold task_list_md, loop. f_equal. apply for_each_flat_map.
    specialize (HCC l eq_refl). specialize (HQ l eq_refl). rewrite Forall_forall in *. intros i Hi.
    specialize (HCC i Hi). specialize (HQ i Hi).
    rewrite (type_is i "taskItem" KtaskItem HCC eq_refl), (type_is i "taskList" KtaskList HCC eq_refl).
    destruct (n_kind i) eqn:KI; cbn [nk_eq_dec];
      try solve [cbn [for_each];
                 rewrite (type_is i "taskItem" KtaskItem HCC eq_refl), (type_is i "taskList" KtaskList HCC eq_refl), KI;
                 reflexivity].
    + (* taskItem *) destruct (nk_eq_dec KtaskItem KtaskItem) as [_|]; [|congruence]. cbn [for_each].
      destruct (with_content_fields i (only_survivors E (n_content i))) as (K1 & K2 & K3 & K4).
      rewrite !(is_type_of_type i (with_content i _) _ K2).
      rewrite (type_is i "taskItem" KtaskItem HCC eq_refl), KI.
      destruct (nk_eq_dec KtaskItem KtaskItem) as [_|]; [|congruence].
      assert (EQ : task_item_line (to_md E) match lv with Some l => l | None => 0 end true i =
                   task_item_line (to_md E) match lv with Some l => l | None => 0 end false
                     (with_content i (only_survivors E (n_content i)))).
      { unfold task_item_line. rewrite K3, K4. f_equal. destruct (n_content i) as [| |cs|w]; try reflexivity.
        - unfold loop, only_survivors. apply (for_each_try (fun n => to_md E n None false)). apply Forall_forall. reflexivity.
        - destruct w; try reflexivity; unfold loop, only_survivors, try_; rewrite for_each_skip; reflexivity. }
      rewrite EQ. match goal with |- context [task_item_line ?p ?q ?r ?x] => destruct (task_item_line p q r x) end; reflexivity.
    + (* nested taskList *) destruct (nk_eq_dec KtaskList KtaskItem) as [|_]; [congruence|].
      destruct (nk_eq_dec KtaskList KtaskList) as [_|]; [|congruence]. rewrite HQ.
      set (i' := skip E i _). unfold survives. destruct (to_md E i' _ false) as [x|e] eqn:M; [|reflexivity].
      cbn [for_each]. destruct (skip_fields E i (Some (S match lv with Some l => l | None => 0 end))) as (K1 & K2 & _).
      rewrite !(is_type_of_type i (skip E i _) _ K2).
      rewrite (type_is i "taskItem" KtaskItem HCC eq_refl), (type_is i "taskList" KtaskList HCC eq_refl), KI.
      destruct (nk_eq_dec KtaskList KtaskItem) as [|_]; [congruence|].
      destruct (nk_eq_dec KtaskList KtaskList) as [_|]; [|congruence]. fold i'. rewrite M. reflexivity.
  - (* decisionList *) unfold decision_list_md, loop. f_equal. apply for_each_flat_map.
    specialize (HCC l eq_refl). specialize (HQ l eq_refl). rewrite Forall_forall in *. intros i Hi.
    specialize (HCC i Hi). specialize (HQ i Hi). rewrite (type_is i "decisionItem" KdecisionItem HCC eq_refl).
    destruct (n_kind i) eqn:KI; cbn [nk_eq_dec];
      try solve [cbn [for_each]; rewrite (type_is i "decisionItem" KdecisionItem HCC eq_refl), KI; reflexivity].
    destruct (nk_eq_dec KdecisionItem KdecisionItem) as [_|]; [|congruence]. rewrite HQ.
    set (i' := skip E i _). unfold survives. destruct (to_md E i' _ false) as [x|e] eqn:M; [|reflexivity].
    cbn [for_each]. destruct (skip_fields E i None) as (K1 & K2 & _). rewrite !(is_type_of_type i (skip E i _) _ K2).
    rewrite (type_is i "decisionItem" KdecisionItem HCC eq_refl), KI.
    destruct (nk_eq_dec KdecisionItem KdecisionItem) as [_|]; [|congruence]. fold i'.
    (* the strict call gets the flag false *) rewrite M. reflexivity.
  - (* row *) unfold table_row_md, loop. f_equal. apply for_each_map. eapply Forall_impl; [|exact (HQ l eq_refl)].
    intros c Hc. cbv beta in *. now rewrite Hc.
  - (* table *) unfold table_md, loop. f_equal. inversion HF as [? ? ? ? ? ? ? _ HR]; subst. specialize (HR l eq_refl eq_refl).
    clear -HR. induction HR as [|r l (c & cs & HR) _ IH]; [reflexivity|]. cbn. fold (for_each (table_row_lines (to_md E) true)).
    rewrite IH. unfold table_row_lines at 1, survives at 2, header_width at 1. rewrite HR.
    destruct (to_md E r None false) as [x|] eqn:M.
    + cbn. fold (for_each (table_row_lines (to_md E) false)). unfold table_row_lines at 2, header_width at 1. rewrite M, HR.
      reflexivity.
    + cbn. match goal with |- context [for_each ?f ?l] => destruct (for_each f l) end; reflexivity.
  - destruct v; try reflexivity; unfold table_md, loop, try_; rewrite for_each_skip; reflexivity.
Qed.
