(** The recorded rendering gives the same results, and records what [shown] says. *)
From Coq Require Import List NArith ZArith Bool String Lia.
From Verif Require Import PyStr Values Schema Parse Date Markdown Basics SpecParse ParseFacts4 ParseFacts5 MdFacts MdFacts2 Calls SpecCalls.
Import ListNotations.
Open Scope string_scope.
Open Scope list_scope.
Open Scope nat_scope.

(** ================================================================ same results *)
Lemma snd_bind {A B} (m : T A) (f : A -> T B) : snd (tbind m f) = rbind (snd m) (fun a => snd (f a)).
Proof. unfold tbind. now destruct (snd m). Qed.
Lemma snd_for_each {A B} (f : A -> T (list B)) l : snd (tfor_each f l) = for_each (fun a => snd (f a)) l.
Proof. induction l as [|a l IH]; [reflexivity|]. cbn. fold (tfor_each f). rewrite snd_bind. destruct (snd (f a)); [|reflexivity]. cbn [rbind]. now rewrite snd_bind, IH. Qed.
Lemma snd_loop {B} c (f : node -> T (list B)) raw : snd (tloop c f raw) = loop c (fun a => snd (f a)) raw.
Proof. destruct c as [| |l|[]]; try reflexivity. apply snd_for_each. Qed.
Lemma rbind_ext {A B} (r : res A) (f g : A -> res B) : (forall a, f a = g a) -> rbind r f = rbind r g.
Proof. intros H. destruct r; [apply H|reflexivity]. Qed.
Lemma loop_same {B} c (f g : node -> res (list B)) raw : (forall l, c = Items l -> Forall (fun n => f n = g n) l) -> loop c f raw = loop c g raw.
Proof.
  intros H. destruct c as [| |l|v]; try reflexivity. specialize (H l eq_refl). cbn [loop].
  induction H as [|a l HA HL IH]; [reflexivity|]. cbn. rewrite HA. fold (for_each f) (for_each g). now rewrite IH.
Qed.
Section Same.
  Variable E : runtime.
  Definition agree (n : node) : Prop := forall lv ign, snd (to_mdt E n lv ign) = to_md E n lv ign.
  Lemma same_content c ign : on_items agree c -> snd (tcontent (to_mdt E) c ign) = content_to_markdown (to_md E) c ign.
  Proof.
    intros H. unfold tcontent, content_to_markdown. destruct c as [| |l|v]; try reflexivity.
    - rewrite snd_bind, snd_loop. erewrite loop_same; [reflexivity|]. intros l' [= <-]. cbn in H. eapply Forall_impl; [|exact H].
      intros n Hn. cbn. now rewrite Hn.
    - now rewrite snd_bind, snd_loop.
  Qed.
  Lemma same_block n : agree n -> snd (tblock (to_mdt E) n) = block_md (to_md E) n.
  Proof. intros H. unfold tblock, block_md. destruct (is_type_of n padded); [rewrite snd_bind|]; now rewrite H. Qed.
  Lemma same_doc c ign : on_items agree c -> snd (tdoc (to_mdt E) c ign) = doc_content_to_markdown (to_md E) c ign.
  Proof.
    intros H. unfold tdoc, doc_content_to_markdown. destruct c as [| |l|v]; try reflexivity.
    - rewrite snd_bind, snd_loop. erewrite loop_same; [reflexivity|]. intros l' [= <-]. cbn in H. eapply Forall_impl; [|exact H].
      intros n Hn. cbn. now rewrite same_block.
    - now rewrite snd_bind, snd_loop.
  Qed.
  Lemma same_item own level ign i : on_items agree (n_content i) -> snd (titem_lines (to_mdt E) own level ign i) = item_lines (to_md E) own level ign i.
  Proof.
    intros H. unfold titem_lines, item_lines. rewrite snd_bind, snd_loop. erewrite loop_same; [reflexivity|]. intros l Hl. rewrite Hl in H. cbn in H.
    eapply Forall_impl; [|exact H]. intros n Hn. cbn beta. destruct (is_type_of n [own]); cbn [ttry snd]; [now rewrite Hn|]. now rewrite snd_bind, Hn.
  Qed.
  Lemma same_items own c level ign : on_items (fun i => on_items agree (n_content i)) c ->
    snd (tlist_items (to_mdt E) own c level ign) = list_items (to_md E) own c level ign.
  Proof.
    intros H. unfold tlist_items, list_items. rewrite snd_loop. apply loop_same. intros l ->. cbn in H.
    eapply Forall_impl; [|exact H]. intros n Hn. cbn beta. destruct (is_type_of n _); [|reflexivity]. now rewrite snd_bind, same_item.
  Qed.
  Lemma same_task level ign i : on_items agree (n_content i) -> snd (ttask_item (to_mdt E) level ign i) = task_item_line (to_md E) level ign i.
  Proof.
    intros H. unfold ttask_item, task_item_line. rewrite snd_bind, snd_loop. erewrite loop_same; [reflexivity|]. intros l Hl. rewrite Hl in H. cbn in H.
    eapply Forall_impl; [|exact H]. intros n Hn. cbn. now rewrite Hn.
  Qed.
  Theorem same_results n : agree n.
  Proof.
    induction n as [k ty ve tx a co ma IH] using node_ind2.
    assert (H1 : on_items agree co) by (destruct co; cbn in *; auto; eapply Forall_impl; [|exact IH]; now intros c [? _]).
    assert (H2 : on_items (fun i => on_items agree (n_content i)) co) by (destruct co; cbn in *; auto; eapply Forall_impl; [|exact IH]; now intros c [_ ?]).
    intros lv ign. pose proof (same_content co ign H1) as HC. pose proof (same_doc co ign H1) as HD.
    destruct k; cbn [to_mdt to_md snd]; try (destruct lv; [reflexivity|]); try reflexivity.
    all: try (unfold tdecision_item, decision_item_md, ttable_cell, table_cell_md; rewrite snd_bind, ?HC, ?HD; reflexivity).
    all: try (unfold tbullet, bullet_list_md; rewrite snd_bind, same_items by exact H2; reflexivity).
    all: try (unfold tordered, ordered_list_md; rewrite snd_bind; apply rbind_ext; intros st; rewrite snd_bind, same_items by exact H2; reflexivity).
    all: rewrite ?snd_bind.
    1: { unfold ttask_list, task_list_md. rewrite snd_bind, snd_loop. erewrite loop_same; [reflexivity|]. intros l ->. cbn in IH.
      eapply Forall_impl; [|exact IH]. intros n [Hn1 Hn2]. cbn beta. destruct (is_type_of n [s "taskItem"]); [now rewrite snd_bind, same_task|].
      destruct (is_type_of n _); [|reflexivity]. cbn [ttry snd]. now rewrite Hn1. }
    - unfold tdecision_list, decision_list_md. rewrite snd_bind, snd_loop. erewrite loop_same; [reflexivity|]. intros l ->. cbn in H1.
      eapply Forall_impl; [|exact H1]. intros n Hn. cbn beta. destruct (is_type_of n _); [|reflexivity]. cbn [ttry snd]. now rewrite Hn.
    - cbn [tlift snd]. destruct (attr a (s "level")) as [l|e]; [|reflexivity]. cbn [rbind]. destruct (times l (s "#")); [|reflexivity]. cbn [rbind].
      now rewrite snd_bind, HC.
    - cbn [tlift snd]. destruct (attr a (s "panelType")) as [l|e]; [|reflexivity]. cbn [rbind]. destruct l; try reflexivity. cbn [rbind].
      now rewrite snd_bind, HD.
    - unfold ttable_row, table_row_md. rewrite snd_bind, snd_loop. erewrite loop_same; [reflexivity|]. intros l ->. cbn in H1.
      eapply Forall_impl; [|exact H1]. intros n Hn. cbn beta. now rewrite snd_bind, Hn.
    - unfold ttable, table_md. rewrite snd_bind, snd_loop. erewrite loop_same; [reflexivity|]. intros l ->. cbn in H1.
      eapply Forall_impl; [|exact H1]. intros n Hn. unfold trow_lines, table_row_lines. cbn [snd]. now rewrite Hn.
  Qed.
End Same.

(** ================================================================ what is recorded *)
Lemma sublist_refl {A} (l : list A) : sublist l l.
Proof. induction l; constructor; auto. Qed.
Lemma sublist_nil {A} (l : list A) : sublist [] l.
Proof. induction l; constructor; auto. Qed.
Lemma sublist_app {A} (a b c d : list A) : sublist a b -> sublist c d -> sublist (a ++ c) (b ++ d).
Proof. intros H HC. induction H; cbn; [exact HC|constructor; auto|constructor; auto]. Qed.
Lemma sublist_more {A} (a b c : list A) : sublist a b -> sublist a (b ++ c).
Proof. intros H. rewrite <- (app_nil_r a). apply sublist_app; [exact H|apply sublist_nil]. Qed.
Lemma sublist_map {A B} (f : A -> B) a b : sublist a b -> sublist (map f a) (map f b).
Proof. induction 1; cbn; constructor; auto. Qed.
(** [m] records part of [L]; if [ex] holds, an initial part, and all of it if it succeeds. *)
Definition rec {A} (ex : Prop) (m : T A) (L : list call) : Prop :=
  sublist (fst m) L /\ (ex -> exists r, L = fst m ++ r /\ ((exists v, snd m = Ok v) -> r = [])).
Lemma rec_lift {A} ex (r : res A) : rec ex (tlift r) [].
Proof. split; [constructor|]. intros _. now exists []. Qed.
Lemma rec_bind {A B} ex (m : T A) (f : A -> T B) L1 L2 : rec ex m L1 -> (forall a, rec ex (f a) L2) -> rec ex (tbind m f) (L1 ++ L2).
Proof.
  intros [H1 H2] HF. unfold tbind, rec. destruct (snd m) as [a|e] eqn:S; cbn [fst snd].
  - destruct (HF a) as [F1 F2]. split; [now apply sublist_app|]. intros X. destruct (H2 X) as (r & -> & HR). rewrite (HR (ex_intro _ a eq_refl)), app_nil_r.
    destruct (F2 X) as (r' & -> & HR'). exists r'. now rewrite app_assoc.
  - split; [now apply sublist_more|]. intros X. destruct (H2 X) as (r & -> & _). exists (r ++ L2). split; [now rewrite app_assoc|]. now intros [v HV].
Qed.
Lemma rec_then {A B} ex (m : T A) (f : A -> T B) L : rec ex m L -> (forall a, rec ex (f a) []) -> rec ex (tbind m f) L.
Proof. intros H1 H2. rewrite <- (app_nil_r L). now apply rec_bind. Qed.
Lemma rec_ok {A B} ign (m : T A) (r : res B) L : rec (ign = false) m L -> (ign = false -> forall e, snd m = Err e -> r = Err e) -> rec (ign = false) (fst m, r) L.
Proof.
  intros [H1 H2] HE. split; [exact H1|]. intros X. destruct (H2 X) as (q & HL & HQ). exists q. split; [exact HL|]. cbn [snd]. intros [v HV]. apply HQ.
  destruct (snd m) as [x|e]; [eauto|]. specialize (HE X e eq_refl). congruence.
Qed.
Lemma rec_try' {A} ign (m : T A) L : rec (ign = false) m L -> rec (ign = false) (ttry ign m) L.
Proof. intros H. apply rec_ok; [exact H|]. intros -> e HE. now rewrite HE. Qed.
Lemma rec_try {A} ign (m : T A) L : rec True m L -> rec (ign = false) (ttry ign m) L.
Proof. intros [H1 H2]. apply rec_try'. split; [exact H1|]. intros _. now apply H2. Qed.
Lemma rec_for_each {A B} ex (f : A -> T (list B)) g l : Forall (fun a => rec ex (f a) (g a)) l -> rec ex (tfor_each f l) (flat_map g l).
Proof.
  induction 1 as [|a l HA HL IH]; [apply rec_lift|]. cbn. fold (tfor_each f). apply rec_bind; [exact HA|]. intros x. apply rec_then; [exact IH|].
  intros y. apply rec_lift.
Qed.
Definition listed {A} (g : node -> list A) (c : slot node) : list A := match c with Items l => flat_map g l | _ => [] end.
Lemma rec_loop {B} ex (f : node -> T (list B)) raw g c : (forall l, c = Items l -> Forall (fun a => rec ex (f a) (g a)) l) -> rec ex (tloop c f raw) (listed g c).
Proof. intros H. destruct c as [| |l|v]; try apply rec_lift. apply rec_for_each. now apply H. Qed.
Lemma rec_weaken {A} (ex ex' : Prop) (m : T A) L : (ex' -> ex) -> rec ex m L -> rec ex' m L.
Proof. intros H [H1 H2]. split; [exact H1|]. intros X. exact (H2 (H X)). Qed.

(** Depths. *)
Lemma deeper_app a b : deeper (a ++ b) = deeper a ++ deeper b.
Proof. apply map_app. Qed.
Lemma deeper_flat {A} (f : A -> list call) l : deeper (flat_map f l) = flat_map (fun a => deeper (f a)) l.
Proof. induction l as [|a l IH]; [reflexivity|]. cbn [flat_map]. now rewrite deeper_app, IH. Qed.
Lemma flat_map_same {A B} (f g : A -> list B) l : Forall (fun a => f a = g a) l -> flat_map f l = flat_map g l.
Proof. induction 1 as [|a l HA HL IH]; [reflexivity|]. cbn. now rewrite HA, IH. Qed.
Lemma shown_deeper n : forall d, deeper (shown d n) = shown (S d) n.
Proof.
  induction n as [k ty ve tx a co ma IH] using node_ind2. intros d.
  assert (HF : forall l, co = Items l -> Forall (fun c => deeper (shown (S d) c) = shown (S (S d)) c) l).
  { intros l ->. cbn in IH. eapply Forall_impl; [|exact IH]. now intros c [H _]. }
  assert (HG : forall l, co = Items l -> Forall (fun c => forall k' ty' ve' tx' a' ma' bs, c = Node k' ty' ve' tx' a' (Items bs) ma' ->
                deeper (flat_map (shown (S d)) bs) = flat_map (shown (S (S d))) bs) l).
  { intros l ->. cbn in IH. eapply Forall_impl; [|exact IH]. intros c [_ H] k' ty' ve' tx' a' ma' bs ->. cbn in H. rewrite deeper_flat.
    apply flat_map_same. eapply Forall_impl; [|exact H]. intros x Hx. apply Hx. }
  destruct co as [| |l|v]; try (cbn; destruct k; reflexivity).
  specialize (HF l eq_refl). specialize (HG l eq_refl).
  assert (HA : forall l, Forall (fun c => deeper (shown (S d) c) = shown (S (S d)) c) l -> deeper (flat_map (shown (S d)) l) = flat_map (shown (S (S d))) l).
  { intros l' H. rewrite deeper_flat. now apply flat_map_same. }
  assert (HB : Forall (fun c => deeper (shown (S d) c) = shown (S (S d)) c /\ forall k' ty' ve' tx' a' ma' bs, c = Node k' ty' ve' tx' a' (Items bs) ma' ->
                deeper (flat_map (shown (S d)) bs) = flat_map (shown (S (S d))) bs) l).
  { rewrite Forall_forall in *. intros c Hc. split; [exact (HF c Hc)|exact (HG c Hc)]. }
  destruct k; cbn [shown shows_no_content]; cbn [deeper map fst snd]; f_equal; try reflexivity; fold (deeper); try (now apply HA).
  all: unfold deeper; fold (deeper).
  all: match goal with |- map _ ?x = _ => change (map (fun c : nat * node => (S (fst c), snd c)) x) with (deeper x) end.
  all: rewrite deeper_flat; apply flat_map_same; eapply Forall_impl; [|exact HB]; intros c [H1 H2]; destruct c as [k' ty' ve' tx' a' co' ma'].
  all: destruct k'; try reflexivity; try exact H1; destruct co' as [| |bs|]; try reflexivity; exact (H2 _ _ _ _ _ _ _ eq_refl).
Qed.

Lemma rec_call {A} ex (m : T A) d n L B : rec ex m L -> deeper L = B -> rec ex ((d, n) :: deeper (fst m), snd m) ((d, n) :: B).
Proof.
  intros [H1 H2] <-. split; cbn [fst snd]; [constructor; now apply sublist_map|]. intros X. destruct (H2 X) as (r & HL & HR). exists (deeper r).
  split; [now rewrite HL, deeper_app|]. intros HV. now rewrite (HR HV).
Qed.
Lemma rec_fail {A} ex d n (B : list call) e : rec ex (((d, n) :: deeper (fst (@tlift A (Err e))), snd (@tlift A (Err e)))) ((d, n) :: B).
Proof. split; cbn; [constructor; apply sublist_nil|]. intros _. exists B. split; [reflexivity|]. now intros [v HV]. Qed.
Lemma listed_deeper c : deeper (listed (shown 0) c) = listed (shown 1) c.
Proof.
  destruct c as [| |l|]; try reflexivity. cbn [listed]. rewrite deeper_flat. apply flat_map_same. rewrite Forall_forall. intros n _. apply shown_deeper.
Qed.
Section Recorded.
  Variable E : runtime.
  Definition recorded (n : node) : Prop := forall lv ign, rec (ign = false) (to_mdt E n lv ign) (shown 0 n).
  Lemma recorded_false n lv : recorded n -> rec True (to_mdt E n lv false) (shown 0 n).
  Proof. intros H. eapply rec_weaken; [|apply H]. reflexivity. Qed.
  Lemma rec_content c ign : on_items recorded c -> rec (ign = false) (tcontent (to_mdt E) c ign) (listed (shown 0) c).
  Proof.
    intros H. unfold tcontent. destruct c as [| |l|v]; try apply rec_lift.
    all: apply rec_then; [|intros; apply rec_lift]; apply rec_loop; intros l' Hl; try discriminate. injection Hl as <-. cbn in H.
    eapply Forall_impl; [|exact H]. intros n Hn. apply rec_try. now apply recorded_false.
  Qed.
  Lemma rec_block n : recorded n -> rec True (tblock (to_mdt E) n) (shown 0 n).
  Proof.
    intros H. unfold tblock. destruct (is_type_of n padded); [apply rec_then; [|intros; apply rec_lift]|]; now apply recorded_false.
  Qed.
  Lemma rec_doc c ign : on_items recorded c -> rec (ign = false) (tdoc (to_mdt E) c ign) (listed (shown 0) c).
  Proof.
    intros H. unfold tdoc. destruct c as [| |l|v]; try apply rec_lift.
    all: apply rec_then; [|intros; apply rec_lift]; apply rec_loop; intros l' Hl; try discriminate. injection Hl as <-. cbn in H.
    eapply Forall_impl; [|exact H]. intros n Hn. apply rec_try. now apply rec_block.
  Qed.
  Lemma rec_item own level ign i : on_items recorded (n_content i) -> rec (ign = false) (titem_lines (to_mdt E) own level ign i) (listed (shown 0) (n_content i)).
  Proof.
    intros H. unfold titem_lines. apply rec_then; [|intros; apply rec_lift]. apply rec_loop. intros l Hl. rewrite Hl in H. cbn in H.
    eapply Forall_impl; [|exact H]. intros n Hn. cbn beta. destruct (is_type_of n [own]); apply rec_try; [now apply recorded_false|].
    apply rec_then; [now apply recorded_false|intros; apply rec_lift].
  Qed.
  Lemma rec_task level ign i : on_items recorded (n_content i) -> rec (ign = false) (ttask_item (to_mdt E) level ign i) (listed (shown 0) (n_content i)).
  Proof.
    intros H. unfold ttask_item. apply rec_then; [|intros; apply rec_lift]. apply rec_loop. intros l Hl. rewrite Hl in H. cbn in H.
    eapply Forall_impl; [|exact H]. intros n Hn. apply rec_try. now apply recorded_false.
  Qed.
  Definition of_items (d : nat) (item : node) : list call :=
    match item with Node KlistItem _ _ _ _ (Items bs) _ => flat_map (shown d) bs | _ => [] end.
  Definition of_tasks (d : nat) (item : node) : list call :=
    match item with
    | Node KtaskItem _ _ _ _ (Items bs) _ => flat_map (shown d) bs
    | Node KtaskList _ _ _ _ _ _ => shown d item
    | _ => []
    end.
  Definition of_decisions (d : nat) (item : node) : list call := match item with Node KdecisionItem _ _ _ _ _ _ => shown d item | _ => [] end.
  Lemma deeper_of (g : nat -> node -> list call) c : (forall n, deeper (g 0 n) = g 1 n) -> deeper (listed (g 0) c) = listed (g 1) c.
  Proof. intros H. destruct c as [| |l|]; try reflexivity. cbn [listed]. rewrite deeper_flat. apply flat_map_same. rewrite Forall_forall. intros n _. apply H. Qed.
  Lemma flat_deeper bs : deeper (flat_map (shown 0) bs) = flat_map (shown 1) bs.
  Proof. exact (listed_deeper (Items bs)). Qed.
  Lemma of_items_deeper n : deeper (of_items 0 n) = of_items 1 n.
  Proof. destruct n as [k ty ve tx a co ma]. destruct k; try reflexivity. destruct co; try reflexivity. apply flat_deeper. Qed.
  Lemma of_tasks_deeper n : deeper (of_tasks 0 n) = of_tasks 1 n.
  Proof. destruct n as [k ty ve tx a co ma]. destruct k; try reflexivity; try apply shown_deeper. destruct co; try reflexivity. apply flat_deeper. Qed.
  Lemma of_decisions_deeper n : deeper (of_decisions 0 n) = of_decisions 1 n.
  Proof. destruct n as [k ty ve tx a co ma]. destruct k; try reflexivity. apply shown_deeper. Qed.
  Lemma not_kind n k : consistent n -> is_type_of n [nk_name k] = false -> n_kind n <> k.
  Proof. intros HC HT HK. apply (is_type_of_kind n k HC) in HK. congruence. Qed.
  Lemma rec_items own c level ign : on_items consistent c -> on_items (fun i => on_items recorded (n_content i)) c ->
    rec (ign = false) (tlist_items (to_mdt E) own c level ign) (listed (of_items 0) c).
  Proof.
    intros HC H. unfold tlist_items. apply rec_loop. intros l ->. cbn in H, HC. rewrite Forall_forall in *. intros n Hn. specialize (H n Hn). specialize (HC n Hn).
    cbn beta. destruct (is_type_of n [s "listItem"]) eqn:TY.
    - apply (is_type_of_kind n KlistItem HC) in TY. replace (of_items 0 n) with (listed (shown 0) (n_content n)).
      + apply rec_then; [now apply rec_item|intros; apply rec_lift].
      + destruct n as [k ty ve tx a co ma]. cbn in TY. subst k. now destruct co.
    - apply (not_kind n KlistItem HC) in TY. replace (of_items 0 n) with (@nil call); [apply rec_lift|]. destruct n as [k ty ve tx a co ma]. cbn in TY.
      destruct k; try reflexivity. congruence.
  Qed.
  Theorem all_recorded n : consistent n -> recorded n.
  Proof.
    induction n as [k ty ve tx a co ma IH] using node_ind2. intros HN.
    assert (HC : on_items consistent co) by (destruct co; cbn; auto; exact (consistent_items _ _ HN eq_refl)).
    assert (H1 : on_items recorded co).
    { destruct co as [| |l|]; cbn in *; auto. rewrite Forall_forall in *. intros c Hc. apply (IH c Hc). now apply HC. }
    assert (H2 : on_items (fun i => on_items recorded (n_content i)) co).
    { destruct co as [| |l|]; cbn in *; auto. rewrite Forall_forall in *. intros c Hc. destruct (IH c Hc) as [_ H]. specialize (HC c Hc).
      destruct (n_content c) as [| |bs|] eqn:C; cbn in *; auto. pose proof (consistent_items c bs HC C) as HB. rewrite Forall_forall in *. auto. }
    intros lv ign. pose proof (rec_content co ign H1) as RC. pose proof (rec_doc co ign H1) as RD.
    assert (DL : deeper (listed (shown 0) co) = listed (shown 1) co) by apply listed_deeper.
    destruct k; cbn [to_mdt].
    all: try (destruct lv as [l|]; [exact (rec_fail _ 0 _ _ TypeError)|]).

    all: try match goal with |- rec _ (_ :: deeper (fst (tbind (tdoc _ _ _) _)), _) _ =>
           refine (rec_call _ _ 0 _ (listed (shown 0) co) _ _ DL); apply rec_then; [exact RD|intros; apply rec_lift] end.
    all: try match goal with |- rec _ (_ :: deeper (fst (tbind (tcontent _ _ _) _)), _) _ =>
           refine (rec_call _ _ 0 _ (listed (shown 0) co) _ _ DL); apply rec_then; [exact RC|intros; apply rec_lift] end.
    all: try match goal with |- rec _ (_ :: deeper (fst (tlift _)), _) _ =>
           refine (rec_call _ _ 0 _ [] _ (rec_lift _ _) _); cbn [shown shows_no_content]; now destruct co end.
    all: try match goal with |- rec _ (_ :: deeper (fst (ttable_cell _ _ _)), _) _ =>
           refine (rec_call _ _ 0 _ (listed (shown 0) co) _ _ DL); apply rec_then; [exact RC|intros; apply rec_lift] end.
    all: try match goal with |- rec _ (_ :: deeper (fst (tdecision_item _ _ _)), _) _ =>
           refine (rec_call _ _ 0 _ (listed (shown 0) co) _ _ DL); apply rec_then; [exact RC|intros; apply rec_lift] end.
    - refine (rec_call _ _ 0 _ (listed (of_items 0) co) _ _ (deeper_of of_items co of_items_deeper)).
      apply rec_then; [now apply rec_items|intros; apply rec_lift].
    - refine (rec_call _ _ 0 _ (listed (of_items 0) co) _ _ (deeper_of of_items co of_items_deeper)).
      change (listed (of_items 0) co) with ([] ++ listed (of_items 0) co). apply rec_bind; [apply rec_lift|]. intros st.
      apply rec_then; [now apply rec_items|intros; apply rec_lift].
    - refine (rec_call _ _ 0 _ (listed (of_tasks 0) co) _ _ (deeper_of of_tasks co of_tasks_deeper)).
      apply rec_then; [|intros; apply rec_lift]. apply rec_loop. intros l ->. cbn in HC, H1, H2. rewrite Forall_forall in *. intros n Hn.
      specialize (HC n Hn). specialize (H1 n Hn). specialize (H2 n Hn). cbn beta. destruct (is_type_of n [s "taskItem"]) eqn:T1.
      + apply (is_type_of_kind n KtaskItem HC) in T1. replace (of_tasks 0 n) with (listed (shown 0) (n_content n)).
        * apply rec_then; [now apply rec_task|intros; apply rec_lift].
        * destruct n as [k' ty' ve' tx' a' co' ma']. cbn in T1. subst k'. now destruct co'.
      + apply (not_kind n KtaskItem HC) in T1. destruct (is_type_of n [s "taskList"]) eqn:T2.
        * apply (is_type_of_kind n KtaskList HC) in T2. replace (of_tasks 0 n) with (shown 0 n).
          -- apply rec_try', H1.
          -- destruct n as [k' ty' ve' tx' a' co' ma']. cbn in T2. now subst k'.
        * apply (not_kind n KtaskList HC) in T2. replace (of_tasks 0 n) with (@nil call); [apply rec_lift|]. destruct n as [k' ty' ve' tx' a' co' ma']. cbn in T1, T2.
          destruct k'; try reflexivity; congruence.
    - refine (rec_call _ _ 0 _ (listed (of_decisions 0) co) _ _ (deeper_of of_decisions co of_decisions_deeper)).
      apply rec_then; [|intros; apply rec_lift]. apply rec_loop. intros l ->. cbn in HC, H1. rewrite Forall_forall in *. intros n Hn.
      specialize (HC n Hn). specialize (H1 n Hn). cbn beta. destruct (is_type_of n [s "decisionItem"]) eqn:T1.
      + apply (is_type_of_kind n KdecisionItem HC) in T1. replace (of_decisions 0 n) with (shown 0 n).
        * apply rec_try', H1.
        * destruct n as [k' ty' ve' tx' a' co' ma']. cbn in T1. now subst k'.
      + apply (not_kind n KdecisionItem HC) in T1. replace (of_decisions 0 n) with (@nil call); [apply rec_lift|]. destruct n as [k' ty' ve' tx' a' co' ma']. cbn in T1.
        destruct k'; try reflexivity; congruence.
    - refine (rec_call _ _ 0 _ (listed (shown 0) co) _ _ DL). change (listed (shown 0) co) with ([] ++ listed (shown 0) co).
      apply rec_bind; [apply rec_lift|]. intros h. apply rec_then; [exact RC|intros; apply rec_lift].
    - refine (rec_call _ _ 0 _ (listed (shown 0) co) _ _ DL). change (listed (shown 0) co) with ([] ++ listed (shown 0) co).
      apply rec_bind; [apply rec_lift|]. intros h. apply rec_then; [exact RD|intros; apply rec_lift].
    - refine (rec_call _ _ 0 _ (listed (shown 0) co) _ _ DL). apply rec_then; [|intros; apply rec_lift]. apply rec_loop. intros l ->. cbn in H1.
      eapply Forall_impl; [|exact H1]. intros n Hn. apply rec_then; [apply Hn|intros; apply rec_lift].
    - refine (rec_call _ _ 0 _ (listed (shown 0) co) _ _ DL). apply rec_then; [|intros; apply rec_lift]. apply rec_loop. intros l ->. cbn in H1.
      eapply Forall_impl; [|exact H1]. intros n Hn. apply (rec_ok ign (to_mdt E n None false)).
      + eapply rec_weaken; [|apply (Hn None false)]. reflexivity.
      + intros -> e HE. now rewrite HE.
  Qed.
End Recorded.
