(** C70: each object is rendered at most once, in document order, and calls are nested no deeper than the document. *)
From Coq Require Import List NArith ZArith Bool String Lia.
From Verif Require Import PyStr Values Schema Parse Date Markdown Basics SpecParse ParseFacts4 MdFacts MdFacts2 SpecSize SizeFacts2 Calls SpecCalls CallsFacts.
From Verif Require Import Properties_Marks Properties_Nodes Properties_Layout Properties_Lists Properties_Errors.
Import ListNotations.
Open Scope string_scope.
Open Scope list_scope.
Open Scope nat_scope.

(** Recording the calls changes nothing: the recorded rendering gives what to_markdown gives, for every object and flag. *)
Theorem C70_same_result : forall E n ign, snd (to_mdt E n None ign) = to_markdown E n ign.
Proof. intros. apply same_results. Qed.

(** Whatever the flag and the outcome, the calls made are some of those of [shown], in that order. *)
Theorem C70_at_most : forall E b v n ign, snd (parse_node b v) = Ok n -> sublist (fst (to_mdt E n None ign)) (shown 0 n).
Proof. intros E b v n ign HP. apply all_recorded. eapply parse_consistent. exact HP. Qed.

(** Without ignore_error, a rendering that succeeds has made exactly those calls: nothing is skipped. *)
Theorem C70_exactly : forall E b v n x, snd (parse_node b v) = Ok n -> to_markdown E n false = Ok x ->
  fst (to_mdt E n None false) = shown 0 n.
Proof.
  intros E b v n x HP HX. destruct (all_recorded E n (parse_consistent _ _ _ HP) None false) as [_ H]. destruct (H eq_refl) as (r & -> & HR).
  rewrite HR, app_nil_r; [reflexivity|]. exists x. now rewrite same_results.
Qed.

(** ... and one that raises has made the first of them, and no more: it stops at the object that failed. *)
Theorem C70_stops : forall E b v n e, snd (parse_node b v) = Ok n -> to_markdown E n false = Err e ->
  exists later, shown 0 n = fst (to_mdt E n None false) ++ later.
Proof.
  intros E b v n e HP HX. destruct (all_recorded E n (parse_consistent _ _ _ HP) None false) as [_ H]. destruct (H eq_refl) as (r & HL & _).
  exists r. exact HL.
Qed.

(** ---- and those are objects of the document, each at most once, in document order *)
Lemma sub_flat {A B} (f g : A -> list B) l : Forall (fun a => sublist (f a) (g a)) l -> sublist (flat_map f l) (flat_map g l).
Proof. induction 1 as [|a l HA HL IH]; [constructor|]. cbn. now apply sublist_app. Qed.
Lemma map_flat {A B C} (h : B -> C) (f : A -> list B) l : map h (flat_map f l) = flat_map (fun a => map h (f a)) l.
Proof. induction l as [|a l IH]; [reflexivity|]. cbn. now rewrite map_app, IH. Qed.
Lemma shown_objects n : forall d, sublist (map snd (shown d n)) (objects n).
Proof.
  induction n as [k ty ve tx a co ma IH] using node_ind2. intros d.
  destruct co as [| |l|v]; try (cbn; constructor; constructor). cbn in IH.
  assert (HF : forall d, sublist (map snd (flat_map (shown d) l)) (flat_map objects l)).
  { intros e. rewrite map_flat. apply sub_flat. eapply Forall_impl; [|exact IH]. intros c [H _]. apply H. }
  assert (HG : Forall (fun c => forall d bs, n_content c = Items bs -> sublist (map snd (flat_map (shown d) bs)) (objects c)) l).
  { eapply Forall_impl; [|exact IH]. intros c [_ H] e bs HB. rewrite HB in H. cbn in H. destruct c as [k' ty' ve' tx' a' co' ma']. cbn in HB. subst co'. cbn [objects].
    apply sub_skip. rewrite map_flat. apply sub_flat. eapply Forall_impl; [|exact H]. intros x Hx. apply Hx. }
  destruct k; cbn [shown objects shows_no_content map snd]; apply sub_keep; try apply HF; try (apply sublist_nil).
  all: rewrite map_flat; apply sub_flat; rewrite Forall_forall in *; intros c Hc; specialize (HG c Hc); destruct (IH c Hc) as [H _].
  all: destruct c as [k' ty' ve' tx' a' co' ma']; destruct k'; try apply sublist_nil; try apply H; destruct co'; try apply sublist_nil; apply HG; reflexivity.
Qed.
Theorem C70_once_in_order : forall n, sublist (map snd (shown 0 n)) (objects n).
Proof. intros n. apply shown_objects. Qed.
Lemma sublist_len {A} (a b : list A) : sublist a b -> List.length a <= List.length b.
Proof. induction 1; cbn; lia. Qed.
Theorem C70_number : forall E b v n ign, snd (parse_node b v) = Ok n ->
  List.length (fst (to_mdt E n None ign)) <= List.length (objects n).
Proof.
  intros E b v n ign HP. etransitivity; [exact (sublist_len _ _ (C70_at_most E b v n ign HP))|].
  pose proof (sublist_len _ _ (C70_once_in_order n)) as H. now rewrite map_length in H.
Qed.

(** ---- nesting *)
Lemma sublist_in {A} (a b : list A) x : sublist a b -> In x a -> In x b.
Proof. induction 1; cbn; intuition. Qed.
Lemma shown_depth n : forall d e m, In (e, m) (shown d n) -> e < d + depth n.
Proof.
  induction n as [k ty ve tx a co ma IH] using node_ind2. intros d e m HI.
  rewrite depth_eq. unfold kids. cbn [n_content]. destruct co as [| |l|v]; try (cbn [shown] in HI; destruct HI as [HI|[]]; injection HI as -> _; lia). cbn in IH.
  assert (HD : forall c, In c l -> depth c <= list_max (map depth l)).
  { intros c Hc. assert (HM : list_max (map depth l) <= list_max (map depth l)) by lia. apply list_max_le in HM. rewrite Forall_map, Forall_forall in HM. now apply HM. }
  assert (HF : forall e m, In (e, m) (flat_map (shown (S d)) l) -> e < d + (1 + list_max (map depth l))).
  { intros e' m' H. apply in_flat_map in H as (c & Hc & H). rewrite Forall_forall in IH. destruct (IH c Hc) as [A _]. apply A in H. specialize (HD c Hc). lia. }
  assert (HG : forall c bs e m, In c l -> n_content c = Items bs -> In (e, m) (flat_map (shown (S d)) bs) -> e < d + (1 + list_max (map depth l))).
  { intros c bs e' m' Hc HB H. rewrite Forall_forall in IH. destruct (IH c Hc) as [_ A]. rewrite HB in A. cbn in A. rewrite Forall_forall in A.
    apply in_flat_map in H as (x & Hx & H). apply (A x Hx) in H. specialize (HD c Hc). rewrite depth_eq in HD. unfold kids in HD. rewrite HB in HD.
    assert (HM : list_max (map depth bs) <= list_max (map depth bs)) by lia. apply list_max_le in HM. rewrite Forall_map, Forall_forall in HM. specialize (HM x Hx). lia. }
  assert (HH : forall c e m, In c l -> In (e, m) (shown (S d) c) -> e < d + (1 + list_max (map depth l))).
  { intros c e' m' Hc H. eapply HF. apply in_flat_map. eauto. }
  cbn [shown] in HI. destruct HI as [HI|HI]; [injection HI as -> _; lia|].
  destruct k; cbn [shows_no_content] in HI; try (now eapply HF; exact HI); try destruct HI.
  all: apply in_flat_map in HI as (c & Hc & HI); destruct c as [k' ty' ve' tx' a' co' ma'] eqn:C; destruct k'; try (destruct HI; fail).
  all: try (eapply HH; [exact Hc|exact HI]).
  all: destruct co' as [| |bs|]; try (destruct HI; fail); eapply HG; [exact Hc|reflexivity|exact HI].
Qed.
(** A call of to_markdown is nested in fewer calls than there are objects on the longest path of the document: the recursion is
    as deep as the document, never deeper. *)
Theorem C70_nesting : forall E b v n ign d m, snd (parse_node b v) = Ok n ->
  In (d, m) (fst (to_mdt E n None ign)) -> d < depth n.
Proof.
  intros E b v n ign d m HP HI. change (d < 0 + depth n). eapply shown_depth. eapply sublist_in; [|exact HI]. eapply C70_at_most. exact HP.
Qed.

(** A document with a list (whose item object is not rendered), a paragraph that fails, and one after it: with ignore_error the
    failing child and the call that failed are recorded; without it the recording stops there. *)
Definition ex_calls : value :=
  VDict [tyv "doc"; (s "version", VInt 1); (s "content", VList [ex_ul [ex_li [ex_p "one"]]; ex_bad_para; ex_p "two"])].
Definition call_kinds (l : list call) : list (nat * nkind) := map (fun c => (fst c, n_kind (snd c))) l.
Example C70_example :
  call_kinds (fst (to_mdt rt0 (get ex_calls) None true)) =
    [(0, Kdoc); (1, KbulletList); (2, Kparagraph); (3, Ktext); (1, Kparagraph); (2, Ktext); (2, KinlineCard); (1, Kparagraph); (2, Ktext)] /\
  call_kinds (fst (to_mdt rt0 (get ex_calls) None false)) =
    [(0, Kdoc); (1, KbulletList); (2, Kparagraph); (3, Ktext); (1, Kparagraph); (2, Ktext); (2, KinlineCard)] /\
  depth (get ex_calls) = 5 /\ List.length (objects (get ex_calls)) = 10.
Proof. repeat split; vm_compute; reflexivity. Qed.
