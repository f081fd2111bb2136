(** Everything from_dict writes is fresh, and everything its result reaches is fresh. *)
From Coq Require Import List NArith ZArith Bool String Arith Lia.
From Verif Require Import PyStr Values Schema Parse Basics Heap SpecHeap.
Import ListNotations.
Open Scope string_scope.
Open Scope list_scope.
Open Scope nat_scope.

Definition fresh (base : nat) (v : hval) : Prop := forall a, v = Ref a -> base <= a.
Definition fresh_obj (base : nat) (o : obj) : Prop := Forall (fresh base) (items_of o).
Definition sep (base : nat) (h : heap) : Prop := forall a o, base <= a -> nth_error h a = Some o -> fresh_obj base o.
Definition keeps (base : nat) (h h' : heap) : Prop :=
  List.length h <= List.length h' /\ forall a, a < base -> nth_error h' a = nth_error h a.
Definition ok {A} (base : nat) (m : H A) (P : A -> Prop) : Prop :=
  forall h, base <= List.length h -> sep base h ->
  match m h with (h', _, o) => keeps base h h' /\ sep base h' /\ forall x, o = Val x -> P x end.

Lemma keeps_refl base h : keeps base h h.
Proof. split; auto. Qed.
Lemma keeps_trans base h1 h2 h3 : keeps base h1 h2 -> keeps base h2 h3 -> keeps base h1 h3.
Proof. intros [L1 H1] [L2 H2]. split; [lia|]. intros a Ha. rewrite H2, H1; auto. Qed.

Lemma ok_ret {A} base (a : A) (P : A -> Prop) : P a -> ok base (hret a) P.
Proof. intros HP h HB HS. cbn. split; [apply keeps_refl|]. split; [exact HS|]. congruence. Qed.
Lemma ok_raise {A} base e (P : A -> Prop) : ok base (hraise e) P.
Proof. intros h HB HS. cbn. split; [apply keeps_refl|]. split; [exact HS|]. discriminate. Qed.
Lemma ok_deep {A} base (P : A -> Prop) : ok base hdeep P.
Proof. intros h HB HS. cbn. split; [apply keeps_refl|]. split; [exact HS|]. discriminate. Qed.
Lemma ok_bind {A B} base (m : H A) (f : A -> H B) P Q :
  ok base m P -> (forall a, P a -> ok base (f a) Q) -> ok base (hbind m f) Q.
Proof.
  intros HM HF h HB HS. unfold hbind. specialize (HM h HB HS). destruct (m h) as [[h1 lg] [a|e|]].
  - destruct HM as (K1 & S1 & P1). specialize (HF a (P1 a eq_refl) h1). destruct K1 as [L1 K1].
    destruct (f a h1) as [[h2 lg2] o]. destruct HF as (K2 & S2 & P2); [lia|exact S1|].
    split; [eapply keeps_trans; [split; eauto|exact K2]|]. auto.
  - destruct HM as (K1 & S1 & _). split; [exact K1|]. split; [exact S1|]. discriminate.
  - destruct HM as (K1 & S1 & _). split; [exact K1|]. split; [exact S1|]. discriminate.
Qed.
Lemma ok_impl {A} base (m : H A) (P Q : A -> Prop) : ok base m P -> (forall a, P a -> Q a) -> ok base m Q.
Proof. intros H1 H2 h HB HS. specialize (H1 h HB HS). destruct (m h) as [[h' lg] o]. destruct H1 as (K & S & HP). auto. Qed.

Lemma nth_error_snoc {A} (h : list A) o a : nth_error (h ++ [o]) a = if Nat.eqb a (List.length h) then Some o else nth_error h a.
Proof.
  destruct (Nat.eqb_spec a (List.length h)) as [->|N].
  - rewrite nth_error_app2 by lia. now rewrite Nat.sub_diag.
  - destruct (Nat.ltb_spec a (List.length h)).
    + now apply nth_error_app1.
    + rewrite nth_error_app2 by lia. destruct (a - List.length h) as [|n] eqn:E; [lia|]. cbn.
      rewrite (proj2 (nth_error_None h a)) by lia. now destruct n.
Qed.
Lemma ok_alloc base o : fresh_obj base o -> ok base (alloc o) (fun a => base <= a).
Proof.
  intros HO h HB HS. cbn. split; [|split].
  - split; [rewrite app_length; lia|]. intros a Ha. apply nth_error_app1. lia.
  - intros a o' Ha. rewrite nth_error_snoc. destruct (Nat.eqb a (List.length h)); [intros [= <-]; exact HO|]. now apply HS.
  - intros x [= <-]. exact HB.
Qed.
Lemma set_nth_length {A} (l : list A) n x : List.length (set_nth l n x) = List.length l.
Proof. revert n. induction l as [|a l IH]; intros [|n]; cbn; auto. Qed.
Lemma nth_error_set {A} (l : list A) n x a :
  nth_error (set_nth l n x) a = if Nat.eqb a n then (if Nat.ltb n (List.length l) then Some x else None) else nth_error l a.
Proof.
  revert n a. induction l as [|b l IH]; intros n a.
  - destruct n, a; cbn; try reflexivity. now destruct (Nat.eqb a n).
  - destruct n, a; cbn; try reflexivity. rewrite IH. reflexivity.
Qed.
Lemma ok_write base a o : base <= a -> fresh_obj base o -> ok base (write a o) (fun _ => True).
Proof.
  intros HA HO h HB HS. cbn. split; [|split; auto].
  - split; [rewrite set_nth_length; lia|]. intros b Hb. rewrite nth_error_set. destruct (Nat.eqb_spec b a); [lia|reflexivity].
  - intros b o' Hb. rewrite nth_error_set. destruct (Nat.eqb b a); [|now apply HS].
    destruct (Nat.ltb a (List.length h)); [|discriminate]. now intros [= <-].
Qed.
Lemma ok_get base a : base <= a -> ok base (get_obj a) (fun o => forall x, o = Some x -> fresh_obj base x).
Proof.
  intros HA h HB HS. cbn. split; [apply keeps_refl|]. split; [exact HS|]. intros o [= <-] x HX. now apply (HS a).
Qed.
Lemma ok_get_any base a : ok base (get_obj a) (fun _ => True).
Proof. intros h HB HS. cbn. split; [apply keeps_refl|]. auto. Qed.

(** Values taken out of a fresh dictionary. *)
Lemma fresh_lookup base d k v : Forall (fresh base) (map snd d) -> lookup k d = Some v -> fresh base v.
Proof. intros HF HL. apply lookup_In in HL. rewrite Forall_forall in HF. apply HF. apply (in_map snd) in HL. exact HL. Qed.
Lemma fresh_put base k v d : fresh base v -> Forall (fresh base) (map snd d) -> Forall (fresh base) (map snd (put k v d)).
Proof.
  intros HV. induction d as [|[k' v'] d IH]; cbn; intros HF; [repeat constructor; exact HV|].
  apply Forall_cons_iff in HF as [H1 H2]. destruct (str_eqb k' k); constructor; auto.
Qed.
Lemma ok_setitem base a k v : base <= a -> fresh base v -> ok base (setitem a k v) (fun _ => True).
Proof.
  intros HA HV. unfold setitem. eapply ok_bind; [apply ok_get; exact HA|]. intros [[l|d|t fs]|] HO; try apply ok_raise.
  apply ok_write; [exact HA|]. unfold fresh_obj. cbn [items_of]. apply fresh_put; [exact HV|]. exact (HO _ eq_refl).
Qed.
Lemma fresh_imm base v : (forall a, v <> Ref a) -> fresh base v.
Proof. intros H a ->. now destruct (H a). Qed.

(** deepcopy. *)
Definition memo_fresh (base : nat) (m : memo) : Prop := forall a b, memo_get a m = Some b -> base <= b.
Lemma fresh_combine base (ks : list str) l : Forall (fresh base) l -> Forall (fresh base) (map snd (combine ks l)).
Proof. intros H. revert ks. induction H as [|x l H1 H2 IH]; intros [|k ks]; cbn; constructor; auto. Qed.
Lemma fresh_with_items base o l : Forall (fresh base) l -> fresh_obj base (with_items o l).
Proof. intros H. unfold fresh_obj. destruct o; cbn [with_items items_of]; auto using fresh_combine. Qed.
Lemma ok_deepcopy base fuel : forall v m, memo_fresh base m ->
  ok base (deepcopy fuel v m) (fun r => fresh base (fst r) /\ memo_fresh base (snd r)).
Proof.
  induction fuel as [|f IH]; intros v m HM.
  - destruct v; try apply ok_deep; (apply ok_ret; cbn [fst snd]; split; [apply fresh_imm; discriminate|exact HM]).
  - destruct v as [| | | | | |a]; try (apply ok_ret; cbn [fst snd]; split; [apply fresh_imm; discriminate|exact HM]).
    cbn [deepcopy]. destruct (memo_get a m) as [b|] eqn:EM.
    + apply ok_ret. cbn. split; [|exact HM]. intros x [= <-]. eapply HM; eauto.
    + eapply ok_bind; [apply ok_get_any|]. intros [o|] _; [|apply ok_raise].
      eapply ok_bind; [apply ok_alloc, fresh_with_items; constructor|]. intros b HB.
      assert (HC : forall l m, memo_fresh base m ->
        ok base (copy_items (deepcopy f) l m) (fun r => Forall (fresh base) (fst r) /\ memo_fresh base (snd r))).
      { induction l as [|x l IHl]; intros m0 HM0; cbn [copy_items]; [apply ok_ret; cbn; auto|]. fold (copy_items (deepcopy f)).
        eapply ok_bind; [apply IH; exact HM0|]. intros [x' m1] [H1 H2]. cbn [fst snd] in *.
        eapply ok_bind; [apply IHl; exact H2|]. intros [r' m2] [H3 H4]. cbn [fst snd] in *. apply ok_ret. cbn. auto. }
      eapply ok_bind; [apply HC|].
      * intros x y. cbn. destruct (Nat.eqb a x); [now intros [= <-]|apply HM].
      * intros [l m'] [H1 H2]. cbn [fst snd] in *. eapply ok_bind; [apply ok_write; [exact HB|now apply fresh_with_items]|].
        intros _ _. apply ok_ret. cbn. split; [|exact H2]. intros x [= <-]. exact HB.
Qed.
Lemma memo_fresh_nil base : memo_fresh base [].
Proof. intros a b. discriminate. Qed.

(** from_dict. *)
Lemma fresh_ref base a : base <= a -> fresh base (Ref a).
Proof. intros H b [= <-]. exact H. Qed.
Lemma ok_new base o : fresh_obj base o -> ok base (let! b <- alloc o; hret (Ref b)) (fresh base).
Proof. intros HO. eapply ok_bind; [now apply ok_alloc|]. intros b HB. apply ok_ret. now apply fresh_ref. Qed.
Lemma ok_attrs base fs v : fresh base v -> ok base (h_attrs_from_dict fs v) (fresh base).
Proof.
  intros HV. unfold h_attrs_from_dict. destruct v; try apply ok_raise.
  eapply ok_bind; [apply ok_get; now apply HV|]. intros [[l|d|t fs']|] HO; try apply ok_raise.
  destruct (existsb _ fs); [apply ok_raise|]. destruct (existsb _ fs); [apply ok_raise|].
  apply ok_new. unfold fresh_obj. cbn [items_of]. rewrite map_map. apply Forall_map, Forall_forall. intros f _. cbn [snd].
  destruct (lookup (fst f) d) eqn:EL; [|apply fresh_imm; discriminate]. eapply fresh_lookup; [|exact EL]. exact (HO _ eq_refl).
Qed.
Lemma ok_dispatch {A} base a (f : option obj -> H A) P :
  base <= a -> (forall o, (forall x, o = Some x -> fresh_obj base x) -> ok base (f o) P) -> ok base (let! o <- get_obj a; f o) P.
Proof. intros HA HF. eapply ok_bind; [apply ok_get; exact HA|]. exact HF. Qed.
Lemma ok_mark base fuel k v : ok base (h_mark_from_dict fuel k v) (fresh base).
Proof.
  unfold h_mark_from_dict. eapply ok_bind; [apply ok_deepcopy, memo_fresh_nil|]. intros [dct m] [HD _]. cbn [fst snd] in *.
  destruct dct; try apply ok_raise. specialize (HD _ eq_refl). apply ok_dispatch; [exact HD|]. intros [[l|d0|t fs]|] HO; try apply ok_raise.
  assert (HO' : Forall (fresh base) (map snd d0)) by exact (HO _ eq_refl).
  eapply ok_bind with (P := fun _ => True).
  - destruct (lookup (s "attrs") d0) as [av|] eqn:EA; [|now apply ok_ret]. destruct (mk_attrs k); [|now apply ok_ret].
    eapply ok_bind; [apply ok_attrs; eapply fresh_lookup; eauto|]. intros i HI. now apply ok_setitem.
  - intros _ _. apply ok_dispatch; [exact HD|]. intros [[l|d|t fs]|] HO2; try apply ok_raise.
    assert (HO2' : Forall (fresh base) (map snd d)) by exact (HO2 _ eq_refl).
    assert (HT : fresh base (match lookup (s "type") d with Some t => t | None => HStr (mk_name k) end)).
    { destruct (lookup (s "type") d) eqn:E; [eapply fresh_lookup; eauto|apply fresh_imm; discriminate]. }
    destruct (mk_attrs k).
    + destruct (lookup (s "attrs") d) eqn:E; [|apply ok_raise]. apply ok_new. repeat constructor; auto. eapply fresh_lookup; eauto.
    + apply ok_new. repeat constructor; auto.
Qed.
Lemma ok_parse_mark base fuel v : ok base (h_parse_mark fuel v) (fresh base).
Proof.
  unfold h_parse_mark. destruct v; try apply ok_raise. eapply ok_bind; [apply ok_get_any|]. intros [[l|d|t fs]|] _; try apply ok_raise.
  destruct (lookup (s "type") d) as [ty|]; [|apply ok_raise]. destruct (h_type ty) as [t|]; [|apply ok_raise].
  destruct (mark_class_of t); try apply ok_raise. apply ok_mark.
Qed.
Lemma ok_collect base w p : (forall v, ok base (p v) (fresh base)) -> forall l, ok base (h_collect w p l) (Forall (fresh base)).
Proof.
  intros HP. induction l as [|x l IH]; cbn [h_collect]; [apply ok_ret; constructor|]. fold (h_collect w p).
  intros h HB HS. pose proof (HP x h HB HS) as HX. destruct (p x h) as [[h1 lg] [y|e|]].
  - destruct HX as (K1 & S1 & P1). specialize (P1 y eq_refl).
    assert (HQ : ok base (let! ys <- h_collect w p l; hret (y :: ys)) (Forall (fresh base))).
    { eapply ok_bind; [exact IH|]. intros ys HY. apply ok_ret. now constructor. }
    specialize (HQ h1). destruct ((let! ys <- h_collect w p l; hret (y :: ys)) h1) as [[h2 lg2] o].
    destruct HQ as (K2 & S2 & P2); [destruct K1; lia|exact S1|]. split; [eapply keeps_trans; eauto|]. auto.
  - destruct HX as (K1 & S1 & _).
    destruct e; try (split; [exact K1|]; split; [exact S1|]; discriminate).
    specialize (IH h1). destruct (h_collect w p l h1) as [[h2 lg2] o]. destruct IH as (K2 & S2 & P2); [destruct K1; lia|exact S1|].
    split; [eapply keeps_trans; eauto|]. auto.
  - destruct HX as (K1 & S1 & _). split; [exact K1|]. split; [exact S1|]. discriminate.
Qed.
Lemma ok_children base w p a key : base <= a -> (forall v, ok base (p v) (fresh base)) -> ok base (h_children w p a key) (fun _ => True).
Proof.
  intros HA HP. unfold h_children. apply ok_dispatch; [exact HA|]. intros [[l|d|t fs]|] HO; try now apply ok_ret.
  destruct (lookup key d) as [v|]; [|now apply ok_ret]. destruct v; try now apply ok_ret.
  eapply ok_bind; [apply ok_get_any|]. intros [[l|d'|t fs]|] _; try now apply ok_ret.
  eapply ok_bind; [now apply ok_collect|]. intros ys HY. eapply ok_bind; [now apply ok_alloc|]. intros c HC.
  apply ok_setitem; [exact HA|now apply fresh_ref].
Qed.
Lemma h_field_fresh base d name fk l : Forall (fresh base) (map snd d) -> h_field d name fk = Some l -> Forall (fresh base) (map snd l).
Proof.
  intros HF. unfold h_field. destruct fk as [k|]; [|intros [= <-]; constructor].
  destruct (lookup (s name) d) eqn:E.
  - intros HL. assert (l = [(s name, h)]) by congruence. subst l. repeat constructor. eapply fresh_lookup; eauto.
  - destruct k; try discriminate. intros HL. assert (l = [(s name, HOpt)]) by congruence. subst l. repeat constructor. apply fresh_imm. discriminate.
Qed.
Lemma ok_construct base k d : Forall (fresh base) (map snd d) -> ok base (h_construct k d) (fresh base).
Proof.
  intros HD. unfold h_construct.
  destruct (h_field d "text" _) as [tx|] eqn:E1; [|apply ok_raise]. destruct (h_field d "attrs" _) as [at_|] eqn:E2; [|apply ok_raise].
  destruct (h_field d "content" _) as [co|] eqn:E3; [|apply ok_raise]. destruct (h_field d "marks" _) as [ma|] eqn:E4; [|apply ok_raise].
  apply ok_new. unfold fresh_obj. cbn [items_of]. rewrite !map_app, !Forall_app. repeat apply conj.
  - repeat constructor. cbn [snd]. destruct (lookup (s "type") d) eqn:E; [eapply fresh_lookup; eauto|apply fresh_imm; discriminate].
  - destruct (nc_version (nk_class k)); [|constructor]. repeat constructor. cbn [snd].
    destruct (lookup (s "version") d) eqn:E; [eapply fresh_lookup; eauto|apply fresh_imm; discriminate].
  - eapply h_field_fresh; [exact HD|exact E1].
  - eapply h_field_fresh; [exact HD|exact E2].
  - eapply h_field_fresh; [exact HD|exact E3].
  - eapply h_field_fresh; [exact HD|exact E4].
Qed.
Lemma ok_node base fuel w pn pm k v : (forall v, ok base (pn v) (fresh base)) -> (forall v, ok base (pm v) (fresh base)) ->
  ok base (h_node_from_dict fuel w pn pm k v) (fresh base).
Proof.
  intros HN HM. unfold h_node_from_dict. eapply ok_bind; [apply ok_deepcopy, memo_fresh_nil|]. intros [dct m] [HD _]. cbn [fst snd] in *.
  destruct dct; try apply ok_raise. specialize (HD _ eq_refl). apply ok_dispatch; [exact HD|]. intros [[l|d0|t fs]|] HO; try apply ok_raise.
  assert (HO' : Forall (fresh base) (map snd d0)) by exact (HO _ eq_refl).
  eapply ok_bind with (P := fun _ => True).
  - destruct (lookup (s "attrs") d0) as [av|] eqn:EA; [|now apply ok_ret]. destruct (nc_attrs (nk_class k)) as [[fk fs]|]; [|now apply ok_ret].
    eapply ok_bind; [apply ok_attrs; eapply fresh_lookup; eauto|]. intros i HI. now apply ok_setitem.
  - intros _ _. eapply ok_bind; [apply ok_children; eauto|]. intros _ _. eapply ok_bind; [apply ok_children; eauto|]. intros _ _.
    apply ok_dispatch; [exact HD|]. intros [[l|d|t fs]|] HO2; try apply ok_raise. apply ok_construct. exact (HO2 _ eq_refl).
Qed.
Lemma ok_parse_node base w : forall fuel v, ok base (h_parse_node fuel w v) (fresh base).
Proof.
  induction fuel as [|f IH]; intros v; cbn [h_parse_node]; [apply ok_deep|].
  destruct v; try apply ok_raise. eapply ok_bind; [apply ok_get_any|]. intros [[l|d|t fs]|] _; try apply ok_raise.
  destruct (lookup (s "type") d) as [ty|]; [|apply ok_raise]. destruct (h_type ty) as [t|]; [|apply ok_raise].
  destruct (node_class_of t); try apply ok_raise. apply ok_node; [exact IH|apply ok_parse_mark].
Qed.
Lemma ok_from_dict base fuel w k v : ok base (h_from_dict fuel w k v) (fresh base).
Proof. apply ok_node; [apply ok_parse_node|apply ok_parse_mark]. Qed.

(** ---------------------------------------------------------------- reachability *)
Lemma reaches_fresh base h : sep base h -> forall v b, reaches h v b -> fresh base v -> base <= b.
Proof.
  intros HS. induction 1 as [a|a o v b HN HI HR IH]; intros HF; [now apply HF|]. apply IH.
  assert (HO : fresh_obj base o) by (apply (HS a); [now apply HF|exact HN]).
  unfold fresh_obj in HO. rewrite Forall_forall in HO. now apply HO.
Qed.
Lemma reaches_old h h' : closed h -> (forall a, a < List.length h -> nth_error h' a = nth_error h a) ->
  forall v b, reaches h' v b -> valid h v -> b < List.length h /\ reaches h v b.
Proof.
  intros HC HE. induction 1 as [a|a o v b HN HI HR IH]; intros HV; [split; [now apply HV|constructor]|].
  rewrite HE in HN by (now apply HV). destruct IH as [H1 H2].
  - intros c ->. eapply HC; eauto.
  - split; [exact H1|]. eapply r_step; eauto.
Qed.
