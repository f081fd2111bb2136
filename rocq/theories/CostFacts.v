(** How many objects from_dict allocates. *)
From Coq Require Import List NArith ZArith Bool String Arith Lia.
From Verif Require Import PyStr Values Schema Parse Basics Heap SpecHeap HeapFacts DenFacts CopyFacts HeapRefine SpecCost.
Import ListNotations.
Open Scope string_scope.
Open Scope list_scope.
Open Scope nat_scope.

(** The work of a value: its containers once for every container around them. *)
Fixpoint work (v : value) : nat :=
  match v with
  | VList l => S (sum_with containers l) + sum_with work l
  | VDict d => S (sum_with (fun e => match e with (_, y) => containers y end) d) + sum_with (fun e => match e with (_, y) => work y end) d
  | _ => 0
  end.
Lemma sum_le {A} (f g : A -> nat) l : (forall a, In a l -> f a <= g a) -> sum_with f l <= sum_with g l.
Proof.
  induction l as [|a l IH]; intros H; cbn; [lia|]. pose proof (H a (or_introl eq_refl)).
  assert (sum_with f l <= sum_with g l) by (apply IH; intros b Hb; apply H; now right). lia.
Qed.
Lemma max_ge {A} (f : A -> nat) l a : In a l -> f a <= max_with f l.
Proof. induction l as [|b l IH]; intros []; cbn; [subst; lia|]. specialize (IH H). lia. Qed.
Lemma sum_mul {A} (f : A -> nat) m l : sum_with (fun a => f a * m) l = sum_with f l * m.
Proof. induction l as [|a l IH]; cbn; [reflexivity|]. rewrite IH. lia. Qed.
Lemma work_bound v : work v <= containers v * nesting v.
Proof.
  induction v as [| | | |x| |l IH|d IH] using value_ind'; try (cbn; lia).
  - cbn [work containers nesting]. assert (sum_with work l <= sum_with containers l * max_with nesting l).
    { rewrite <- sum_mul. apply sum_le. intros a Ha. rewrite Forall_forall in IH. specialize (IH a Ha). pose proof (max_ge nesting l a Ha). nia. }
    nia.
  - cbn [work containers nesting]. set (c := fun e : str * value => match e with (_, y) => containers y end).
    set (n := fun e : str * value => match e with (_, y) => nesting y end). set (wk := fun e : str * value => match e with (_, y) => work y end).
    assert (sum_with wk d <= sum_with c d * max_with n d).
    { rewrite <- sum_mul. apply sum_le. intros [k y] Ha. rewrite Forall_forall in IH. specialize (IH (k, y) Ha). cbn in IH. pose proof (max_ge n d (k, y) Ha) as HM.
      subst c n wk. cbn in *. nia. }
    nia.
Qed.

(** [costs c h r]: the run [r] from heap [h] allocated at most [c] objects and left the old ones alone. *)
Definition new_objects {A} (h : heap) (r : heap * list warning * out A) : nat := List.length (fst (fst r)) - List.length h.

Section Copy.
  Definition cheap {A} (c : nat) (m : H A) (h : heap) : Prop :=
    grows h (fst (fst (m h))) /\ List.length (fst (fst (m h))) <= List.length h + c.
  Lemma items_cheap f : (forall v x m h, den (nth_error h) v x -> cheap (containers v) (deepcopy f x m) h) ->
    forall vs xs m h, all2 (den (nth_error h)) vs xs -> cheap (sum_with containers vs) (copy_items (deepcopy f) xs m) h.
  Proof.
    intros HC. induction vs as [|v vs IH]; intros [|x xs] m h HD; try (destruct HD; fail).
    - split; [apply grows_refl|cbn; lia].
    - destruct HD as [HD1 HD2]. cbn [copy_items]. fold (copy_items (deepcopy f)).
      destruct (HC v x m h HD1) as [G1 L1]. unfold cheap, hbind. destruct (deepcopy f x m h) as [[h1 lg1] [[x1 m1]|e|]]; cbn [fst snd] in *.
      2,3: cbn; split; [exact G1|lia].
      destruct (IH xs m1 h1) as [G2 L2].
      { eapply all2_impl; [|exact HD2]. intros u y _ _. apply den_mono, grows_sub, G1. }
      destruct (copy_items (deepcopy f) xs m1 h1) as [[h2 lg2] [[xs2 m2]|e|]]; cbn in *;
        (split; [eapply grows_trans; eauto|lia]).
  Qed.
  Lemma copy_cheap f : forall v x m h, den (nth_error h) v x -> cheap (containers v) (deepcopy f x m) h.
  Proof.
    induction f as [|f IH]; intros v x m h HD.
    { destruct x; cbn; split; try apply grows_refl; cbn; lia. }
    destruct x as [| | | | | |a]; try (cbn; split; [apply grows_refl|cbn; lia]).
    assert (HO : exists o vs, nth_error h a = Some o /\ all2 (den (nth_error h)) vs (items_of o) /\ containers v = S (sum_with containers vs)).
    { destruct v as [|b|z|fl|y|vs|vs|]; cbn in HD; try discriminate.
      - destruct HD as (b & l & [= <-] & HA & HD). eauto.
      - destruct HD as (b & d & [= <-] & HA & HD). exists (ODict d), (map snd vs). split; [exact HA|]. split; [now apply all2_map_snd|].
        cbn [containers]. f_equal. clear. induction vs as [|[k y] vs IH]; cbn; congruence. }
    destruct HO as (o & vs & HA & HI & ->). cbn [deepcopy]. unfold cheap. destruct (memo_get a m); [cbn; split; [apply grows_refl|lia]|].
    unfold hbind, get_obj, alloc. rewrite HA. cbn beta iota. set (b := List.length h). set (h1 := h ++ [with_items o []]).
    destruct (items_cheap f IH vs (items_of o) ((a, b) :: m) h1) as [G L].
    { eapply all2_impl; [|exact HI]. intros u y _ _. apply den_mono, grows_sub, grows_snoc. }
    match goal with |- context [copy_items ?x ?y ?z ?w] => change (copy_items x y z w) with (copy_items (deepcopy f) (items_of o) ((a, b) :: m) h1) end.
    destruct (copy_items (deepcopy f) (items_of o) ((a, b) :: m) h1) as [[h2 lg2] [[l m2]|e|]];
      cbn [fst snd] in *; unfold write, hret; cbn [fst snd].
    2,3: split; [eapply grows_trans; [apply grows_snoc|exact G]|unfold h1 in L; rewrite app_length in L; cbn in L; lia].
    split.
    - destruct G as [L2 G]. unfold h1 in L2. rewrite app_length in L2. cbn in L2. split; [rewrite set_nth_length; lia|].
      intros c Hc. rewrite nth_error_set. destruct (Nat.eqb_spec c b) as [->|N]; [unfold b in Hc; lia|].
      rewrite G by (unfold h1; rewrite app_length; lia). unfold h1. now rewrite nth_error_app1.
    - rewrite set_nth_length. unfold h1 in L. rewrite app_length in L. cbn in L. lia.
  Qed.
End Copy.

(** The bound for one object of the copied dictionary's list, and for the whole loop. *)
Definition grown {A} (c : nat) (h : heap) (r : heap * list warning * out A) : Prop := List.length (fst (fst r)) <= List.length h + c.
Definition child_cost (c : value -> nat) (o : option value) : nat := match o with Some (VList l) => sum_with c l | _ => 0 end.

Section Loop.
  Context (p : hval -> H hval) (c : value -> nat) (w : bool) (a : addr).
  Hypothesis HP : well_behaved p.
  Lemma collect_cost : forall vs, (forall v, In v vs -> forall h x, denotes h v x -> grown (c v) h (p x h)) ->
    forall xs h, a < List.length h -> all2 (den (hide (nth_error h) [a])) vs xs ->
    grows h (fst (fst (h_collect w p xs h))) /\ grown (sum_with c vs) h (h_collect w p xs h).
  Proof using HP.
    induction vs as [|v vs IH]; intros HQ [|x xs] h HA HV; try (destruct HV; fail).
    - split; [apply grows_refl|]. cbv [grown]. cbn. lia.
    - destruct HV as [HV1 HV2]. cbn [h_collect sum_with]. fold (h_collect w p).
      pose proof (HQ v (or_introl eq_refl) h x (den_mono _ _ (hide_sub _ _) _ _ HV1)) as HX. unfold grown in *.
      destruct (p x h) as [[h1 lg] o] eqn:E1. destruct (wb_use p h x _ _ _ HP E1) as (G1 & S1 & F1). cbn [fst snd] in HX.
      destruct (IH (fun u Hu => HQ u (or_intror Hu)) xs h1) as [G2 L2]; [destruct G1; lia| |].
      { eapply all2_impl; [|exact HV2]. intros u z _ _ HZ. eapply den_mono; [apply step_sub, grows_step, G1|exact HZ]. }
      destruct o as [y|e|]; [|destruct e|]; cbn [fst snd]; unfold hbind, hret;
        try (split; [exact G1|lia]);
        destruct (h_collect w p xs h1) as [[h2 lg2] [ys|e|]]; cbn [fst snd] in *; (split; [eapply grows_trans; eauto|lia]).
  Qed.
  Definition kept (key : str) (dc : list (str * hval)) (h h' : heap) : Prop :=
    step a h h' /\ exists dc', nth_error h' a = Some (ODict dc') /\ forall k, str_eqb key k = false -> lookup k dc' = lookup k dc.
  Lemma children_cost h dc key o h' lg r : nth_error h a = Some (ODict dc) -> value_entry (hide (nth_error h) [a]) o (lookup key dc) ->
    (forall l, o = Some (VList l) -> forall v, In v l -> forall h x, denotes h v x -> grown (c v) h (p x h)) ->
    h_children w p a key h = (h', lg, r) ->
    List.length h' <= List.length h + S (child_cost c o) /\ (forall u, r = Val u -> kept key dc h h').
  Proof using HP.
    intros HN HL HQ. assert (HA : a < List.length h) by (eapply nth_lt; eauto).
    unfold h_children, hbind at 1, get_obj at 1. rewrite HN. cbn beta iota.
    assert (ID : forall (lg0 : list warning) (h' : heap) (lg : list warning) (r : out unit), (h, lg0, Val tt) = (h', lg, r) -> List.length h' <= List.length h + S (child_cost c o) /\ (forall u : unit, r = Val u -> kept key dc h h')).
    { intros lg0 h0 lg1 r0 [= <- <- <-]. split; [lia|]. intros _ _. split; [apply step_refl|]. exists dc. auto. }
    destruct o as [v|]; cbn [value_entry] in HL; [|rewrite HL; apply ID].
    destruct HL as (x & HL & HX). rewrite HL.
    destruct v as [|b|z|f|y|vs|vs|]; cbn [den] in HX; try (subst x; apply ID).
    - destruct HX as (d & l & -> & HC & HV). pose proof (hide_sub _ _ _ _ HC) as HC'.
      destruct (collect_cost vs (HQ vs eq_refl) l h HA HV) as [G1 L1]. unfold hbind, get_obj. rewrite HC'. cbn beta iota.
      unfold grown in *. cbn [child_cost].
      destruct (h_collect w p l h) as [[h1 lg1] [ys|e|]]; cbn [fst snd] in *.
      2,3: intros [= <- <- <-]; split; [lia|]; intros u; discriminate.
      unfold alloc. cbn beta iota.
      destruct (setitem_run a (h1 ++ [OList ys]) dc key (Ref (List.length h1))) as (E2 & N2 & S2).
      { apply (grows_sub h1); [apply grows_snoc|]. now apply (grows_sub h). }
      rewrite E2. intros [= <- <- <-]. split; [rewrite set_nth_length, app_length; cbn; lia|]. intros u _. split.
      + eapply step_trans; [apply grows_step, G1|]. eapply step_trans; [apply grows_step, grows_snoc|exact S2].
      + eexists. split; [exact N2|]. intros k HK. rewrite lookup_put, HK. reflexivity.
    - destruct HX as (d & l & -> & HC & HV). pose proof (hide_sub _ _ _ _ HC) as HC'. unfold hbind, get_obj. rewrite HC'. apply ID.
  Qed.
End Loop.

Lemma attrs_cost fs v h : grown 1 h (h_attrs_from_dict fs v h) /\ grows h (fst (fst (h_attrs_from_dict fs v h))).
Proof.
  unfold grown, h_attrs_from_dict, hraise, hret, alloc, hbind, get_obj. destruct v; cbn; try (split; [lia|apply grows_refl]).
  destruct (nth_error h a) as [[l|d|t d]|]; cbn; try (split; [lia|apply grows_refl]).
  destruct (existsb _ fs); cbn; try (split; [lia|apply grows_refl]). destruct (existsb _ fs); cbn; try (split; [lia|apply grows_refl]).
  split; [rewrite app_length; cbn; lia|apply grows_snoc].
Qed.
Lemma attrs_set_cost fs v a h dc h' lg r : nth_error h a = Some (ODict dc) ->
  (let! i <- h_attrs_from_dict fs v; setitem a (s "attrs") i) h = (h', lg, r) ->
  List.length h' <= List.length h + 1 /\ (forall u, r = Val u -> kept a (s "attrs") dc h h').
Proof.
  intros HN. unfold hbind. destruct (attrs_cost fs v h) as [L G]. unfold grown in L.
  destruct (h_attrs_from_dict fs v h) as [[h1 lg1] [i|e|]]; cbn [fst snd] in *.
  2,3: intros [= <- <- <-]; split; [lia|]; intros u; discriminate.
  destruct (setitem_run a h1 dc (s "attrs") i) as (E2 & N2 & S2); [now apply (grows_sub h)|]. rewrite E2. intros [= <- <- <-].
  split; [rewrite set_nth_length; lia|]. intros u _. split; [eapply step_trans; [apply grows_step, G|exact S2]|].
  eexists. split; [exact N2|]. intros k HK. rewrite lookup_put, HK. reflexivity.
Qed.
Lemma construct_cost k d h : grown 1 h (h_construct k d h).
Proof.
  unfold grown, h_construct. repeat match goal with |- context [match h_field ?x ?y ?z with _ => _ end] => destruct (h_field x y z) end;
    unfold hbind, alloc, hret, hraise; cbn [fst snd]; try lia. rewrite app_length. cbn. lia.
Qed.

(** Two entries under different keys. *)
Lemma two_entries (c : value -> nat) d k1 k2 : str_eqb k1 k2 = false ->
  match lookup k1 d with Some y => c y | None => 0 end + match lookup k2 d with Some y => c y | None => 0 end <=
  sum_with (fun e => match e with (_, y) => c y end) d.
Proof.
  intros HN.
  assert (ONE : forall k (d : list (str * value)), match lookup k d with Some y => c y | None => 0 end <= sum_with (fun e => match e with (_, y) => c y end) d).
  { intros k d'. induction d' as [|[k' y] d' IH]; cbn; [lia|]. destruct (str_eqb k' k); [lia|]. lia. }
  induction d as [|[k y] d IH]; cbn; [lia|]. destruct (str_eqb k k1) eqn:E1, (str_eqb k k2) eqn:E2.
  - apply str_eqb_eq in E1, E2. subst. rewrite str_eqb_refl in HN. discriminate.
  - specialize (ONE k2 d). lia.
  - specialize (ONE k1 d). lia.
  - lia.
Qed.
Definition bound (v : value) : nat := 5 * work v.
Lemma child_bound o : child_cost bound o <= match o with Some y => bound y | None => 0 end.
Proof.
  destruct o as [[| | | | |l|d|]|]; cbn; try lia. unfold bound. cbn [work].
  assert (sum_with (fun v => 5 * work v) l = 5 * sum_with work l); [|lia]. clear. induction l as [|a l IH]; cbn in *; lia.
Qed.
Lemma dict_bound d : containers (VDict d) + 4 + child_cost bound (lookup (s "content") d) + child_cost bound (lookup (s "marks") d) <= bound (VDict d).
Proof.
  pose proof (two_entries bound d (s "content") (s "marks") eq_refl) as HT.
  pose proof (child_bound (lookup (s "content") d)). pose proof (child_bound (lookup (s "marks") d)).
  assert (HB : sum_with (fun e : str * value => match e with (_, y) => bound y end) d = 5 * sum_with (fun e => match e with (_, y) => work y end) d).
  { clear. induction d as [|[k a] l IH]; cbn in *; unfold bound in *; lia. }
  rewrite HB in HT. unfold bound at 3. cbn [work containers]. lia.
Qed.
Lemma bound_ge v : containers v <= bound v.
Proof. unfold bound. destruct v; cbn; lia. Qed.

Lemma mark_cost f k v x h : denotes h v x -> size v <= f -> grown (bound v) h (h_mark_from_dict f k x h).
Proof.
  intros HV HF. destruct (copy_root f v x h HV HF) as (h1 & m & HC). unfold h_mark_from_dict.
  pose proof (copy_cheap f v x [] h HV) as [_ LC]. unfold grown.
  pose proof (bound_ge v) as HB.
  destruct v as [|b|z|fl|y|vs|vs|];
    try (destruct HC as (x' & E & HX); rewrite E in LC; unfold hbind at 1; rewrite E; destruct x' as [| | | | | |a0]; [cbn in *; lia..|destruct (HX a0 eq_refl)]).
  - destruct HC as (a & l & E & HA). rewrite E in LC. unfold hbind. rewrite E. unfold get_obj. rewrite HA. cbn in *. lia.
  - destruct HC as (a & d1 & E & HA & HD). rewrite E in LC. unfold hbind at 1. rewrite E. cbn beta iota. unfold hbind at 1. unfold get_obj at 1. rewrite HA. cbn beta iota.
    cbn [fst snd] in LC. pose proof (dict_bound vs) as HDB.
    set (st := match lookup (s "attrs") d1 with Some av => _ | None => _ end). destruct (st h1) as [[h2 lg2] r2] eqn:ES.
    assert (L2 : List.length h2 <= List.length h1 + 1 /\ (forall u, r2 = Val u -> kept a (s "attrs") d1 h1 h2)).
    { unfold st in ES. assert (ID : (h1, @nil warning, Val tt) = (h2, lg2, r2) -> List.length h2 <= List.length h1 + 1 /\ (forall u : unit, r2 = Val u -> kept a (s "attrs") d1 h1 h2)).
      { intros [= <- <- <-]. split; [lia|]. intros _ _. split; [apply step_refl|]. exists d1. auto. }
      destruct (lookup (s "attrs") d1) as [av|]; [|apply ID, ES]. destruct (mk_attrs k) as [fs|]; [|apply ID, ES].
      eapply attrs_set_cost; eauto. }
    destruct L2 as [L2 K2]. unfold hbind at 1. rewrite ES. destruct r2 as [u|e|]; cbn [fst snd]; try lia.
    destruct (K2 u eq_refl) as (S2 & dc & N2 & _). unfold hbind, get_obj. rewrite N2. cbn beta iota.
    set (B := bound (VDict vs)) in *. clearbody B. destruct (mk_attrs k); [destruct (lookup (s "attrs") dc)|]; cbn; rewrite ?app_length; cbn [List.length]; lia.
Qed.
Lemma parse_mark_cost f v x h : denotes h v x -> size v <= f -> grown (bound v) h (h_parse_mark f x h).
Proof.
  intros HV HF. unfold h_parse_mark, grown. destruct x as [| | | | | |a]; try (cbn; lia).
  unfold hbind, get_obj. destruct (nth_error h a) as [[l|d|t d]|]; try (cbn; lia).
  destruct (lookup (s "type") d) as [ty|]; try (cbn; lia). destruct (h_type ty) as [t|]; try (cbn; lia).
  destruct (mark_class_of t) as [k| |]; try (cbn; lia). pose proof (mark_cost f k v (Ref a) h HV HF) as HM. unfold grown in HM.
  destruct (h_mark_from_dict f k (Ref a) h) as [[h' lg] o]. exact HM.
Qed.

Section Node.
  Context (w : bool) (f : nat) (pn pm : hval -> H hval).
  Hypothesis WN : well_behaved pn.
  Hypothesis WM : well_behaved pm.
  Lemma node_cost k v x h : denotes h v x -> size v <= f ->
    (forall u, size u < size v -> forall h x, denotes h u x -> grown (bound u) h (pn x h)) ->
    (forall u, size u < size v -> forall h x, denotes h u x -> grown (bound u) h (pm x h)) ->
    grown (bound v) h (h_node_from_dict f w pn pm k x h).
  Proof using WN WM.
    intros HV HF HN HM. destruct (copy_root f v x h HV HF) as (h1 & m & HC). unfold h_node_from_dict.
    pose proof (copy_cheap f v x [] h HV) as [_ LC]. unfold grown.
    pose proof (bound_ge v) as HB.
    destruct v as [|b|z|fl|y|vs|vs|];
      try (destruct HC as (x' & E & HX); rewrite E in LC; unfold hbind at 1; rewrite E; destruct x' as [| | | | | |a0]; [cbn in *; lia..|destruct (HX a0 eq_refl)]).
    - destruct HC as (a & l & E & HA). rewrite E in LC. unfold hbind. rewrite E. unfold get_obj. rewrite HA. cbn in *. lia.
    - destruct HC as (a & d1 & E & HA & HD). rewrite E in LC. unfold hbind at 1. rewrite E. cbn beta iota. unfold hbind at 1. unfold get_obj at 1. rewrite HA. cbn beta iota.
      cbn [fst snd] in LC. pose proof (dict_bound vs) as HDB.
      assert (LK : forall key, value_entry (hide (nth_error h1) [a]) (lookup key vs) (lookup key d1)) by (intros key; apply all2_lookup, HD).
      set (st := match lookup (s "attrs") d1 with Some av => _ | None => _ end). destruct (st h1) as [[h2 lg2] r2] eqn:ES.
      assert (L2 : List.length h2 <= List.length h1 + 1 /\ (forall u, r2 = Val u -> kept a (s "attrs") d1 h1 h2)).
      { unfold st in ES. assert (ID : (h1, @nil warning, Val tt) = (h2, lg2, r2) -> List.length h2 <= List.length h1 + 1 /\ (forall u : unit, r2 = Val u -> kept a (s "attrs") d1 h1 h2)).
        { intros [= <- <- <-]. split; [lia|]. intros _ _. split; [apply step_refl|]. exists d1. auto. }
        destruct (lookup (s "attrs") d1) as [av|]; [|apply ID, ES]. destruct (nc_attrs (nk_class k)) as [[fk fs]|]; [|apply ID, ES].
        eapply attrs_set_cost; eauto. }
      destruct L2 as [L2 K2]. unfold hbind at 1. rewrite ES. destruct r2 as [u|e|]; cbn [fst snd]; try lia.
      destruct (K2 u eq_refl) as (S2 & dc & N2 & O2). clear K2 ES st.
      destruct (h_children w pn a (s "content") h2) as [[h3 lg3] r3] eqn:E3.
      destruct (children_cost pn bound w a WN h2 dc (s "content") (lookup (s "content") vs) h3 lg3 r3) as [L3 K3]; [exact N2| | |exact E3|].
      { eapply (entry_step _ _ (s "attrs")); [apply step_sub, S2|exact O2|reflexivity|apply LK]. }
      { intros l HL u' Hu. apply HN. apply size_lookup in HL. pose proof (size_list l u' Hu). lia. }
      unfold hbind at 1. rewrite E3. destruct r3 as [u3|e|]; cbn [fst snd]; try lia.
      destruct (K3 u3 eq_refl) as (S3 & dc3 & N3 & O3). clear K3 E3.
      destruct (h_children w pm a (s "marks") h3) as [[h4 lg4] r4] eqn:E4.
      destruct (children_cost pm bound w a WM h3 dc3 (s "marks") (lookup (s "marks") vs) h4 lg4 r4) as [L4 K4]; [exact N3| | |exact E4|].
      { eapply (entry_step _ _ (s "content")); [apply step_sub, S3|exact O3|reflexivity|].
        eapply (entry_step _ _ (s "attrs")); [apply step_sub, S2|exact O2|reflexivity|apply LK]. }
      { intros l HL u' Hu. apply HM. apply size_lookup in HL. pose proof (size_list l u' Hu). lia. }
      unfold hbind at 1. rewrite E4. destruct r4 as [u4|e|]; cbn [fst snd]; try lia.
      destruct (K4 u4 eq_refl) as (S4 & dc4 & N4 & O4). unfold hbind, get_obj. rewrite N4. cbn beta iota.
      pose proof (construct_cost k dc4 h4) as L5. unfold grown in L5. destruct (h_construct k dc4 h4) as [[h5 lg5] r5]. cbn [fst snd] in *. lia.
  Qed.
End Node.
Lemma parse_node_cost w : forall f v x h, denotes h v x -> size v < f -> grown (bound v) h (h_parse_node f w x h).
Proof.
  induction f as [|f IH]; intros v x h HV HF; [lia|]. cbn [h_parse_node]. unfold grown. destruct x as [| | | | | |a]; try (cbn; lia).
  unfold hbind, get_obj. destruct (nth_error h a) as [[l|d|t d]|]; try (cbn; lia).
  destruct (lookup (s "type") d) as [ty|]; try (cbn; lia). destruct (h_type ty) as [t|]; try (cbn; lia).
  destruct (node_class_of t) as [k| |]; try (cbn; lia).
  assert (HM : grown (bound v) h (h_node_from_dict f w (h_parse_node f w) (h_parse_mark f) k (Ref a) h)).
  { apply node_cost; [intros base u; apply ok_parse_node|intros base u; apply ok_parse_mark|exact HV|lia| |].
    - intros u Hu h' x' HX. apply IH; [exact HX|lia].
    - intros u Hu h' x' HX. apply parse_mark_cost; [exact HX|lia]. }
  unfold grown in HM. destruct (h_node_from_dict f w (h_parse_node f w) (h_parse_mark f) k (Ref a) h) as [[h' lg] o]. exact HM.
Qed.
Lemma from_dict_cost w k f v x h : denotes h v x -> size v <= f -> grown (bound v) h (h_from_dict f w k x h).
Proof.
  intros HV HF. apply node_cost; [intros base u; apply ok_parse_node|intros base u; apply ok_parse_mark|exact HV|exact HF| |].
  - intros u Hu h' x' HX. apply parse_node_cost; [exact HX|lia].
  - intros u Hu h' x' HX. apply parse_mark_cost; [exact HX|lia].
Qed.
