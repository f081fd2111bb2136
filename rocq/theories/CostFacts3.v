(** A chain of block quotes costs quadratically many objects, to parse and to serialize. *)
From Coq Require Import List NArith ZArith Bool String Arith Lia.
From Verif Require Import PyStr Values Schema Parse Basics Heap SpecHeap HeapFacts DenFacts CopyFacts HeapRefine HeapDict HeapDictFacts SpecCost CostFacts.
Import ListNotations.
Open Scope string_scope.
Open Scope list_scope.
Open Scope nat_scope.

(** The chain in memory, outermost first. *)
Fixpoint layout (n : nat) (b : addr) : heap :=
  match n with
  | O => [ODict [(s "type", HStr (s "rule"))]]
  | S m => ODict [(s "type", HStr (s "blockquote")); (s "content", Ref (S b))] :: OList [Ref (S (S b))] :: layout m (S (S b))
  end.
Fixpoint laid (h : heap) (a : addr) (n : nat) : Prop :=
  match n with
  | O => nth_error h a = Some (ODict [(s "type", HStr (s "rule"))])
  | S m => nth_error h a = Some (ODict [(s "type", HStr (s "blockquote")); (s "content", Ref (S a))]) /\
           nth_error h (S a) = Some (OList [Ref (S (S a))]) /\ laid h (S (S a)) m
  end.
Lemma layout_length n b : List.length (layout n b) = S (2 * n).
Proof. revert b. induction n as [|n IH]; intros b; [reflexivity|]. cbn [layout List.length]. rewrite IH. lia. Qed.
Lemma laid_grows h h' n : forall a, grows h h' -> laid h a n -> laid h' a n.
Proof.
  induction n as [|n IH]; intros a HG; cbn [laid].
  - now apply (grows_sub h h').
  - intros (H1 & H2 & H3). split; [now apply (grows_sub h h')|]. split; [now apply (grows_sub h h')|]. now apply IH.
Qed.
Lemma grows_app h r : grows h (h ++ r).
Proof. split; [rewrite app_length; lia|]. intros a Ha. now apply nth_error_app1. Qed.
Lemma nth_here {A} (h : list A) x r : nth_error (h ++ x :: r) (List.length h) = Some x.
Proof. rewrite nth_error_app2, Nat.sub_diag by lia. reflexivity. Qed.
Lemma nth_next {A} (h : list A) x y r : nth_error (h ++ x :: y :: r) (S (List.length h)) = Some y.
Proof. rewrite nth_error_app2 by lia. replace (S (List.length h) - List.length h) with 1 by lia. reflexivity. Qed.
Lemma laid_layout n : forall h, laid (h ++ layout n (List.length h)) (List.length h) n.
Proof.
  induction n as [|n IH]; intros h; cbn [laid layout].
  - apply nth_here.
  - split; [apply nth_here|]. split; [apply nth_next|].
    set (x := ODict _). set (y := OList _). specialize (IH ((h ++ [x]) ++ [y])).
    assert (EL : List.length ((h ++ [x]) ++ [y]) = S (S (List.length h))) by (rewrite !app_length; cbn; lia).
    rewrite EL in IH. rewrite <- !app_assoc in IH. exact IH.
Qed.
Lemma laid_den h n : forall a, laid h a n -> denotes h (quotes n) (Ref a).
Proof.
  unfold denotes. induction n as [|n IH]; intros a; cbn [laid quotes].
  - intros H. eexists _, _. split; [reflexivity|]. split; [exact H|]. cbn. auto.
  - intros (H1 & H2 & H3). eexists _, _. split; [reflexivity|]. split; [exact H1|]. cbn [all2 fst snd]. split; [split; reflexivity|].
    split; [|exact I]. split; [reflexivity|]. eexists _, _. split; [reflexivity|]. split; [exact H2|]. cbn [all2]. split; [apply IH, H3|exact I].
Qed.

Lemma set_here (h : heap) x y r : set_nth (h ++ x :: r) (List.length h) y = h ++ y :: r.
Proof. induction h as [|z h IH]; cbn; [reflexivity|]. now rewrite IH. Qed.
Lemma copy_chain n : forall a m h f, laid h a n -> (forall c, a <= c -> memo_get c m = None) -> S (2 * n) <= f ->
  exists m', deepcopy f (Ref a) m h = (h ++ layout n (List.length h), [], Val (Ref (List.length h), m')).
Proof.
  induction n as [|n IH]; intros a m h f HL HM HF; cbn [laid] in HL.
  - destruct f as [|f]; [lia|]. cbn [deepcopy]. rewrite (HM a (le_n a)). unfold hbind, get_obj, alloc. rewrite HL. cbn beta iota.
    cbn [items_of map snd copy_items]. destruct f; cbn [deepcopy]; unfold hbind, hret, write; cbn beta iota;
      eexists; rewrite set_here; reflexivity.
  - destruct HL as (H1 & H2 & H3). destruct f as [|[|f]]; [lia|lia|].
    set (x := with_items (ODict [(s "type", HStr (s "blockquote")); (s "content", Ref (S a))]) []). set (y := with_items (OList [Ref (S (S a))]) []).
    set (b := List.length h).
    destruct (IH (S (S a)) ((S a, S b) :: (a, b) :: m) ((h ++ [x]) ++ [y]) f) as (m' & E).
    { eapply laid_grows; [|exact H3]. eapply grows_trans; apply grows_snoc. }
    { intros c Hc. cbn [memo_get]. destruct (Nat.eqb_spec (S a) c); [lia|]. destruct (Nat.eqb_spec a c); [lia|]. apply HM. lia. }
    { lia. }
    assert (EL : List.length ((h ++ [x]) ++ [y]) = S (S b)) by (rewrite !app_length; unfold b; cbn; lia). rewrite EL in E.
    assert (EB : List.length (h ++ [x]) = S b) by (rewrite app_length; unfold b; cbn; lia).
    assert (E1 : deepcopy (S f) (Ref (S a)) ((a, b) :: m) (h ++ [x]) = ((h ++ [x]) ++ OList [Ref (S (S b))] :: layout n (S (S b)), [], Val (Ref (S b), m'))).
    { cbn [deepcopy memo_get]. destruct (Nat.eqb_spec a (S a)) as [HX|_]; [lia|]. rewrite (HM (S a)) by lia.
      unfold hbind at 1, get_obj at 1. rewrite (grows_sub h (h ++ [x]) (grows_snoc h x) _ _ H2). cbn beta iota.
      unfold hbind at 1, alloc at 1. cbn beta iota. fold y. rewrite EB. cbn [items_of copy_items]. unfold hbind.
      match goal with |- context [deepcopy f ?p ?q ?r] => change (deepcopy f p q r) with (deepcopy f (Ref (S (S a))) ((S a, S b) :: (a, b) :: m) ((h ++ [x]) ++ [y])) end.
      rewrite E. cbn beta iota. unfold hret, write. cbn beta iota.
      rewrite <- (app_assoc (h ++ [x])). cbn [app]. assert (SH : forall z r, set_nth ((h ++ [x]) ++ y :: r) (S b) z = (h ++ [x]) ++ z :: r) by (intros z r; rewrite <- EB; apply set_here).
      rewrite SH. reflexivity. }
    exists m'.
    assert (E2 : copy_items (deepcopy (S f)) [HStr (s "blockquote"); Ref (S a)] ((a, b) :: m) (h ++ [x]) =
      ((h ++ [x]) ++ OList [Ref (S (S b))] :: layout n (S (S b)), [], Val ([HStr (s "blockquote"); Ref (S b)], m'))).
    { cbn [copy_items]. change (deepcopy (S f) (HStr (s "blockquote"))) with (fun m : memo => @hret (hval * memo) (HStr (s "blockquote"), m)).
      unfold hbind, hret. cbn beta iota.
      match goal with |- context [deepcopy (S f) (Ref (S a)) ?q ?r] => change (deepcopy (S f) (Ref (S a)) q r) with (deepcopy (S f) (Ref (S a)) ((a, b) :: m) (h ++ [x])) end.
      rewrite E1. reflexivity. }
    change (deepcopy (S (S f)) (Ref a) m h) with (match memo_get a m with Some b => hret (Ref b, m) | None =>
              let! o <- get_obj a;
              match o with
              | None => hraise TypeError
              | Some o =>
                  let! b <- alloc (with_items o []);
                  let! (l, m') <- copy_items (deepcopy (S f)) (items_of o) ((a, b) :: m);
                  let! _ <- write b (with_items o l);
                  hret (Ref b, m')
              end end h).
    rewrite (HM a (le_n a)). unfold hbind, get_obj, alloc. rewrite H1. cbn beta iota.
    match goal with |- context [copy_items (deepcopy (S f)) ?p ?q ?r] => change (copy_items (deepcopy (S f)) p q r) with
      (copy_items (deepcopy (S f)) [HStr (s "blockquote"); Ref (S a)] ((a, b) :: m) (h ++ [x])) end.
    rewrite E2. cbn beta iota. unfold write, hret. cbn beta iota. rewrite <- (app_assoc h). cbn [app]. rewrite set_here. reflexivity.
Qed.

(** Nothing shrinks. *)
Lemma sep0 h : sep 0 h.
Proof. intros a o _ _. unfold fresh_obj, fresh. apply Forall_forall. intros x _ b _. lia. Qed.
Definition never_shrinks {A} (m : H A) : Prop := forall h, List.length h <= List.length (fst (fst (m h))).
Lemma ok_shrink {A} (m : H A) P : ok 0 m P -> never_shrinks m.
Proof. intros HO h. specialize (HO h (Nat.le_0_l _) (sep0 h)). destruct (m h) as [[h' lg] o]. cbn. apply HO. Qed.
Lemma fresh0 l : Forall (fresh 0) l.
Proof. apply Forall_forall. intros x _ b _. lia. Qed.
Lemma bind_ge {A B} (m : H A) (k : A -> H B) h : (forall a, never_shrinks (k a)) -> List.length (fst (fst (m h))) <= List.length (fst (fst (hbind m k h))).
Proof.
  intros HK. unfold hbind. destruct (m h) as [[h1 lg1] [a|e|]]; cbn [fst snd]; try lia. specialize (HK a h1). destruct (k a h1) as [[h2 lg2] o2]. exact HK.
Qed.
Lemma bind_shrink {A B} (m : H A) (k : A -> H B) : never_shrinks m -> (forall a, never_shrinks (k a)) -> never_shrinks (hbind m k).
Proof. intros HM HK h. etransitivity; [apply HM|]. now apply bind_ge. Qed.

Lemma parse_chain w n : forall f a h, laid h a n -> S (2 * n) < f ->
  List.length h + n * n <= List.length (fst (fst (h_parse_node f w (Ref a) h))).
Proof.
  induction n as [|n IH]; intros f a h HL HF.
  - pose proof (ok_shrink _ _ (ok_parse_node 0 w f (Ref a)) h). lia.
  - destruct f as [|f]; [lia|]. pose proof HL as (H1 & H2 & H3). cbn [h_parse_node]. unfold hbind at 1, get_obj at 1. rewrite H1.
    change (lookup (s "type") [(s "type", HStr (s "blockquote")); (s "content", Ref (S a))]) with (Some (HStr (s "blockquote"))). cbn [h_type].
    change (node_class_of (VStr (s "blockquote"))) with (Found Kblockquote). cbn beta iota.
    assert (HN : List.length h + S n * S n <= List.length (fst (fst (h_node_from_dict f w (h_parse_node f w) (h_parse_mark f) Kblockquote (Ref a) h)))).
    2:{ destruct (h_node_from_dict f w _ _ _ (Ref a) h) as [[h' lg] o]. exact HN. }
    unfold h_node_from_dict. destruct (copy_chain (S n) a [] h f HL) as (m' & E); [reflexivity|lia|].
    unfold hbind at 1. rewrite E. cbn beta iota. set (b := List.length h). pose proof (laid_layout (S n) h) as HB. fold b in HB |- *.
    set (h1 := h ++ layout (S n) b) in *. destruct HB as (B1 & B2 & B3).
    assert (L1 : List.length h1 = List.length h + S (2 * S n)) by (unfold h1; now rewrite app_length, layout_length).
    unfold hbind at 1, get_obj at 1. rewrite B1. cbn beta iota.
    change (lookup (s "attrs") [(s "type", HStr (s "blockquote")); (s "content", Ref (S b))]) with (@None hval). cbn iota.
    unfold hbind at 1, hret at 1. cbn beta iota.
    match goal with |- context [hbind (h_children w ?p b (s "content")) ?k h1] => 
      assert (HG : List.length h1 + n * n <= List.length (fst (fst (hbind (h_children w p b (s "content")) k h1)))) end.
    { etransitivity; [|apply bind_ge].
      - unfold h_children. unfold hbind at 1, get_obj at 1. rewrite B1. cbn beta iota.
        change (lookup (s "content") [(s "type", HStr (s "blockquote")); (s "content", Ref (S b))]) with (Some (Ref (S b))). cbn iota.
        unfold hbind at 1, get_obj at 1. rewrite B2. cbn beta iota.
        match goal with |- context [hbind (h_collect w ?p ?l) ?k h1] => assert (HC : List.length h1 + n * n <= List.length (fst (fst (hbind (h_collect w p l) k h1)))) end.
        { etransitivity; [|apply bind_ge].
          - cbn [h_collect]. specialize (IH f (S (S b)) h1 B3). destruct (h_parse_node f w (Ref (S (S b))) h1) as [[h2 lg2] o2]. cbn [fst snd] in IH.
            destruct o2 as [y|e|]; [|destruct e|]; cbn [fst snd]; unfold hbind, hret; cbn [fst snd]; apply IH; lia.
          - intros ys. apply bind_shrink; [intros h2; unfold alloc; cbn; rewrite app_length; lia|]. intros c. eapply ok_shrink, ok_setitem; [lia|intros ? ?; lia]. }
        match goal with |- context [hbind (h_collect w ?p ?l) ?k h1] => destruct (hbind (h_collect w p l) k h1) as [[h2 lg2] o2] end. exact HC.
      - intros u. apply bind_shrink.
        + eapply ok_shrink, ok_children; [lia|]. intros v. apply ok_parse_mark.
        + intros u'. apply bind_shrink; [intros h2; cbn; lia|]. intros [[l|d|t d]|]; try (intros h2; cbn; lia).
          eapply ok_shrink, ok_construct, fresh0. }
    match goal with |- context [hbind (h_children w ?p b (s "content")) ?k h1] => destruct (hbind (h_children w p b (s "content")) k h1) as [[h2 lg2] o2] end.
    cbn [fst snd] in HG |- *. nia.
Qed.
Lemma quotes_containers n : containers (quotes n) = S (2 * n).
Proof. induction n as [|n IH]; [reflexivity|]. cbn [quotes containers sum_with]. rewrite IH. lia. Qed.
Lemma quotes_size n : size (quotes n) = 2 + 3 * n.
Proof. induction n as [|n IH]; [reflexivity|]. cbn [quotes size sum_with]. rewrite IH. lia. Qed.

(** The parsed chain in memory. *)
Definition rule_fields : list (str * hval) := [(s "type", HStr (s "rule")); (s "attrs", HOpt)].
Definition quote_fields (c : addr) : list (str * hval) := [(s "type", HStr (s "blockquote")); (s "attrs", HOpt); (s "content", Ref c)].
Fixpoint objects (n : nat) (b : addr) : heap :=
  match n with
  | O => [OInst (TNode Krule) rule_fields]
  | S m => OInst (TNode Kblockquote) (quote_fields (S b)) :: OList [Ref (S (S b))] :: objects m (S (S b))
  end.
Fixpoint placed (h : heap) (a : addr) (n : nat) : Prop :=
  match n with
  | O => nth_error h a = Some (OInst (TNode Krule) rule_fields)
  | S m => nth_error h a = Some (OInst (TNode Kblockquote) (quote_fields (S a))) /\
           nth_error h (S a) = Some (OList [Ref (S (S a))]) /\ placed h (S (S a)) m
  end.
Lemma placed_grows h h' n : forall a, grows h h' -> placed h a n -> placed h' a n.
Proof.
  induction n as [|n IH]; intros a HG; cbn [placed].
  - now apply (grows_sub h h').
  - intros (H1 & H2 & H3). split; [now apply (grows_sub h h')|]. split; [now apply (grows_sub h h')|]. now apply IH.
Qed.
Lemma placed_objects n : forall h, placed (h ++ objects n (List.length h)) (List.length h) n.
Proof.
  induction n as [|n IH]; intros h; cbn [placed objects].
  - apply nth_here.
  - split; [apply nth_here|]. split; [apply nth_next|].
    set (x := OInst _ _). set (y := OList _). specialize (IH ((h ++ [x]) ++ [y])).
    assert (EL : List.length ((h ++ [x]) ++ [y]) = S (S (List.length h))) by (rewrite !app_length; cbn; lia).
    rewrite EL in IH. rewrite <- !app_assoc in IH. exact IH.
Qed.
Lemma placed_den h n : forall a, placed h a n -> denotes_node h (quote_node n) (Ref a).
Proof.
  unfold denotes_node. induction n as [|n IH]; intros a; cbn [placed quote_node].
  - intros H. eexists _, _. split; [reflexivity|]. split; [exact H|].
    split; [exists (HStr (s "rule")); split; reflexivity|]. do 5 (split; [reflexivity|]). split; reflexivity.
  - intros (H1 & H2 & H3). eexists _, _. split; [reflexivity|]. split; [exact H1|].
    split; [exists (HStr (s "blockquote")); split; reflexivity|]. do 3 (split; [reflexivity|]).
    split; [|split; reflexivity]. exists (S a), [Ref (S (S a))]. split; [reflexivity|]. split; [exact H2|]. split; [now apply IH|exact I].
Qed.
Fixpoint dicts (n : nat) (b : addr) : heap :=
  match n with
  | O => [ODict rule_fields]
  | S m => dicts m b ++ [OList [Ref (b + 2 * m)]; ODict (quote_fields (S (b + 2 * m)))]
  end.
Lemma dicts_length n b : List.length (dicts n b) = S (2 * n).
Proof. induction n as [|n IH]; [reflexivity|]. cbn [dicts]. rewrite app_length, IH. cbn [List.length]. lia. Qed.
Lemma asdict_chain n : forall a h f, placed h a n -> S (2 * n) <= f ->
  h_asdict f (Ref a) h = (h ++ dicts n (List.length h), [], Val (Ref (List.length h + 2 * n))).
Proof.
  induction n as [|n IH]; intros a h f HP HF; cbn [placed] in HP.
  - destruct f as [|f]; [lia|]. cbn [h_asdict]. unfold hbind at 1, get_obj. rewrite HP. destruct f; (rewrite Nat.add_0_r; reflexivity).
  - destruct HP as (H1 & H2 & H3). destruct f as [|[|f]]; [lia|lia|].
    assert (E1 : h_asdict (S f) (Ref (S a)) h = (h ++ dicts n (List.length h) ++ [OList [Ref (List.length h + 2 * n)]], [], Val (Ref (S (List.length h + 2 * n))))).
    { cbn [h_asdict]. unfold hbind at 1, get_obj. rewrite H2. cbn beta iota. cbn [hmap]. unfold hbind. rewrite (IH (S (S a)) h f H3) by lia. cbn beta iota.
      unfold hret, alloc. cbn beta iota. rewrite <- app_assoc, app_length, dicts_length. repeat f_equal. lia. }
    change (h_asdict (S (S f)) (Ref a) h) with (hbind (get_obj a) (fun o => match o with
          | None => hraise TypeError
          | Some (OList l) => let! ys <- hmap (h_asdict (S f)) l; let! b <- alloc (OList ys); hret (Ref b)
          | Some (ODict d) | Some (OInst _ d) =>
              let! ys <- hmap (h_asdict (S f)) (map snd d);
              let! b <- alloc (ODict (combine (map fst d) ys)); hret (Ref b) end) h).
    unfold hbind at 1, get_obj. rewrite H1. cbn beta iota.
    assert (E2 : hmap (h_asdict (S f)) (map snd (quote_fields (S a))) h = (h ++ dicts n (List.length h) ++ [OList [Ref (List.length h + 2 * n)]], [], Val [HStr (s "blockquote"); HOpt; Ref (S (List.length h + 2 * n))])).
    { cbn [quote_fields map snd hmap]. change (h_asdict (S f) (HStr (s "blockquote"))) with (@hret hval (HStr (s "blockquote"))).
      change (h_asdict (S f) HOpt) with (@hret hval HOpt). unfold hbind, hret. cbn beta iota.
      match goal with |- context [h_asdict (S f) (Ref (S a)) ?z] => change (h_asdict (S f) (Ref (S a)) z) with (h_asdict (S f) (Ref (S a)) h) end.
      rewrite E1. reflexivity. }
    unfold hbind. rewrite E2. unfold alloc, hret. cbn beta iota. cbn [quote_fields map fst combine dicts]. rewrite <- !app_assoc, !app_length, dicts_length.
    cbn [app List.length]. replace (List.length h + (S (2 * n) + 1)) with (List.length h + 2 * S n) by lia. reflexivity.
Qed.
Lemma to_dict_chain n : forall f a h, placed h a n -> S (2 * n) < f ->
  List.length h + n * n <= List.length (fst (fst (h_to_dict f (Ref a) h))).
Proof.
  induction n as [|n IH]; intros f a h HL HF.
  - pose proof (ok_shrink _ _ (ok_to_dict 0 f (Ref a)) h). lia.
  - destruct f as [|f]; [lia|]. pose proof HL as (H1 & H2 & H3). cbn [h_to_dict]. unfold hbind at 1, get_obj at 1. rewrite H1. cbn beta iota.
    unfold hbind at 1. rewrite (asdict_chain (S n) a h f HL) by lia. cbn beta iota.
    set (h1 := h ++ dicts (S n) (List.length h)). set (r := List.length h + 2 * S n).
    assert (L1 : List.length h1 = List.length h + S (2 * S n)) by (unfold h1; now rewrite app_length, dicts_length).
    assert (HR : nth_error h1 r = Some (ODict (quote_fields (S (List.length h + 2 * n))))).
    { unfold h1, r. rewrite nth_error_app2 by lia. replace (List.length h + 2 * S n - List.length h) with (S (S (2 * n))) by lia. cbn [dicts].
      rewrite nth_error_app2 by (rewrite dicts_length; lia). rewrite dicts_length. replace (S (S (2 * n)) - S (2 * n)) with 1 by lia. reflexivity. }
    unfold hbind at 1, get_obj at 1. rewrite HR. cbn beta iota zeta.
    change (lookup (s "attrs") (quote_fields (S (List.length h + 2 * n)))) with (Some HOpt). cbn iota. unfold hbind at 1, hret at 1. cbn beta iota.
    change (lookup (s "content") (quote_fields (S (List.length h + 2 * n)))) with (Some (Ref (S (List.length h + 2 * n)))).
    change (lookup (s "content") (quote_fields (S a))) with (Some (Ref (S a))). cbn iota.
    match goal with |- context [hbind (hbind (h_iter ?c) ?k1) ?k h1] => assert (HG : List.length h1 + n * n <= List.length (fst (fst (hbind (hbind (h_iter c) k1) k h1)))) end.
    { etransitivity; [|apply bind_ge].
      - assert (G1 : grows h h1) by apply grows_app.
        assert (EI : h_iter (Ref (S a)) h1 = (h1, [], Val [Ref (S (S a))])) by (unfold h_iter, hbind, get_obj; rewrite (grows_sub _ _ G1 _ _ H2); reflexivity).
        unfold hbind at 1. rewrite EI. cbn beta iota.
        match goal with |- context [hbind (hmap ?p ?l) ?k h1] => assert (HC : List.length h1 + n * n <= List.length (fst (fst (hbind (hmap p l) k h1)))) end.
        { etransitivity; [|apply bind_ge].
          - cbn [hmap]. specialize (IH f (S (S a)) h1 (placed_grows _ _ _ _ G1 H3)). unfold hbind. destruct (h_to_dict f (Ref (S (S a))) h1) as [[h2 lg2] [y|e|]];
              unfold hret; cbn [fst snd] in *; apply IH; lia.
          - intros ys. apply bind_shrink; [intros h2; unfold alloc; cbn; rewrite app_length; lia|]. intros c. eapply ok_shrink, ok_setitem; [lia|intros ? ?; lia]. }
        match goal with |- context [hbind (hmap ?p ?l) ?k h1] => destruct (hbind (hmap p l) k h1) as [[h2 lg2] o2] end. exact HC.
      - intros u. apply bind_shrink; [change (lookup (s "marks") (quote_fields (S (List.length h + 2 * n)))) with (@None hval); intros h2; cbn; lia|]. intros u'. intros h2. unfold h_remove_optional, hbind, get_obj, alloc, hret, hraise.
        destruct (nth_error h2 r) as [[l|d|t d]|]; cbn [fst snd]; rewrite ?app_length; cbn [List.length]; lia. }
    match goal with |- context [hbind (hbind (h_iter ?c) ?k1) ?k h1] => destruct (hbind (hbind (h_iter c) k1) k h1) as [[h2 lg2] o2] end.
    cbn [fst snd] in HG |- *. nia.
Qed.
Lemma quote_node_objects n : node_objects (quote_node n) = S (2 * n).
Proof. induction n as [|n IH]; [reflexivity|]. cbn [quote_node node_objects slot_objects sum_with containers opt_objects attrs_objects]. rewrite IH. lia. Qed.
Lemma quote_node_size n : node_size (quote_node n) <= 5 + 6 * n.
Proof. induction n as [|n IH]; [cbn; lia|]. cbn [quote_node node_size slot_size sum_with size opt_size attrs_size]. lia. Qed.
