(** The heap program computes what the value model (Parse.v) says. *)
From Coq Require Import List NArith ZArith Bool String Arith Lia.
From Verif Require Import PyStr Values Schema Parse Basics Heap SpecHeap HeapFacts DenFacts CopyFacts.
Import ListNotations.
Open Scope string_scope.
Open Scope list_scope.
Open Scope nat_scope.

Definition matches {A} (R : store -> A -> hval -> Prop) (q : M A) (r : heap * list warning * out hval) : Prop :=
  match q with
  | (lg, Ok n) => exists h' y, r = (h', lg, Val y) /\ R (nth_error h') n y
  | (lg, Err e) => exists h', r = (h', lg, Exc e)
  end.
Definition well_behaved (p : hval -> H hval) : Prop := forall base v, ok base (p v) (fresh base).
Lemma wb_use p h x h' lg o : well_behaved p -> p x h = (h', lg, o) ->
  grows h h' /\ sep (List.length h) h' /\ forall y, o = Val y -> fresh (List.length h) y.
Proof.
  intros HP HE. specialize (HP (List.length h) x h (le_n _)). rewrite HE in HP. destruct HP as ([L K] & HS & HF).
  - intros a o' Ha HN. apply nth_lt in HN. lia.
  - split; [split; [lia|exact K]|]. auto.
Qed.

(** The heap changed only at [a] and by allocation. *)
Definition step (a : addr) (h h' : heap) : Prop :=
  List.length h <= List.length h' /\ forall c, c <> a -> c < List.length h -> nth_error h' c = nth_error h c.
Lemma step_refl a h : step a h h.
Proof. split; auto. Qed.
Lemma step_trans a h1 h2 h3 : step a h1 h2 -> step a h2 h3 -> step a h1 h3.
Proof. intros [L1 H1] [L2 H2]. split; [lia|]. intros c N Hc. rewrite H2 by lia. now apply H1. Qed.
Lemma grows_step a h h' : grows h h' -> step a h h'.
Proof. intros [L H]. split; auto. Qed.
Lemma step_sub a h h' : step a h h' -> sub (hide (nth_error h) [a]) (hide (nth_error h') [a]).
Proof.
  intros [L H] c o HN. apply hide_spec in HN as [H1 H2]. apply hide_spec. split; [exact H1|]. rewrite H; [exact H2| |eapply nth_lt; eauto].
  intros ->. apply H1. now left.
Qed.
Lemma above_sub a (h h' : heap) : a < List.length h -> sub (above (List.length h) h') (hide (nth_error h') [a]).
Proof.
  intros HA c o. unfold above. destruct (Nat.leb_spec (List.length h) c); [|discriminate]. intros HN.
  apply hide_spec. split; [|exact HN]. intros [E|[]]. lia.
Qed.

(** Attrs. *)
Lemma missing_same g q fs d e : all2 (edge g) d e -> existsb (fun f => q (snd f) && negb (has (fst f) e)) fs = missing q fs d.
Proof.
  intros H. unfold missing. induction fs as [|f fs IH]; [reflexivity|]. cbn [existsb]. rewrite IH. f_equal. f_equal. f_equal.
  unfold has. pose proof (all2_lookup g d e (fst f) H) as HL. destruct (lookup (fst f) d).
  - destruct HL as (x & -> & _). reflexivity.
  - now rewrite HL.
Qed.
Lemma attrs_sim fs h a v x : a < List.length h -> den (hide (nth_error h) [a]) v x ->
  match attrs_from_dict fs v with
  | Ok l => exists h' i, h_attrs_from_dict fs x h = (h', [], Val i) /\ grows h h' /\ den_attrs (hide (nth_error h') [a]) l i
  | Err e => h_attrs_from_dict fs x h = (h, [], Exc e)
  end.
Proof.
  intros HA HV. destruct v as [|b|z|f|y|vs|vs|]; cbn in HV; try (subst x; reflexivity).
  - destruct HV as (c & l & -> & HC & _). apply hide_sub in HC. unfold attrs_from_dict, h_attrs_from_dict, hbind, get_obj. rewrite HC. reflexivity.
  - destruct HV as (c & d & -> & HC & H). apply hide_sub in HC. unfold attrs_from_dict, h_attrs_from_dict, hbind, get_obj. rewrite HC.
    change (all2 (edge (hide (nth_error h) [a])) vs d) in H.
    cbn beta iota. rewrite !(missing_same _ _ _ _ _ H).
    destruct (missing is_Pos fs vs); [reflexivity|]. destruct (missing is_Req fs vs); [reflexivity|].
    set (o := OInst TAttrs _). exists (h ++ [o]), (Ref (List.length h)). split; [reflexivity|]. split; [apply grows_snoc|].
    exists (List.length h). eexists. split; [reflexivity|]. split.
    { apply hide_spec. split; [intros [E|[]]; lia|]. rewrite nth_error_snoc, Nat.eqb_refl. reflexivity. }
    clearbody o. clear -HA H. induction fs as [|f fs IH]; cbn; [exact I|]. split; [|exact IH].
    split; [reflexivity|]. pose proof (all2_lookup _ _ _ (fst f) H) as HL. destruct (lookup (fst f) vs).
    + destruct HL as (x & -> & HX). eapply den_mono; [apply step_sub, grows_step, grows_snoc|exact HX].
    + rewrite HL. reflexivity.
Qed.

Section Collect.
  Context {A : Type} (R : store -> A -> hval -> Prop) (p : hval -> H hval) (q : value -> M A) (w : bool) (a : addr).
  Hypothesis R_mono : forall g g' n x, sub g g' -> R g n x -> R g' n x.
  Hypothesis R_from : forall h g' n x, from h x g' -> R (nth_error h) n x -> R g' n x.
  Hypothesis HP : well_behaved p.
  Lemma collect_sim : forall vs, (forall v, In v vs -> forall h x, denotes h v x -> matches R (q v) (p x h)) ->
    forall xs h, a < List.length h -> all2 (den (hide (nth_error h) [a])) vs xs ->
    match collect w (map q vs) with
    | (lg, Ok l) => exists h' ys, h_collect w p xs h = (h', lg, Val ys) /\ grows h h' /\ all2 (R (hide (nth_error h') [a])) l ys
    | (lg, Err e) => exists h', h_collect w p xs h = (h', lg, Exc e)
    end.
  Proof using R_mono R_from HP.
    induction vs as [|v vs IH]; intros HQ [|x xs] h HA HV; try (destruct HV; fail).
    - exists h, []. cbn. split; [reflexivity|]. split; [apply grows_refl|exact I].
    - destruct HV as [HV1 HV2]. cbn [map collect h_collect]. fold (h_collect w p).
      pose proof (HQ v (or_introl eq_refl) h x (den_mono _ _ (hide_sub _ _) _ _ HV1)) as HX. unfold matches in HX.
      destruct (q v) as [lg [n|e]].
      + destruct HX as (h1 & y & E1 & R1). rewrite E1. destruct (wb_use p h x _ _ _ HP E1) as (G1 & S1 & F1).
        specialize (F1 y eq_refl). assert (R2 : R (hide (nth_error h1) [a]) n y).
        { eapply R_mono; [apply above_sub, HA|]. eapply R_from; [apply from_above; [exact S1|exact F1]|exact R1]. }
        specialize (IH (fun u Hu => HQ u (or_intror Hu)) xs h1).
        destruct (collect w (map q vs)) as [lg2 [l|e]].
        * destruct IH as (h2 & ys & E2 & G2 & A2); [destruct G1; lia| |].
          { eapply all2_impl; [|exact HV2]. intros u z _ _ HZ. eapply den_mono; [apply step_sub, grows_step, G1|exact HZ]. }
          exists h2, (y :: ys). split; [|split].
          -- unfold hbind. rewrite E2. cbn. now rewrite !app_nil_r.
          -- eapply grows_trans; eauto.
          -- cbn. split; [|exact A2]. eapply R_mono; [apply step_sub, grows_step, G2|exact R2].
        * destruct IH as (h2 & E2); [destruct G1; lia| |].
          { eapply all2_impl; [|exact HV2]. intros u z _ _ HZ. eapply den_mono; [apply step_sub, grows_step, G1|exact HZ]. }
          exists h2. unfold hbind. rewrite E2. reflexivity.
      + destruct HX as (h1 & E1). rewrite E1. destruct (wb_use p h x _ _ _ HP E1) as (G1 & _ & _).
        destruct e; try (exists h1; reflexivity).
        specialize (IH (fun u Hu => HQ u (or_intror Hu)) xs h1).
        destruct (collect w (map q vs)) as [lg2 [l|e]].
        * destruct IH as (h2 & ys & E2 & G2 & A2); [destruct G1; lia| |].
          { eapply all2_impl; [|exact HV2]. intros u z _ _ HZ. eapply den_mono; [apply step_sub, grows_step, G1|exact HZ]. }
          exists h2, ys. split; [|split; [eapply grows_trans; eauto|exact A2]]. cbn [bind]. rewrite E2. now rewrite app_assoc.
        * destruct IH as (h2 & E2); [destruct G1; lia| |].
          { eapply all2_impl; [|exact HV2]. intros u z _ _ HZ. eapply den_mono; [apply step_sub, grows_step, G1|exact HZ]. }
          exists h2. cbn [bind]. rewrite E2. now rewrite app_assoc.
  Qed.

  Lemma lookup_put {B} k k' (v : B) d : lookup k (put k' v d) = if str_eqb k' k then Some v else lookup k d.
  Proof.
    induction d as [|[k1 v1] d IH]; cbn; [reflexivity|]. destruct (str_eqb k1 k') eqn:E; cbn.
    - apply str_eqb_eq in E. subst k1. now destruct (str_eqb k' k).
    - rewrite IH. destruct (str_eqb k1 k) eqn:E2; [|reflexivity]. apply str_eqb_eq in E2. subst k1.
      rewrite str_eqb_sym, E. reflexivity.
  Qed.
  Lemma setitem_run h dc k v : nth_error h a = Some (ODict dc) ->
    setitem a k v h = (set_nth h a (ODict (put k v dc)), [], Val tt) /\
    nth_error (set_nth h a (ODict (put k v dc))) a = Some (ODict (put k v dc)) /\ step a h (set_nth h a (ODict (put k v dc))).
  Proof.
    intros HN. split; [unfold setitem, hbind, get_obj; rewrite HN; reflexivity|]. split.
    - rewrite nth_error_set, Nat.eqb_refl. apply nth_lt in HN. apply Nat.ltb_lt in HN. now rewrite HN.
    - split; [rewrite set_nth_length; lia|]. intros c N _. rewrite nth_error_set. destruct (Nat.eqb_spec c a); [contradiction|reflexivity].
  Qed.

  Definition entry_of (o : option value) : entry A :=
    match o with None => EAbsent | Some (VList l) => EList (map q l) | Some v => EOther v end.
  Lemma children_sim h dc key o : nth_error h a = Some (ODict dc) ->
    match o with Some y => exists x, lookup key dc = Some x /\ den (hide (nth_error h) [a]) y x | None => lookup key dc = None end ->
    (forall l, o = Some (VList l) -> forall v, In v l -> forall h x, denotes h v x -> matches R (q v) (p x h)) ->
    match run_entry w (entry_of o) with
    | (lg, Ok r) => exists h' dc', h_children w p a key h = (h', lg, Val tt) /\ step a h h' /\ nth_error h' a = Some (ODict dc') /\
        (forall k, str_eqb key k = false -> lookup k dc' = lookup k dc) /\
        match r with
        | None => lookup key dc' = None
        | Some sl => slot_den (hide (nth_error h') [a]) (R (hide (nth_error h') [a])) sl (lookup key dc')
        end
    | (lg, Err e) => exists h', h_children w p a key h = (h', lg, Exc e)
    end.
  Proof using R_mono R_from HP.
    intros HN HL HQ. assert (HA : a < List.length h) by (eapply nth_lt; eauto).
    unfold h_children, hbind, get_obj. rewrite HN. cbn beta iota.
    destruct o as [v|]; [|rewrite HL; cbn; exists h, dc; repeat split; auto using step_refl].
    destruct HL as (x & HL & HX). rewrite HL.
    destruct v as [|b|z|f|y|vs|vs|]; cbn in HX; cbn [entry_of run_entry ret].
    all: try (subst x; exists h, dc; split; [reflexivity|]; split; [apply step_refl|]; split; [exact HN|]; split; [reflexivity|];
              rewrite HL; cbn; try (split; [split; intros ?; discriminate|]); eauto; fail).
    - destruct HX as (c & l & -> & HC & HV). pose proof (hide_sub _ _ _ _ HC) as HC'.
      pose proof (collect_sim vs (HQ vs eq_refl) l h HA HV) as HS. unfold hbind, get_obj. rewrite HC'. cbn beta iota.
      destruct (collect w (map q vs)) as [lg [r|e]]; cbn [bind].
      + destruct HS as (h1 & ys & E1 & G1 & A1). rewrite E1. cbn beta iota delta [alloc ret].
        destruct (setitem_run (h1 ++ [OList ys]) dc key (Ref (List.length h1))) as (E2 & N2 & S2).
        { apply (grows_sub h1); [apply grows_snoc|]. now apply (grows_sub h). }
        cbn beta iota. rewrite E2. eexists. eexists. split; [cbn; rewrite !app_nil_r; reflexivity|].
        assert (ST : step a h1 (set_nth (h1 ++ [OList ys]) a (ODict (put key (Ref (List.length h1)) dc)))).
        { eapply step_trans; [apply grows_step, grows_snoc|exact S2]. }
        split; [eapply step_trans; [apply grows_step, G1|exact ST]|]. split; [exact N2|]. split.
        { intros k HK. rewrite lookup_put, HK. reflexivity. }
        rewrite lookup_put, str_eqb_refl. cbn [slot_den].
        exists (List.length h1), ys. split; [reflexivity|]. split.
        * apply hide_spec. split; [intros [E|[]]; destruct G1; lia|]. rewrite nth_error_set.
          destruct (Nat.eqb_spec (List.length h1) a); [destruct G1; lia|]. rewrite nth_error_snoc, Nat.eqb_refl. reflexivity.
        * eapply all2_impl; [|exact A1]. intros n y _ _ HY. eapply R_mono; [apply step_sub, ST|exact HY].
      + destruct HS as (h1 & E1). rewrite E1. exists h1. reflexivity.
    - destruct HX as (c & d & -> & HC & HV). pose proof (hide_sub _ _ _ _ HC) as HC'. unfold hbind, get_obj. rewrite HC'. cbn beta iota.
      exists h, dc. split; [reflexivity|]. split; [apply step_refl|]. split; [exact HN|]. split; [reflexivity|].
      rewrite HL. split; [split; discriminate|]. exists (Ref c). split; [reflexivity|]. exists c, d. auto.
  Qed.
End Collect.

Lemma attrs_step fs a h dc v x : nth_error h a = Some (ODict dc) -> den (hide (nth_error h) [a]) v x ->
  match attrs_from_dict fs v with
  | Ok l => exists h' dc' i, (let! i <- h_attrs_from_dict fs x; setitem a (s "attrs") i) h = (h', [], Val tt) /\ step a h h' /\
              nth_error h' a = Some (ODict dc') /\ dc' = put (s "attrs") i dc /\ den_attrs (hide (nth_error h') [a]) l i
  | Err e => exists h', (let! i <- h_attrs_from_dict fs x; setitem a (s "attrs") i) h = (h', [], Exc e)
  end.
Proof.
  intros HN HV. pose proof (attrs_sim fs h a v x (nth_lt _ _ _ HN) HV) as HS. unfold hbind. destruct (attrs_from_dict fs v) as [l|e].
  - destruct HS as (h1 & i & E1 & G1 & D1). rewrite E1.
    destruct (setitem_run a h1 dc (s "attrs") i) as (E2 & N2 & S2); [now apply (grows_sub h)|].
    rewrite E2. eexists. eexists. exists i. split; [reflexivity|].
    split; [eapply step_trans; [apply grows_step, G1|exact S2]|]. split; [exact N2|]. split; [reflexivity|].
    eapply den_attrs_mono; [apply step_sub, S2|exact D1].
  - rewrite HS. eauto.
Qed.

(** What deepcopy leaves at the root. *)
Lemma copy_root f v x h : denotes h v x -> size v <= f ->
  exists h1 m, match v with
  | VDict d => exists a d1, deepcopy f x [] h = (h1, [], Val (Ref a, m)) /\ nth_error h1 a = Some (ODict d1) /\
                            all2 (edge (hide (nth_error h1) [a])) d d1
  | VList _ => exists a l, deepcopy f x [] h = (h1, [], Val (Ref a, m)) /\ nth_error h1 a = Some (OList l)
  | _ => exists x', deepcopy f x [] h = (h1, [], Val (x', m)) /\ forall a, x' <> Ref a
  end.
Proof.
  intros HV HF. destruct (deepcopy_same_value h v x f HV HF) as (h1 & x' & m & E & G & D). exists h1, m.
  destruct v as [|b|z|fl|y|vs|vs|]; try (exists x'; split; [exact E|]; cbn in D; subst x'; discriminate).
  - destruct D as (a & l & -> & HA & _). eauto.
  - pose proof D as D0. destruct D as (a & d & -> & HA & H). exists a, d. split; [exact E|]. split; [exact HA|].
    eapply all2_impl; [|exact H]. intros [k y] z Hy _ [HK HR]. split; [exact HK|].
    eapply den_avoid; [exact D0|exact HR|]. eapply size_dict, Hy.
Qed.

Lemma step_hide_sub a h h' o : step a h h' -> sub (hide (nth_error h) [a]) (nth_error (h' ++ [o])).
Proof. intros HS. eapply sub_trans; [apply step_sub, HS|]. eapply sub_trans; [apply hide_sub|]. apply grows_sub, grows_snoc. Qed.

Lemma mark_sim f k v x h : denotes h v x -> size v <= f -> matches den_mark (lift (mark_from_dict k v)) (h_mark_from_dict f k x h).
Proof.
  intros HV HF. destruct (copy_root f v x h HV HF) as (h1 & m & HC). unfold h_mark_from_dict.
  destruct v as [|b|z|fl|y|vs|vs|];
    try (destruct HC as (x' & E & HN); unfold hbind at 1; rewrite E; cbn [mark_from_dict lift matches];
         exists h1; destruct x'; try reflexivity; destruct (HN a eq_refl)).
  - destruct HC as (a & l & E & HA). unfold hbind. rewrite E. unfold get_obj. rewrite HA. exists h1. reflexivity.
  - destruct HC as (a & d1 & E & HA & HD). unfold hbind at 1. rewrite E. cbn beta iota. unfold hbind at 1. unfold get_obj at 1. rewrite HA. cbn beta iota.
    cbn [mark_from_dict lift matches].
    pose proof (all2_lookup _ _ _ (s "attrs") HD) as LA. pose proof (all2_lookup _ _ _ (s "type") HD) as LT.
    assert (HT : forall h2 dc, step a h1 h2 -> lookup (s "type") dc = lookup (s "type") d1 ->
                 forall o, field_den (nth_error (h2 ++ [o])) (Some (type_field (mk_name k) vs))
                   (Some (match lookup (s "type") dc with Some t => t | None => HStr (mk_name k) end))).
    { intros h2 dc HS HE o. cbn [field_den]. eexists. split; [reflexivity|]. rewrite HE. unfold type_field.
      destruct (lookup (s "type") vs).
      - destruct LT as (t & -> & HT). eapply den_mono; [apply step_hide_sub, HS|exact HT].
      - rewrite LT. reflexivity. }
    assert (TK : forall x' (fs : list (str * hval)), lookup (s "type") ((s "type", x') :: fs) = Some x').
    { intros x' fs. cbn [lookup]. now rewrite str_eqb_refl. }
    destruct (mk_attrs k) as [fs|] eqn:EK.
    + destruct (lookup (s "attrs") vs) as [av|].
      * destruct LA as (xa & LA & DA). rewrite LA. pose proof (attrs_step fs a h1 d1 av xa HA DA) as HS.
        destruct (attrs_from_dict fs av) as [l|e]; cbn [rbind].
        -- destruct HS as (h2 & dc & i & E2 & S2 & N2 & -> & D2). unfold hbind at 1. rewrite E2. cbn beta iota.
           unfold hbind, get_obj. rewrite N2. cbn beta iota. rewrite (lookup_put (s "attrs")), str_eqb_refl. cbn beta iota delta [alloc hret].
           eexists. eexists. split; [reflexivity|].
           exists (List.length h2). eexists. split; [reflexivity|]. cbn [m_kind m_type m_attrs]. split; [rewrite nth_error_snoc, Nat.eqb_refl; reflexivity|].
           split; [rewrite TK; apply HT; [exact S2|rewrite lookup_put; now change (str_eqb (s "attrs") (s "type")) with false]|].
           split; [|reflexivity]. cbn [attrs_field_den]. exists i. split; [reflexivity|].
           eapply den_attrs_mono; [|exact D2]. eapply sub_trans; [apply hide_sub|apply grows_sub, grows_snoc].
        -- destruct HS as (h2 & E2). unfold hbind at 1. rewrite E2. eauto.
      * rewrite LA. unfold hbind, get_obj, hret. rewrite HA. cbn beta iota. rewrite LA. exists h1. reflexivity.
    + replace (match lookup (s "attrs") d1 with Some _ => hret tt | None => hret tt end) with (hret tt) by (now destruct (lookup (s "attrs") d1)).
      unfold hbind, get_obj, hret. rewrite HA. cbn beta iota delta [alloc].
      eexists. eexists. split; [reflexivity|].
      exists (List.length h1). eexists. split; [reflexivity|]. cbn [m_kind m_type m_attrs]. split; [rewrite nth_error_snoc, Nat.eqb_refl; reflexivity|].
      split; [rewrite TK; apply HT; [apply step_refl|reflexivity]|]. split; reflexivity.
Qed.

(** The type value as the registries see it. *)
Lemma h_type_den g v x : den g v x ->
  match h_type x with
  | Some t => t = v
  | None => mark_class_of v = Unhashable /\ node_class_of v = Unhashable
  end.
Proof.
  destruct v; cbn [den]; try (intros ->; reflexivity).
  - intros (a & m & -> & _). split; reflexivity.
  - intros (a & m & -> & _). split; reflexivity.
Qed.
Lemma den_dict_inv h vs x : denotes h (VDict vs) x ->
  exists a d, x = Ref a /\ nth_error h a = Some (ODict d) /\ all2 (edge (nth_error h)) vs d.
Proof. intros H. exact H. Qed.

Lemma parse_mark_sim f v x h : denotes h v x -> size v <= f -> matches den_mark (lift (parse_mark v)) (h_parse_mark f x h).
Proof.
  intros HV HF. destruct v as [|b|z|fl|y|vs|vs|]; try (unfold denotes in HV; cbn in HV; subst x; exists h; reflexivity).
  - destruct HV as (a & l & -> & HA & HLL). unfold h_parse_mark, hbind, get_obj. rewrite HA. exists h. reflexivity.
  - pose proof HV as HV0. destruct HV as (a & d & -> & HA & HD). unfold h_parse_mark, hbind, get_obj. rewrite HA. cbn beta iota.
    cbn [parse_mark]. pose proof (all2_lookup _ _ _ (s "type") HD) as LT. destruct (lookup (s "type") vs) as [ty|].
    + destruct LT as (t & -> & DT). pose proof (h_type_den _ _ _ DT) as HT. destruct (h_type t) as [t'|].
      * subst t'. destruct (mark_class_of ty) as [k| |]; try (exists h; reflexivity).
        pose proof (mark_sim f k (VDict vs) (Ref a) h HV0 HF) as HM. destruct (h_mark_from_dict f k (Ref a) h) as [[h' lg] o]. exact HM.
      * destruct HT as [-> _]. exists h. reflexivity.
    + rewrite LT. exists h. reflexivity.
Qed.

(** ---------------------------------------------------------------- the constructor *)
Definition only (name : string) (l : list (str * hval)) : Prop := forall k, str_eqb (s name) k = false -> lookup k l = None.
Definition value_entry (g : store) (o : option value) (r : option hval) : Prop :=
  match o with Some y => exists x, r = Some x /\ den g y x | None => r = None end.
Lemma only_nil name : only name [].
Proof. intros k _. reflexivity. Qed.
Lemma only_one name x : only name [(s name, x)].
Proof. intros k HK. cbn [lookup]. now rewrite HK. Qed.
Lemma one_hit name (x : hval) : lookup (s name) [(s name, x)] = Some x.
Proof. cbn [lookup]. now rewrite str_eqb_refl. Qed.

Section Construct.
  Context (g : store) (d : list (str * value)) (dc : list (str * hval)).
  Lemma text_rel (b : bool) : value_entry g (lookup (s "text") d) (lookup (s "text") dc) ->
    match (if b then match lookup (s "text") d with Some t => Ok (Some t) | None => Err ParamError end else Ok None) with
    | Ok o => exists l, h_field dc "text" (if b then Some Req else None) = Some l /\ only "text" l /\ map fst l = if_some o "text" /\ field_den g o (lookup (s "text") l)
    | Err e => e = ParamError /\ h_field dc "text" (if b then Some Req else None) = None
    end.
  Proof.
    intros HE. unfold h_field. destruct b; [|exists []; split; [reflexivity|]; split; [apply only_nil|split; reflexivity]].
    destruct (lookup (s "text") d) as [t|].
    - destruct HE as (x & -> & HX). eexists. split; [reflexivity|]. split; [apply only_one|]. split; [reflexivity|]. rewrite one_hit. cbn. eauto.
    - cbn in HE. rewrite HE. auto.
  Qed.
  Lemma attrs_rel c oa :
    (nc_attrs c <> None -> match oa with None => lookup (s "attrs") dc = None
                   | Some at_ => exists l x, at_ = AObj l /\ lookup (s "attrs") dc = Some x /\ den_attrs g l x end) ->
    match attrs_field c oa with
    | Ok o => exists l, h_field dc "attrs" (match nc_attrs c with Some (fk, _) => Some fk | None => None end) = Some l /\ only "attrs" l /\ map fst l = if_attrs o /\
                        attrs_field_den g o (lookup (s "attrs") l)
    | Err e => e = ParamError /\ h_field dc "attrs" (match nc_attrs c with Some (fk, _) => Some fk | None => None end) = None
    end.
  Proof.
    intros HE. unfold attrs_field, h_field. destruct (nc_attrs c) as [[fk fs]|]; [|exists []; split; [reflexivity|]; split; [apply only_nil|split; reflexivity]].
    specialize (HE ltac:(discriminate)). destruct oa as [at_|].
    - destruct HE as (l & x & -> & -> & HX). eexists. split; [reflexivity|]. split; [apply only_one|]. split; [reflexivity|]. rewrite one_hit. cbn. eauto.
    - rewrite HE. destruct fk; auto. eexists. split; [reflexivity|]. split; [apply only_one|]. split; [reflexivity|]. now rewrite one_hit.
  Qed.
  Lemma slot_rel {A} (R : A -> hval -> Prop) name fk (o : option (slot A)) :
    match o with None => lookup (s name) dc = None | Some sl => sl <> NoField /\ slot_den g R sl (lookup (s name) dc) end ->
    match slot_field fk o with
    | Ok sl => exists l, h_field dc name fk = Some l /\ only name l /\ map fst l = if_slot sl name /\ slot_den g R sl (lookup (s name) l)
    | Err e => e = ParamError /\ h_field dc name fk = None
    end.
  Proof.
    intros HE. unfold slot_field, h_field. destruct fk as [fk|]; [|exists []; split; [reflexivity|]; split; [apply only_nil|split; reflexivity]].
    destruct o as [sl|].
    - destruct HE as [HN HE]. destruct (lookup (s name) dc) as [x|] eqn:EL.
      + eexists. split; [reflexivity|]. split; [apply only_one|]. split; [destruct sl; try reflexivity; now destruct HN|]. rewrite one_hit. exact HE.
      + destruct sl; cbn in HE; try discriminate; [destruct (HN eq_refl)| |].
        * destruct HE as (b & xs & HE & _). discriminate.
        * destruct HE as (_ & x & HE & _). discriminate.
    - rewrite HE. destruct fk; auto. eexists. split; [reflexivity|]. split; [apply only_one|]. split; [reflexivity|]. now rewrite one_hit.
  Qed.
End Construct.

Lemma only_get name k (l : list (str * hval)) : only name l -> str_eqb (s name) k = false -> lookup k l = None.
Proof. intros H. apply H. Qed.
Lemma construct_sim k d dc oa oc om h a :
  let g := hide (nth_error h) [a] in
  value_entry g (lookup (s "type") d) (lookup (s "type") dc) ->
  value_entry g (lookup (s "version") d) (lookup (s "version") dc) ->
  value_entry g (lookup (s "text") d) (lookup (s "text") dc) ->
  (nc_attrs (nk_class k) <> None -> match oa with None => lookup (s "attrs") dc = None
                   | Some at_ => exists l x, at_ = AObj l /\ lookup (s "attrs") dc = Some x /\ den_attrs g l x end) ->
  match oc with None => lookup (s "content") dc = None | Some sl => sl <> NoField /\ slot_den g (den_node g) sl (lookup (s "content") dc) end ->
  match om with None => lookup (s "marks") dc = None | Some sl => sl <> NoField /\ slot_den g (den_mark g) sl (lookup (s "marks") dc) end ->
  matches den_node (lift (construct k d oa oc om)) (h_construct k dc h).
Proof.
  intros g HT HV HX HA HC HM. unfold construct, h_construct.
  pose proof (text_rel g d dc (nc_text (nk_class k)) HX) as RX.
  destruct (if nc_text (nk_class k) then _ else _) as [tx|e].
  2:{ destruct RX as [-> ->]. exists h. reflexivity. }
  destruct RX as (lx & -> & OX & KX & DX). cbn [rbind].
  pose proof (attrs_rel g dc (nk_class k) oa HA) as RA. destruct (attrs_field (nk_class k) oa) as [at_|e].
  2:{ destruct RA as [-> ->]. exists h. reflexivity. }
  destruct RA as (la & -> & OA & KA & DA). cbn [rbind].
  pose proof (slot_rel g dc (den_node g) "content" (nc_content (nk_class k)) oc HC) as RC. destruct (slot_field (nc_content (nk_class k)) oc) as [co|e].
  2:{ destruct RC as [-> ->]. exists h. reflexivity. }
  destruct RC as (lc & -> & OC & KC & DC). cbn [rbind].
  pose proof (slot_rel g dc (den_mark g) "marks" (nc_marks (nk_class k)) om HM) as RM. destruct (slot_field (nc_marks (nk_class k)) om) as [ma|e].
  2:{ destruct RM as [-> ->]. exists h. reflexivity. }
  destruct RM as (lm & -> & OM & KM & DM). cbn [rbind lift matches].
  set (lt := [(s "type", _)]). set (lv := if nc_version (nk_class k) then _ else []).
  assert (OT : only "type" lt) by apply only_one.
  assert (OV : only "version" lv) by (unfold lv; destruct (nc_version (nk_class k)); [apply only_one|apply only_nil]).
  assert (DT : field_den g (Some (type_field (nk_name k) d)) (lookup (s "type") lt)).
  { unfold lt. rewrite one_hit. eexists. split; [reflexivity|]. unfold type_field. destruct (lookup (s "type") d).
    - destruct HT as (t & -> & HT). exact HT.
    - cbn in HT. rewrite HT. reflexivity. }
  assert (DV : field_den g (if nc_version (nk_class k) then Some (match lookup (s "version") d with Some v => v | None => VInt 1 end) else None) (lookup (s "version") lv)).
  { unfold lv. destruct (nc_version (nk_class k)); [|reflexivity]. rewrite one_hit. eexists. split; [reflexivity|]. destruct (lookup (s "version") d).
    - destruct HV as (t & -> & HV). exact HV.
    - cbn in HV. rewrite HV. reflexivity. }
  assert (KV : map fst lv = if_some (if nc_version (nk_class k) then Some (match lookup (s "version") d with Some v => v | None => VInt 1 end) else None) "version").
  { unfold lv. now destruct (nc_version (nk_class k)). }
  assert (KT : map fst lt = [s "type"]) by reflexivity.
  clearbody lt lv. unfold hbind, alloc, hret. eexists. eexists. split; [reflexivity|].
  set (l := lt ++ lv ++ lx ++ la ++ lc ++ lm). set (h' := h ++ [OInst (TNode k) l]).
  assert (SG : sub g (nth_error h')) by (eapply sub_trans; [apply hide_sub|apply grows_sub, grows_snoc]).
  exists (List.length h), l. split; [reflexivity|]. split; [unfold h'; rewrite nth_error_snoc, Nat.eqb_refl; reflexivity|].
  assert (LL : lookup (s "type") l = lookup (s "type") lt /\ lookup (s "version") l = lookup (s "version") lv /\
               lookup (s "text") l = lookup (s "text") lx /\ lookup (s "attrs") l = lookup (s "attrs") la /\
               lookup (s "content") l = lookup (s "content") lc /\ lookup (s "marks") l = lookup (s "marks") lm).
  { unfold l.
    repeat apply conj; rewrite !lookup_app;
      rewrite ?(only_get "type" _ lt OT) by reflexivity; rewrite ?(only_get "version" _ lv OV) by reflexivity;
      rewrite ?(only_get "text" _ lx OX) by reflexivity; rewrite ?(only_get "attrs" _ la OA) by reflexivity;
      rewrite ?(only_get "content" _ lc OC) by reflexivity; rewrite ?(only_get "marks" _ lm OM) by reflexivity;
      try reflexivity; match goal with |- match ?x with _ => _ end = _ => now destruct x end. }
  destruct LL as (-> & -> & -> & -> & -> & ->).
  split; [eapply field_mono; eauto|]. split; [eapply field_mono; eauto|]. split; [eapply field_mono; eauto|].
  split; [eapply attrs_field_mono; eauto|]. split; [|split].
  - eapply slot_mono; [exact SG| |exact DC]. intros l' _ n y _ HY. eapply den_node_mono; eauto.
  - eapply slot_mono; [exact SG| |exact DM]. intros l' _ n y _ HY. eapply den_mark_mono; eauto.
  - unfold l. rewrite !map_app, KT, KV, KX, KA, KC, KM. reflexivity.
Qed.

Lemma run_entry_real {A} w (e : entry A) lg sl : run_entry w e = (lg, Ok (Some sl)) -> sl <> NoField.
Proof.
  destruct e as [|ms|v]; cbn; [discriminate| |].
  - unfold bind. destruct (collect w ms) as [l [r|x]]; [intros [= _ <-]|]; discriminate.
  - destruct v; intros [= _ <-]; discriminate.
Qed.
Lemma entry_step g g' key k (dc dc' : list (str * hval)) o : sub g g' -> (forall k, str_eqb key k = false -> lookup k dc' = lookup k dc) ->
  str_eqb key k = false -> value_entry g o (lookup k dc) -> value_entry g' o (lookup k dc').
Proof.
  intros HG HK HN. rewrite (HK k HN). destruct o; cbn; [|auto]. intros (x & H1 & H2). exists x. split; [exact H1|]. eapply den_mono; eauto.
Qed.

Section Node.
  Context (w : bool) (f : nat) (pn pm : hval -> H hval).
  Hypothesis WN : well_behaved pn.
  Hypothesis WM : well_behaved pm.
  Lemma node_sim k v x h : denotes h v x -> size v <= f ->
    (forall u, size u < size v -> forall h x, denotes h u x -> matches den_node (parse_node w u) (pn x h)) ->
    (forall u, size u < size v -> forall h x, denotes h u x -> matches den_mark (lift (parse_mark u)) (pm x h)) ->
    matches den_node (from_dict w k v) (h_node_from_dict f w pn pm k x h).
  Proof using WN WM.
    intros HV HF HN HM. destruct (copy_root f v x h HV HF) as (h1 & m & HC). unfold h_node_from_dict.
    destruct v as [|b|z|fl|y|vs|vs|];
      try (destruct HC as (x' & E & HX); unfold hbind at 1; rewrite E; exists h1; destruct x'; try reflexivity; destruct (HX a eq_refl)).
    - destruct HC as (a & l & E & HA). unfold hbind. rewrite E. unfold get_obj. rewrite HA. exists h1. reflexivity.
    - destruct HC as (a & d1 & E & HA & HD). unfold hbind at 1. rewrite E. cbn beta iota. unfold hbind at 1. unfold get_obj at 1. rewrite HA. cbn beta iota.
      cbn [from_dict]. set (c := nk_class k).
      assert (LK : forall key, value_entry (hide (nth_error h1) [a]) (lookup key vs) (lookup key d1)) by (intros key; apply all2_lookup, HD).
      clear E HV x. unfold node_from_entry. fold c.
      (* attrs *)
      assert (ST1 : match attrs_entry c vs with
                    | Ok oa => exists h2 dc, (match lookup (s "attrs") d1, nc_attrs c with
                          | Some av, Some (_, fs) => let! i <- h_attrs_from_dict fs av; setitem a (s "attrs") i
                          | _, _ => hret tt end) h1 = (h2, [], Val tt) /\ step a h1 h2 /\ nth_error h2 a = Some (ODict dc) /\
                          (forall key, str_eqb (s "attrs") key = false -> lookup key dc = lookup key d1) /\
                          (nc_attrs c <> None -> match oa with None => lookup (s "attrs") dc = None
                             | Some at_ => exists l x, at_ = AObj l /\ lookup (s "attrs") dc = Some x /\ den_attrs (hide (nth_error h2) [a]) l x end)
                    | Err e => exists h2, (match lookup (s "attrs") d1, nc_attrs c with
                          | Some av, Some (_, fs) => let! i <- h_attrs_from_dict fs av; setitem a (s "attrs") i
                          | _, _ => hret tt end) h1 = (h2, [], Exc e)
                    end).
      { unfold attrs_entry. specialize (LK (s "attrs")). destruct (nc_attrs c) as [[fk fs]|].
        - destruct (lookup (s "attrs") vs) as [av|].
          + destruct LK as (xa & LA & DA). rewrite LA. pose proof (attrs_step fs a h1 d1 av xa HA DA) as HS.
            destruct (attrs_from_dict fs av) as [l|e]; cbn [rbind].
            * destruct HS as (h2 & dc & i & E2 & S2 & N2 & -> & D2). exists h2, (put (s "attrs") i d1).
              split; [exact E2|]. split; [exact S2|]. split; [exact N2|].
              split; [intros key HK; rewrite lookup_put, HK; reflexivity|]. intros _. exists l, i. rewrite lookup_put, str_eqb_refl. auto.
            * exact HS.
          + cbn in LK. rewrite LK. exists h1, d1. split; [reflexivity|]. split; [apply step_refl|]. auto.
        - replace (match lookup (s "attrs") d1 with Some _ => hret tt | None => hret tt end) with (hret tt) by (now destruct (lookup (s "attrs") d1)).
          exists h1, d1. split; [reflexivity|]. split; [apply step_refl|]. split; [exact HA|]. split; [reflexivity|]. intros HX. now destruct HX. }
      unfold hbind at 1. destruct (attrs_entry c vs) as [oa|e]; cbn [lift bind].
      2:{ destruct ST1 as (h2 & ->). exists h2. reflexivity. }
      destruct ST1 as (h2 & dc & -> & S2 & N2 & K2 & A2).
      assert (L2 : forall key, str_eqb (s "attrs") key = false -> value_entry (hide (nth_error h2) [a]) (lookup key vs) (lookup key dc)).
      { intros key HK. eapply (entry_step _ _ (s "attrs")); [apply step_sub, S2|exact K2|exact HK|apply LK]. }
      clear HD LK HA h1 S2 K2 d1.
      (* content *)
      assert (HCE : content_entry w vs = entry_of (parse_node w) (lookup (s "content") vs)) by reflexivity.
      rewrite HCE. pose proof (children_sim den_node pn (parse_node w) w a (fun g g' n x H => den_node_mono g g' H n x)
        (fun h g' n x => den_node_from h g' n x) WN h2 dc (s "content") (lookup (s "content") vs) N2 (L2 (s "content") eq_refl)) as HS.
      destruct (run_entry w (entry_of (parse_node w) (lookup (s "content") vs))) as [lg1 [oc|e]] eqn:EC; cbn [bind].
      2:{ destruct HS as (h3 & E3).
          { intros l HL u Hu. apply HN. apply size_lookup in HL. pose proof (size_list l u Hu). lia. }
          unfold hbind at 1. rewrite E3. exists h3. reflexivity. }
      destruct HS as (h3 & dc3 & E3 & S3 & N3 & K3 & C3).
      { intros l HL u Hu. apply HN. apply size_lookup in HL. pose proof (size_list l u Hu). lia. }
      unfold hbind at 1. rewrite E3. cbn beta iota.
      assert (L3 : forall key, str_eqb (s "attrs") key = false -> str_eqb (s "content") key = false ->
                   value_entry (hide (nth_error h3) [a]) (lookup key vs) (lookup key dc3)).
      { intros key HK HK2. eapply (entry_step _ _ (s "content")); [apply step_sub, S3|exact K3|exact HK2|]. now apply L2. }
      assert (A3 : nc_attrs c <> None -> match oa with None => lookup (s "attrs") dc3 = None
                             | Some at_ => exists l x, at_ = AObj l /\ lookup (s "attrs") dc3 = Some x /\ den_attrs (hide (nth_error h3) [a]) l x end).
      { intros HX. specialize (A2 HX). rewrite K3 by reflexivity. destruct oa; [|exact A2]. destruct A2 as (l & x & -> & H1 & H2). exists l, x.
        split; [reflexivity|]. split; [exact H1|]. eapply den_attrs_mono; [apply step_sub, S3|exact H2]. }
      clear E3 L2 A2 K3 N2 h2 dc S3.
      (* marks *)
      assert (HME : marks_entry vs = entry_of (fun v => lift (parse_mark v)) (lookup (s "marks") vs)) by reflexivity.
      rewrite HME. pose proof (children_sim den_mark pm (fun v => lift (parse_mark v)) w a (fun g g' n x H => den_mark_mono g g' n x H)
        (fun h g' n x => den_mark_from h g' n x) WM h3 dc3 (s "marks") (lookup (s "marks") vs) N3 (L3 (s "marks") eq_refl eq_refl)) as HS.
      destruct (run_entry w (entry_of (fun v => lift (parse_mark v)) (lookup (s "marks") vs))) as [lg2 [om|e]] eqn:EM; cbn [bind].
      2:{ destruct HS as (h4 & E4).
          { intros l HL u Hu. apply HM. apply size_lookup in HL. pose proof (size_list l u Hu). lia. }
          unfold hbind at 1. rewrite E4. exists h4. reflexivity. }
      destruct HS as (h4 & dc4 & E4 & S4 & N4 & K4 & C4).
      { intros l HL u Hu. apply HM. apply size_lookup in HL. pose proof (size_list l u Hu). lia. }
      unfold hbind at 1. rewrite E4. cbn beta iota. unfold hbind, get_obj. rewrite N4. cbn beta iota.
      assert (FIN : matches den_node (lift (construct k vs oa oc om)) (h_construct k dc4 h4)).
      { apply (construct_sim k vs dc4 oa oc om h4 a).
        - eapply (entry_step _ _ (s "marks")); [apply step_sub, S4|exact K4|reflexivity|]. now apply L3.
        - eapply (entry_step _ _ (s "marks")); [apply step_sub, S4|exact K4|reflexivity|]. now apply L3.
        - eapply (entry_step _ _ (s "marks")); [apply step_sub, S4|exact K4|reflexivity|]. now apply L3.
        - intros HX. specialize (A3 HX). rewrite K4 by reflexivity. destruct oa; [|exact A3]. destruct A3 as (l & x & -> & H1 & H2). exists l, x.
          split; [reflexivity|]. split; [exact H1|]. eapply den_attrs_mono; [apply step_sub, S4|exact H2].
        - rewrite K4 by reflexivity. destruct oc as [sl|]; [|exact C3]. split; [eapply run_entry_real; exact EC|].
          eapply slot_mono; [apply step_sub, S4| |exact C3]. intros l _ n y _ HY. eapply den_node_mono; [apply step_sub, S4|exact HY].
        - destruct om as [sl|]; [|exact C4]. split; [eapply run_entry_real; exact EM|exact C4]. }
      unfold lift in FIN. destruct (construct k vs oa oc om) as [n|e].
      + destruct FIN as (h5 & y & E5 & D5). rewrite E5. cbn. rewrite ?app_nil_r. exists h5, y. split; [reflexivity|exact D5].
      + destruct FIN as (h5 & E5). rewrite E5. cbn. rewrite ?app_nil_r. exists h5. reflexivity.
  Qed.
End Node.

Lemma find_content_eq w d : (fix find_content (d : list (str * value)) : entry node :=
           match d with
           | [] => EAbsent
           | (k, x) :: r =>
               if str_eqb k (s "content")
               then match x with VList l => EList (map (parse_node w) l) | _ => EOther x end
               else find_content r
           end) d = content_entry w d.
Proof.
  unfold content_entry. induction d as [|[k x] r IH]; [reflexivity|]. cbn [lookup]. destruct (str_eqb k (s "content")); [destruct x; reflexivity|exact IH].
Qed.

Theorem parse_node_sim w : forall f v x h, denotes h v x -> size v < f -> matches den_node (parse_node w v) (h_parse_node f w x h).
Proof.
  induction f as [|f IH]; intros v x h HV HF; [lia|]. cbn [h_parse_node].
  destruct v as [|b|z|fl|y|vs|vs|]; try (unfold denotes in HV; cbn in HV; subst x; exists h; reflexivity).
  - destruct HV as (a & l & -> & HA & HLL). unfold hbind, get_obj. rewrite HA. exists h. reflexivity.
  - pose proof HV as HV0. destruct HV as (a & d & -> & HA & HD). unfold hbind, get_obj. rewrite HA. cbn beta iota.
    cbn [parse_node]. rewrite find_content_eq. pose proof (all2_lookup _ _ _ (s "type") HD) as LT. destruct (lookup (s "type") vs) as [ty|].
    + destruct LT as (t & -> & DT). pose proof (h_type_den _ _ _ DT) as HT. destruct (h_type t) as [t'|].
      * subst t'. destruct (node_class_of ty) as [k| |]; try (exists h; reflexivity).
        assert (HM : matches den_node (from_dict w k (VDict vs)) (h_node_from_dict f w (h_parse_node f w) (h_parse_mark f) k (Ref a) h)).
        { apply node_sim; [intros base v; apply ok_parse_node|intros base v; apply ok_parse_mark|exact HV0|lia| |].
          - intros u Hu h' x' HX. apply IH; [exact HX|lia].
          - intros u Hu h' x' HX. apply parse_mark_sim; [exact HX|lia]. }
        cbn [from_dict] in HM. destruct (h_node_from_dict f w _ _ k (Ref a) h) as [[h' lg] o]. exact HM.
      * destruct HT as [_ ->]. exists h. reflexivity.
    + rewrite LT. exists h. reflexivity.
Qed.
Theorem from_dict_sim w k f v x h : denotes h v x -> size v <= f -> matches den_node (from_dict w k v) (h_from_dict f w k x h).
Proof.
  intros HV HF. apply node_sim; [intros base u; apply ok_parse_node|intros base u; apply ok_parse_mark|exact HV|exact HF| |].
  - intros u Hu h' x' HX. apply parse_node_sim; [exact HX|lia].
  - intros u Hu h' x' HX. apply parse_mark_sim; [exact HX|lia].
Qed.
