(** to_dict yields the normal form of the input; where OPT can leak. *)
From Coq Require Import List NArith ZArith Bool String Lia.
From Verif Require Import PyStr Values Schema Parse Serialize Basics SpecParse ParseFacts ParseFacts2 ParseFacts3 ParseFacts4 SerFacts.
Import ListNotations.
Open Scope string_scope.
Open Scope list_scope.

Lemma attrs_from_dict_eq fs v l :
  attrs_from_dict fs v = Ok l -> exists d, v = VDict d /\ l = pick_or_opt fs d.
Proof.
  unfold attrs_from_dict. destruct v; try discriminate.
  destruct (missing is_Pos fs d); [discriminate|]. destruct (missing is_Req fs d); [discriminate|].
  intros [= <-]. exists d. split; reflexivity.
Qed.

Lemma mark_normal v m : parse_mark v = Ok m -> mark_to_dict m = normal_mark v.
Proof.
  unfold parse_mark, normal_mark. destruct v; try discriminate.
  destruct (lookup (s "type") d) as [ty|] eqn:L; [|discriminate].
  destruct (mark_class_of ty) as [k| |] eqn:R; try discriminate.
  pose proof (mark_class_of_found _ _ R). subst ty.
  unfold mark_from_dict, type_field. rewrite L. destruct (mk_attrs k) as [fs|].
  - destruct (lookup (s "attrs") d) as [a|]; [|discriminate].
    destruct (attrs_from_dict fs a) as [l|] eqn:E; [|discriminate]. intros [= <-].
    apply attrs_from_dict_eq in E as (ad & -> & ->). reflexivity.
  - intros [= <-]. reflexivity.
Qed.

Lemma pick_remove fs d : opt_free (VDict d) = true -> remove_optional (pick_or_opt fs d) = pick fs d.
Proof.
  intros HO. unfold remove_optional, pick_or_opt, pick. induction fs as [|[f k] fs IH]; [reflexivity|].
  cbn [map filter flat_map fst snd]. rewrite <- IH. destruct (lookup f d) as [v|] eqn:E; [|reflexivity].
  pose proof (opt_free_lookup _ _ _ HO E) as HV. destruct v; try discriminate; reflexivity.
Qed.

Definition normal_claim (v : value) : Prop :=
  forall w n, snd (parse_node w v) = Ok n -> opt_free v = true -> listy n -> node_to_dict n = Ok (normal v).

Definition normal_content (d : list (str * value)) : option value :=
  match lookup (s "content") d with
  | Some (VList l) => Some (VList (flat_map (fun y => if unregistered node_names y then [] else [normal y]) l))
  | _ => None
  end.
Lemma normal_dict d :
  normal (VDict d) =
  match lookup (s "type") d with
  | Some ty => match node_class_of ty with Found k => normal_own k ty d (normal_content d) | _ => VDict d end
  | None => VDict d
  end.
Proof.
  cbn [normal]. destruct (lookup (s "type") d) as [ty|]; [|reflexivity].
  destruct (node_class_of ty) as [k| |]; try reflexivity. f_equal. unfold normal_content.
  clear k. induction d as [|[k x] d IH]; [reflexivity|]. cbn [lookup].
  destruct (str_eqb k (s "content")); [destruct x; reflexivity|exact IH].
Qed.

Lemma mapM_map {A} (f : A -> res value) l (g : list value) :
  Forall2 (fun a v => f a = Ok v) l g -> mapM f l = Ok g.
Proof.
  induction 1 as [|a v l g H HF IH]; [reflexivity|]. cbn [mapM]. rewrite H. cbn.
  change ((fix go l := match l with [] => Ok [] | a0 :: r => do b <- f a0; do bs <- go r; Ok (b :: bs) end) l) with (mapM f l).
  now rewrite IH.
Qed.

Lemma flat_map_filter {A B} (u : A -> bool) (f : A -> B) l :
  flat_map (fun y => if u y then [] else [f y]) l = map f (filter (fun y => negb (u y)) l).
Proof. induction l as [|a l IH]; [reflexivity|]. cbn. destruct (u a); cbn; now rewrite IH. Qed.

Lemma from_dict_normal w k d n :
  (forall l, lookup (s "content") d = Some (VList l) -> Forall normal_claim l) ->
  snd (from_dict w k (VDict d)) = Ok n -> opt_free (VDict d) = true -> listy n ->
  node_to_dict n = Ok (normal_own k (type_field (nk_name k) d) d (normal_content d)).
Proof.
  intros HF H HO HL. pose proof (from_dict_represents w k d n H) as (ve & tx & a & co & ma & -> & HR).
  assert (W : wf_body (Node k (type_field (nk_name k) d) ve tx a co ma)).
  { eapply from_dict_wf; [|exact H|exact HO|exact HL]. intros l _. apply Forall_forall. intros y _. apply parse_wf. }
  inversion W as [? ? ? ? ? ? ? WT WV WX WA WC WM _ _]; subst.
  inversion HR as [? ? ? ? ? ? ? HV HT HA HCO HMA]; subst.
  inversion HL as [? ? ? ? ? ? ? NR1 NR2 HLL]; subst.
  (* content *)
  assert (EC : exists cs, (match co with
                | NoField | SOpt => Ok None
                | Items l => do xs <- mapM node_to_dict l; Ok (Some xs)
                | Raw v => do xs <- raw_to_dicts v; Ok (Some xs)
                end) = Ok cs /\
       option_map VList cs = match nc_content (nk_class k) with Some _ => normal_content d | None => None end).
  { inversion HCO as [o HD EQ1 EQ2|HD EQ1 EQ2|HD EQ1 EQ2|l xs HD HF2 EQ1 EQ2|v HD _ _ EQ1 EQ2]; subst co.
    - exists None. split; [reflexivity|]. destruct (nc_content (nk_class k)); [discriminate|reflexivity].
    - exists None. split; [reflexivity|]. unfold normal_content. rewrite <- EQ1.
      destruct (nc_content (nk_class k)); reflexivity.
    - symmetry in EQ1. pose proof (opt_free_lookup _ _ _ HO EQ1). discriminate.
    - exists (Some (map normal (filter (fun y => negb (unregistered node_names y)) l))). symmetry in EQ1.
      pose proof (from_dict_content w k d _ l xs H EQ1 eq_refl) as HP.
      specialize (HF l EQ1). specialize (HLL xs eq_refl). pose proof (opt_free_lookup _ _ _ HO EQ1) as HOl.
      rewrite (mapM_map node_to_dict xs (map normal (filter (fun y => negb (unregistered node_names y)) l))).
      + cbn. split; [reflexivity|]. unfold normal_content. rewrite EQ1, flat_map_filter.
        destruct (nc_content (nk_class k)); [reflexivity|discriminate].
      + assert (HF' : Forall (fun y => normal_claim y /\ opt_free y = true) (filter (fun y => negb (unregistered node_names y)) l)).
        { apply Forall_forall. intros y HY. apply filter_In in HY as [HY _]. rewrite Forall_forall in HF.
          split; [now apply HF|now apply (opt_free_in l)]. }
        clear -HP HF' HLL. revert HF' HLL. induction HP as [|y x ys xs HP HPs IH]; intros HF' HLL; [constructor|].
        inversion_clear HF' as [|? ? [HN HO] HF2]. inversion_clear HLL as [|? ? HLx HLs].
        constructor; [eapply HN; eassumption|auto].
    - exfalso. eapply NR1. reflexivity. }
  destruct EC as (cs & EC & ECs).
  assert (EM : exists ms, (match ma with
                | NoField | SOpt => Ok None
                | Items l => Ok (Some (map mark_to_dict l))
                | Raw v => do xs <- raw_to_dicts v; Ok (Some xs)
                end) = Ok ms /\
       option_map VList ms = match nc_marks (nk_class k), lookup (s "marks") d with
            | Some _, Some (VList l) => Some (VList (map normal_mark (filter (fun y => negb (unregistered mark_names y)) l)))
            | _, _ => None end).
  { inversion HMA as [o HD EQ1 EQ2|HD EQ1 EQ2|HD EQ1 EQ2|l xs HD HF2 EQ1 EQ2|v HD _ _ EQ1 EQ2]; subst ma.
    - exists None. split; [reflexivity|]. destruct (nc_marks (nk_class k)); [discriminate|reflexivity].
    - exists None. split; [reflexivity|]. destruct (nc_marks (nk_class k)); reflexivity.
    - symmetry in EQ1. pose proof (opt_free_lookup _ _ _ HO EQ1). discriminate.
    - exists (Some (map mark_to_dict xs)). split; [reflexivity|]. symmetry in EQ1.
      pose proof (from_dict_marks w k d _ l xs H EQ1 eq_refl) as HP.
      cbn [option_map]. destruct (nc_marks (nk_class k)); [|discriminate]. do 2 f_equal.
      revert HP. generalize (filter (fun y => negb (unregistered mark_names y)) l). clear. intros ys HP.
      induction HP as [|y x ys xs HP HPs IH]; [reflexivity|]. cbn [map]. rewrite IH. f_equal. now apply mark_normal.
    - exfalso. eapply NR2. reflexivity. }
  destruct EM as (ms & EM & EMs).
  rewrite (node_to_dict_eq _ _ _ _ _ _ _ cs ms EC EM WT).
  2:{ destruct (nc_version (nk_class k)); [|discriminate]. cbn in WV. congruence. }
  2:{ destruct (nc_text (nk_class k)); [|discriminate]. intros E. rewrite E in WX. cbn in WX. congruence. }
  rewrite ECs, EMs. unfold normal_own, fields. do 3 f_equal.
  f_equal; [destruct (nc_version (nk_class k)); reflexivity|].
  f_equal; [destruct (nc_text (nk_class k)); reflexivity|].
  f_equal.
  { destruct (nc_attrs (nk_class k)) as [[fk fs]|] eqn:NA; [|subst a; reflexivity].
    destruct (lookup (s "attrs") d) as [av|] eqn:LA; inversion HA as [|ad l HH]; subst; [|reflexivity].
    cbn [attrs_dict opt_entry]. unfold attrs_to_dict. do 3 f_equal.
    pose proof (opt_free_lookup _ _ _ HO LA) as HO'.
    rewrite <- (pick_remove fs ad HO'). f_equal.
    destruct HH as [HM HLk]. pose proof (nk_fields_nodup k fk fs NA) as ND.
    rewrite <- (map_lookup_self l) by (now rewrite HM). rewrite HM. unfold pick_or_opt. rewrite map_map.
    apply map_ext_in. intros f HI. now rewrite (HLk (fst f)) by (now apply in_map). }
  f_equal.
  { destruct (nc_content (nk_class k)); reflexivity. }
  { destruct (nc_marks (nk_class k)), (lookup (s "marks") d) as [[]|]; reflexivity. }
Qed.

Lemma parse_normal v : normal_claim v.
Proof.
  induction v as [v HX|d IH] using doc_ind; intros w n H HO HL.
  - rewrite parse_node_nondict in H by exact HX. discriminate.
  - rewrite parse_node_dict in H. rewrite normal_dict.
    destruct (lookup (s "type") d) as [ty|] eqn:L; [|discriminate].
    destruct (node_class_of ty) as [k| |] eqn:R; try discriminate.
    rewrite (from_dict_normal w k d n); auto.
    + unfold type_field. now rewrite L.
    + intros l HLl. exact (IH _ _ HLl).
Qed.

(** ---------------------------------------------------------------- OPT *)
Lemma forallb_filter {A} (p q : A -> bool) l : forallb p l = true -> forallb p (filter q l) = true.
Proof. rewrite !forallb_forall. intros H x HX. apply filter_In in HX. apply H. tauto. Qed.

(** Values stored in objects are OPT or OPT-free. *)
Definition clean (v : value) : Prop := v = VOpt \/ opt_free v = true.
Definition attrs_clean (a : attrs) : Prop :=
  match a with AObj l => Forall (fun e => clean (snd e)) l | _ => True end.
Inductive node_clean : node -> Prop :=
| node_clean_intro k ty ve tx a co ma :
    clean ty -> (forall v, ve = Some v -> clean v) -> (forall v, tx = Some v -> clean v) ->
    attrs_clean a ->
    (forall l, co = Items l -> Forall node_clean l) ->
    (forall l, ma = Items l -> Forall (fun m => clean (m_type m) /\ attrs_clean (m_attrs m)) l) ->
    node_clean (Node k ty ve tx a co ma).

Lemma attrs_clean_dict l : Forall (fun e => clean (snd e)) l -> opt_free (attrs_to_dict l) = true.
Proof.
  intros H. unfold attrs_to_dict, remove_optional. cbn. rewrite forallb_forall. intros [f v] HI.
  apply filter_In in HI as [HI HN]. rewrite Forall_forall in H. specialize (H _ HI). cbn in *.
  destruct H as [->|H]; [discriminate|exact H].
Qed.
Lemma mark_dict_free m : clean (m_type m) -> attrs_clean (m_attrs m) ->
  opt_free (mark_to_dict m) = negb (mark_has_unset m).
Proof.
  intros HT HA. destruct m as [k ty a]. unfold mark_to_dict, mark_has_unset. cbn [m_type m_attrs] in *.
  assert (HL : match a with AObj l => forallb (fun e => match e with (_, x) => opt_free x end) l
                                      = negb (existsb (fun e => is_opt (snd e)) l) | _ => True end).
  { destruct a as [| |l]; auto. cbn in HA. induction HA as [|[f v] l Hv HF IH]; [reflexivity|]. cbn in *.
    rewrite IH. destruct Hv as [->|Hv]; [reflexivity|]. rewrite Hv. destruct v; try discriminate; reflexivity. }
  destruct HT as [->|HT].
  - destruct a as [| |l]; cbn; try reflexivity. rewrite HL. now rewrite andb_true_r.
  - unfold remove_optional. cbn [filter snd]. assert (E : is_opt ty = false) by (destruct ty; auto; discriminate).
    rewrite E. cbn [negb]. destruct a as [| |l]; cbn; rewrite HT; try reflexivity. rewrite HL. now rewrite andb_true_r.
Qed.

Lemma mapM_forall2 {A B} (f : A -> res B) l g : mapM f l = Ok g -> Forall2 (fun a v => f a = Ok v) l g.
Proof.
  revert g. induction l as [|a l IH]; intros g H; cbn in H.
  - injection H as <-. constructor.
  - destruct (f a) as [b|] eqn:E; [|discriminate]. cbn in H.
    change ((fix go l := match l with [] => Ok [] | a0 :: r => do b <- f a0; do bs <- go r; Ok (b :: bs) end) l) with (mapM f l) in H.
    destruct (mapM f l) as [bs|]; [|discriminate]. cbn in H. injection H as <-. constructor; auto.
Qed.

Lemma has_unset_inv k ty ve tx a co ma :
  has_unset_mark (Node k ty ve tx a co ma) <->
  (exists l n, co = Items l /\ In n l /\ has_unset_mark n) \/
  (exists l m, ma = Items l /\ In m l /\ mark_has_unset m = true).
Proof.
  split.
  - intros H. inversion H; subst; [right|left]; eauto 6.
  - intros [(l & n & -> & HI & HU)|(l & m & -> & HI & HU)]; [eapply unset_below|eapply unset_here]; eauto.
Qed.

Lemma node_dict_free n : node_clean n -> forall d, node_to_dict n = Ok d ->
  opt_free d = false <-> has_unset_mark n.
Proof.
  induction n as [k ty ve tx a co ma IH] using node_ind'. intros HC d H.
  inversion HC as [? ? ? ? ? ? ? C1 C2 C3 C4 C5 C6]; subst.
  cbn [node_to_dict] in H.
  destruct (match co with NoField | SOpt => Ok None | _ => _ end) as [cs|] eqn:EC; [|discriminate]. cbn [rbind] in H.
  destruct (match ma with NoField | SOpt => Ok None | _ => _ end) as [ms|] eqn:EM; [|discriminate]. cbn [rbind] in H.
  match type of H with Ok ?x = Ok d => assert (HD : x = d) by congruence end. clear H. subst d.
  rewrite has_unset_inv.
  assert (HCs : (forall l, cs = Some l -> forallb opt_free l = false) /\ cs <> None <->
                (exists l n, co = Items l /\ In n l /\ has_unset_mark n)).
  { destruct co as [| |l|v]; try (injection EC as <-).
    - split; [intros [_ H]; congruence|intros (l & n & E & _); discriminate].
    - split; [intros [_ H]; congruence|intros (l & n & E & _); discriminate].
    - destruct (mapM node_to_dict l) as [xs|] eqn:E; [|discriminate]. injection EC as <-.
      apply mapM_forall2 in E. specialize (C5 l eq_refl). cbn [on_items] in IH.
      assert (HX : forallb opt_free xs = false <-> exists n, In n l /\ has_unset_mark n).
      { clear -E C5 IH. induction E as [|n x l xs HN HF IHl].
        - split; [discriminate|intros (n & [] & _)].
        - inversion_clear IH as [|? ? I1 I2]. inversion_clear C5 as [|? ? K1 K2]. specialize (IHl I2 K2).
          specialize (I1 K1 x HN). cbn. rewrite andb_false_iff, I1, IHl. split.
          + intros [H|(m & HI & HU)]; eauto.
          + intros (m & [->|HI] & HU); eauto. }
      split.
      + intros [H _]. specialize (H _ eq_refl). apply HX in H as (n & HI & HU). eauto.
      + intros (l' & n & [= <-] & HI & HU). split; [|discriminate]. intros y [= <-]. apply HX. eauto.
    - destruct v as [| | | |[|]| |[|]|]; try discriminate; injection EC as <-;
        (split; [intros [H _]; specialize (H _ eq_refl); discriminate|intros (l & n & E & _); discriminate]). }
  assert (HMs : (forall l, ms = Some l -> forallb opt_free l = false) /\ ms <> None <->
                (exists l m, ma = Items l /\ In m l /\ mark_has_unset m = true)).
  { destruct ma as [| |l|v]; try (injection EM as <-).
    - split; [intros [_ H]; congruence|intros (l & n & E & _); discriminate].
    - split; [intros [_ H]; congruence|intros (l & n & E & _); discriminate].
    - specialize (C6 l eq_refl).
      assert (HX : forallb opt_free (map mark_to_dict l) = false <-> exists m, In m l /\ mark_has_unset m = true).
      { clear -C6. induction C6 as [|m l [M1 M2] HF IHl].
        - split; [discriminate|intros (n & [] & _)].
        - cbn [map forallb]. rewrite andb_false_iff, IHl, (mark_dict_free m M1 M2), negb_false_iff. split.
          + intros [H|(x & HI & HU)]; [exists m|exists x]; cbn; auto.
          + intros (x & [->|HI] & HU); eauto. }
      split.
      + intros [H _]. specialize (H _ eq_refl). apply HX in H as (n & HI & HU). eauto.
      + intros (l' & n & [= <-] & HI & HU). split; [|discriminate]. intros y [= <-]. apply HX. eauto.
    - destruct v as [| | | |[|]| |[|]|]; try discriminate; injection EM as <-;
        (split; [intros [H _]; specialize (H _ eq_refl); discriminate|intros (l & n & E & _); discriminate]). }
  rewrite <- HCs, <- HMs. clear HCs HMs EC EM IH HC C5 C6.
  cbn [opt_free]. unfold remove_optional.
  assert (F : forall key v, clean v -> forallb (fun e => match e with (_, x) => opt_free x end)
                (filter (fun e => negb (is_opt (snd e))) [(key : str, v)]) = true).
  { intros key v [->|HV]; [reflexivity|]. cbn. destruct (is_opt v); cbn; [reflexivity|]. now rewrite HV. }
  set (P := fun e : str * value => match e with (_, x) => opt_free x end) in *.
  set (Q := fun e : str * value => negb (is_opt (snd e))) in *.
    match goal with |- context [filter Q (?x :: ?r)] => change (x :: r) with ([x] ++ r) end.
  rewrite !filter_app, !forallb_app.
  assert (F2 : forallb P (filter Q (match ve with Some v => [(s "version", v)] | None => [] end)) = true)
    by (destruct ve; [apply F; now apply C2|reflexivity]).
  assert (F3 : forallb P (filter Q (match tx with Some v => [(s "text", v)] | None => [] end)) = true)
    by (destruct tx; [apply F; now apply C3|reflexivity]).
  assert (F4 : forallb P (filter Q (match a with NoAttrs | AOpt => [] | AObj l => [(s "attrs", attrs_to_dict l)] end)) = true).
  { destruct a as [| |l]; try reflexivity. apply F. right. now apply attrs_clean_dict. }
  rewrite (F (s "type") ty C1), F2, F3, F4. cbn [andb].
  rewrite andb_false_iff. apply Morphisms_Prop.or_iff_morphism.
  - destruct cs as [l|]; cbn.
    + rewrite andb_true_r. split; [intros H; split; [intros ? [= <-]; exact H|discriminate]|intros [H _]; auto].
    + split; [discriminate|intros [_ H]; congruence].
  - destruct ms as [l|]; cbn.
    + rewrite andb_true_r. split; [intros H; split; [intros ? [= <-]; exact H|discriminate]|intros [H _]; auto].
    + split; [discriminate|intros [_ H]; congruence].
Qed.

Lemma holds_clean fs d l : NoDup (map fst fs) -> opt_free (VDict d) = true -> holds_attrs fs d l ->
  Forall (fun e => clean (snd e)) l.
Proof.
  intros ND HO [HM HL]. rewrite <- (map_lookup_self l) by (now rewrite HM). apply Forall_forall.
  intros e HI. apply in_map_iff in HI as (f & <- & HF). cbn. rewrite HM in HF. rewrite (HL f HF).
  destruct (lookup f d) as [v|] eqn:E; [right; eapply opt_free_lookup; eassumption|now left].
Qed.
Lemma parse_mark_clean v m : parse_mark v = Ok m -> opt_free v = true ->
  clean (m_type m) /\ attrs_clean (m_attrs m).
Proof.
  intros H HO. apply parse_mark_represents in H. destruct H as [d k L A|d k fs a L A HA NA]; cbn.
  - split; [now right|exact I].
  - split; [now right|]. destruct (lookup (s "attrs") d) as [av|] eqn:E; inversion HA as [|ad l HH]; subst; [|congruence].
    cbn. eapply holds_clean; [exact (mk_fields_nodup k fs A)| |exact HH]. eapply opt_free_lookup; eassumption.
Qed.
Lemma from_dict_clean w k d n :
  (forall l, lookup (s "content") d = Some (VList l) ->
     Forall (fun v => forall w n, snd (parse_node w v) = Ok n -> opt_free v = true -> node_clean n) l) ->
  snd (from_dict w k (VDict d)) = Ok n -> opt_free (VDict d) = true -> node_clean n.
Proof.
  intros HF H HO. pose proof (from_dict_represents w k d n H) as (ve & tx & a & co & ma & -> & HR).
  inversion HR as [? ? ? ? ? ? ? HV HT HA HCO HMA]; subst. constructor.
  - unfold type_field. destruct (lookup (s "type") d) eqn:E; right; [eapply opt_free_lookup; eassumption|reflexivity].
  - intros v. destruct (nc_version (nk_class k)); [|discriminate]. intros [= <-].
    destruct (lookup (s "version") d) eqn:E; right; [eapply opt_free_lookup; eassumption|reflexivity].
  - intros v. destruct (nc_text (nk_class k)); [|discriminate]. intros E. right. eapply opt_free_lookup; eassumption.
  - destruct (nc_attrs (nk_class k)) as [[fk fs]|] eqn:NA; [|now subst a].
    destruct (lookup (s "attrs") d) as [av|] eqn:E; inversion HA as [|ad l HH]; subst; [|exact I].
    cbn. eapply holds_clean; [exact (nk_fields_nodup k fk fs NA)| |exact HH]. eapply opt_free_lookup; eassumption.
  - intros xs ->. inversion HCO as [| | |l xs' HD HF2 EQ|]; subst. symmetry in EQ.
    pose proof (from_dict_content w k d _ l xs H EQ eq_refl) as HP. specialize (HF l EQ).
    pose proof (opt_free_lookup _ _ _ HO EQ) as HOl.
    apply Forall_forall. intros x HI. destruct (Forall2_In_r _ _ _ _ HP HI) as (y & HY & HYP).
    apply filter_In in HY as [HY _]. rewrite Forall_forall in HF.
    eapply HF; [exact HY|exact HYP|now apply (opt_free_in l)].
  - intros xs ->. inversion HMA as [| | |l xs' HD HF2 EQ|]; subst. symmetry in EQ.
    pose proof (from_dict_marks w k d _ l xs H EQ eq_refl) as HP.
    pose proof (opt_free_lookup _ _ _ HO EQ) as HOl.
    apply Forall_forall. intros x HI. destruct (Forall2_In_r _ _ _ _ HP HI) as (y & HY & HYP).
    apply filter_In in HY as [HY _]. eapply parse_mark_clean; [exact HYP|now apply (opt_free_in l)].
Qed.
Lemma parse_clean v : forall w n, snd (parse_node w v) = Ok n -> opt_free v = true -> node_clean n.
Proof.
  induction v as [v HX|d IH] using doc_ind; intros w n H HO.
  - rewrite parse_node_nondict in H by exact HX. discriminate.
  - rewrite parse_node_dict in H. destruct (lookup (s "type") d) as [ty|] eqn:L; [|discriminate].
    destruct (node_class_of ty) as [k| |] eqn:R; try discriminate.
    eapply from_dict_clean; [|exact H|exact HO]. intros l HL. exact (IH _ _ HL).
Qed.
