(** Proofs about to_dict and round trips. *)
From Coq Require Import List NArith ZArith Bool String Lia.
From Verif Require Import PyStr Values Schema Parse Serialize Basics SpecParse ParseFacts ParseFacts2 ParseFacts3 ParseFacts4.
Import ListNotations.
Open Scope string_scope.
Open Scope list_scope.

(** ---------------------------------------------------------------- well-formed objects *)
Definition attrs_wf (strict : bool) (o : option (fkind * list (str * fkind))) (a : attrs) : Prop :=
  match o, a with
  | None, NoAttrs => True
  | Some (Opt, _), AOpt => True
  | Some (_, fs), AObj l =>
      map fst l = map fst fs /\
      (strict = true -> forall f k, In (f, k) fs -> k <> Opt -> lookup f l <> Some VOpt)
  | _, _ => False
  end.
Definition mark_wf (m : mark) : Prop :=
  mark_consistent m /\ attrs_wf false (option_map (fun fs => (Req, fs)) (mk_attrs (m_kind m))) (m_attrs m).

Definition slot_wf {A} (fk : option fkind) (x : slot A) : Prop :=
  match fk, x with
  | None, NoField => True
  | Some Opt, SOpt => True
  | Some _, Items _ => True
  | _, _ => False
  end.
Definition opt_wf (declared : bool) (o : option value) : Prop :=
  match declared, o with
  | true, Some v => v <> VOpt
  | false, None => True
  | _, _ => False
  end.

Inductive wf_body : node -> Prop :=
| wf_intro k ty ve tx a co ma :
    ty <> VOpt ->
    opt_wf (nc_version (nk_class k)) ve -> opt_wf (nc_text (nk_class k)) tx ->
    attrs_wf true (nc_attrs (nk_class k)) a ->
    slot_wf (nc_content (nk_class k)) co -> slot_wf (nc_marks (nk_class k)) ma ->
    (forall l, co = Items l -> Forall (fun n => n_type n = VStr (nk_name (n_kind n)) /\ wf_body n) l) ->
    (forall l, ma = Items l -> Forall mark_wf l) ->
    wf_body (Node k ty ve tx a co ma).
Definition wf (n : node) : Prop := n_type n = VStr (nk_name (n_kind n)) /\ wf_body n.

Definition field_names (k : nkind) : list str :=
  match nc_attrs (nk_class k) with Some (_, fs) => map fst fs | None => [] end.
Lemma nodupb_spec (l : list str) :
  (fix go l := match l with [] => true | x :: r => negb (mem x r) && go r end) l = true -> NoDup l.
Proof.
  induction l as [|x l IH]; intros H; constructor.
  - apply andb_true_iff in H as [H _]. intros HI. apply mem_In in HI. now rewrite HI in H.
  - apply andb_true_iff in H as [_ H]. auto.
Qed.
Lemma nk_fields_nodup k fk fs : nc_attrs (nk_class k) = Some (fk, fs) -> NoDup (map fst fs).
Proof.
  intros H. apply nodupb_spec.
  destruct k; cbn in H; try discriminate; injection H as <- <-; vm_compute; reflexivity.
Qed.
Lemma mk_fields_nodup k fs : mk_attrs k = Some fs -> NoDup (map fst fs).
Proof.
  intros H. apply nodupb_spec.
  destruct k; cbn in H; try discriminate; injection H as <-; vm_compute; reflexivity.
Qed.

(** ---------------------------------------------------------------- attrs round trip *)
Lemma lookup_none_notin {A} f (l : list (str * A)) : ~ In f (map fst l) -> lookup f l = None.
Proof.
  induction l as [|[f' v] l IH]; [reflexivity|]. cbn. intros H.
  destruct (str_eqb f' f) eqn:E; [apply str_eqb_eq in E; tauto|]. apply IH. tauto.
Qed.
Lemma lookup_remove f l : NoDup (map fst l) ->
  lookup f (remove_optional l) = match lookup f l with Some VOpt => None | x => x end.
Proof.
  unfold remove_optional. induction l as [|[f' v] l IH]; [reflexivity|]. cbn. intros ND. inversion_clear ND as [|? ? NI ND'].
  specialize (IH ND'). destruct (is_opt v) eqn:O; cbn.
  - destruct v; try discriminate. destruct (str_eqb f' f) eqn:E; [|exact IH].
    apply str_eqb_eq in E. subst. rewrite IH, lookup_none_notin by exact NI. reflexivity.
  - destruct (str_eqb f' f) eqn:E; [|exact IH]. destruct v; try discriminate; reflexivity.
Qed.
Lemma map_lookup_self (l : list (str * value)) : NoDup (map fst l) ->
  map (fun f => (f, match lookup f l with Some v => v | None => VOpt end)) (map fst l) = l.
Proof.
  induction l as [|[f v] l IH]; [reflexivity|]. intros ND. inversion_clear ND as [|? ? NI ND'].
  cbn [map fst lookup]. rewrite str_eqb_refl. f_equal.
  transitivity (map (fun f => (f, match lookup f l with Some v => v | None => VOpt end)) (map fst l)); [|now apply IH].
  apply map_ext_in. intros g HG. destruct (str_eqb f g) eqn:E; [|reflexivity].
  apply str_eqb_eq in E. subst. contradiction.
Qed.
Lemma attrs_reparse fs (l d : list (str * value)) :
  map fst l = map fst fs -> NoDup (map fst fs) ->
  (forall f, match lookup f d with Some v => v | None => VOpt end = match lookup f l with Some v => v | None => VOpt end) ->
  (forall f k, In (f, k) fs -> k <> Opt -> has f d = true) ->
  attrs_from_dict fs (VDict d) = Ok l.
Proof.
  intros HM ND HL HR. unfold attrs_from_dict.
  assert (HX : forall q, (forall k, q k = true -> k <> Opt) -> missing q fs d = false).
  { intros q HQ. unfold missing. apply not_true_iff_false. intros E. apply existsb_exists in E as ([f k] & HI & HE).
    cbn in HE. apply andb_true_iff in HE as [HE1 HE2]. rewrite (HR f k HI (HQ _ HE1)) in HE2. discriminate. }
  rewrite (HX is_Pos), (HX is_Req) by (intros []; cbn; discriminate). f_equal.
  transitivity (map (fun f => (f, match lookup f l with Some v => v | None => VOpt end)) (map fst fs)).
  { rewrite map_map. apply map_ext. intros f. now rewrite HL. }
  rewrite <- HM. apply map_lookup_self. now rewrite HM.
Qed.

Lemma in_map_lookup f (l : list (str * value)) : In f (map fst l) -> exists v, lookup f l = Some v.
Proof.
  induction l as [|[f' v] l IH]; [contradiction|]. cbn. intros [->|H].
  - rewrite str_eqb_refl. eauto.
  - destruct (str_eqb f' f); eauto.
Qed.

Lemma node_attrs_reparse fs l :
  map fst l = map fst fs -> NoDup (map fst fs) ->
  (forall f k, In (f, k) fs -> k <> Opt -> lookup f l <> Some VOpt) ->
  attrs_from_dict fs (attrs_to_dict l) = Ok l.
Proof.
  intros HM ND HR. unfold attrs_to_dict. assert (ND' : NoDup (map fst l)) by now rewrite HM.
  apply attrs_reparse; auto.
  - intros f. rewrite lookup_remove by exact ND'. destruct (lookup f l) as [[]|]; reflexivity.
  - intros f k HI HK. specialize (HR f k HI HK). unfold has. rewrite lookup_remove by exact ND'.
    assert (In f (map fst l)) as HF by (rewrite HM; now apply in_map with (f := fst) in HI).
    apply in_map_lookup in HF as [v HV]. rewrite HV in *. destruct v; try reflexivity. congruence.
Qed.
Lemma mark_attrs_reparse fs l :
  map fst l = map fst fs -> NoDup (map fst fs) -> attrs_from_dict fs (VDict l) = Ok l.
Proof.
  intros HM ND. apply attrs_reparse; auto. intros f k HI _. unfold has.
  assert (In f (map fst l)) as HF by (rewrite HM; now apply in_map with (f := fst) in HI).
  apply in_map_lookup in HF as [v ->]. reflexivity.
Qed.

Lemma mark_reparse m : mark_wf m -> parse_mark (mark_to_dict m) = Ok m.
Proof.
  intros [HC HW]. destruct m as [k ty a]. unfold mark_consistent in HC. cbn in HC, HW. subst ty.
  unfold mark_to_dict. cbn [m_type m_attrs]. unfold attrs_wf in HW.
  destruct (mk_attrs k) as [fs|] eqn:A; cbn [option_map] in HW; destruct a as [| |l]; try contradiction.
  - destruct HW as [HM _]. change (remove_optional _) with [(s "type", VStr (mk_name k)); (s "attrs", VDict l)].
    unfold parse_mark. change (lookup (s "type") _) with (Some (VStr (mk_name k))). cbv iota beta. rewrite mark_class_of_name.
    unfold mark_from_dict. rewrite A. change (lookup (s "attrs") _) with (Some (VDict l)). cbv iota beta.
    rewrite (mark_attrs_reparse fs l HM (mk_fields_nodup k fs A)). reflexivity.
  - change (remove_optional _) with [(s "type", VStr (mk_name k))].
    unfold parse_mark. change (lookup (s "type") _) with (Some (VStr (mk_name k))). cbv iota beta. rewrite mark_class_of_name.
    unfold mark_from_dict. rewrite A. reflexivity.
Qed.

(** ---------------------------------------------------------------- to_dict of a well-formed object *)
Definition fields (ty : value) (ve tx at_ co ma : option value) : list (str * value) :=
  (s "type", ty) :: opt_entry (s "version") ve ++ opt_entry (s "text") tx ++ opt_entry (s "attrs") at_
  ++ opt_entry (s "content") co ++ opt_entry (s "marks") ma.

Lemma lookup_fields ty ve tx at_ co ma :
  lookup (s "type") (fields ty ve tx at_ co ma) = Some ty /\
  lookup (s "version") (fields ty ve tx at_ co ma) = ve /\
  lookup (s "text") (fields ty ve tx at_ co ma) = tx /\
  lookup (s "attrs") (fields ty ve tx at_ co ma) = at_ /\
  lookup (s "content") (fields ty ve tx at_ co ma) = co /\
  lookup (s "marks") (fields ty ve tx at_ co ma) = ma.
Proof. destruct ve, tx, at_, co, ma; repeat split; reflexivity. Qed.

Definition attrs_dict (a : attrs) : option value :=
  match a with AObj l => Some (attrs_to_dict l) | _ => None end.

Lemma node_to_dict_eq k ty ve tx a co ma cs ms :
  (match co with
   | NoField | SOpt => Ok None
   | Items l => do xs <- mapM node_to_dict l; Ok (Some xs)
   | Raw v => do xs <- raw_to_dicts v; Ok (Some xs)
   end) = Ok cs ->
  (match ma with
   | NoField | SOpt => Ok None
   | Items l => Ok (Some (map mark_to_dict l))
   | Raw v => do xs <- raw_to_dicts v; Ok (Some xs)
   end) = Ok ms ->
  ty <> VOpt -> ve <> Some VOpt -> tx <> Some VOpt ->
  node_to_dict (Node k ty ve tx a co ma) =
  Ok (VDict (fields ty ve tx (attrs_dict a) (option_map VList cs) (option_map VList ms))).
Proof.
  intros HC HM H1 H2 H3. cbn [node_to_dict]. rewrite HC, HM. clear HC HM. cbn [rbind]. do 2 f_equal.
  assert (O : forall v, v <> VOpt -> negb (is_opt v) = true) by now intros [].
  unfold fields, remove_optional. cbn [filter snd]. rewrite (O ty H1). f_equal. clear H1.
  destruct ve as [v1|]; cbn [app filter snd]; [rewrite (O v1) by congruence; f_equal|];
  (destruct tx as [v2|]; cbn [app filter snd]; [rewrite (O v2) by congruence; f_equal|]);
  clear; destruct a, cs, ms; reflexivity.
Qed.

Lemma collect_all {A} w (ms : list (M A)) xs :
  Forall2 (fun m x => m = ([], Ok x)) ms xs -> collect w ms = ([], Ok xs).
Proof.
  induction 1 as [|m x ms xs H HF IH]; [reflexivity|]. rewrite H. cbn [collect]. rewrite IH. reflexivity.
Qed.

Definition roundtrip_claim (n : node) : Prop :=
  exists d, node_to_dict n = Ok d /\ forall w, parse_node w d = ([], Ok n).

Definition body_claim (n : node) : Prop :=
  exists d, node_to_dict n = Ok (VDict d) /\ lookup (s "type") d = Some (n_type n) /\
            forall w, from_dict w (n_kind n) (VDict d) = ([], Ok n).

Lemma body_parse n : n_type n = VStr (nk_name (n_kind n)) -> body_claim n -> roundtrip_claim n.
Proof.
  intros HT (d & D1 & D2 & D3). exists (VDict d). split; [exact D1|]. intros w.
  rewrite parse_node_dict, D2, HT, node_class_of_name. apply D3.
Qed.

Lemma wf_body_roundtrip n : wf_body n -> body_claim n.
Proof.
  induction n as [k ty ve tx a co ma IH] using node_ind'. intros HW.
  inversion HW as [? ? ? ? ? ? ? HTY HV HT HA HC HM HCO HMA]; subst. clear HW.
  (* children *)
  assert (EC : exists cs, (match co with
                | NoField | SOpt => Ok None
                | Items l => do xs <- mapM node_to_dict l; Ok (Some xs)
                | Raw v => do xs <- raw_to_dicts v; Ok (Some xs)
                end) = Ok cs /\
              match co with
              | Items l => exists xs, cs = Some xs /\ forall w, map (parse_node w) xs = map (fun n => ([], Ok n)) l
              | _ => cs = None
              end).
  { destruct co as [| |l|v]; try (eexists; split; reflexivity).
    - specialize (HCO l eq_refl). cbn [on_items] in IH. clear HC HM.
      assert (E : exists xs, mapM node_to_dict l = Ok xs /\ forall w, map (parse_node w) xs = map (fun n => ([], Ok n)) l).
      { induction l as [|n l IHl]; [exists []; split; reflexivity|].
        inversion_clear IH as [|? ? IHn IHr]. inversion_clear HCO as [|? ? Hn Hr].
        destruct (body_parse n (proj1 Hn) (IHn (proj2 Hn))) as (d & D1 & D2). destruct (IHl IHr Hr) as (xs & X1 & X2).
        exists (d :: xs). cbn. rewrite D1. cbn. rewrite X1. split; [reflexivity|].
        intros w. now rewrite D2, X2. }
      destruct E as (xs & -> & E). cbn. eauto.
    - unfold slot_wf in HC. destruct (nc_content _) as [[]|]; contradiction. }
  destruct EC as (cs & EC & ECs).
  assert (EM : exists ms, (match ma with
                | NoField | SOpt => Ok None
                | Items l => Ok (Some (map mark_to_dict l))
                | Raw v => do xs <- raw_to_dicts v; Ok (Some xs)
                end) = Ok ms /\
              match ma with
              | Items l => ms = Some (map mark_to_dict l)
              | _ => ms = None
              end).
  { destruct ma as [| |l|v]; try (eexists; split; reflexivity).
    unfold slot_wf in HM. destruct (nc_marks _) as [[]|]; contradiction. }
  destruct EM as (ms & EM & EMs).
  exists (fields ty ve tx (attrs_dict a) (option_map VList cs) (option_map VList ms)).
  split.
  { apply node_to_dict_eq; auto; try discriminate.
    - unfold opt_wf in HV. destruct (nc_version _), ve; congruence || contradiction || discriminate.
    - unfold opt_wf in HT. destruct (nc_text _), tx; congruence || contradiction || discriminate. }
  set (d := fields _ _ _ _ _ _).
  destruct (lookup_fields ty ve tx (attrs_dict a) (option_map VList cs) (option_map VList ms))
    as (L1 & L2 & L3 & L4 & L5 & L6). fold d in L1, L2, L3, L4, L5, L6.
  split; [exact L1|]. intros w. cbn [from_dict n_kind]. unfold node_from_entry.
  (* attrs *)
  assert (OA : exists oa, attrs_entry (nk_class k) d = Ok oa /\ attrs_field (nk_class k) oa = Ok a).
  { unfold attrs_entry, attrs_field. rewrite L4. unfold attrs_wf in HA.
    destruct (nc_attrs (nk_class k)) as [[fk fs]|] eqn:NA; destruct a as [| |l]; cbn [attrs_dict];
      try contradiction; try (destruct fk; contradiction).
    - destruct fk; try contradiction. eauto.
    - assert (HA' : map fst l = map fst fs /\ (true = true -> forall f k, In (f, k) fs -> k <> Opt -> lookup f l <> Some VOpt))
        by (destruct fk; exact HA). destruct HA' as [HA1 HA2].
      rewrite (node_attrs_reparse fs l HA1 (nk_fields_nodup k fk fs NA) (HA2 eq_refl)). cbn. eauto.
    - eauto. }
  destruct OA as (oa & -> & OA). unfold lift. cbn [bind].
  (* content *)
  assert (OC : exists oc, run_entry w (content_entry w d) = ([], Ok oc) /\ slot_field (nc_content (nk_class k)) oc = Ok co).
  { unfold content_entry. rewrite L5. unfold slot_wf in HC.
    destruct co as [| |l|v].
    - subst cs. destruct (nc_content (nk_class k)) as [[]|]; try contradiction. eexists; split; reflexivity.
    - subst cs. destruct (nc_content (nk_class k)) as [[]|]; try contradiction. eexists; split; reflexivity.
    - destruct ECs as (xs & -> & EX). cbn [option_map].
      exists (Some (Items l)). rewrite run_entry_list, EX.
      rewrite (collect_all w _ l).
      + split; [reflexivity|]. destruct (nc_content (nk_class k)) as [[]|]; try contradiction; reflexivity.
      + clear. induction l; cbn; constructor; auto.
    - destruct (nc_content (nk_class k)) as [[]|]; contradiction. }
  destruct OC as (oc & -> & OC). cbn [bind].
  assert (OM : exists om, run_entry w (marks_entry d) = ([], Ok om) /\ slot_field (nc_marks (nk_class k)) om = Ok ma).
  { unfold marks_entry. rewrite L6. unfold slot_wf in HM.
    destruct ma as [| |l|v].
    - subst ms. destruct (nc_marks (nk_class k)) as [[]|]; try contradiction. eexists; split; reflexivity.
    - subst ms. destruct (nc_marks (nk_class k)) as [[]|]; try contradiction. eexists; split; reflexivity.
    - subst ms. cbn [option_map].
      exists (Some (Items l)). rewrite run_entry_list. rewrite map_map.
      rewrite (collect_all w _ l).
      + split; [reflexivity|]. destruct (nc_marks (nk_class k)) as [[]|]; try contradiction; reflexivity.
      + specialize (HMA l eq_refl). clear -HMA. induction HMA as [|m l Hm HF IH]; cbn [map]; constructor; auto.
        now rewrite (mark_reparse m Hm).
    - destruct (nc_marks (nk_class k)) as [[]|]; contradiction. }
  destruct OM as (om & -> & OM). cbn [bind app]. unfold construct. rewrite OA, OC, OM, L3, L2.
  unfold type_field. rewrite L1. unfold opt_wf in HV, HT.
  destruct (nc_text (nk_class k)), tx; try contradiction; cbn [rbind];
    (destruct (nc_version (nk_class k)), ve; try contradiction; reflexivity).
Qed.

Lemma wf_roundtrip n : wf n -> roundtrip_claim n.
Proof. intros [HT HW]. apply body_parse; [exact HT|now apply wf_body_roundtrip]. Qed.

(** ---------------------------------------------------------------- parsed JSON is well-formed *)
Lemma opt_free_lookup key d v : opt_free (VDict d) = true -> lookup key d = Some v -> opt_free v = true.
Proof.
  cbn [opt_free]. rewrite forallb_forall. intros H HL. apply lookup_In in HL. exact (H _ HL).
Qed.
Lemma opt_free_in l v : opt_free (VList l) = true -> In v l -> opt_free v = true.
Proof. cbn [opt_free]. rewrite forallb_forall. auto. Qed.

Lemma holds_attrs_wf k fk fs ad l :
  opt_free (VDict ad) = true -> holds_attrs fs ad l ->
  attrs_faults fs (VDict ad) = [] ->
  In k [Req; Pos; Opt] ->
  forall f, In (f, fk) fs -> fk <> Opt -> lookup f l <> Some VOpt.
Proof.
  intros HO [HM HL] HF _ f HI HK. rewrite HL by (now apply in_map with (f := fst) in HI).
  destruct (lookup f ad) as [v|] eqn:E.
  - intros [= ->]. pose proof (opt_free_lookup f ad VOpt HO E). discriminate.
  - exfalso. apply attrs_acceptable_faults in HF. cbn in HF. rewrite forallb_forall in HF.
    specialize (HF _ HI). cbn in HF. unfold has in HF. rewrite E in HF. destruct fk; congruence.
Qed.

Lemma parse_mark_wf v m : parse_mark v = Ok m -> mark_wf m.
Proof.
  intros H. split; [eapply parse_mark_consistent; exact H|].
  apply parse_mark_represents in H. destruct H as [d k _ A|d k fs a _ A HA NA]; cbn; rewrite A; cbn.
  - exact I.
  - inversion HA as [|? l [HM _]]; subst; [congruence|]. split; [exact HM|discriminate].
Qed.

Definition wf_claim (v : value) : Prop :=
  forall w n, snd (parse_node w v) = Ok n -> opt_free v = true -> listy n -> wf n.

Lemma list_at_some key d l : lookup key d = Some (VList l) -> list_at key d = l.
Proof. unfold list_at. now intros ->. Qed.

Lemma Forall2_In_r {A B} (R : A -> B -> Prop) l l' b : Forall2 R l l' -> In b l' -> exists a, In a l /\ R a b.
Proof.
  induction 1 as [|a b' l l' HR HF IH]; [contradiction|]. intros [->|H]; [exists a; cbn; auto|].
  destruct (IH H) as (a' & HA & HR'). exists a'. cbn. auto.
Qed.

(** Children of a parsed node are parses of elements of the content list. *)
Definition parses (w : bool) (v : value) (n : node) : Prop := snd (parse_node w v) = Ok n.
Lemma from_dict_content w k d n l xs :
  snd (from_dict w k (VDict d)) = Ok n -> lookup (s "content") d = Some (VList l) -> n_content n = Items xs ->
  Forall2 (parses w) (filter (fun y => negb (unregistered node_names y)) l) xs.
Proof.
  intros H HL HX. cbn [from_dict] in H. unfold node_from_entry in H.
  destruct (attrs_entry (nk_class k) d) as [oa|] eqn:EA; [|discriminate]. unfold lift in H. cbn [bind] in H.
  destruct (run_entry w (content_entry w d)) as [lg [oc|]] eqn:EC; [|discriminate]. cbn [bind] in H.
  destruct (run_entry w (marks_entry d)) as [lg' [om|]] eqn:EM; [|discriminate]. cbn [bind snd app] in H.
  unfold construct in H.
  destruct (if nc_text (nk_class k) then _ else _) as [tx|] eqn:ET; [|discriminate]. cbn [rbind] in H.
  destruct (attrs_field (nk_class k) oa) as [a|] eqn:EF; [|discriminate]. cbn [rbind] in H.
  destruct (slot_field (nc_content (nk_class k)) oc) as [co|] eqn:ES; [|discriminate]. cbn [rbind] in H.
  destruct (slot_field (nc_marks (nk_class k)) om) as [ma|] eqn:EN; [|discriminate]. cbn [rbind] in H.
  injection H as <-. cbn in HX. subst co.
  unfold content_entry in EC. rewrite HL, run_entry_list in EC.
  destruct (collect w (map (parse_node w) l)) as [lg1 [ys|]] eqn:E; [|discriminate].
  injection EC as <- <-. cbn in ES. destruct (nc_content (nk_class k)); [|discriminate]. injection ES as <-.
  eapply collect_forall2; [| | |exact E]; cbv beta.
  - intros y _ U. rewrite (parse_node_unregistered _ _ U). cbn. eauto.
  - intros y _ U. now apply parse_node_nu.
  - intros y b _ HP. exact HP.
Qed.
Lemma from_dict_marks w k d n l xs :
  snd (from_dict w k (VDict d)) = Ok n -> lookup (s "marks") d = Some (VList l) -> n_marks n = Items xs ->
  Forall2 (fun v m => parse_mark v = Ok m) (filter (fun y => negb (unregistered mark_names y)) l) xs.
Proof.
  intros H HL HX. cbn [from_dict] in H. unfold node_from_entry in H.
  destruct (attrs_entry (nk_class k) d) as [oa|] eqn:EA; [|discriminate]. unfold lift in H. cbn [bind] in H.
  destruct (run_entry w (content_entry w d)) as [lg [oc|]] eqn:EC; [|discriminate]. cbn [bind] in H.
  destruct (run_entry w (marks_entry d)) as [lg' [om|]] eqn:EM; [|discriminate]. cbn [bind snd app] in H.
  unfold construct in H.
  destruct (if nc_text (nk_class k) then _ else _) as [tx|] eqn:ET; [|discriminate]. cbn [rbind] in H.
  destruct (attrs_field (nk_class k) oa) as [a|] eqn:EF; [|discriminate]. cbn [rbind] in H.
  destruct (slot_field (nc_content (nk_class k)) oc) as [co|] eqn:ES; [|discriminate]. cbn [rbind] in H.
  destruct (slot_field (nc_marks (nk_class k)) om) as [ma|] eqn:EN; [|discriminate]. cbn [rbind] in H.
  injection H as <-. cbn in HX. subst ma.
  unfold marks_entry in EM. rewrite HL, run_entry_list in EM.
  destruct (collect w (map (fun v => lift (parse_mark v)) l)) as [lg1 [ys|]] eqn:E; [|discriminate].
  injection EM as <- <-. cbn in EN. destruct (nc_marks (nk_class k)); [|discriminate]. injection EN as <-.
  eapply collect_forall2; [| | |exact E]; cbv beta.
  - intros y _ U. rewrite (parse_mark_unregistered _ U). cbn. eauto.
  - intros y _ U. now apply parse_mark_nu.
  - intros y b _ HP. exact HP.
Qed.

Lemma from_dict_wf w k d n :
  (forall l, lookup (s "content") d = Some (VList l) -> Forall wf_claim l) ->
  snd (from_dict w k (VDict d)) = Ok n -> opt_free (VDict d) = true -> listy n -> wf_body n.
Proof.
  intros HF H HO HL. pose proof (from_dict_represents w k d n H) as (ve & tx & a & co & ma & -> & HR).
  unfold type_field.
  assert (HX : faults_for k (VDict d) = []).
  { pose proof (from_dict_faults k (VDict d) w) as HX. unfold outcome in HX.
    destruct (faults_for k (VDict d)); [reflexivity|congruence]. }
  cbn [faults_for] in HX. apply own_faults in HX as [HX _].
  unfold own_fields_acceptable in HX. rewrite !andb_true_iff in HX. destruct HX as [[[[X1 X2] X3] X4] _].
  inversion HR as [? ? ? ? ? ? ? HV HT HA HCO HMA]; subst.
  inversion HL as [? ? ? ? ? ? ? NR1 NR2 HLL]; subst.
  constructor.
  - destruct (lookup (s "type") d) as [v|] eqn:E; [|discriminate].
    intros ->. pose proof (opt_free_lookup _ _ _ HO E). discriminate.
  - unfold opt_wf. destruct (nc_version (nk_class k)); [|exact I].
    destruct (lookup (s "version") d) as [v|] eqn:E; [|discriminate].
    intros ->. pose proof (opt_free_lookup _ _ _ HO E). discriminate.
  - unfold opt_wf. destruct (nc_text (nk_class k)); [|exact I]. unfold has in X1.
    destruct (lookup (s "text") d) as [v|] eqn:E; [|discriminate].
    intros ->. pose proof (opt_free_lookup _ _ _ HO E). discriminate.
  - unfold attrs_wf. destruct (nc_attrs (nk_class k)) as [[fk fs]|]; [|subst; exact I].
    destruct (lookup (s "attrs") d) as [av|] eqn:E; inversion HA as [|ad l HH]; subst.
    + apply attrs_acceptable_faults in X2.
      pose proof (opt_free_lookup _ _ _ HO E) as HO'.
      assert (map fst l = map fst fs /\ (true = true -> forall f k0, In (f, k0) fs -> k0 <> Opt -> lookup f l <> Some VOpt)).
      { split; [exact (proj1 HH)|]. intros _ f fk' HI HK.
        exact (holds_attrs_wf Req fk' fs ad l HO' HH X2 (or_introl eq_refl) f HI HK). }
      destruct fk; exact H0.
    + destruct fk; try discriminate. exact I.
  - unfold slot_wf. inversion HCO as [o HD|HD EQ|HD EQ|l xs HD HF2 EQ|v HD _ _ EQ]; subst.
    + destruct (nc_content (nk_class k)); [discriminate|exact I].
    + unfold present_if_required, has in X3. rewrite <- EQ in X3.
      destruct (nc_content (nk_class k)) as [[]|]; try discriminate. exact I.
    + symmetry in EQ. pose proof (opt_free_lookup _ _ _ HO EQ). discriminate.
    + destruct (nc_content (nk_class k)) as [[]|]; try discriminate; exact I.
    + exfalso. eapply NR1. reflexivity.
  - unfold slot_wf. inversion HMA as [o HD|HD EQ|HD EQ|l xs HD HF2 EQ|v HD _ _ EQ]; subst.
    + destruct (nc_marks (nk_class k)); [discriminate|exact I].
    + unfold present_if_required, has in X4. rewrite <- EQ in X4.
      destruct (nc_marks (nk_class k)) as [[]|]; try discriminate. exact I.
    + symmetry in EQ. pose proof (opt_free_lookup _ _ _ HO EQ). discriminate.
    + destruct (nc_marks (nk_class k)) as [[]|]; try discriminate; exact I.
    + exfalso. eapply NR2. reflexivity.
  - intros xs ->. inversion HCO as [| | |l xs' HD HF2 EQ|]; subst. symmetry in EQ.
    pose proof (from_dict_content w k d _ l xs H EQ eq_refl) as HP. specialize (HF l EQ). specialize (HLL xs eq_refl).
    pose proof (opt_free_lookup _ _ _ HO EQ) as HOl.
    apply Forall_forall. intros x HI. destruct (Forall2_In_r _ _ _ _ HP HI) as (y & HY & HYP).
    apply filter_In in HY as [HY _]. rewrite Forall_forall in HF, HLL.
    eapply HF; [exact HY|exact HYP|now apply (opt_free_in l)|now apply HLL].
  - intros xs ->. inversion HMA as [| | |l xs' HD HF2 EQ|]; subst. symmetry in EQ.
    pose proof (from_dict_marks w k d _ l xs H EQ eq_refl) as HP.
    apply Forall_forall. intros x HI. destruct (Forall2_In_r _ _ _ _ HP HI) as (y & HY & HYP).
    eapply parse_mark_wf. exact HYP.
Qed.

Lemma parse_wf v : wf_claim v.
Proof.
  induction v as [v HX|d IH] using doc_ind; intros w n H.
  - rewrite parse_node_nondict in H by exact HX. discriminate.
  - rewrite parse_node_dict in H. destruct (lookup (s "type") d) as [ty|] eqn:L; [|discriminate].
    destruct (node_class_of ty) as [k| |] eqn:R; try discriminate.
    pose proof (node_class_of_found _ _ R). subst ty.
    intros HO HL. split.
    + pose proof (from_dict_represents w k d n H) as (ve & tx & a & co & ma & -> & HR).
      cbn. unfold type_field. now rewrite L.
    + eapply from_dict_wf; [|exact H|exact HO|exact HL]. intros l HLk. exact (IH _ _ HLk).
Qed.

Lemma parse_roundtrip w v n :
  snd (parse_node w v) = Ok n -> opt_free v = true -> listy n ->
  exists d, node_to_dict n = Ok d /\ forall w', parse_node w' d = ([], Ok n).
Proof. intros H HO HL. apply wf_roundtrip. eapply parse_wf; eassumption. Qed.

Lemma from_dict_roundtrip w k v n :
  snd (from_dict w k v) = Ok n -> opt_free v = true -> listy n ->
  exists d, node_to_dict n = Ok d /\ forall w', from_dict w' k d = ([], Ok n).
Proof.
  destruct v; try discriminate. intros H HO HL.
  pose proof (from_dict_represents w k d n H) as (ve & tx & a & co & ma & EN & _).
  assert (HK : n_kind n = k) by (now subst n).
  assert (W : wf_body n).
  { eapply from_dict_wf; [|exact H|exact HO|exact HL]. intros l _. apply Forall_forall. intros y _. apply parse_wf. }
  destruct (wf_body_roundtrip n W) as (d' & D1 & _ & D3). exists (VDict d'). split; [exact D1|].
  rewrite HK in D3. exact D3.
Qed.
Lemma mark_roundtrip v m : parse_mark v = Ok m -> parse_mark (mark_to_dict m) = Ok m.
Proof. intros H. apply mark_reparse. eapply parse_mark_wf. exact H. Qed.
