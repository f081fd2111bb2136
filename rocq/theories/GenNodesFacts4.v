(** Proofs about the class generator: properties, fields and the text of the files. *)
From Coq Require Import List NArith ZArith Bool String Arith Lia Sorted Permutation.
From Verif Require Import PyStr Values Basics StrFacts LeafFacts SerFacts2 GenCode SpecApi ApiFacts Analyze SpecEqual SpecAnalyze AnalyzeFacts AnalyzeFacts3 AnalyzeFacts4 GenNodes SpecGenNodes GenNodesFacts GenNodesFacts2 GenNodesFacts3.
Import ListNotations.
Open Scope string_scope.
Open Scope list_scope.

(** ---------------------------------------------------------------- class names *)
Lemma letters_app x y : letters (x ++ y) = letters x ++ letters y.
Proof. unfold letters. now rewrite filter_app, map_app. Qed.
Lemma upper_under c : N.eqb (upper_ascii c) UNDER = N.eqb c UNDER.
Proof.
  unfold upper_ascii. destruct (N.leb_spec 97 c), (N.leb_spec c 122); cbn [andb]; try reflexivity.
  unfold UNDER. destruct (N.eqb_spec c 95), (N.eqb_spec (c - 32) 95); try reflexivity; lia.
Qed.
Lemma lower_upper c : ascii_lower (upper_ascii c) = ascii_lower c.
Proof.
  unfold upper_ascii. destruct (N.leb_spec 97 c), (N.leb_spec c 122); cbn [andb]; try reflexivity.
  unfold ascii_lower, is_up. destruct (N.leb_spec 65 (c - 32)), (N.leb_spec (c - 32) 90), (N.leb_spec 65 c), (N.leb_spec c 90); cbn [andb]; lia.
Qed.
Lemma cap_letters E x : ascii_case E -> all_ascii x -> letters (capitalize E x) = letters x.
Proof.
  intros (_ & HC & H0) HA. destruct x as [|c x]; [now rewrite H0|]. rewrite HC by assumption.
  change (upper_ascii c :: map ascii_lower x) with ([upper_ascii c] ++ map ascii_lower x). change (c :: x) with ([c] ++ x).
  rewrite !letters_app, letters_lower. f_equal. unfold letters. cbn [filter]. rewrite upper_under. destruct (negb (N.eqb c UNDER)); [|reflexivity].
  cbn [map]. now rewrite lower_upper.
Qed.
Lemma pascal_letters E x : ascii_case E -> all_ascii x -> letters (snake_to_pascal E x) = letters x.
Proof.
  intros HE HA. unfold snake_to_pascal. rewrite <- (join_split UNDER x) at 2.
  assert (HL : forall l, In l (split_on UNDER x) -> all_ascii l).
  { intros l HI c HC. apply HA. rewrite <- (join_split UNDER x). clear -HI HC. induction (split_on UNDER x) as [|a ls IH]; [destruct HI|].
    destruct HI as [->|HI].
    - destruct ls; cbn; [assumption|]. apply in_or_app. now left.
    - destruct ls; [destruct HI|]. cbn. apply in_or_app. right. right. now apply IH. }
  induction (split_on UNDER x) as [|a ls IH]; [reflexivity|]. destruct ls as [|b ls].
  - cbn [map List.concat join]. rewrite app_nil_r. apply cap_letters; [assumption|]. apply HL. now left.
  - cbn [map List.concat]. rewrite letters_app, cap_letters by (assumption || (apply HL; now left)).
    change (join [UNDER] (a :: b :: ls)) with (a ++ [UNDER] ++ join [UNDER] (b :: ls)). rewrite !letters_app. f_equal.
    cbn [map List.concat] in IH. rewrite <- IH; [change (letters [UNDER]) with (@nil N); symmetry; apply letters_app|]. intros l HI. apply HL. now right.
Qed.
Lemma names_class E ds name n ds' : def_name_to_names E ds name = Ok (n, ds') -> class_of E name (n_class n).
Proof.
  unfold def_name_to_names. destruct (is_mark name) eqn:KM; [|destruct (is_node name) eqn:KN]; cbn [rbind]; try discriminate.
  - apply is_mark_iff in KM. destruct KM as [x ->]. rewrite (drop5_app x (s "_mark") eq_refl).
    destruct (get_type_enum E ds (x ++ s "_mark")) as [[enum ds1]|]; cbn [rbind]; [|discriminate]. intros [= <- <-]. exists x. auto.
  - apply is_node_iff in KN. destruct KN as [x ->]. rewrite (drop5_app x (s "_node") eq_refl).
    destruct (get_type_enum E ds (x ++ s "_node")) as [[enum ds1]|]; cbn [rbind]; [|discriminate]. intros [= <- <-]. exists x. auto.
Qed.
Lemma names_enum E ds name n ds' : def_name_to_names E ds name = Ok (n, ds') -> exists ds1, get_type_enum E ds name = Ok (n_enum n, ds1).
Proof.
  unfold def_name_to_names. destruct (if is_mark name then _ else _) as [[? ?]|]; cbn [rbind]; [|discriminate].
  destruct (get_type_enum E ds name) as [[t ds1]|]; cbn [rbind]; [|discriminate]. intros [= <- <-]. now exists ds1.
Qed.

(** ---------------------------------------------------------------- merged properties *)
Lemma lookup_iff {A} k (d : list (str * A)) v : NoDup (map fst d) -> (lookup k d = Some v <-> In (k, v) d).
Proof. intros HN. split; [apply lookup_In|now apply lookup_in]. Qed.
Lemma dk_dict_inv d : distinct_keys (VDict d) -> NoDup (map fst d) /\ forall k v, In (k, v) d -> distinct_keys v.
Proof.
  intros DK. inversion DK as [? HAt|? HD|? HN HD]; subst; [discriminate|]. split; [assumption|].
  intros k v HI. rewrite Forall_forall in HD. now apply (HD (k, v)).
Qed.
Lemma dk_list_inv l : distinct_keys (VList l) -> forall v, In v l -> distinct_keys v.
Proof. intros DK. inversion DK as [? HAt|? HD|? HN HD]; subst; [discriminate|]. now rewrite Forall_forall in HD. Qed.
Lemma lookup_update {A} k (u p : list (str * A)) : NoDup (map fst u) -> lookup k (update p u) = match lookup k u with Some v => Some v | None => lookup k p end.
Proof.
  unfold update. revert p. induction u as [|[j v] u IH]; intros p HN; [reflexivity|]. cbn [map fst] in HN. inversion HN as [|? ? HI HN']; subst.
  cbn [fold_left fst snd lookup]. rewrite IH by assumption. rewrite lookup_set, (str_eqb_sym k j). destruct (str_eqb j k) eqn:K; [|reflexivity].
  apply str_eqb_eq in K. subst j. destruct (lookup k u) as [w|] eqn:KL; [|reflexivity]. exfalso. apply HI. apply lookup_In in KL. now apply (in_map fst) in KL.
Qed.
Definition own_props (d : defs) : res defs := get_dict (s "properties") d.
Lemma own_props_spec d u k v : distinct_keys (VDict d) -> get_dict (s "properties") d = Ok u -> NoDup (map fst u) /\ (lookup k u = Some v <-> own_property d k v).
Proof.
  intros DK. destruct (dk_dict_inv d DK) as [HN HV]. unfold get_dict. destruct (lookup (s "properties") d) as [w|] eqn:KL.
  - destruct w as [| | | | | |p|]; try discriminate. cbn. intros [= ->]. apply lookup_In in KL. destruct (dk_dict_inv u (HV _ _ KL)) as [HU _].
    split; [assumption|]. rewrite lookup_iff by assumption. split; [intros HI; now exists u|]. intros (p & HP & HI).
    apply (lookup_in _ _ _ HN) in HP. apply (lookup_in _ _ _ HN) in KL. congruence.
  - intros [= <-]. split; [constructor|]. split; [discriminate|]. intros (p & HP & _). now apply lookup_none_in with (v := VDict p) in KL.
Qed.
Lemma merge_spec k v items : forall p q, Forall distinct_keys items -> foldM merge_step items p = Ok q ->
  (lookup k q = Some v <-> (exists before item after, items = before ++ VDict item :: after /\ own_property item k v /\ Forall (lacks k) after) \/
                           (lookup k p = Some v /\ Forall (lacks k) items)).
Proof.
  induction items as [|item items IH]; intros p q HD HE.
  - cbn in HE. injection HE as <-. split; [auto|]. intros [(b & i & a & HX & _)|[H _]]; [destruct b; discriminate|assumption].
  - cbn [foldM] in HE. unfold merge_step at 1 in HE. destruct item as [| | | | | |d|]; try discriminate. cbn [as_dict rbind] in HE.
    destruct (get_dict (s "properties") d) as [u|] eqn:KU; cbn [rbind] in HE; [|discriminate].
    apply Forall_cons_iff in HD. destruct HD as [HD1 HD2]. change (foldM merge_step items (update p u) = Ok q) in HE. rewrite (IH _ _ HD2 HE).
    destruct (own_props_spec d u k v HD1 KU) as [HN HS].
    assert (HA : forall w, lookup k u = Some w <-> own_property d k w) by (intros w; apply (own_props_spec d u k w HD1 KU)).
    rewrite lookup_update by assumption. split.
    + intros [(b & i & a & -> & HI & HF)|[HL HF]].
      * left. exists (VDict d :: b), i, a. auto.
      * destruct (lookup k u) as [w|] eqn:KL.
        -- left. injection HL as ->. exists [], d, items. split; [reflexivity|]. split; [now apply HA|assumption].
        -- right. split; [assumption|]. constructor; [|assumption]. intros d' v' [= <-] HO. apply HA in HO. congruence.
    + intros [([|b0 b] & i & a & HX & HI & HF)|[HL HF]].
      * cbn in HX. assert (i = d) as -> by congruence. assert (a = items) as -> by congruence. right. apply HA in HI. rewrite HI. auto.
      * cbn in HX. assert (items = b ++ VDict i :: a) by congruence. left. eauto 7.
      * apply Forall_cons_iff in HF. destruct HF as [HF1 HF2]. right. split; [|assumption].
        destruct (lookup k u) as [w|] eqn:KL; [|assumption]. exfalso. apply (HF1 d w eq_refl). now apply HA.
Qed.
Lemma merged_props_spec d p k v : distinct_keys (VDict d) -> merged_props d = Ok p -> (lookup k p = Some v <-> has_property d k v).
Proof.
  intros DK HP. destruct (dk_dict_inv d DK) as [HN HV]. unfold merged_props in HP.
  destruct (get_dict (s "properties") d) as [u|] eqn:KU; cbn [rbind] in HP; [|discriminate].
  destruct (own_props_spec d u k v DK KU) as [_ HS]. unfold has_property. destruct (lookup (s "allOf") d) as [w|] eqn:KA.
  - destruct w as [| | | | |items| |]; try discriminate. cbn [as_list rbind] in HP.
    apply lookup_In in KA. assert (HI : Forall distinct_keys items) by (apply Forall_forall; apply dk_list_inv; now apply (HV _ _ KA)).
    change (foldM merge_step items u = Ok p) in HP. rewrite (merge_spec k v items u p HI HP), HS.
    assert (HU : forall l, In (s "allOf", VList l) d -> l = items) by (intros l HL; apply (lookup_in _ _ _ HN) in HL; apply (lookup_in _ _ _ HN) in KA; congruence).
    split.
    + intros [(b & i & a & -> & HO & HF)|[HO HF]]; [left; exists b, i, a; auto|right]. split; [assumption|]. intros l HL. now rewrite (HU l HL).
    + intros [(b & i & a & HL & HO & HF)|[HO HF]]; [left; exists b, i, a|right]; [rewrite (HU _ HL)|]; auto.
  - injection HP as <-. rewrite HS. split.
    + intros HO. right. split; [assumption|]. intros l HL. exfalso. now apply (lookup_none_in _ _ _ KA HL).
    + intros [(b & i & a & HL & _)|[HO _]]; [exfalso; now apply (lookup_none_in _ _ _ KA HL)|assumption].
Qed.
Lemma definition_in ds name d : distinct_keys (VDict ds) -> In (name, VDict d) ds -> definition_of ds name = Ok d.
Proof. intros DK HI. destruct (dk_dict_inv ds DK) as [HN _]. unfold definition_of. now rewrite (lookup_in _ _ _ HN HI). Qed.

(** ---------------------------------------------------------------- types *)
Lemma mentions_iff k d : has (s k) d = true <-> mentions k d.
Proof.
  rewrite has_iff. unfold mentions. destruct (lookup (s k) d) as [v|] eqn:KL.
  - split; [|reflexivity]. intros _. exists v. now apply lookup_In.
  - split; [discriminate|]. intros [v HI]. now apply lookup_none_in with (v := v) in KL.
Qed.
Lemma not_mentions k d : has (s k) d = false -> ~ mentions k d.
Proof. intros H HM. apply mentions_iff in HM. congruence. Qed.
Lemma type_map_spec t p : lookup t type_map = Some p ->
  exists a b, t = s a /\ p = s b /\ In (a, b) [("string", "str"); ("integer", "int"); ("number", "float"); ("boolean", "bool"); ("array", "list"); ("object", "dict[str, T.Any]")].
Proof.
  intros H. apply lookup_In in H. unfold type_map in H. cbn [In] in H.
  repeat (destruct H as [H|H]; [injection H as <- <-; eexists; eexists; split; [reflexivity|split; [reflexivity|cbn; auto 10]]|]). destruct H.
Qed.
Lemma type_map_none t : lookup (s t) type_map = None -> ~ In t ["string"; "integer"; "number"; "boolean"; "array"; "object"].
Proof. intros H HI. cbn [In] in HI. repeat (destruct HI as [<-|HI]; [discriminate H|]). destruct HI. Qed.
Lemma python_type_spec d r : distinct_keys (VDict d) -> schema_type_to_python (VDict d) = Ok r -> exists t, r = s t /\ python_type d t.
Proof.
  intros DK. destruct (dk_dict_inv d DK) as [HN _]. unfold schema_type_to_python. cbn [as_dict rbind].
  destruct (has (s "enum") d) eqn:KE; [intros [= <-]; exists "str"; split; [reflexivity|]; apply py_enum; now apply mentions_iff|].
  apply not_mentions in KE.
  destruct (has (s "$ref") d) eqn:KR; [intros [= <-]; exists "T.Any"; split; [reflexivity|]; apply py_ref; [assumption|now apply mentions_iff]|].
  apply not_mentions in KR.
  destruct (lookup (s "type") d) as [v|] eqn:KT.
  - destruct v as [| | | |t|l|d'|]; try discriminate.
    all: try (intros [= <-]; exists "T.Any"; split; [reflexivity|]; apply py_other; [assumption|assumption|]; intros t HT; apply (lookup_in _ _ _ HN) in HT; congruence).
    destruct (lookup t type_map) as [p|] eqn:KM; intros [= <-].
    + apply type_map_spec in KM. destruct KM as (a & b & -> & -> & HI). exists b. split; [reflexivity|]. apply py_simple with (t := a); try assumption. now apply lookup_In.
    + exists "T.Any". split; [reflexivity|]. apply py_other; [assumption|assumption|]. intros t' HT. apply (lookup_in _ _ _ HN) in HT.
      apply type_map_none. congruence.
  - intros [= <-]. exists "T.Any". split; [reflexivity|]. apply py_other; [assumption|assumption|]. intros t' HT. now apply lookup_none_in with (v := VStr (s t')) in KT.
Qed.

(** ---------------------------------------------------------------- fields *)
Lemma in_list_iff k l : in_list k l = true <-> In (VStr k) l.
Proof.
  unfold in_list. rewrite existsb_exists. split.
  - intros (v & HI & H). destruct v; try discriminate. apply str_eqb_eq in H. now subst.
  - intros HI. exists (VStr k). split; [assumption|apply str_eqb_refl].
Qed.
Lemma field_key_before f g : strictly_before (field_key f) (field_key g) ->
  (f_required g = true -> f_required f = true) /\ (f_required f = f_required g -> strictly_before (f_name f) (f_name g)).
Proof.
  unfold field_key. rewrite strictly_iff. intros [HL HN]. cbn in HL.
  destruct (f_required f), (f_required g); cbn in HL; (split; [try discriminate; auto|]); try discriminate;
  intros _; apply strictly_iff; (split; [assumption|congruence]).
Qed.
Lemma sorted_split {A} (f : A -> bool) (R : A -> A -> Prop) l : StronglySorted R l -> (forall a b, R a b -> f b = true -> f a = true) ->
  l = filter f l ++ filter (fun a => negb (f a)) l.
Proof.
  intros HS HR. induction HS as [|a l HS IH HF]; [reflexivity|]. cbn [filter]. destruct (f a) eqn:K; cbn [negb app]; [now rewrite <- IH|].
  assert (HE : filter f l = []).
  { rewrite Forall_forall in HF. clear IH. induction l as [|b l IHl]; [reflexivity|]. cbn [filter]. destruct (f b) eqn:KB.
    - rewrite (HR a b (HF b (or_introl eq_refl)) KB) in K. discriminate.
    - apply IHl; [now inversion HS|]. intros x HX. apply HF. now right. }
  rewrite HE in *. cbn [app] in *. now rewrite <- IH.
Qed.
Lemma filter_sorted {A} (f : A -> bool) (R : A -> A -> Prop) l : StronglySorted R l -> StronglySorted R (filter f l).
Proof.
  induction 1 as [|a l HS IH HF]; cbn; [constructor|]. destruct (f a); [|assumption]. constructor; [assumption|].
  rewrite Forall_forall in *. intros x HX. apply filter_In in HX. now apply HF.
Qed.
Lemma map_sorted {A} (g : A -> str) (R : A -> A -> Prop) l : (forall a b, In a l -> In b l -> R a b -> strictly_before (g a) (g b)) ->
  StronglySorted R l -> StronglySorted strictly_before (map g l).
Proof.
  intros HG. induction 1 as [|a l HS IH HF]; cbn; [constructor|]. constructor.
  - apply IH. intros x y HX HY. apply HG; now right.
  - rewrite Forall_forall in *. intros b HB. apply in_map_iff in HB. destruct HB as (x & <- & HX). apply HG; [now left|now right|now apply HF].
Qed.
Lemma choose {A B} (R : A -> B -> Prop) l : (forall a, In a l -> exists b, R a b) -> exists l', Forall2 R l l'.
Proof.
  induction l as [|a l IH]; intros H; [exists []; constructor|]. destruct (H a (or_introl eq_refl)) as [b HB].
  destruct IH as [l' HL]; [intros x HX; apply H; now right|]. exists (b :: l'). now constructor.
Qed.

Theorem attrs_spec attrs req fields l : distinct_keys (VDict attrs) -> get_list (s "required") attrs = Ok req -> get_dict (s "properties") attrs = Ok fields ->
  mapM (attrs_field req) fields = Ok l ->
  exists given optional,
    alphabetical (fun k => required_by attrs k /\ exists v, own_property attrs k v) (map fst given) /\
    alphabetical (fun k => ~ required_by attrs k /\ exists v, own_property attrs k v) (map fst optional) /\
    Forall (declares attrs) given /\ Forall (declares attrs) optional /\
    lines_ (map field_line (sorted_by field_key l)) = List.concat (map given_line given) ++ List.concat (map optional_line optional).
Proof.
  intros DK HQ HP HM. destruct (dk_dict_inv attrs DK) as [HN HV].
  assert (HR : forall k, In (VStr k) req <-> required_by attrs k).
  { intros k. unfold required_by, get_list in *. destruct (lookup (s "required") attrs) as [w|] eqn:KL.
    - destruct w as [| | | | |r| |]; try discriminate. cbn in HQ. injection HQ as ->. apply lookup_In in KL. split; [intros HI; now exists req|].
      intros (r & HI & HK). apply (lookup_in _ _ _ HN) in HI. apply (lookup_in _ _ _ HN) in KL. congruence.
    - injection HQ as <-. split; [intros []|]. intros (r & HI & _). now apply lookup_none_in with (v := VList r) in KL. }
  assert (HO : forall k v, In (k, v) fields <-> own_property attrs k v).
  { intros k v. destruct (own_props_spec attrs fields k v DK HP) as [H1 H2]. now rewrite <- lookup_iff. }
  assert (HNF : NoDup (map fst fields)) by (destruct (own_props_spec attrs fields [] VNone DK HP); assumption).
  apply mapM_forall2 in HM.
  assert (HF : forall f, In f l -> exists d t, In (f_name f, VDict d) fields /\ python_type d t /\ f_type f = s t /\ f_required f = in_list (f_name f) req /\ f_default f = get_field_default (f_required f)).
  { intros f HI. destruct (Forall2_in_r _ _ _ _ HM HI) as ([k v] & HK & HE). unfold attrs_field in HE. cbn [fst snd] in HE.
    destruct v as [| | | | | |d|]; try discriminate HE.
    assert (DD : distinct_keys (VDict d)).
    { assert (HO' : own_property attrs k (VDict d)) by now apply HO. destruct HO' as (p & HPI & HKI). apply (HV _ _) in HPI. apply dk_dict_inv in HPI. now apply HPI in HKI. }
    destruct (schema_type_to_python (VDict d)) as [r|] eqn:KT; cbn [rbind] in HE; [|discriminate]. apply (python_type_spec d r DD) in KT. destruct KT as (t & -> & HT).
    injection HE as <-. cbn. exists d, t. auto. }
  assert (HNAMES : map f_name l = map fst fields).
  { clear -HM. induction HM as [|e f es fs HE HF IH]; [reflexivity|]. cbn. rewrite IH. f_equal. unfold attrs_field in HE.
    destruct (schema_type_to_python (snd e)); cbn [rbind] in HE; [|discriminate]. now injection HE as <-. }
  set (sl := sorted_by field_key l).
  assert (HS : StronglySorted (fun f g => strictly_before (field_key f) (field_key g)) sl).
  { apply sorted_strict. rewrite <- HNAMES in HNF. clear -HNF. revert HNF. induction l as [|f l IH]; cbn; intros HNF; [constructor|]. inversion HNF as [|? ? HI HNF']; subst.
    constructor; [|now apply IH]. intros HI'. apply HI. apply in_map_iff in HI'. destruct HI' as (g & HG & HIG). apply in_map_iff. exists g. split; [|assumption].
    unfold field_key in HG. congruence. }
  assert (HIN : forall f, In f sl <-> In f l) by (intros f; split; apply Permutation_in; [symmetry|]; apply sorted_perm).
  assert (HNM : forall k, (exists v, own_property attrs k v) <-> exists f, In f l /\ f_name f = k).
  { intros k. split.
    - intros [v HOV]. apply HO in HOV. apply (in_map fst) in HOV. rewrite <- HNAMES in HOV. apply in_map_iff in HOV. destruct HOV as (f & HK & HI). now exists f.
    - intros (f & HI & <-). destruct (HF f HI) as (d & t & HK & _). exists (VDict d). now apply HO. }
  assert (HRQ : forall f, In f l -> (f_required f = true <-> required_by attrs (f_name f))).
  { intros f HI. destruct (HF f HI) as (d & t & _ & _ & _ & HQ' & _). rewrite HQ', in_list_iff. apply HR. }
  assert (HCH : forall sub, (forall f, In f sub -> In f l) -> exists es, Forall2 (fun f e => fst e = f_name f /\ f_type f = s (snd e) /\ declares attrs e) sub es).
  { intros sub HSUB. apply choose. intros f HI. destruct (HF f (HSUB f HI)) as (d & t & HK & HT & HTY & _). exists (f_name f, t). split; [reflexivity|]. split; [assumption|].
    exists d. split; [now apply HO|assumption]. }
  destruct (HCH (filter f_required sl)) as [given HG]; [intros f HI; apply filter_In in HI; now apply HIN|].
  destruct (HCH (filter (fun f => negb (f_required f)) sl)) as [optional HOP]; [intros f HI; apply filter_In in HI; now apply HIN|].
  assert (HFST : forall sub es, Forall2 (fun f e => fst e = f_name f /\ f_type f = s (snd e) /\ declares attrs e) sub es -> map fst es = map f_name sub /\ Forall (declares attrs) es).
  { intros sub es H2. induction H2 as [|f e sub es (H1 & _ & H3) HF2 [IH1 IH2]]; [split; constructor|]. cbn. rewrite H1, IH1. split; [reflexivity|now constructor]. }
  exists given, optional. destruct (HFST _ _ HG) as [G1 G2]. destruct (HFST _ _ HOP) as [O1 O2]. rewrite G1, O1.
  split; [|split; [|split; [assumption|split; [assumption|]]]].
  - split.
    + eapply map_sorted; [|apply filter_sorted, HS]. intros a b Ha Hb H. apply filter_In in Ha, Hb. apply (field_key_before a b H). now rewrite (proj2 Ha), (proj2 Hb).
    + intros k. rewrite in_map_iff, HNM. split.
      * intros (f & <- & HI). apply filter_In in HI. destruct HI as [HI HREQ]. apply HIN in HI. split; [now apply HRQ|]. now exists f.
      * intros [HREQ (f & HI & <-)]. exists f. split; [reflexivity|]. apply filter_In. split; [now apply HIN|now apply HRQ].
  - split.
    + eapply map_sorted; [|apply filter_sorted, HS]. intros a b Ha Hb H. apply filter_In in Ha, Hb. apply (field_key_before a b H).
      destruct Ha as [_ Ha], Hb as [_ Hb]. destruct (f_required a), (f_required b); cbn in *; congruence.
    + intros k. rewrite in_map_iff, HNM. split.
      * intros (f & <- & HI). apply filter_In in HI. destruct HI as [HI HREQ]. apply HIN in HI. split; [|now exists f]. intros HB. apply (HRQ f HI) in HB. now rewrite HB in HREQ.
      * intros [HREQ (f & HI & <-)]. exists f. split; [reflexivity|]. apply filter_In. split; [now apply HIN|]. destruct (f_required f) eqn:KF; [|reflexivity].
        exfalso. apply HREQ. now apply HRQ.
  - rewrite (sorted_split f_required _ sl HS) at 1 by (intros a b H; now apply field_key_before in H). unfold lines_. rewrite map_app, map_app, concat_app. f_equal.
    + clear -HG HIN HF. assert (HB : forall f, In f (filter f_required sl) -> f_required f = true) by (intros f HI; now apply filter_In in HI).
      induction HG as [|f e sub es (H1 & H2 & _) HG IH]; [reflexivity|]. cbn [map List.concat]. rewrite IH by (intros g HI; apply HB; now right). f_equal.
      unfold field_line, given_line. rewrite (HB f (or_introl eq_refl)), H1, H2. now rewrite <- !app_assoc.
    + clear -HOP HIN HF. assert (HB : forall f, In f (filter (fun f => negb (f_required f)) sl) -> f_required f = false /\ f_default f = s "OPT").
      { intros f HI. apply filter_In in HI. destruct HI as [HI HN]. apply HIN in HI. destruct (HF f HI) as (_ & _ & _ & _ & _ & _ & HD).
        destruct (f_required f); [discriminate|]. auto. }
      induction HOP as [|f e sub es (H1 & H2 & _) HG IH]; [reflexivity|]. cbn [map List.concat]. rewrite IH by (intros g HI; apply HB; now right). f_equal.
      destruct (HB f (or_introl eq_refl)) as [HB1 HB2]. unfold field_line, optional_line. rewrite HB1, HB2, H1, H2. now rewrite <- !app_assoc.
Qed.
