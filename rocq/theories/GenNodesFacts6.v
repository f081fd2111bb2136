(** Proofs about the class generator: the text of the files. *)
From Coq Require Import List NArith ZArith Bool String Arith Lia Sorted Permutation.
From Verif Require Import PyStr Values Basics StrFacts LeafFacts SerFacts2 GenCode SpecApi ApiFacts Analyze SpecEqual SpecAnalyze AnalyzeFacts AnalyzeFacts3 AnalyzeFacts4 GenNodes SpecGenNodes GenNodesFacts GenNodesFacts2 GenNodesFacts3 GenNodesFacts4 GenNodesFacts5.
Import ListNotations.
Open Scope string_scope.
Open Scope list_scope.

Lemma lines_app a b : lines_ (a ++ b) = lines_ a ++ lines_ b.
Proof. unfold lines_. now rewrite map_app, concat_app. Qed.
Lemma lines_cons a b : lines_ (a :: b) = a ++ nl ++ lines_ b.
Proof. unfold lines_. cbn [map List.concat]. now rewrite <- app_assoc. Qed.

(** What a definition says. *)
Lemma describes_info E ds name e d : distinct_keys (VDict ds) -> In (name, VDict d) ds -> describes E ds name e ->
  exists p, merged_props d = Ok p /\ info_of p = Ok (snd e) /\ (forall k v, lookup k p = Some v <-> has_property d k v) /\ distinct_keys (VDict d).
Proof.
  intros DK HI [_ [ds2 HX]]. rewrite extract_eq, (definition_in ds name d DK HI) in HX. cbn [rbind] in HX.
  assert (DD : distinct_keys (VDict d)) by (destruct (dk_dict_inv ds DK) as [_ H]; now apply (H name)).
  destruct (merged_props d) as [p|] eqn:KP; cbn [rbind] in HX; [|discriminate].
  destruct (merged_required d); cbn [rbind] in HX; [|discriminate]. destruct (info_of p) as [i|] eqn:KI; cbn [rbind] in HX; [|discriminate].
  injection HX as HX _. exists p. split; [reflexivity|]. split; [now rewrite KI, HX|]. split; [|assumption]. intros k v. now apply merged_props_spec.
Qed.
Lemma info_flags p i : info_of p = Ok i -> has_attrs i = has (s "attrs") p /\ has_content i = has (s "content") p /\ has_marks i = has (s "marks") p /\
  extra_fields i = (if has (s "text") p then [Field (s "text") (s "str") (s "OPT") false] else []) ++
         (if has (s "version") p then [Field (s "version") (s "int") (s "dataclasses.field(default=1)") false] else []).
Proof.
  unfold info_of. match goal with |- rbind ?m _ = _ -> _ => destruct m end; cbn [rbind]; [|discriminate]. intros [= <-]. cbn [has_attrs has_content has_marks extra_fields]. auto.
Qed.
Lemma flag_line d p k line : (forall k v, lookup k p = Some v <-> has_property d k v) ->
  line_if d k line (if has (s k) p then line ++ nl else []).
Proof.
  intros HP. unfold line_if. rewrite has_iff. destruct (lookup (s k) p) as [v|] eqn:K; [left; split; [exists v; now apply HP|reflexivity]|].
  right. split; [|reflexivity]. intros v HV. apply HP in HV. congruence.
Qed.
Lemma describes_stands E ds name e d : distinct_keys (VDict ds) -> In (name, VDict d) ds -> describes E ds name e -> stands_for d name (n_enum (fst e)).
Proof.
  intros DK HI HD. destruct (describes_info E ds name e d DK HI HD) as (p & HP & _ & HPP & DD).
  destruct HD as [[ds1 HN] _]. pose proof (names_spec _ _ _ _ _ HN) as [_ HT]. destruct (names_enum _ _ _ _ _ HN) as [ds2 HE].
  rewrite get_type_enum_eq, (definition_in ds name d DK HI) in HE. cbn [rbind] in HE. rewrite HP in HE. cbn [rbind] in HE.
  destruct (enum_of E name p) as [t|] eqn:KE; cbn [rbind] in HE; [|discriminate]. injection HE as HE _. rewrite <- HE. clear HE.
  unfold enum_of in KE. split.
  - intros e0 r t' HT' HEN. assert (DE : distinct_keys (VDict e0)).
    { clear -HT' DD. destruct (dk_dict_inv d DD) as [_ HV]. destruct HT' as [(b & it & a & HA & HO & _)|[HO _]].
      - apply HV in HA. pose proof (dk_list_inv _ HA) as HL. assert (DI : distinct_keys (VDict it)) by (apply HL; rewrite in_app_iff; right; now left).
        destruct HO as (q & HQ & HK). apply dk_dict_inv in DI. apply DI in HQ. apply dk_dict_inv in HQ. now apply HQ in HK.
      - destruct HO as (q & HQ & HK). apply HV in HQ. apply dk_dict_inv in HQ. now apply HQ in HK. }
    apply HPP in HT'. unfold get_dict in KE. rewrite HT' in KE. cbn [as_dict rbind] in KE. destruct (dk_dict_inv e0 DE) as [HNE _].
    rewrite (lookup_in _ _ _ HNE HEN) in KE. now injection KE as <-.
  - intros HNO. unfold get_dict in KE. destruct (lookup (s "type") p) as [v|] eqn:KT; [exfalso; apply (HNO v); now apply HPP|]. cbn [rbind lookup] in KE.
    injection KE as <-. unfold without_kind. destruct HT as [-> | ->].
    + assert (is_mark (n_type (fst e) ++ s "_mark") = true) as -> by (apply is_mark_iff; eauto). cbn [orb]. rewrite (drop5_app _ (s "_mark") eq_refl). auto.
    + assert (is_node (n_type (fst e) ++ s "_node") = true) as -> by (apply is_node_iff; eauto). rewrite orb_true_r. rewrite (drop5_app _ (s "_node") eq_refl). auto.
Qed.

Definition attrs_text (c : str) (given optional : list (str * string)) : str :=
  s "class " ++ c ++ s "Attrs(Base):" ++ nl ++ s "    """"""Attributes for " ++ c ++ s "." ++ s """""""" ++ nl ++
  List.concat (map given_line given) ++ List.concat (map optional_line optional) ++ nl ++ nl ++ s "@dataclasses.dataclass(frozen=True)" ++ nl.
Lemma head_attrs n i kind bases base given optional : has_attrs i = true ->
  lines_ (map field_line (attrs_fields i)) = List.concat (map given_line given) ++ List.concat (map optional_line optional) ->
  exists before after, lines_ (class_head n i kind bases base) = before ++ attrs_text (n_class n) given optional ++ after.
Proof.
  intros HA HL. unfold class_head, attrs_class. rewrite HA. rewrite !lines_app. 
  match goal with |- exists b a, ?pre ++ (?l1 ++ _) ++ lines_ (_ :: ?post) ++ ?rest = _ =>
    exists (pre ++ s "@dataclasses.dataclass(frozen=True)" ++ nl), (lines_ post ++ rest) end.
  rewrite HL. unfold attrs_text. rewrite !lines_cons. change (lines_ []) with (@nil N). rewrite <- !app_assoc. reflexivity.
Qed.
Lemma text_attrs ds name e c given optional : text_of ds name e c -> has_attrs (snd e) = true ->
  lines_ (map field_line (attrs_fields (snd e))) = List.concat (map given_line given) ++ List.concat (map optional_line optional) ->
  exists before after, c = before ++ attrs_text (n_class (fst e)) given optional ++ after.
Proof.
  intros HT HA HL. destruct HT as [[_ ->]|[_ ->]]; unfold mark_file, node_file; rewrite ?lines_app.
  - now apply head_attrs.
  - destruct (head_attrs (fst e) (snd e) (s "Node") (s "Base, BaseMark, BaseNode") (s "BaseNode") given optional HA HL) as (b & a & ->).
    eexists b, _. rewrite <- !app_assoc. reflexivity.
Qed.
Lemma info_attrs p i attrs : distinct_keys (VDict attrs) -> info_of p = Ok i -> lookup (s "attrs") p = Some (VDict attrs) ->
  exists given optional,
    alphabetical (fun k => required_by attrs k /\ exists v, own_property attrs k v) (map fst given) /\
    alphabetical (fun k => ~ required_by attrs k /\ exists v, own_property attrs k v) (map fst optional) /\
    Forall (declares attrs) given /\ Forall (declares attrs) optional /\
    lines_ (map field_line (attrs_fields i)) = List.concat (map given_line given) ++ List.concat (map optional_line optional).
Proof.
  intros DK HI HL. unfold info_of in HI. rewrite HL in HI. cbn [as_dict rbind] in HI.
  destruct (get_list (s "required") attrs) as [req|] eqn:KR; cbn [rbind] in HI; [|discriminate].
  destruct (get_dict (s "properties") attrs) as [fields|] eqn:KF; cbn [rbind] in HI; [|discriminate].
  destruct (mapM (attrs_field req) fields) as [l|] eqn:KM; cbn [rbind] in HI; [|discriminate]. injection HI as <-. cbn [attrs_fields].
  now apply (attrs_spec attrs req fields l).
Qed.
Lemma property_distinct d k v : distinct_keys (VDict d) -> has_property d k v -> distinct_keys v.
Proof.
  intros DD HT. destruct (dk_dict_inv d DD) as [_ HV]. destruct HT as [(b & it & a & HA & HO & _)|[HO _]].
  - apply HV in HA. pose proof (dk_list_inv _ HA) as HL. assert (DI : distinct_keys (VDict it)) by (apply HL; rewrite in_app_iff; right; now left).
    destruct HO as (q & HQ & HK). apply dk_dict_inv in DI. apply DI in HQ. apply dk_dict_inv in HQ. now apply HQ in HK.
  - destruct HO as (q & HQ & HK). apply HV in HQ. apply dk_dict_inv in HQ. now apply HQ in HK.
Qed.
(** The class itself. *)
Definition class_text (kind base type_name c t : str) : str :=
  s "class " ++ c ++ s "(" ++ c ++ s "Mixin, " ++ base ++ s "):" ++ nl ++ s "    """"""" ++ nl ++ s "    ADF " ++ kind ++ s ": " ++ type_name ++ nl ++ s "    """"""" ++ nl ++ nl ++
  s "    type: str = dataclasses.field(default=TypeEnum." ++ t ++ s ".value)" ++ nl.
Lemma head_class n i kind bases base : exists before, lines_ (class_head n i kind bases base) =
  before ++ class_text kind base (n_type n) (n_class n) (n_enum n) ++ (if has_attrs i then (s "    attrs: " ++ n_class n ++ s "Attrs = OPT") ++ nl else []).
Proof.
  unfold class_head. rewrite !lines_app.
  match goal with |- exists b, ?pre ++ ?at_ ++ lines_ (_ :: _) ++ _ = _ => exists (pre ++ at_ ++ s "@dataclasses.dataclass(frozen=True)" ++ nl) end.
  unfold class_text. rewrite !lines_cons. change (lines_ []) with (@nil N). change (s "    """"""") with (s "    " ++ quotes3).
  destruct (has_attrs i); rewrite ?lines_cons; change (lines_ []) with (@nil N); rewrite <- !app_assoc; reflexivity.
Qed.
