(** Proofs about the class generator: the changes it makes to the schema do not show. *)
From Coq Require Import List NArith ZArith Bool String Arith Lia Sorted Permutation.
From Verif Require Import PyStr Values Basics LeafFacts SerFacts2 GenCode SpecApi ApiFacts Analyze SpecAnalyze AnalyzeFacts AnalyzeFacts3 AnalyzeFacts4 GenNodes SpecGenNodes GenNodesFacts.
Import ListNotations.
Open Scope string_scope.
Open Scope list_scope.

Lemma lookup_set {A} k k' (v : A) d : lookup k (set_item k' v d) = if str_eqb k k' then Some v else lookup k d.
Proof.
  induction d as [|[j w] d IH]; cbn [set_item lookup]; [now rewrite str_eqb_sym|].
  destruct (str_eqb k' j) eqn:K1; cbn [lookup].
  - apply str_eqb_eq in K1. subst j. rewrite (str_eqb_sym k' k). now destruct (str_eqb k k').
  - destruct (str_eqb j k) eqn:K2; [|assumption]. apply str_eqb_eq in K2. subst j. now rewrite str_eqb_sym, K1.
Qed.
Lemma lookup_replace k k' v d : lookup k (replace_if_there k' v d) = if str_eqb k k' && has k' d then Some v else lookup k d.
Proof.
  unfold replace_if_there. destruct (has k' d) eqn:K; [rewrite lookup_set, andb_true_r; reflexivity|now rewrite andb_false_r].
Qed.
Lemma has_iff {A} k (d : list (str * A)) : has k d = match lookup k d with Some _ => true | None => false end.
Proof. reflexivity. Qed.

Definition overlay {A} (L : str -> option A) (p : list (str * A)) (k : str) : option A := match L k with Some v => Some v | None => lookup k p end.
Lemma update_shape {A} (u : list (str * A)) : exists L, forall p k, lookup k (update p u) = overlay L p k.
Proof.
  unfold update. induction u as [|[j v] u [L HL]] using rev_ind; [exists (fun _ => None); reflexivity|].
  exists (fun k => if str_eqb k j then Some v else L k). intros p k. rewrite fold_left_app. cbn [fold_left fst snd]. rewrite lookup_set.
  unfold overlay. destruct (str_eqb k j); [reflexivity|apply HL].
Qed.
Definition merge_step (item : value) (p : defs) : res defs := do d <- as_dict TypeError item; do u <- get_dict (s "properties") d; Ok (update p u).
Lemma merge_shape items : (exists e, forall p, foldM merge_step items p = Err e) \/
  (exists F L, forall p, foldM merge_step items p = Ok (F p) /\ forall k, lookup k (F p) = overlay L p k).
Proof.
  induction items as [|item items IH]; [right; exists (fun p => p), (fun _ => None); split; reflexivity|].
  cbn [foldM]. unfold merge_step at 1 3. destruct (as_dict TypeError item) as [d|e]; cbn [rbind]; [|left; now exists e].
  destruct (get_dict (s "properties") d) as [u|e]; cbn [rbind]; [|left; now exists e].
  destruct IH as [[e IH]|(F & L & IH)]; [left; exists e; intros p; apply IH|right].
  destruct (update_shape u) as [L0 HL0]. exists (fun p => F (update p u)), (fun k => match L k with Some v => Some v | None => L0 k end).
  intros p. destruct (IH (update p u)) as [H1 H2]. split; [exact H1|]. intros k. rewrite H2. unfold overlay.
  destruct (L k); [reflexivity|apply HL0].
Qed.
Definition extend_step (item : value) (p : list value) : res (list value) := do d <- as_dict TypeError item; do u <- get_list (s "required") d; Ok (p ++ u).
Lemma extend_shape items : (exists e, forall p, foldM extend_step items p = Err e) \/ (exists u, forall p, foldM extend_step items p = Ok (p ++ u)).
Proof.
  induction items as [|item items IH]; [right; exists []; intros p; cbn; now rewrite app_nil_r|].
  cbn [foldM]. unfold extend_step at 1 3. destruct (as_dict TypeError item) as [d|e]; cbn [rbind]; [|left; now exists e].
  destruct (get_list (s "required") d) as [u|e]; cbn [rbind]; [|left; now exists e].
  destruct IH as [[e IH]|(w & IH)]; [left; exists e; intros p; apply IH|right].
  exists (u ++ w). intros p. rewrite IH, app_assoc. reflexivity.
Qed.

(** Two dictionaries that give the same merged properties. *)
Definition same_dict (p p' : defs) : Prop := forall k, lookup k p = lookup k p'.
Definition same_res {A} (R : A -> A -> Prop) (r r' : res A) : Prop :=
  match r, r' with Ok a, Ok a' => R a a' | Err e, Err e' => e = e' | _, _ => False end.
Lemma same_res_equiv {A} (R : A -> A -> Prop) : Relation_Definitions.equivalence A R -> Relation_Definitions.equivalence (res A) (same_res R).
Proof.
  intros [RR TR SR]. split.
  - intros [a|e]; cbn; [apply RR|reflexivity].
  - intros [a|e] [b|f] [c|g]; cbn; try contradiction; [apply TR|congruence].
  - intros [a|e] [b|f]; cbn; try contradiction; [apply SR|congruence].
Qed.
Lemma same_dict_equiv : Relation_Definitions.equivalence defs same_dict.
Proof. split; [intros p k; reflexivity|intros p q r H1 H2 k; now rewrite H1|intros p q H k; now rewrite H]. Qed.
Lemma true_equiv {A} : Relation_Definitions.equivalence A (fun _ _ => True).
Proof. split; [intros a|intros a b c|intros a b]; auto. Qed.
Definition def_same (d d' : defs) : Prop :=
  same_res same_dict (merged_props d) (merged_props d') /\ same_res (fun _ _ => True) (merged_required d) (merged_required d').
Lemma def_same_equiv : Relation_Definitions.equivalence defs def_same.
Proof.
  destruct (same_res_equiv _ same_dict_equiv) as [R1 T1 S1]. destruct (same_res_equiv _ (@true_equiv (list value))) as [R2 T2 S2]. split.
  - intros d. split; [apply R1|apply R2].
  - intros a b c [H1 H2] [H3 H4]. split; [eapply T1; eauto|eapply T2; eauto].
  - intros a b [H1 H2]. split; [now apply S1|now apply S2].
Qed.
Lemma same_props_of d p : merged_props d = Ok p -> def_same d (replace_if_there (s "properties") (VDict p) d).
Proof.
  intros HP. split.
  - rewrite HP. unfold merged_props in *. unfold get_dict in *.
    rewrite !lookup_replace. change (str_eqb (s "properties") (s "properties")) with true. change (str_eqb (s "allOf") (s "properties")) with false.
    cbn [andb]. rewrite has_iff. destruct (lookup (s "properties") d) as [v|] eqn:KP.
    + cbn [as_dict rbind] in *. destruct v as [| | | | | |d0|]; cbn [as_dict rbind] in HP; try discriminate.
      destruct (lookup (s "allOf") d) as [w|]; [|injection HP as <-; cbn; intros k; reflexivity].
      destruct (as_list w) as [items|e]; cbn [rbind] in *; [|discriminate].
      change (foldM merge_step items d0 = Ok p) in HP. change (same_res same_dict (Ok p) (foldM merge_step items p)).
      destruct (merge_shape items) as [[e HE]|(F & L & HF)]; [rewrite HE in HP; discriminate|].
      destruct (HF d0) as [H1 H2]. destruct (HF p) as [H3 H4]. rewrite H3. cbn. assert (p = F d0) as -> by congruence.
      intros k. rewrite H4, !H2. unfold overlay. destruct (L k) eqn:KL; [reflexivity|]. rewrite H2. unfold overlay. now rewrite KL.
    + cbn [rbind] in *. rewrite HP. intros k. reflexivity.
  - unfold merged_required, get_list. rewrite !lookup_replace. change (str_eqb (s "required") (s "properties")) with false.
    change (str_eqb (s "allOf") (s "properties")) with false. cbn [andb]. apply (same_res_equiv _ true_equiv).
Qed.
Lemma same_required_of d r : merged_required d = Ok r -> def_same d (replace_if_there (s "required") (VList r) d).
Proof.
  intros HP. split.
  - unfold merged_props, get_dict. rewrite !lookup_replace. change (str_eqb (s "properties") (s "required")) with false.
    change (str_eqb (s "allOf") (s "required")) with false. cbn [andb]. apply (same_res_equiv _ same_dict_equiv).
  - rewrite HP. unfold merged_required in *. unfold get_list in *.
    rewrite !lookup_replace. change (str_eqb (s "required") (s "required")) with true. change (str_eqb (s "allOf") (s "required")) with false.
    cbn [andb]. rewrite has_iff. destruct (lookup (s "required") d) as [v|] eqn:KP.
    + cbn [as_list rbind] in *. destruct v as [| | | | |d0| |]; cbn [as_list rbind] in HP; try discriminate.
      destruct (lookup (s "allOf") d) as [w|]; [|exact I].
      destruct (as_list w) as [items|e]; cbn [rbind] in *; [|discriminate].
      change (foldM extend_step items d0 = Ok r) in HP. change (same_res (fun _ _ => True) (Ok r) (foldM extend_step items r)).
      destruct (extend_shape items) as [[e HE]|(u & HU)]; [rewrite HE in HP; discriminate|]. rewrite HU. exact I.
    + cbn [rbind] in *. rewrite HP. exact I.
Qed.

(** Two schemas that look the same to the generator. *)
Definition value_same (v v' : value) : Prop := v = v' \/ exists d d', v = VDict d /\ v' = VDict d' /\ def_same d d'.
Definition sees (ds ds' : defs) : Prop :=
  forall n, match lookup n ds, lookup n ds' with None, None => True | Some v, Some v' => value_same v v' | _, _ => False end.
Lemma value_same_sym v v' : value_same v v' -> value_same v' v.
Proof. intros [->|(d & d' & -> & -> & H)]; [now left|right; exists d', d; repeat split; apply def_same_equiv; apply H]. Qed.
Lemma value_same_trans a b c : value_same a b -> value_same b c -> value_same a c.
Proof.
  intros [->|(d & d' & -> & -> & H)]; [auto|]. intros [<-|(e & e' & HE & -> & H2)]; [right; eauto 6|].
  injection HE as <-. right. exists d, e'. repeat split; eapply def_same_equiv; eauto; eapply def_same_equiv; eauto.
Qed.
Lemma sees_refl ds : sees ds ds.
Proof. intros n. destruct (lookup n ds); [now left|exact I]. Qed.
Lemma sees_sym a b : sees a b -> sees b a.
Proof. intros H n. specialize (H n). destruct (lookup n a), (lookup n b); auto. now apply value_same_sym. Qed.
Lemma sees_trans a b c : sees a b -> sees b c -> sees a c.
Proof. intros H1 H2 n. specialize (H1 n). specialize (H2 n). destruct (lookup n a), (lookup n b), (lookup n c); auto; try contradiction. eapply value_same_trans; eauto. Qed.
Lemma sees_replace ds name d d' : lookup name ds = Some (VDict d) -> def_same d d' -> sees ds (replace_if_there name (VDict d') ds).
Proof.
  intros HL HS n. rewrite lookup_replace, has_iff, HL, andb_true_r. destruct (str_eqb n name) eqn:K.
  - apply str_eqb_eq in K. subst n. rewrite HL. right. eauto 6.
  - destruct (lookup n ds); [now left|exact I].
Qed.
Lemma replace_absent name v (ds : defs) : lookup name ds = None -> replace_if_there name v ds = ds.
Proof. intros HL. unfold replace_if_there. now rewrite has_iff, HL. Qed.

(** The definition looked up. *)
Definition definition_of (ds : defs) (name : str) : res defs := match lookup name ds with None => Ok [] | Some v => as_dict AttributeError v end.
Lemma definition_same ds ds' name : sees ds ds' -> same_res def_same (definition_of ds name) (definition_of ds' name).
Proof.
  intros H. specialize (H name). unfold definition_of. destruct (lookup name ds), (lookup name ds'); try contradiction; [|apply def_same_equiv].
  destruct H as [->|(d & d' & -> & -> & H)]; [|exact H]. apply (same_res_equiv _ def_same_equiv).
Qed.
Definition stateful {A} (f : defs -> res (A * defs)) : Prop :=
  forall ds, (forall a ds1, f ds = Ok (a, ds1) -> sees ds ds1) /\
  forall ds', sees ds ds' -> same_res eq (do (a, _) <- f ds; Ok a) (do (a, _) <- f ds'; Ok a).
Lemma state_update ds name d d' : definition_of ds name = Ok d -> def_same d d' -> sees ds (replace_if_there name (VDict d') ds).
Proof.
  unfold definition_of. destruct (lookup name ds) as [v|] eqn:KL; [|intros _ _; rewrite replace_absent by assumption; apply sees_refl].
  destruct v as [| | | | | |d0|]; cbn [as_dict]; try discriminate. intros [= ->] H. now apply sees_replace with (d := d).
Qed.
Lemma get_dict_same k p p' : same_dict p p' -> get_dict k p = get_dict k p'.
Proof. intros H. unfold get_dict. now rewrite H. Qed.
Lemma rbind_eq {A B} (m m' : res A) (k k' : A -> res B) : m = m' -> (forall a, k a = k' a) -> rbind m k = rbind m' k'.
Proof. intros -> H. destruct m'; cbn; [apply H|reflexivity]. Qed.
Lemma same_res_eq {A} (r r' : res A) : same_res eq r r' <-> r = r'.
Proof. destruct r, r'; cbn; split; congruence || contradiction. Qed.

(** The value of get_type_enum_from_schema, without the schema. *)
Definition enum_of (E : genv) (name : str) (props : defs) : res str :=
  do type_prop <- get_dict (s "type") props;
  match lookup (s "enum") type_prop with
  | None | Some (VList []) | Some VNone => Ok (without_kind name)
  | Some (VList (VStr t :: _)) => Ok t
  | Some (VList (v :: _)) => Ok (print E v)
  | Some _ => Err TypeError
  end.
Lemma get_type_enum_eq E ds name : get_type_enum E ds name =
  (do definition <- definition_of ds name; do props <- merged_props definition; do t <- enum_of E name props;
   Ok (t, replace_if_there name (VDict (replace_if_there (s "properties") (VDict props) definition)) ds)).
Proof.
  unfold get_type_enum. change (match lookup name ds with None => Ok [] | Some v => as_dict AttributeError v end) with (definition_of ds name).
  destruct (definition_of ds name) as [d|]; cbn [rbind]; [|reflexivity]. destruct (merged_props d) as [p|]; cbn [rbind]; [|reflexivity].
  unfold enum_of. destruct (get_dict (s "type") p) as [t|]; cbn [rbind]; [|reflexivity].
  destruct (lookup (s "enum") t) as [v|]; [|reflexivity]. destruct v as [| | | | |l| |]; try reflexivity. destruct l as [|x l]; [reflexivity|]. now destruct x.
Qed.
Lemma enum_stateful E name : stateful (fun ds => get_type_enum E ds name).
Proof.
  intros ds. split.
  - intros t ds1. rewrite get_type_enum_eq. destruct (definition_of ds name) as [d|] eqn:KD; cbn [rbind]; [|discriminate].
    destruct (merged_props d) as [p|] eqn:KP; cbn [rbind]; [|discriminate]. destruct (enum_of E name p); cbn [rbind]; [|discriminate].
    intros [= _ <-]. eapply state_update; [eassumption|]. now apply same_props_of.
  - intros ds' H. rewrite !get_type_enum_eq. pose proof (definition_same ds ds' name H) as HS.
    destruct (definition_of ds name) as [d|], (definition_of ds' name) as [d'|]; cbn in HS; try contradiction; cbn [rbind]; [|exact HS].
    destruct HS as [HS _]. destruct (merged_props d) as [p|], (merged_props d') as [p'|]; cbn in HS; try contradiction; cbn [rbind]; [|exact HS].
    assert (enum_of E name p = enum_of E name p') as -> by (unfold enum_of; now rewrite (get_dict_same _ _ _ HS)).
    destruct (enum_of E name p'); reflexivity.
Qed.
Lemma names_stateful E name : stateful (fun ds => def_name_to_names E ds name).
Proof.
  intros ds. unfold def_name_to_names.
  destruct (if is_mark name then _ else _) as [[prefix cap]|e]; cbn [rbind]; [|split; [discriminate|reflexivity]].
  destruct (enum_stateful E name ds) as [H1 H2]. split.
  - intros n ds1. destruct (get_type_enum E ds name) as [[t ds2]|]; cbn [rbind]; [|discriminate]. intros [= _ <-]. now apply (H1 t).
  - intros ds' HS. specialize (H2 ds' HS). destruct (get_type_enum E ds name) as [[t ds2]|], (get_type_enum E ds' name) as [[t' ds2']|]; cbn in *; congruence || contradiction.
Qed.
Definition info_of (props : defs) : res info :=
  do attrs <- match lookup (s "attrs") props with
              | None => Ok []
              | Some v =>
                  do d <- as_dict AttributeError v;
                  do req <- get_list (s "required") d;
                  do fields <- get_dict (s "properties") d;
                  do l <- mapM (attrs_field req) fields;
                  Ok (sorted_by field_key l)
              end;
  Ok (Info attrs
        ((if has (s "text") props then [Field (s "text") (s "str") (s "OPT") false] else []) ++
         (if has (s "version") props then [Field (s "version") (s "int") (s "dataclasses.field(default=1)") false] else []))
        (has (s "attrs") props) (has (s "content") props) (has (s "marks") props)).
Lemma extract_eq ds name : extract_schema_info ds name =
  (do definition <- definition_of ds name; do props <- merged_props definition; do required <- merged_required definition; do i <- info_of props;
   Ok (i, replace_if_there name (VDict (replace_if_there (s "required") (VList required)
               (replace_if_there (s "properties") (VDict props) definition))) ds)).
Proof.
  unfold extract_schema_info. change (match lookup name ds with None => Ok [] | Some v => as_dict AttributeError v end) with (definition_of ds name).
  destruct (definition_of ds name) as [d|]; cbn [rbind]; [|reflexivity]. destruct (merged_props d) as [p|]; cbn [rbind]; [|reflexivity].
  destruct (merged_required d) as [r|]; cbn [rbind]; [|reflexivity].
  unfold info_of. match goal with |- rbind ?m _ = _ => destruct m end; reflexivity.
Qed.
Lemma info_same p p' : same_dict p p' -> info_of p = info_of p'.
Proof. intros H. unfold info_of. rewrite !has_iff, !H. reflexivity. Qed.
Lemma extract_stateful name : stateful (fun ds => extract_schema_info ds name).
Proof.
  intros ds. split.
  - intros i ds1. rewrite extract_eq. destruct (definition_of ds name) as [d|] eqn:KD; cbn [rbind]; [|discriminate].
    destruct (merged_props d) as [p|] eqn:KP; cbn [rbind]; [|discriminate]. destruct (merged_required d) as [r|] eqn:KR; cbn [rbind]; [|discriminate].
    destruct (info_of p); cbn [rbind]; [|discriminate].
    intros [= _ <-]. eapply state_update; [eassumption|]. pose proof (same_props_of d p KP) as H1. eapply def_same_equiv; [exact H1|].
    apply same_required_of. unfold merged_required, get_list in *. rewrite !lookup_replace. change (str_eqb (s "required") (s "properties")) with false.
    change (str_eqb (s "allOf") (s "properties")) with false. cbn [andb]. exact KR.
  - intros ds' H. rewrite !extract_eq. pose proof (definition_same ds ds' name H) as HS.
    destruct (definition_of ds name) as [d|], (definition_of ds' name) as [d'|]; cbn in HS; try contradiction; cbn [rbind]; [|exact HS].
    destruct HS as [HS HR]. destruct (merged_props d) as [p|], (merged_props d') as [p'|]; cbn in HS; try contradiction; cbn [rbind]; [|exact HS].
    destruct (merged_required d), (merged_required d'); cbn in HR; try contradiction; cbn [rbind]; [|exact HR].
    rewrite (info_same _ _ HS). destruct (info_of p'); reflexivity.
Qed.

(** Programs. *)
Definition blind {A} (m : prog A) : Prop :=
  forall ds, (forall a ds1, snd (m ds) = Ok (a, ds1) -> sees ds ds1) /\
  forall ds', sees ds ds' -> fst (m ds) = fst (m ds') /\ same_res eq (do (a, _) <- snd (m ds); Ok a) (do (a, _) <- snd (m ds'); Ok a).
Lemma blind_ret {A} (a : A) : blind (ret a).
Proof. intros ds. split; [intros b ds1 [= _ <-]; apply sees_refl|now split]. Qed.
Lemma blind_emit a : blind (emit a).
Proof. intros ds. split; [intros b ds1 HE; cbn in HE; assert (ds1 = ds) as -> by congruence; apply sees_refl|now split]. Qed.
Lemma blind_call {A} (f : defs -> res (A * defs)) : stateful f -> blind (call f).
Proof. intros H ds. destruct (H ds) as [H1 H2]. split; [assumption|]. intros ds' HS. split; [reflexivity|now apply H2]. Qed.
Lemma blind_bind {A B} (m : prog A) (k : A -> prog B) : blind m -> (forall a, blind (k a)) -> blind (bind m k).
Proof.
  intros HM HK ds. destruct (HM ds) as [H1 H2]. split.
  - unfold bind. intros b ds2. destruct (m ds) as [l [[a ds1]|e]]; [|discriminate]. specialize (H1 a ds1 eq_refl).
    destruct (HK a ds1) as [H3 _]. destruct (k a ds1) as [l' r]. cbn [snd] in *. intros HE. eapply sees_trans; [eassumption|]. now apply (H3 b).
  - intros ds' HS. destruct (H2 ds' HS) as [H3 H4]. destruct (HM ds') as [H1' _]. unfold bind.
    destruct (m ds) as [l [[a ds1]|e]], (m ds') as [l' [[a' ds1']|e']]; cbn in H3, H4; try contradiction; [|now subst].
    subst a' l'. specialize (H1 a ds1 eq_refl). specialize (H1' a ds1' eq_refl).
    assert (HS1 : sees ds1 ds1') by (eapply sees_trans; [apply sees_sym, H1|]; eapply sees_trans; eassumption).
    destruct (HK a ds1) as [_ H5]. destruct (H5 ds1' HS1) as [H6 H7]. destruct (k a ds1), (k a ds1'). cbn [fst snd] in *. subst. now split.
Qed.
Lemma blind_each {A B} (f : A -> prog B) l : (forall a, blind (f a)) -> blind (each f l).
Proof.
  intros HF. induction l as [|a l IH]; [apply blind_ret|]. apply blind_bind; [apply HF|]. intros b. apply blind_bind; [exact IH|]. intros bs. apply blind_ret.
Qed.
Lemma class_blind E content name : blind (class_step E content name).
Proof.
  apply blind_bind; [apply blind_call, names_stateful|]. intros n. apply blind_bind; [apply blind_call, extract_stateful|]. intros i.
  apply blind_bind; [apply blind_emit|]. intros _. apply blind_ret.
Qed.
Lemma stub_blind E content suffix n : blind (stub_step E content suffix n).
Proof. apply blind_bind; [apply blind_call, names_stateful|]. intros n'. apply blind_emit. Qed.
Definition main_of (E : genv) (mark_defs node_defs : list str) : prog unit :=
  bind (each (class_step E mark_file) mark_defs) (fun ms =>
  bind (each (class_step E node_file) node_defs) (fun ns =>
  bind (emit (Write (Nodes, s "parse.py") (parse_file ms ns))) (fun _ =>
  bind (each (stub_step E mark_stub (s "_mark")) ms) (fun _ =>
  bind (each (stub_step E node_stub (s "_node")) ns) (fun _ => ret tt))))).
Lemma main_eq E ds : main E ds = main_of E (fst (get_all_definitions ds)) (snd (get_all_definitions ds)) ds.
Proof. unfold main. now destruct (get_all_definitions ds). Qed.
Lemma main_of_blind E ms ns : blind (main_of E ms ns).
Proof.
  apply blind_bind; [apply blind_each, class_blind|]. intros l1. apply blind_bind; [apply blind_each, class_blind|]. intros l2.
  apply blind_bind; [apply blind_emit|]. intros _. apply blind_bind; [apply blind_each, stub_blind|]. intros _.
  apply blind_bind; [apply blind_each, stub_blind|]. intros _. apply blind_ret.
Qed.
Lemma main_blind E ds ds' : sees ds ds' -> get_all_definitions ds = get_all_definitions ds' ->
  fst (main E ds) = fst (main E ds') /\ same_res eq (do (a, _) <- snd (main E ds); Ok a) (do (a, _) <- snd (main E ds'); Ok a).
Proof. intros HS HG. rewrite !main_eq, <- HG. now apply (main_of_blind E _ _ ds). Qed.
Lemma main_sees E ds a ds1 : snd (main E ds) = Ok (a, ds1) -> sees ds ds1.
Proof. rewrite main_eq. now apply (main_of_blind E). Qed.
