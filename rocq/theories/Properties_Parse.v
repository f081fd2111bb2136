(** Property theorems about parsing and serialisation (C01-C07, C10-C13).
    Vocabulary: SpecParse.v.  Each theorem is followed by a concrete, non-trivial instance. *)
From Coq Require Import List NArith ZArith Bool String Lia.
From Verif Require Import PyStr Values Schema Parse Serialize Markdown Basics SpecParse
  ParseFacts ParseFacts2 ParseFacts3 ParseFacts4 ParseFacts5 SerFacts SerFacts2.
Import ListNotations.
Open Scope string_scope.
Open Scope list_scope.

(** A document with an unknown node, an unknown mark, undeclared keys and a link without title. *)
Definition ty (x : string) : str * value := (s "type", VStr (s x)).
Definition ex_text (x : string) (ms : list value) : value :=
  VDict [ty "text"; (s "text", VStr (s x)); (s "marks", VList ms); (s "extra", VInt 7)].
Definition ex_link : value := VDict [ty "link"; (s "attrs", VDict [(s "href", VStr (s "u")); (s "zzz", VNone)])].
Definition ex_doc : value :=
  VDict [ty "doc"; (s "other", VList [VNone]);
         (s "content", VList
            [VDict [ty "paragraph"; (s "attrs", VDict [(s "localId", VStr (s "p1")); (s "q", VInt 0)]);
                    (s "content", VList [ex_text "hello" [VDict [ty "strong"]; VDict [ty "sparkle"]; ex_link];
                                         VDict [ty "fancyInline"; (s "content", VList [VInt 3])]])];
             VDict [ty "layoutSection"; (s "content", VList [VDict [ty "nope"]])];
             VDict [ty "heading"; (s "attrs", VDict [(s "level", VInt 2)]); (s "content", VList [ex_text "t" []])]])].
Definition ex_clean : value := prune ex_doc.

(** ================================================================ C01 *)
(** Deleting every undeclared key, at every depth, changes neither result, exception nor log. *)
Theorem C01_unknown_keys_irrelevant : forall w v, parse_node w (known_node v) = parse_node w v.
Proof. intros w v. exact (parse_node_known v w). Qed.
Theorem C01_unknown_keys_irrelevant_from_dict : forall w k v, from_dict w k (known_for k v) = from_dict w k v.
Proof. exact from_dict_known_all. Qed.
Theorem C01_unknown_keys_irrelevant_mark : forall v, parse_mark (known_mark v) = parse_mark v.
Proof. exact parse_mark_known. Qed.
(** ... and [known_node] does delete them. *)
Theorem C01_only_declared_keys_left : forall d ty k d',
  lookup (s "type") d = Some ty -> node_class_of ty = Found k -> known_node (VDict d) = VDict d' ->
  forall key x, In (key, x) d' -> In key (node_keys k).
Proof. exact known_node_keys. Qed.
(** "content" is walked even by a class that declares no content (rule). *)
Theorem C01_content_always_walked :
  snd (from_dict true Krule (VDict [ty "rule"; (s "content", VList [VInt 1])])) = Err TypeError /\
  exists n, snd (from_dict true Krule (VDict [ty "rule"; (s "content", VInt 1)])) = Ok n.
Proof. split; [reflexivity|eexists; vm_compute; reflexivity]. Qed.
Example C01_example : known_node ex_doc <> ex_doc /\ exists n, snd (parse_node true ex_doc) = Ok n.
Proof. split; [intros H; vm_compute in H; discriminate|eexists; vm_compute; reflexivity]. Qed.

(** ================================================================ C02 *)
(** Parsing = parsing the pruned input; the log is the list of deletions (a prefix of it
    when the parse fails half-way), empty when the flag is off. *)
Theorem C02_unimplemented_pruned_exactly : forall w v lg r,
  parse_node w v = (lg, r) ->
  parse_node true (prune v) = ([], r) /\
  (w = false -> lg = []) /\
  (w = true -> (exists rest, pruned v = lg ++ rest) /\ (forall n, r = Ok n -> lg = pruned v)).
Proof.
  intros w v lg r H. destruct (prune_correct v w true lg r H) as [H1 H2]. split; [exact H1|].
  split; intros ->; [exact H2|]. destruct H2 as (rest & E & HR). split; [eauto|].
  intros n Hn. rewrite E, (HR n Hn). now rewrite app_nil_r.
Qed.
Theorem C02_unimplemented_pruned_exactly_from_dict : forall w k v lg r,
  from_dict w k v = (lg, r) ->
  from_dict true k (prune v) = ([], r) /\
  (w = false -> lg = []) /\
  (w = true -> (exists rest, pruned v = lg ++ rest) /\ (forall n, r = Ok n -> lg = pruned v)).
Proof.
  intros w k v lg r H. destruct (from_dict_prune_all k v w true lg r H) as [H1 H2]. split; [exact H1|].
  split; intros ->; [exact H2|]. destruct H2 as (rest & E & HR). split; [eauto|].
  intros n Hn. rewrite E, (HR n Hn). now rewrite app_nil_r.
Qed.
(** Nothing unregistered is left by [prune]. *)
Theorem C02_prune_leaves_nothing : forall v, pruned (prune v) = [].
Proof. exact pruned_prune. Qed.
Example C02_example :
  fst (parse_node true ex_doc) =
  [Warn CMark (VStr (s "sparkle")); Warn CNode (VStr (s "fancyInline")); Warn CNode (VStr (s "layoutSection"))]
  /\ exists n, snd (parse_node true ex_doc) = Ok n.
Proof. split; [vm_compute; reflexivity|eexists; vm_compute; reflexivity]. Qed.

(** ================================================================ C03 *)
Theorem C03_unimplemented_never_escapes : forall w k v c t, snd (from_dict w k v) <> Err (Unimplemented c t).
Proof. intros w k v c t. exact (from_dict_nu w k v c t). Qed.
(** parse_node raises it exactly for an unregistered type of the element itself. *)
Theorem C03_unimplemented_iff : forall w v c t,
  snd (parse_node w v) = Err (Unimplemented c t) <->
  unregistered node_names v = true /\ c = CNode /\ t = type_of_elem v.
Proof. exact parse_node_unimpl_iff. Qed.
(** The exception raised is the first fault in document order; no fault, no exception. *)
Theorem C03_first_fault_is_raised : forall w v,
  match faults v with
  | [] => exists n, snd (parse_node w v) = Ok n
  | e :: _ => snd (parse_node w v) = Err e
  end.
Proof. intros w v. exact (faults_correct v w). Qed.
Theorem C03_first_fault_is_raised_from_dict : forall w k v,
  match faults_for k v with
  | [] => exists n, snd (from_dict w k v) = Ok n
  | e :: _ => snd (from_dict w k v) = Err e
  end.
Proof. intros w k v. exact (from_dict_faults k v w). Qed.
(** A failure of any element that is reached, at any depth, fails the whole parse. *)
Theorem C03_deep_failure_propagates : forall v x w e,
  reached v x -> snd (parse_node w x) = Err e -> (forall c t, e <> Unimplemented c t) ->
  exists e', snd (parse_node w v) = Err e'.
Proof.
  intros v x w e HR HE HN. eapply reached_fails; [exact HR|exact HE|].
  intros c t E. apply (HN c t). congruence.
Qed.
Definition ex_bad : value :=   (* text without "text" (ParamError) before a heading without level *)
  VDict [ty "doc"; (s "content", VList
    [VDict [ty "mystery"];
     VDict [ty "paragraph"; (s "content", VList [VDict [ty "text"]])];
     VDict [ty "heading"; (s "attrs", VInt 3)]])].
Example C03_example : faults ex_bad = [ParamError; TypeError] /\ snd (parse_node true ex_bad) = Err ParamError
  /\ reached ex_bad (VDict [ty "text"]).
Proof.
  split; [vm_compute; reflexivity|]. split; [vm_compute; reflexivity|].
  eapply (reached_child _ Kdoc); [reflexivity|reflexivity| |].
  - right. left. reflexivity.
  - eapply (reached_child _ Kparagraph); [reflexivity|reflexivity|left; reflexivity|constructor].
Qed.

(** ================================================================ C04 *)
Theorem C04_dispatch_sound : forall w v n, snd (parse_node w v) = Ok n -> consistent n.
Proof. exact parse_consistent. Qed.
Theorem C04_dispatch_sound_mark : forall v m, parse_mark v = Ok m -> mark_consistent m.
Proof. exact parse_mark_consistent. Qed.
(** K.from_dict returns an instance of K; everything below the root is consistent. *)
Theorem C04_dispatch_sound_from_dict : forall w k v n,
  snd (from_dict w k v) = Ok n -> n_kind n = k /\
  (forall l, n_content n = Items l -> Forall consistent l) /\
  (forall l, n_marks n = Items l -> Forall mark_consistent l).
Proof. exact from_dict_children. Qed.
Theorem C04_type_test_is_class_test : forall n k,
  consistent n -> is_type_of n [nk_name k] = true <-> n_kind n = k.
Proof. exact is_type_of_kind. Qed.
Theorem C04_registries : NoDup node_names /\ NoDup mark_names /\
  List.length node_names = 35%nat /\ List.length mark_names = 16%nat /\
  (forall x, In x node_names -> In x type_enum) /\ (forall x, In x mark_names -> In x type_enum).
Proof. exact registries_ok. Qed.
Example C04_example : exists n, snd (parse_node true ex_doc) = Ok n /\ consistent n.
Proof.
  destruct (parse_node true ex_doc) as [lg [n|e]] eqn:E.
  - exists n. split; [reflexivity|]. apply (C04_dispatch_sound true ex_doc). now rewrite E.
  - exfalso. vm_compute in E. discriminate.
Qed.

(** ================================================================ C05 *)
Theorem C05_accepted_iff : forall w v, (exists n, snd (parse_node w v) = Ok n) <-> acceptable v = true.
Proof. exact parse_ok_iff. Qed.
Theorem C05_accepted_iff_from_dict : forall w k d,
  (exists n, snd (from_dict w k (VDict d)) = Ok n) <->
  own_fields_acceptable k d = true /\
  (forall y, In y (list_at (s "content") d) -> unregistered node_names y = true \/ acceptable y = true).
Proof.
  intros w k d. rewrite (from_dict_ok_iff w k (VDict d)). cbn [acceptable_for].
  rewrite andb_true_iff, forallb_forall. split; intros [H1 H2]; (split; [exact H1|]);
    intros y HY; specialize (H2 y HY); now apply orb_true_iff.
Qed.
(** Which exception: see C03_first_fault_is_raised; for one element in isolation: *)
Theorem C05_missing_required_field : forall w k d,
  lookup (s "content") d = None -> lookup (s "marks") d = None -> lookup (s "attrs") d = None ->
  snd (from_dict w k (VDict d)) = Err ParamError <->
  (nc_text (nk_class k) = true /\ has (s "text") d = false) \/
  is_required (option_map fst (nc_attrs (nk_class k))) = true \/
  is_required (nc_content (nk_class k)) = true \/ is_required (nc_marks (nk_class k)) = true.
Proof.
  intros w k d HC HM HA. pose proof (from_dict_faults k (VDict d) w) as H. unfold outcome in H.
  cbn [faults_for] in H. unfold faults_of, list_at, field_fault, has in *.
  set (r := snd (from_dict w k (VDict d))) in *. clearbody r. rewrite HC, HM, HA in H.
  replace (match nc_attrs (nk_class k) with Some (_, _) | _ => [] end) with (@nil exc) in H
    by (destruct (nc_attrs (nk_class k)) as [[? ?]|]; reflexivity).
  cbn [flat_map app negb] in H.
  destruct (nc_text (nk_class k)), (lookup (s "text") d),
    (is_required (option_map fst (nc_attrs (nk_class k)))), (is_required (nc_content (nk_class k))),
    (is_required (nc_marks (nk_class k))); cbn [andb app negb] in H;
    try (rewrite H; split; [intros _; tauto|reflexivity]);
    destruct H as [n ->]; (split; [discriminate|intros [[? ?]|[?|[?|?]]]; discriminate]).
Qed.
(** Bad attrs come first whatever else is wrong: ParamError when attrs is a dictionary with every positional attribute and some other
    required attribute missing, TypeError otherwise. *)
Theorem C05_bad_attrs : forall w k d fk fs a,
  nc_attrs (nk_class k) = Some (fk, fs) -> lookup (s "attrs") d = Some a -> attrs_acceptable fs a = false ->
  (snd (from_dict w k (VDict d)) = Err ParamError <-> exists ad, a = VDict ad /\ forall f, In (f, Pos) fs -> lookup f ad <> None) /\
  (snd (from_dict w k (VDict d)) = Err TypeError <-> forall ad, a = VDict ad -> exists f, In (f, Pos) fs /\ lookup f ad = None).
Proof.
  intros w k d fk fs a HA HL HB. pose proof (from_dict_faults k (VDict d) w) as H. unfold outcome in H.
  cbn [faults_for] in H. unfold faults_of in H. rewrite HA, HL in H.
  destruct (attrs_faults fs a) as [|e l] eqn:F; [apply attrs_acceptable_faults in F; congruence|].
  cbn [app] in H. rewrite H. clear H. unfold attrs_faults in F.
  assert (D : (exists ad, a = VDict ad) \/ (e = TypeError /\ forall ad, a <> VDict ad)).
  { destruct a; try (injection F as <- _; right; split; [reflexivity|discriminate]). left. eauto. }
  destruct D as [[ad ->]|[-> D]].
  - destruct (existsb (fun f => match snd f with Pos => negb (has (fst f) ad) | _ => false end) fs) eqn:X.
    + injection F as <- _. apply existsb_exists in X as ([f fk'] & HI & HX). cbn [fst snd] in HX. destruct fk'; try discriminate.
      assert (HN : lookup f ad = None) by (unfold has in HX; destruct (lookup f ad); [discriminate|reflexivity]). split; split; intros K; try discriminate K.
      * destruct K as (ad' & HQ & K). assert (ad' = ad) by congruence; subst. now destruct (K f HI).
      * intros ad' HQ. assert (ad' = ad) by congruence; subst. eauto.
      * reflexivity.
    + assert (HP : forall f, In (f, Pos) fs -> lookup f ad <> None).
      { intros f HI HN. assert (Y : existsb (fun f => match snd f with Pos => negb (has (fst f) ad) | _ => false end) fs = true) by
          (apply existsb_exists; exists (f, Pos); split; [exact HI|cbn [fst snd]; unfold has; now rewrite HN]). congruence. }
      destruct (existsb (fun f => match snd f with Req => negb (has (fst f) ad) | _ => false end) fs); [|discriminate F]. injection F as <- _. split; split; intros K; try discriminate K.
      * eauto.
      * reflexivity.
      * destruct (K ad eq_refl) as (f & HI & HN). now destruct (HP f HI).
  - split; split; intros K; try discriminate K.
    + destruct K as (ad & -> & _). now destruct (D ad).
    + intros ad ->. now destruct (D ad).
    + reflexivity.
Qed.
Example C05_example : acceptable ex_doc = true /\ acceptable ex_bad = false /\
  snd (from_dict true Kmention (VDict [ty "mention"])) = Err ParamError /\
  snd (parse_node true (VDict [ty "text"; (s "text", VStr []);
        (s "marks", VList [VDict [ty "textColor"; (s "attrs", VDict [])]])])) = Err TypeError.
Proof. repeat split; vm_compute; reflexivity. Qed.

(** ================================================================ C06 *)
Theorem C06_declared_data_preserved : forall w v n, snd (parse_node w v) = Ok n -> represents v n.
Proof. intros w v n. exact (parse_represents v w n). Qed.
Theorem C06_declared_data_preserved_from_dict : forall w k d n,
  snd (from_dict w k (VDict d)) = Ok n ->
  exists ve tx a co ma,
    n = Node k (match lookup (s "type") d with Some t => t | None => VStr (nk_name k) end) ve tx a co ma
    /\ represents_fields k d ve tx a co ma.
Proof. exact from_dict_represents. Qed.
Theorem C06_declared_data_preserved_mark : forall v m, parse_mark v = Ok m -> represents_mark v m.
Proof. exact parse_mark_represents. Qed.
(** The children are, in order, exactly the parses of the registered elements. *)
Theorem C06_children_in_order : forall w k d n l xs,
  snd (from_dict w k (VDict d)) = Ok n -> lookup (s "content") d = Some (VList l) -> n_content n = Items xs ->
  Forall2 (fun y x => snd (parse_node w y) = Ok x) (filter (fun y => negb (unregistered node_names y)) l) xs.
Proof. exact from_dict_content. Qed.
Theorem C06_marks_in_order : forall w k d n l xs,
  snd (from_dict w k (VDict d)) = Ok n -> lookup (s "marks") d = Some (VList l) -> n_marks n = Items xs ->
  Forall2 (fun y x => parse_mark y = Ok x) (filter (fun y => negb (unregistered mark_names y)) l) xs.
Proof. exact from_dict_marks. Qed.
Example C06_example :
  snd (parse_node true (ex_text "hi" [ex_link])) =
  Ok (Node Ktext (VStr (s "text")) None (Some (VStr (s "hi"))) NoAttrs NoField
        (Items [Mark Mlink (VStr (s "link"))
                  (AObj [(s "href", VStr (s "u")); (s "title", VOpt); (s "id", VOpt);
                         (s "collection", VOpt); (s "occurrenceKey", VOpt)])])).
Proof. vm_compute. reflexivity. Qed.

(** ================================================================ C07 *)
Theorem C07_flag_only_affects_log : forall w w' v, snd (parse_node w v) = snd (parse_node w' v).
Proof. exact parse_flag. Qed.
Theorem C07_flag_only_affects_log_from_dict : forall w w' k v, snd (from_dict w k v) = snd (from_dict w' k v).
Proof. exact from_dict_flag. Qed.
Theorem C07_flag_off_is_silent : forall v, fst (parse_node false v) = [].
Proof. exact parse_flag_off. Qed.
Theorem C07_flag_off_is_silent_from_dict : forall k v, fst (from_dict false k v) = [].
Proof. exact from_dict_flag_off. Qed.
Example C07_example : fst (parse_node true ex_doc) <> fst (parse_node false ex_doc).
Proof. vm_compute. discriminate. Qed.

(** ================================================================ C10 *)
Theorem C10_object_roundtrip : forall w v n,
  snd (parse_node w v) = Ok n -> opt_free v = true -> listy n ->
  exists d, node_to_dict n = Ok d /\ forall w', parse_node w' d = ([], Ok n).
Proof. exact parse_roundtrip. Qed.
Theorem C10_object_roundtrip_from_dict : forall w k v n,
  snd (from_dict w k v) = Ok n -> opt_free v = true -> listy n ->
  exists d, node_to_dict n = Ok d /\ forall w', from_dict w' k d = ([], Ok n).
Proof. exact from_dict_roundtrip. Qed.
(** Marks: without any proviso. *)
Theorem C10_object_roundtrip_mark : forall v m, parse_mark v = Ok m -> parse_mark (mark_to_dict m) = Ok m.
Proof. exact mark_roundtrip. Qed.
(** The proviso is needed: a paragraph whose content is a number cannot be serialised. *)
Theorem C10_without_list_content_refuted :
  exists v n, snd (parse_node true v) = Ok n /\ opt_free v = true /\ node_to_dict n = Err TypeError.
Proof.
  exists (VDict [ty "paragraph"; (s "content", VInt 5)]). eexists.
  split; [vm_compute; reflexivity|]. split; reflexivity.
Qed.

Ltac listy_tac := repeat (constructor; try (intros; discriminate);
  try (intros l E; injection E as <-; repeat constructor)).
Example C10_example : exists n, snd (parse_node true ex_doc) = Ok n /\ opt_free ex_doc = true /\ listy n.
Proof.
  eexists. split; [vm_compute; reflexivity|]. split; [vm_compute; reflexivity|].
  repeat first [progress intros | match goal with H : Items _ = Items _ |- _ => injection H as <- end
               | discriminate | constructor].
Qed.

(** ================================================================ C11 *)
Theorem C11_dictionary_normal_form : forall w v n,
  snd (parse_node w v) = Ok n -> opt_free v = true -> listy n -> node_to_dict n = Ok (normal v).
Proof. intros w v n. exact (parse_normal v w n). Qed.
Theorem C11_dictionary_normal_form_mark : forall v m, parse_mark v = Ok m -> mark_to_dict m = normal_mark v.
Proof. exact mark_normal. Qed.
Example C11_example : normal ex_doc <> ex_doc /\
  normal ex_doc =
  VDict [ty "doc"; (s "version", VInt 1); (s "content", VList
     [VDict [ty "paragraph"; (s "attrs", VDict [(s "localId", VStr (s "p1"))]); (s "content", VList
        [VDict [ty "text"; (s "text", VStr (s "hello")); (s "marks", VList
           [VDict [ty "strong"];
            VDict [ty "link"; (s "attrs", VDict [(s "href", VStr (s "u")); (s "title", VOpt); (s "id", VOpt);
                                                 (s "collection", VOpt); (s "occurrenceKey", VOpt)])]])]])];
      VDict [ty "heading"; (s "attrs", VDict [(s "level", VInt 2)]);
             (s "content", VList [VDict [ty "text"; (s "text", VStr (s "t")); (s "marks", VList [])]])]])].
Proof. split; [intros H; vm_compute in H; discriminate|vm_compute; reflexivity]. Qed.

(** ================================================================ C12 *)
(** The claim is false: a link mark without title serialises OPT. *)
Theorem C12_no_sentinel_refuted :
  exists v n d, snd (parse_node true v) = Ok n /\ opt_free v = true /\ listy n /\
                node_to_dict n = Ok d /\ opt_free d = false.
Proof.
  exists (ex_text "x" [ex_link]). do 2 eexists. split; [vm_compute; reflexivity|].
  split; [reflexivity|]. split; [constructor; intros; discriminate|].
  split; [vm_compute; reflexivity|reflexivity].
Qed.
(** Exactly when: some mark in the tree has an unset optional attribute. *)
Theorem C12_sentinel_iff_unset_mark_attribute : forall w v n d,
  snd (parse_node w v) = Ok n -> opt_free v = true -> node_to_dict n = Ok d ->
  opt_free d = false <-> has_unset_mark n.
Proof. intros w v n d H HO HD. apply node_dict_free; [eapply parse_clean; eassumption|exact HD]. Qed.

(** ================================================================ C13 *)
Theorem C13_serialisation_stable : forall w w' v n d n' d',
  snd (parse_node w v) = Ok n -> opt_free v = true -> listy n ->
  node_to_dict n = Ok d -> snd (parse_node w' d) = Ok n' -> node_to_dict n' = Ok d' -> n' = n /\ d' = d.
Proof.
  intros w w' v n d n' d' H HO HL HD HP HD'.
  destruct (parse_roundtrip w v n H HO HL) as (d0 & E & HR). rewrite E in HD. injection HD as ->.
  rewrite (HR w') in HP. cbn in HP. injection HP as ->. split; congruence.
Qed.

(** ================================================================ C14 (needs the renderer) *)
Theorem C14_markdown_independent_of_roundtrip : forall E w v n ign,
  snd (parse_node w v) = Ok n -> opt_free v = true -> listy n ->
  exists d n', node_to_dict n = Ok d /\ snd (parse_node w d) = Ok n' /\
               to_markdown E n' ign = to_markdown E n ign.
Proof.
  intros E w v n ign H HO HL. destruct (parse_roundtrip w v n H HO HL) as (d & D1 & D2).
  exists d, n. split; [exact D1|]. rewrite D2. split; reflexivity.
Qed.
Theorem C14_markdown_independent_of_unimplemented : forall E w v n ign,
  snd (parse_node w v) = Ok n ->
  exists n', snd (parse_node w (prune v)) = Ok n' /\ to_markdown E n' ign = to_markdown E n ign.
Proof.
  intros E w v n ign H. destruct (parse_node w v) as [lg r] eqn:P.
  destruct (prune_correct v w w lg r P) as [H1 _]. cbn in H. subst r. exists n. rewrite H1. split; reflexivity.
Qed.

Print Assumptions C01_unknown_keys_irrelevant.
Print Assumptions C02_unimplemented_pruned_exactly.
Print Assumptions C03_first_fault_is_raised.
Print Assumptions C03_deep_failure_propagates.
Print Assumptions C04_dispatch_sound.
Print Assumptions C05_accepted_iff.
Print Assumptions C06_declared_data_preserved.
Print Assumptions C07_flag_only_affects_log.
Print Assumptions C10_object_roundtrip.
Print Assumptions C10_object_roundtrip_from_dict.
Print Assumptions C11_dictionary_normal_form.
Print Assumptions C12_sentinel_iff_unset_mark_attribute.
Print Assumptions C13_serialisation_stable.
Print Assumptions C14_markdown_independent_of_roundtrip.
