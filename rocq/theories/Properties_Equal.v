(** C51: the order of dictionary keys is irrelevant.  C52: [==].  C53: [hash()].
    Vocabulary (SpecEqual.v): [reordered]: the same data up to key order; [python_equal]: Python's == on dictionaries;
    [distinct_keys]: what every Python value satisfies. *)
From Coq Require Import List NArith ZArith QArith Bool String Lia.
From Verif Require Import PyStr Values Schema Parse Serialize Markdown Basics SpecParse ParseFacts ParseFacts4 SerFacts2 SpecMd MdFacts2
  Equal SpecEqual EqualFacts EqualFacts2 EqualFacts3 Properties_Parse Properties_Marks Properties_Nodes.
Import ListNotations.
Open Scope string_scope.
Open Scope list_scope.

(** ================================================================ C51 *)
Lemma eq_rel w v v' : reordered v v' -> same_run eq (same_node eq) (parse_node w v) (parse_node w v').
Proof. apply parse_node_rel; congruence. Qed.
Lemma same_logs (l l' : list warning) : Forall2 (same_warning eq) l l' -> l = l'.
Proof. induction 1 as [|x y l l' [c t t' ->] HF IH]; congruence. Qed.
(** The same warnings in the same order, and the same exception or none. *)
Theorem C51_same_outcome : forall w v v', reordered v v' ->
  fst (parse_node w v) = fst (parse_node w v') /\
  (forall e, snd (parse_node w v) = Err e <-> snd (parse_node w v') = Err e).
Proof.
  intros w v v' H. destruct (eq_rel w v v' H) as [HW HR]. split; [now apply same_logs|]. intros e.
  inversion HR as [x y HX HE1 HE2|e1 e2 HE HE1 HE2]; [split; discriminate|].
  assert (e1 = e2) by (destruct HE; congruence). subst. tauto.
Qed.
(** The same for a dictionary handed to a class. *)
Theorem C51_same_outcome_from_dict : forall w k v v', reordered v v' ->
  fst (from_dict w k v) = fst (from_dict w k v') /\
  (forall e, snd (from_dict w k v) = Err e <-> snd (from_dict w k v') = Err e).
Proof.
  intros w k v v' H. assert (HS : same_run eq (same_node eq) (from_dict w k v) (from_dict w k v')) by (apply from_dict_rel; try exact H; congruence).
  destruct HS as [HW HR]. split; [now apply same_logs|]. intros e.
  inversion HR as [x y HX HE1 HE2|e1 e2 HE HE1 HE2]; [split; discriminate|].
  assert (e1 = e2) by (destruct HE; congruence). subst. tauto.
Qed.
Lemma eq_nodes w v v' n n' : reordered v v' -> snd (parse_node w v) = Ok n -> snd (parse_node w v') = Ok n' -> same_node eq n n'.
Proof. intros H H1 H2. destruct (eq_rel w v v' H) as [_ HR]. rewrite H1, H2 in HR. now inversion HR. Qed.
(** Their dictionaries differ in key order at most (inside attribute values that are dictionaries themselves). *)
Theorem C51_same_dictionary : forall w v v' n n' d, reordered v v' ->
  snd (parse_node w v) = Ok n -> snd (parse_node w v') = Ok n' -> node_to_dict n = Ok d ->
  exists d', node_to_dict n' = Ok d' /\ reordered d d'.
Proof.
  intros w v v' n n' d H H1 H2 HD. assert (HR : same_outcome eq (same_data eq) (node_to_dict n) (node_to_dict n')).
  { apply node_to_dict_rel; try congruence. eapply eq_nodes; eauto. }
  rewrite HD in HR. inversion HR as [x y HX HE1 HE2|]; subst. eauto.
Qed.
(** If no field holds a dictionary, the objects are the same; so are their dictionaries, key order included. *)
Theorem C51_same_object : forall w v v' n n', reordered v v' ->
  snd (parse_node w v) = Ok n -> snd (parse_node w v') = Ok n' ->
  fields_hold dict_free n -> fields_hold dict_free n' -> n = n'.
Proof.
  intros w v v' n n' H H1 H2 F1 F2. eapply (node_same_eq eq dict_free); eauto; [|eapply eq_nodes; eauto].
  intros x y. apply reordered_flat_eq.
Qed.
(** The Markdown is the same as soon as the attributes that are rendered (C48) hold no dictionaries. *)
Theorem C51_same_markdown : forall E w v v' n n' ign, reordered v v' ->
  snd (parse_node w v) = Ok n -> snd (parse_node w v') = Ok n' ->
  fields_hold dict_free (drop_presentation n) -> fields_hold dict_free (drop_presentation n') ->
  to_markdown E n ign = to_markdown E n' ign.
Proof.
  intros E w v v' n n' ign H H1 H2 F1 F2. eapply C48_presentation_irrelevant; eauto.
  eapply (node_same_eq eq dict_free); eauto; [intros x y; apply reordered_flat_eq|].
  apply drop_rel; [reflexivity|]. eapply eq_nodes; eauto.
Qed.

Definition ex_ordered : value :=
  VDict [tyv "doc"; (s "version", VInt 1);
         (s "content", VList [VDict [tyv "heading"; (s "attrs", VDict [(s "level", VInt 2); (s "localId", VStr (s "i"))]);
                                     (s "content", VList [VDict [tyv "text"; (s "text", VStr (s "Hi")); (s "marks", VList [VDict [tyv "strong"]; VDict [tyv "blink"]])]])];
                              VDict [tyv "marquee"; (s "content", VList [])]])].
Definition ex_shuffled : value :=
  VDict [(s "content", VList [VDict [(s "content", VList [VDict [(s "marks", VList [VDict [tyv "strong"]; VDict [tyv "blink"]]); tyv "text"; (s "text", VStr (s "Hi"))]]);
                                     (s "attrs", VDict [(s "localId", VStr (s "i")); (s "level", VInt 2)]); tyv "heading"];
                              VDict [(s "content", VList []); tyv "marquee"]]); tyv "doc"; (s "version", VInt 1)].
Ltac nodup_tac := apply distinctb_ok; vm_compute; reflexivity.
Ltac sd_tac :=
  match goal with
  | |- same_data _ (VDict _) (VDict _) =>
      apply sd_dict; [nodup_tac|nodup_tac|intros k; cbn [map fst In]; tauto|
        let HX := fresh in let HY := fresh in intros k x y HX HY; cbn [In] in HX, HY;
        repeat (destruct HX as [HX|HX]); try contradiction; repeat (destruct HY as [HY|HY]); try contradiction;
        first [assert (HZ := eq_trans (f_equal fst HX) (eq_sym (f_equal fst HY))); cbn [fst] in HZ; discriminate HZ|idtac];
        injection HX as <- <-; (try injection HY as <-); (try injection HY as _ <-)]
  | |- same_data _ (VList _) (VList _) => apply sd_list; repeat (apply Forall2_cons; [|]); [..|apply Forall2_nil]
  | |- same_data _ _ _ => apply sd_atom; [reflexivity|reflexivity|]
  | |- @eq value ?a ?a => reflexivity
  end.
Example C51_example : reordered ex_ordered ex_shuffled /\
  parse_node true ex_ordered = parse_node true ex_shuffled /\ fst (parse_node true ex_shuffled) = [Warn CMark (VStr (s "blink")); Warn CNode (VStr (s "marquee"))].
Proof.
  split; [|split; vm_compute; reflexivity]. unfold reordered, ex_ordered, ex_shuffled. repeat sd_tac.
Qed.

(** ================================================================ C52 *)
(** Python's == on dictionaries, as modelled, is the specified equality. *)
Theorem C52_dict_equality : forall same v v', distinct_keys v -> distinct_keys v' ->
  value_eqb same v v' = true <-> python_equal same v v'.
Proof. exact value_eqb_iff. Qed.

Lemma py_rel same w v v' : python_equal same v v' ->
  same_run (python_atom same) (same_node (python_atom same)) (parse_node w v) (parse_node w v').
Proof.
  apply parse_node_rel; eauto using pa_str, pa_str', pa_opt, pa_opt'; intros; apply pa_refl; discriminate.
Qed.
Lemma py_distinct same v v' : python_equal same v v' -> distinct_keys v /\ distinct_keys v'.
Proof. intros H. split; [eapply sd_distinct; exact H|]. eapply sd_distinct. eapply sd_sym; [apply pa_sym|exact H]. Qed.
(** Equal dictionaries parse to equal objects, or fail alike. *)
Theorem C52_equal_inputs : forall same w v v', python_equal same v v' ->
  (forall n, snd (parse_node w v) = Ok n -> exists n', snd (parse_node w v') = Ok n' /\ node_eqb same n n' = true) /\
  (forall e, snd (parse_node w v) = Err e -> exists e', snd (parse_node w v') = Err e' /\ same_exc (python_atom same) e e').
Proof.
  intros same w v v' H. destruct (py_distinct same v v' H) as [D1 D2]. destruct (py_rel same w v v' H) as [_ HR]. split.
  - intros n HN. rewrite HN in HR. inversion HR as [x y HX HE1 HE2|]; subst. exists y. split; [reflexivity|].
    apply node_eqb_iff; [eapply parse_ok; [exact D1|exact HN]|eapply parse_ok; [exact D2|symmetry; eassumption]|exact HX].
  - intros e HN. rewrite HN in HR. inversion HR as [|e1 e2 HX HE1 HE2]; subst. eauto.
Qed.

Lemma py_to_dict same n n' : same_node (python_atom same) n n' ->
  same_outcome (python_atom same) (python_equal same) (node_to_dict n) (node_to_dict n').
Proof.
  intros H. apply node_to_dict_rel; try exact H; eauto using pa_str, pa_str', pa_opt, pa_opt'; intros; apply pa_refl; discriminate.
Qed.
(** Equal objects have equal dictionaries. *)
Theorem C52_equal_objects_equal_dictionaries : forall same w w' v v' n n' d, distinct_keys v -> distinct_keys v' ->
  snd (parse_node w v) = Ok n -> snd (parse_node w' v') = Ok n' -> node_eqb same n n' = true -> node_to_dict n = Ok d ->
  exists d', node_to_dict n' = Ok d' /\ python_equal same d d' /\ value_eqb same d d' = true.
Proof.
  intros same w w' v v' n n' d D1 D2 H1 H2 HE HD. pose proof (parse_ok w v n D1 H1) as O1. pose proof (parse_ok w' v' n' D2 H2) as O2.
  apply (node_eqb_iff same n n' O1 O2) in HE. pose proof (py_to_dict same n n' HE) as HR. rewrite HD in HR.
  inversion HR as [x y HX HE1 HE2|]; subst. exists y. split; [reflexivity|]. split; [exact HX|].
  destruct (py_distinct same d y HX) as [P1 P2]. now apply value_eqb_iff.
Qed.
(** And conversely: on JSON input with list contents, objects are equal exactly when their dictionaries are. *)
Theorem C52_equal_iff_equal_dictionaries : forall same w w' v v' n n', distinct_keys v -> distinct_keys v' ->
  opt_free v = true -> opt_free v' = true -> listy n -> listy n' ->
  snd (parse_node w v) = Ok n -> snd (parse_node w' v') = Ok n' ->
  exists d d', node_to_dict n = Ok d /\ node_to_dict n' = Ok d' /\
    (node_eqb same n n' = true <-> value_eqb same d d' = true).
Proof.
  intros same w w' v v' n n' D1 D2 F1 F2 L1 L2 H1 H2.
  destruct (C10_object_roundtrip w v n H1 F1 L1) as (d & T1 & R1). destruct (C10_object_roundtrip w' v' n' H2 F2 L2) as (d' & T2 & R2).
  exists d, d'. split; [exact T1|]. split; [exact T2|].
  pose proof (parse_ok w v n D1 H1) as O1. pose proof (parse_ok w' v' n' D2 H2) as O2.
  assert (KD : forall m e, ok_node m -> node_to_dict m = Ok e -> distinct_keys e).
  { intros m e Om Te. pose proof (py_to_dict true m m (node_refl_same m Om)) as HX. rewrite Te in HX. inversion HX as [x y HY|]; subst.
    eapply py_distinct; exact HY. }
  pose proof (KD n d O1 T1) as K1. pose proof (KD n' d' O2 T2) as K2.
  rewrite (node_eqb_iff same n n' O1 O2), (value_eqb_iff same d d' K1 K2). split.
  - intros HE. pose proof (py_to_dict same n n' HE) as HX. rewrite T1, T2 in HX. now inversion HX.
  - intros HE. pose proof (py_rel same true d d' HE) as [_ HX]. rewrite R1, R2 in HX. cbn [snd] in HX. now inversion HX.
Qed.

(** == on parsed objects is an equivalence relation (reflexive: up to NaNs that are distinct objects). *)
Theorem C52_reflexive : forall same w v n, distinct_keys v -> snd (parse_node w v) = Ok n ->
  same = true \/ fields_hold nan_free n -> node_eqb same n n = true.
Proof.
  intros same w v n D1 H1 HS. pose proof (parse_ok w v n D1 H1) as O1. apply (node_eqb_iff same n n O1 O1).
  destruct HS as [->|HS]; [now apply node_refl_same|now apply node_refl_nan].
Qed.
Theorem C52_symmetric : forall same w w' v v' n n', distinct_keys v -> distinct_keys v' ->
  snd (parse_node w v) = Ok n -> snd (parse_node w' v') = Ok n' -> node_eqb same n n' = node_eqb same n' n.
Proof.
  intros same w w' v v' n n' D1 D2 H1 H2. pose proof (parse_ok w v n D1 H1) as O1. pose proof (parse_ok w' v' n' D2 H2) as O2.
  apply Bool.eq_iff_eq_true. rewrite !node_eqb_iff by assumption. split; apply node_sym; apply pa_sym.
Qed.
Theorem C52_transitive : forall same w1 w2 w3 v1 v2 v3 n1 n2 n3, distinct_keys v1 -> distinct_keys v2 -> distinct_keys v3 ->
  snd (parse_node w1 v1) = Ok n1 -> snd (parse_node w2 v2) = Ok n2 -> snd (parse_node w3 v3) = Ok n3 ->
  node_eqb same n1 n2 = true -> node_eqb same n2 n3 = true -> node_eqb same n1 n3 = true.
Proof.
  intros same w1 w2 w3 v1 v2 v3 n1 n2 n3 D1 D2 D3 H1 H2 H3.
  pose proof (parse_ok _ _ _ D1 H1) as O1. pose proof (parse_ok _ _ _ D2 H2) as O2. pose proof (parse_ok _ _ _ D3 H3) as O3.
  rewrite !node_eqb_iff by assumption. apply node_trans. apply pa_trans.
Qed.
(** Objects of different classes are never equal. *)
Theorem C52_same_class : forall same n n', node_eqb same n n' = true -> n_kind n = n_kind n'.
Proof.
  intros same [k ty ve tx a co ma] [k' ty' ve' tx' a' co' ma'] H. cbn [node_eqb] in H. rewrite !andb_true_iff in H.
  destruct H as ((((((H & _) & _) & _) & _) & _) & _). cbn [n_kind]. now apply kind_eqb_iff.
Qed.
(** Equal objects render alike when what is rendered of them (C48) holds no booleans, floats or dictionaries ... *)
Theorem C52_equal_objects_equal_markdown : forall E same w w' v v' n n' ign, distinct_keys v -> distinct_keys v' ->
  snd (parse_node w v) = Ok n -> snd (parse_node w' v') = Ok n' -> node_eqb same n n' = true ->
  fields_hold plain (drop_presentation n) -> fields_hold plain (drop_presentation n') ->
  to_markdown E n ign = to_markdown E n' ign.
Proof.
  intros E same w w' v v' n n' ign D1 D2 H1 H2 HE F1 F2. pose proof (parse_ok w v n D1 H1) as O1. pose proof (parse_ok w' v' n' D2 H2) as O2.
  apply (node_eqb_iff same n n' O1 O2) in HE. eapply C48_presentation_irrelevant; eauto.
  eapply (node_same_eq (python_atom same) plain); eauto; [intros x y; apply plain_equal_eq|].
  apply drop_rel; [apply pa_refl; discriminate|exact HE].
Qed.
(** ... and need not otherwise: a heading of level 1 equals one of level 1.0, which cannot be rendered. *)
Definition ex_level (l : value) : value := VDict [tyv "heading"; (s "attrs", VDict [(s "level", l)]); (s "content", VList [VDict [tyv "text"; (s "text", VStr (s "T"))]])].
Theorem C52_markdown_refuted : exists v v' n n', distinct_keys v /\ distinct_keys v' /\
  snd (parse_node true v) = Ok n /\ snd (parse_node true v') = Ok n' /\ node_eqb false n n' = true /\ node_eqb false n' n = true /\
  (forall E, to_markdown E n false = Ok (VStr (nl ++ nl ++ s "# T" ++ nl ++ nl))) /\ (forall E, to_markdown E n' false = Err TypeError).
Proof.
  exists (ex_level (VInt 1)), (ex_level (VFloat (FFin 1 0))). do 2 eexists.
  assert (HD : forall l, is_atom l = true -> distinct_keys (ex_level l)).
  { intros l Hl. apply dk_dict; [nodup_tac|]. repeat (apply Forall_cons; [cbn [snd]|]); try (now apply dk_atom); try apply Forall_nil.
    - apply dk_dict; [nodup_tac|]. apply Forall_cons; [now apply dk_atom|apply Forall_nil].
    - apply dk_list. apply Forall_cons; [|apply Forall_nil]. apply dk_dict; [nodup_tac|]. repeat (apply Forall_cons; [now apply dk_atom|]); apply Forall_nil. }
  split; [now apply HD|]. split; [now apply HD|]. split; [vm_compute; reflexivity|]. split; [vm_compute; reflexivity|].
  split; [vm_compute; reflexivity|]. split; [vm_compute; reflexivity|]. split; intros E; reflexivity.
Qed.
Definition ex_bool : value := VDict [tyv "table"; (s "attrs", VDict [(s "isNumberColumnEnabled", VBool true)]); (s "content", VList [])].
Definition ex_one : value := VDict [(s "content", VList []); (s "attrs", VDict [(s "isNumberColumnEnabled", VInt 1); (s "unknown", VNone)]); tyv "table"].
Example C52_example : exists n n', snd (parse_node true ex_bool) = Ok n /\ snd (parse_node true ex_one) = Ok n' /\ n <> n' /\ node_eqb false n n' = true /\
  fields_hold plain (drop_presentation n) /\ fields_hold plain (drop_presentation n') /\ node_eqb false n (get ex_ordered) = false.
Proof.
  do 2 eexists. split; [vm_compute; reflexivity|]. split; [vm_compute; reflexivity|]. split; [discriminate|]. split; [vm_compute; reflexivity|].
  split; [|split; [|vm_compute; reflexivity]]; (cbn; constructor; [intros v [->|[HE|HE]]; [reflexivity|discriminate HE|discriminate HE]|..]); try (intros l c [= <-] []);
    try (intros l e [= <-] HE; repeat (destruct HE as [<-|HE]; [reflexivity|]); destruct HE); intros l; discriminate.
Qed.

(** ================================================================ C53 *)
(** Equal objects have equal hashes (or neither has one). *)
Theorem C53_equal_objects_equal_hash : forall H same w w' v v' n n', distinct_keys v -> distinct_keys v' ->
  snd (parse_node w v) = Ok n -> snd (parse_node w' v') = Ok n' -> node_eqb same n n' = true -> node_hash H n = node_hash H n'.
Proof.
  intros H same w w' v v' n n' D1 D2 H1 H2 HE. apply (node_hash_eq H same).
  apply node_eqb_iff; [exact (parse_ok w v n D1 H1)|exact (parse_ok w' v' n' D2 H2)|exact HE].
Qed.
Theorem C53_equal_marks_equal_hash : forall H same v v' m m', distinct_keys v -> distinct_keys v' ->
  parse_mark v = Ok m -> parse_mark v' = Ok m' -> mark_eqb same m m' = true -> mark_hash H m = mark_hash H m'.
Proof.
  intros H same v v' m m' D1 D2 H1 H2 HE. apply (mark_hash_eq H same).
  apply mark_eqb_iff; [eapply represents_mark_ok; [exact D1|now apply parse_mark_represents]|eapply represents_mark_ok; [exact D2|now apply parse_mark_represents]|exact HE].
Qed.
(** An element can be hashed exactly when it has no list or dictionary among its declared fields and attributes; in particular
    no list of children and no list of marks.  Otherwise hash() raises TypeError. *)
Definition all_atoms (fs : list (str * fkind)) (d : list (str * value)) : Prop :=
  forall f x, In f (map fst fs) -> lookup f d = Some x -> is_atom x = true.
Definition hashable_input (k : nkind) (d : list (str * value)) : Prop :=
  let c := nk_class k in
  (nc_text c = true -> forall x, lookup (s "text") d = Some x -> is_atom x = true) /\
  (nc_version c = true -> forall x, lookup (s "version") d = Some x -> is_atom x = true) /\
  (forall fk fs a, nc_attrs c = Some (fk, fs) -> lookup (s "attrs") d = Some (VDict a) -> all_atoms fs a) /\
  (nc_content c <> None -> forall x, lookup (s "content") d = Some x -> is_atom x = true) /\
  (nc_marks c <> None -> forall x, lookup (s "marks") d = Some x -> is_atom x = true).
Section HashableProof.
Context (H : hasher).
Definition typeerr (r : res Z) : Prop := forall e, r = Err e -> e = TypeError.
Lemma vh_err v : typeerr (value_hash H v).
Proof. intros e. apply value_hash_err. Qed.
Lemma opt_part o : Forall typeerr (opt_hash H o) /\ (existsb fails (opt_hash H o) = false <-> forall x, o = Some x -> is_atom x = true).
Proof.
  destruct o as [v|]; cbn [opt_hash existsb].
  - split; [constructor; [apply vh_err|constructor]|]. rewrite value_hash_fails, orb_false_r, negb_false_iff. split; [now intros HE x [= <-]|auto].
  - split; [constructor|]. split; [discriminate|reflexivity].
Qed.
Lemma slot_part {B} (R : value -> B -> Prop) skip b o (sl : slot B) : slot_from skip R b o sl ->
  Forall typeerr (slot_hash H sl) /\ (existsb fails (slot_hash H sl) = false <-> (b = true -> forall x, o = Some x -> is_atom x = true)).
Proof.
  intros [o' HE|HE|HE|l xs HE HF|v HE HN HL]; subst; cbn [slot_hash existsb fails orb].
  - split; [constructor|]. split; [discriminate|reflexivity].
  - split; [repeat constructor; discriminate|]. split; [discriminate|reflexivity].
  - split; [repeat constructor; discriminate|]. split; [intros _ _ x [= <-]; reflexivity|reflexivity].
  - split; [repeat constructor; intros e; congruence|]. split; [discriminate|]. intros HA. now specialize (HA eq_refl _ eq_refl).
  - split; [constructor; [apply vh_err|constructor]|]. rewrite value_hash_fails, orb_false_r, negb_false_iff. split; [now intros HV _ x [= <-]|auto].
Qed.
Lemma attrs_part fs o a : NoDup (map fst fs) -> attrs_from fs o a ->
  Forall typeerr (attrs_hash H a) /\ (existsb fails (attrs_hash H a) = false <-> forall d, o = Some (VDict d) -> all_atoms fs d).
Proof.
  intros ND [|d l [HF HL]]; cbn [attrs_hash].
  - split; [repeat constructor; discriminate|]. split; [discriminate|reflexivity].
  - set (hs := map (fun e => value_hash H (snd e)) l).
    assert (HT : Forall typeerr hs) by (apply Forall_map; apply Forall_forall; intros; apply vh_err).
    pose proof (tuple_hash_cases H hs HT) as HC.
    assert (HX : existsb fails hs = false <-> all_atoms fs d).
    { unfold hs. rewrite <- Bool.not_true_iff_false, existsb_exists. split.
      - intros HN f x Hf HE. destruct (is_atom x) eqn:EA; [reflexivity|]. exfalso. apply HN. exists (value_hash H x). split; [|rewrite value_hash_fails, EA; reflexivity].
        specialize (HL f Hf). rewrite HE in HL. apply in_map_iff. exists (f, x). split; [reflexivity|now apply lookup_in].
      - intros HA (r & HI & HFa). apply in_map_iff in HI as ([f x] & <- & HI). cbn [snd] in HFa. rewrite value_hash_fails in HFa.
        assert (Hf : In f (map fst fs)) by (rewrite <- HF; apply in_map_iff; now exists (f, x)). specialize (HL f Hf).
        rewrite (in_lookup f l x) in HL; [|now rewrite HF|exact HI]. injection HL as ->.
        destruct (lookup f d) as [y|] eqn:E; [rewrite (HA f y Hf E) in HFa|]; discriminate HFa. }
    split.
    + constructor; [|constructor]. intros e HE. destruct (existsb fails hs); [congruence|]. destruct HC as [h HC]. congruence.
    + assert (HY : existsb fails [tuple_hash H hs] = existsb fails hs).
      { cbn [existsb]. rewrite orb_false_r. destruct (existsb fails hs); [now rewrite HC|]. destruct HC as [h ->]. reflexivity. }
      rewrite HY, HX. split; [now intros HA d' [= <-]|auto].
Qed.
End HashableProof.
Theorem C53_hashable_iff : forall H w d k n, lookup (s "type") d = Some (VStr (nk_name k)) -> snd (parse_node w (VDict d)) = Ok n ->
  (hashable_input k d <-> exists h, node_hash H n = Ok h) /\ (~ hashable_input k d <-> node_hash H n = Err TypeError).
Proof.
  intros H w d k n HT HP. pose proof (parse_represents _ _ _ HP) as HR.
  inversion HR as [d' k' ty ve tx a co ma HTy HCl HRF HE1 HE2]; subst n d'. rewrite HT in HTy. subst ty.
  rewrite node_class_of_name in HCl. injection HCl as <-. clear HR.
  inversion HRF as [k' d' ve' tx' a' co' ma' HVE HTX HA HCO HMA]; subst k' d' ve' tx' a' co' ma'.
  unfold node_hash. cbn [n_type n_version n_text n_attrs n_content n_marks].
  destruct (opt_part H ve) as [V1 V2]. destruct (opt_part H tx) as [X1 X2].
  destruct (slot_part H _ _ _ _ _ HCO) as [C1 C2]. destruct (slot_part H _ _ _ _ _ HMA) as [M1 M2].
  assert (HAA : Forall typeerr (attrs_hash H a) /\ (existsb fails (attrs_hash H a) = false <->
     forall fk fs a0, nc_attrs (nk_class k) = Some (fk, fs) -> lookup (s "attrs") d = Some (VDict a0) -> all_atoms fs a0)).
  { destruct (nc_attrs (nk_class k)) as [[fk fs]|] eqn:EA.
    - destruct (attrs_part H fs _ a (nc_attrs_nodup _ _ _ EA) HA) as [A1 A2]. split; [exact A1|]. rewrite A2. split.
      + intros HX fk' fs' a0 [= <- <-]. apply HX.
      + intros HX d0. now apply (HX fk fs).
    - subst a. split; [constructor|]. split; [discriminate|reflexivity]. }
  destruct HAA as [A1 A2].
  set (parts := value_hash H (VStr (nk_name k)) :: _).
  assert (HTE : Forall typeerr parts).
  { unfold parts. constructor; [apply vh_err|]. repeat (apply Forall_app; split); assumption. }
  assert (HIFF : existsb fails parts = false <-> hashable_input k d).
  { unfold parts. cbn [existsb]. change (fails (value_hash H (VStr (nk_name k)))) with false. cbn [orb].
    rewrite !existsb_app, !orb_false_iff, V2, X2, A2, C2, M2. unfold hashable_input.
    assert (E1 : (forall x, ve = Some x -> is_atom x = true) <-> (nc_version (nk_class k) = true -> forall x, lookup (s "version") d = Some x -> is_atom x = true)).
    { rewrite HVE. destruct (nc_version (nk_class k)); [|split; [discriminate|discriminate]]. destruct (lookup (s "version") d) as [x|].
      - split; [intros HX _ y [= <-]; now apply HX|intros HX y [= <-]; now apply HX].
      - split; [discriminate|intros _ x [= <-]; reflexivity]. }
    assert (E2 : (forall x, tx = Some x -> is_atom x = true) <-> (nc_text (nk_class k) = true -> forall x, lookup (s "text") d = Some x -> is_atom x = true)).
    { rewrite HTX. destruct (nc_text (nk_class k)); [|split; [discriminate|discriminate]]. tauto. }
    assert (E3 : forall o, declares o = true <-> o <> None) by (intros [|]; cbn; split; congruence).
    rewrite E1, E2. rewrite (E3 (nc_content (nk_class k))), (E3 (nc_marks (nk_class k))). tauto. }
  pose proof (tuple_hash_cases H parts HTE) as HC. rewrite <- HIFF. destruct (existsb fails parts).
  - split; split; try discriminate; auto. intros [h HX]. congruence.
  - destruct HC as [h HC]. split; split; eauto; intros; [now destruct (H0 eq_refl)|congruence].
Qed.
(** So nothing with a list of children or a list of marks can be put in a set or used as a key. *)
Theorem C53_containers_are_unhashable : forall H w v n, snd (parse_node w v) = Ok n ->
  (exists l, n_content n = Items l) \/ (exists l, n_marks n = Items l) -> node_hash H n = Err TypeError.
Proof.
  intros H w v n HP HI. pose proof (parse_represents _ _ _ HP) as HR.
  inversion HR as [d k ty ve tx a co ma HTy HCl HRF HE1 HE2]; subst n v. apply node_class_of_found in HCl as HN. cbn [n_content n_marks] in HI.
  inversion HRF as [k' d' ve' tx' a' co' ma' HVE HTX HA HCO HMA]; subst k' d' ve' tx' a' co' ma'.
  assert (HT : lookup (s "type") d = Some (VStr (nk_name k))).
  { rewrite parse_node_dict in HP. destruct (lookup (s "type") d) as [t|]; [congruence|discriminate HP]. }
  apply (C53_hashable_iff H w d k _ HT HP). intros (_ & _ & _ & H1 & H2).
  destruct HI as [[l ->]|[l ->]].
  - inversion HCO as [| | |l0 xs HE HF HEE|]; subst. rewrite <- HEE in H1. assert (HX : nc_content (nk_class k) <> None) by (destruct (nc_content _); [discriminate|discriminate HE]).
    now specialize (H1 HX _ eq_refl).
  - inversion HMA as [| | |l0 xs HE HF HEE|]; subst. rewrite <- HEE in H2. assert (HX : nc_marks (nk_class k) <> None) by (destruct (nc_marks _); [discriminate|discriminate HE]).
    now specialize (H2 HX _ eq_refl).
Qed.
Example C53_example : forall H,
  (exists h, node_hash H (get (VDict [tyv "text"; (s "text", VStr (s "x"))])) = Ok h) /\
  (exists h, node_hash H (get (VDict [tyv "emoji"; (s "attrs", VDict [(s "shortName", VStr (s ":)"))])])) = Ok h) /\
  node_hash H (get ex_ordered) = Err TypeError /\
  node_hash H (get (VDict [tyv "text"; (s "text", VStr (s "x")); (s "marks", VList [])])) = Err TypeError.
Proof. intros H. repeat split; try (eexists; vm_compute; reflexivity); vm_compute; reflexivity. Qed.
