(** C73: the main properties once more, about the source text itself: what its parse_node, to_markdown and to_dict, run one after the
    other by the interpreters, do to a dictionary. *)
From Coq Require Import List NArith ZArith Bool String Lia.
From Verif Require Import PyStr Values Schema Parse Serialize Markdown Basics PySyntax PySem RepoCode RepoCode2 PySem2 ReadFacts ReadFacts8 ReadFacts9 WriteFacts WriteFacts2
  CodeFacts CodeFacts2 SpecSize SizeFacts2 Properties_Code Properties_Code2 SpecSource
  SpecParse SpecRender SpecText SpecInputText SpecRaise Samples Properties_Parse Properties_Marks Properties_Nodes Properties_Render Properties_InputText Properties_Errors Properties_Size Properties_Raise.
Import ListNotations.
Open Scope string_scope.
Open Scope list_scope.
Open Scope nat_scope.

Lemma finally_one {A} (f : nat -> A) a b : finally f a -> finally f b -> a = b.
Proof. intros [k H] [j G]. rewrite <- (H (k + j)), <- (G (k + j)) by lia. reflexivity. Qed.

Lemma reads_model W v : reads W v (fst (parse_node W v)) (an_object rv_node (snd (parse_node W v))).
Proof.
  exists (nesting v + 6). intros k HK. destruct (C72_parse_node W v k HK _ C72_start) as (w' & E & _ & L). rewrite E, L. reflexivity.
Qed.
Lemma reads_iff W v lg o : reads W v lg o <-> lg = fst (parse_node W v) /\ o = an_object rv_node (snd (parse_node W v)).
Proof.
  split; [|intros [-> ->]; apply reads_model]. intros H. pose proof (finally_one _ _ _ H (reads_model W v)) as HE. injection HE as -> ->. auto.
Qed.
Lemma loads_iff W v n : loads W v n <-> snd (parse_node W v) = Ok n.
Proof.
  split.
  - intros [HW [lg H]]. apply reads_iff in H as [_ H]. destruct (snd (parse_node W v)) as [m|e] eqn:EP; [|discriminate H]. cbn [an_object] in H. injection H as H.
    f_equal. symmetry. apply (rv_node_inj n HW m); [|exact H]. apply parsed_writable. left. eauto.
  - intros H. split; [apply parsed_writable; left; eauto|]. exists (fst (parse_node W v)). apply reads_iff. rewrite H. auto.
Qed.
Lemma shows_iff E W v n ign o : loads W v n -> shows E n ign o <-> o = outcome (to_markdown E n ign).
Proof.
  intros HL. apply loads_iff in HL. assert (HP : parsed n) by (left; eauto).
  assert (HM : shows E n ign (outcome (to_markdown E n ign))) by (exists (2 * depth n + 2); intros k HK; exact (C71_source E n ign k HP HK)).
  split; [intros H; exact (finally_one _ _ _ H HM)|intros ->; exact HM].
Qed.
Lemma writes_iff W W' v n o : loads W v n -> writes W' n o <-> o = an_object RV (node_to_dict n).
Proof.
  intros HL. apply loads_iff in HL. assert (HP : parsed n) by (left; eauto).
  assert (HM : writes W' n (an_object RV (node_to_dict n))).
  { exists (depth n + 2). intros k HK. destruct (C72_to_dict W' n k HP HK) as [EA HG]. rewrite EA. destruct (HG _ C72_start) as (w' & HE & _). rewrite HE. reflexivity. }
  split; [intros H; exact (finally_one _ _ _ H HM)|intros ->; exact HM].
Qed.
Definition model_convert (E : runtime) (W : bool) (v : value) (ign : bool) : res value := Values.rbind (snd (parse_node W v)) (fun n => to_markdown E n ign).
Lemma converts_iff E W v ign o : converts E W v ign o <-> o = outcome (model_convert E W v ign).
Proof.
  unfold model_convert. split.
  - intros [lg e H|n o' HL HS].
    + apply reads_iff in H as [_ H]. destruct (snd (parse_node W v)); [discriminate H|]. cbn [an_object] in H. injection H as ->. reflexivity.
    + rewrite (proj1 (loads_iff _ _ _) HL). exact (proj1 (shows_iff E W v n ign o' HL) HS).
  - intros ->. destruct (snd (parse_node W v)) as [n|e] eqn:EP; cbn [Values.rbind].
    + assert (HL : loads W v n) by now apply loads_iff. apply read_shown with n; [exact HL|]. now apply (shows_iff E W v n ign).
    + apply not_read with (fst (parse_node W v)). apply reads_iff. rewrite EP. auto.
Qed.

(** ---------------------------------------------------------------- the two interpreters hold the same objects *)
(** Every field of an object that parsing gave reads the same in both, or is an AttributeError in both. *)
Definition field_names : list string := ["type"; "version"; "text"; "attrs"; "content"; "marks"].
Lemma no_method k f : In f field_names -> find repo2 8 (node_q k) f = None.
Proof. intros H. destruct k; repeat (destruct H as [<-|H]; [vm_compute; reflexivity|]); destruct H. Qed.
Lemma attrs_class k : nc_attrs (nk_class k) <> None -> exists q, node_cls (nk_name k) = Some q /\ assoc q (p_attrs repo) = Some (attrs_q (node_q k)).
Proof. destruct k; intros H; try (exfalso; apply H; reflexivity); eexists; split; vm_compute; reflexivity. Qed.
Lemma rattr_field W c fs f : String.prefix "__" f = false -> find repo2 8 c f = None ->
  rattr W repo2 (RInst c fs) f = match lookup (s f) fs with Some v => Val v | None => Exc AttributeError end.
Proof.
  intros HP HF. with_strategy transparent [rattr] unfold rattr. rewrite HP. destruct (lookup (s f) fs); [reflexivity|]. unfold method_of. now rewrite HF. Qed.
Definition fields_of k ty ve tx a co ma : list (str * rv) := (s "type", RV ty) :: rv_opt (s "version") ve ++ rv_opt (s "text") tx ++ rv_attrs (node_q k) a
  ++ match co with NoField => [] | SOpt => [(s "content", RV VOpt)] | Items l => [(s "content", RList Done (map rv_node l))] | Raw v => [(s "content", RV v)] end
  ++ rv_slot rv_mark (s "marks") ma.
Lemma lookup_fields k ty ve tx a co ma : let l := fields_of k ty ve tx a co ma in
  lookup (s "type") l = Some (RV ty) /\ lookup (s "version") l = option_map RV ve /\ lookup (s "text") l = option_map RV tx /\
  lookup (s "attrs") l = match a with NoAttrs => None | AOpt => Some (RV VOpt) | AObj l => Some (RInst (attrs_q (node_q k)) (data_fields l)) end /\
  lookup (s "content") l = match co with NoField => None | SOpt => Some (RV VOpt) | Items l => Some (RList Done (map rv_node l)) | Raw v => Some (RV v) end /\
  lookup (s "marks") l = match ma with NoField => None | SOpt => Some (RV VOpt) | Items l => Some (RList Done (map rv_mark l)) | Raw v => Some (RV v) end.
Proof. cbv zeta. unfold fields_of. generalize (node_q k). intros q. destruct ve, tx, a, co, ma; repeat split; reflexivity. Qed.
Theorem C73_same_object : forall W v n, loads W v n -> forall f, In f field_names ->
  same_out (get_attr repo node_cls mark_cls (PN n) f) (rattr W repo2 (rv_node n) f).
Proof.
  intros W v n [HW _] f HF. destruct HW as [k ty ve tx a co ma HA _ _ _].
  assert (HM : String.prefix "__" f = false) by (repeat (destruct HF as [<-|HF]; [reflexivity|]); destruct HF).
  cbn [rv_node]. rewrite (rattr_field W _ _ f HM (no_method k f HF)).
  pose proof (lookup_fields k ty ve tx a co ma) as (L1 & L2 & L3 & L4 & L5 & L6). unfold fields_of in *.
  repeat (destruct HF as [<-|HF]); [rewrite L1|rewrite L2|rewrite L3|rewrite L4|rewrite L5|rewrite L6|destruct HF];
    with_strategy transparent [get_attr] unfold get_attr; change (String.prefix "__" _) with false; cbn iota; cbn [n_type n_version n_text n_attrs n_content n_marks].
  - repeat constructor.
  - destruct ve; repeat constructor.
  - destruct tx; repeat constructor.
  - destruct a as [| |l]; cbn [attrs_value]; try (repeat constructor; fail). destruct HA as [HA _].
    destruct (attrs_class k HA) as (q & H1 & H2). cbn [class_of n_kind]. rewrite H1, H2. repeat constructor.
  - destruct co; repeat constructor.
  - destruct ma; repeat constructor.
Qed.
(** ---------------------------------------------------------------- the properties *)
(** Whatever the dictionary, the conversion ends, in one way only, and does nothing that [Wrong] stands for. *)
Theorem C73_total : forall E W v ign, exists o, converts E W v ign o /\ o <> Wrong /\ forall o', converts E W v ign o' -> o' = o.
Proof.
  intros E W v ign. exists (outcome (model_convert E W v ign)). split; [now apply converts_iff|]. split; [now destruct (model_convert E W v ign)|].
  intros o' H. now apply converts_iff in H.
Qed.
Theorem C73_reading_total : forall W v, exists lg o, reads W v lg o /\ o <> Wrong /\ forall lg' o', reads W v lg' o' -> lg' = lg /\ o' = o.
Proof.
  intros W v. exists (fst (parse_node W v)), (an_object rv_node (snd (parse_node W v))). split; [apply reads_model|].
  split; [now destruct (snd (parse_node W v))|]. intros lg o H. now apply reads_iff in H.
Qed.
(** The warning setting changes the log only (C07), *)
Theorem C73_warnings : forall E W W' v ign o, converts E W v ign o -> converts E W' v ign o.
Proof. intros E W W' v ign o H. apply converts_iff in H as ->. apply converts_iff. unfold model_convert. now rewrite (C07_flag_only_affects_log W W'). Qed.
(** and the log holds the elements of unknown type, in document order, all of them if the reading succeeds (C02). *)
Theorem C73_log : forall v lg o, reads true v lg o -> (exists rest, pruned v = lg ++ rest) /\ (forall r, o = Val r -> lg = pruned v).
Proof.
  intros v lg o H. apply reads_iff in H as [-> ->]. destruct (parse_node true v) as [l r] eqn:EP.
  destruct (C02_unimplemented_pruned_exactly true v l r EP) as (_ & _ & H). destruct (H eq_refl) as [H1 H2]. split; [exact H1|].
  intros x HX. cbn [fst snd] in *. destruct r as [n|e]; [|discriminate HX]. exact (H2 n eq_refl).
Qed.
(** Deleting the elements of unknown type beforehand changes nothing (C02, C14). *)
Theorem C73_pruned : forall E W v ign o, converts E W v ign o <-> converts E W (prune v) ign o.
Proof.
  intros E W v ign o. rewrite !converts_iff. unfold model_convert. destruct (parse_node W v) as [l r] eqn:EP.
  destruct (C02_unimplemented_pruned_exactly W v l r EP) as (H & _). rewrite (C07_flag_only_affects_log W true (prune v)), H. cbn [snd]. reflexivity.
Qed.
(** A dictionary with documented values is converted (C44), *)
Theorem C73_documented : forall E W v ign, documented v -> exists x, converts E W v ign (Val (PV (VStr x))).
Proof.
  intros E W v ign H. destruct (C44_documented_input_renders E W v ign H) as (n & x & HP & HM). exists x. apply converts_iff. unfold model_convert. rewrite HP. cbn [Values.rbind]. now rewrite HM.
Qed.
(** and if it has no construct that drops text, every line of every text is in the Markdown, in document order, without overlap (C20). *)
Theorem C73_text : forall E W v x, preserving v -> converts E W v false (Val (PV (VStr x))) -> in_order (List.concat (map pieces (input_texts v))) x.
Proof.
  intros E W v x HV H. apply converts_iff in H. unfold model_convert in H. destruct (snd (parse_node W v)) as [n|e] eqn:EP; [|discriminate H]. cbn [Values.rbind] in H.
  destruct (to_markdown E n false) as [y|e] eqn:EM; [|discriminate H]. cbn [outcome] in H. assert (y = VStr x) by congruence. subst y. exact (C20_input_text_in_output E W v n x HV EP EM).
Qed.
(** ignore_error=True changes nothing where the strict conversion succeeds (C23). *)
Theorem C73_conservative : forall E W v p, converts E W v false (Val p) -> converts E W v true (Val p).
Proof.
  intros E W v p H. apply converts_iff in H. apply converts_iff. unfold model_convert in *. destruct (snd (parse_node W v)) as [n|e]; [|exact H]. cbn [Values.rbind] in *.
  destruct (to_markdown E n false) as [y|e] eqn:EM; [|discriminate H]. now rewrite (C23_conservative E n y EM).
Qed.
(** An object is written to a dictionary that is read back as the same object, without a warning (C10), and so gives the same Markdown (C14). *)
Theorem C73_round_trip : forall W v n, loads W v n -> opt_free v = true -> listy n ->
  exists d, writes W n (Val (RV d)) /\ reads W d [] (Val (rv_node n)) /\ forall E ign o, converts E W d ign o <-> converts E W v ign o.
Proof.
  intros W v n HL HO HI. pose proof (proj1 (loads_iff _ _ _) HL) as HP. destruct (C10_object_roundtrip W v n HP HO HI) as (d & HD & HR). exists d. split; [|split].
  - apply (writes_iff W W v n _ HL). now rewrite HD.
  - apply reads_iff. now rewrite (HR W).
  - intros E ign o. rewrite !converts_iff. unfold model_convert. now rewrite (HR W), HP.
Qed.
(** What can be raised (C67). *)
Theorem C73_raises : forall E W v ign e, converts E W v ign (Exc e) ->
  read_origin e v \/
  (exists d ty, v = VDict d /\ lookup (s "type") d = Some ty /\ node_class_of ty = Missing /\ e = Unimplemented CNode ty) \/
  (exists n m, loads W v n /\ within m n /\ origin E e m).
Proof.
  intros E W v ign e H. apply converts_iff in H. unfold model_convert in H. destruct (snd (parse_node W v)) as [n|e'] eqn:EP; cbn [Values.rbind] in H.
  - destruct (to_markdown E n ign) as [y|e'] eqn:EM; [discriminate H|]. injection H as ->. destruct (C67_rendering E n ign e' EM) as (m & HM & HO).
    right. right. exists n, m. split; [now apply loads_iff|]. auto.
  - injection H as ->. destruct (C67_parse_node W v e' EP) as [HR|HR]; auto.
Qed.
(** What comes out is a string, unless the document itself is a text whose "text" is not one (C42). *)
Theorem C73_string : forall E W v ign p, converts E W v ign (Val p) ->
  exists t, p = PV t /\ ((exists x, t = VStr x) \/ exists n, loads W v n /\ n_kind n = Ktext /\ forall x, n_text n <> Some (VStr x)).
Proof.
  intros E W v ign p H. apply converts_iff in H. unfold model_convert in H. destruct (snd (parse_node W v)) as [n|e] eqn:EP; [|discriminate H]. cbn [Values.rbind] in H.
  destruct (to_markdown E n ign) as [y|e] eqn:EM; [|discriminate H]. injection H as ->. exists y. split; [reflexivity|].
  assert (HL : loads W v n) by now apply loads_iff.
  destruct (n_kind n) eqn:EK; try (left; apply (C42_result_is_str E n ign y); [rewrite EK; discriminate|exact EM]).
  assert (HT : (exists x, n_text n = Some (VStr x)) \/ forall x, n_text n <> Some (VStr x))
    by (destruct (n_text n) as [[]|]; try (right; discriminate); left; eauto).
  destruct HT as [HT|HT]; [|right; exists n; auto]. left. apply (C42_result_is_str E n ign y); [|exact EM]. intros _. exact HT.
Qed.
(** The length of the Markdown is at most quadratic in the size of the object (C68). *)
Theorem C73_size : forall E W v n ign x, upper_bounded E -> loads W v n -> converts E W v ign (Val (PV (VStr x))) -> List.length x <= 840 * size E n * size E n.
Proof.
  intros E W v n ign x HU HL H. apply loads_iff in HL. apply converts_iff in H. unfold model_convert in H. rewrite HL in H. cbn [Values.rbind] in H.
  destruct (to_markdown E n ign) as [y|e] eqn:EM; [|discriminate H]. cbn [outcome] in H. assert (y = VStr x) by congruence. subst y. exact (C68_quadratic E n ign x HU EM).
Qed.

(** A document with an unknown element, converted by the source text (the two interpreters run here) and, written and read back, once more. *)
Example C73_example : exists x, converts rt0 true ex_small false (Val (PV (VStr x))) /\ x <> [] /\ documented ex_small /\ preserving ex_small /\ prune ex_small <> ex_small.
Proof.
  eexists. split; [apply converts_iff; vm_compute; reflexivity|]. split; [discriminate|]. split; [exact C44_documented_example|]. split; [exact (proj1 (proj2 C20_input_example_documented))|].
  intros H. vm_compute in H. discriminate H.
Qed.
Example C73_run_example : let r := rcall true repo2 20 (RFun "nodes.parse_node.parse_node") [RV ex_small] (World [] []) in
  match snd (parse_node true ex_small) with
  | Ok n => snd r = Val (rv_node n) /\ match run rt0 20 (PN n) "to_markdown" [] [("ignore_error", PV (VBool false))] with Val (PV (VStr x)) => x <> [] | _ => False end
  | Err _ => False
  end.
Proof. vm_compute. split; [reflexivity|discriminate]. Qed.
Example C73_round_trip_example : exists n, loads true ex_doc n /\ opt_free ex_doc = true /\ listy n.
Proof. destruct C10_example as (n & H1 & H2 & H3). exists n. split; [now apply loads_iff|]. auto. Qed.
Example C73_raises_example : converts rt0 true (VDict [(s "type", VStr (s "nosuch"))]) false (Exc (Unimplemented CNode (VStr (s "nosuch")))) /\
  converts rt0 true (VDict [(s "type", VStr (s "heading"))]) true (Exc ParamError).
Proof. split; apply converts_iff; vm_compute; reflexivity. Qed.
