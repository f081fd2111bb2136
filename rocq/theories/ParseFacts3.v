(** Proofs about parsing, third part: faults, acceptance, contents of the object. *)
From Coq Require Import List NArith ZArith Bool String Lia.
From Verif Require Import PyStr Values Schema Parse Basics SpecParse ParseFacts ParseFacts2.
Import ListNotations.
Open Scope string_scope.
Open Scope list_scope.

(** [outcome r fl]: r fails with the first fault, or succeeds if there is none. *)
Definition outcome {A} (r : res A) (fl : list exc) : Prop :=
  match fl with
  | [] => exists a, r = Ok a
  | e :: _ => r = Err e
  end.

Lemma existsb_ext' {A} (f g : A -> bool) l : (forall a, f a = g a) -> existsb f l = existsb g l.
Proof. intros H. induction l as [|a l IH]; [reflexivity|]. cbn. now rewrite H, IH. Qed.

Lemma attrs_faults_ok fs v : outcome (attrs_from_dict fs v) (attrs_faults fs v).
Proof.
  unfold attrs_from_dict, attrs_faults, missing. destruct v; try reflexivity.
  rewrite (existsb_ext' (fun f => is_Pos (snd f) && negb (has (fst f) d))
             (fun f => match snd f with Pos => negb (has (fst f) d) | _ => false end)) by (intros [? []]; reflexivity).
  rewrite (existsb_ext' (fun f => is_Req (snd f) && negb (has (fst f) d))
             (fun f => match snd f with Req => negb (has (fst f) d) | _ => false end)) by (intros [? []]; reflexivity).
  destruct (existsb _ fs); [reflexivity|]. destruct (existsb _ fs); [reflexivity|]. eexists; reflexivity.
Qed.

Lemma mark_faults_ok v : outcome (parse_mark v) (mark_faults v).
Proof.
  unfold parse_mark, mark_faults. destruct v; try reflexivity.
  destruct (lookup (s "type") d) as [ty|]; [|reflexivity].
  destruct (mark_class_of ty) as [k| |]; try reflexivity.
  unfold mark_from_dict. destruct (mk_attrs k) as [fs|]; [|eexists; reflexivity].
  destruct (lookup (s "attrs") d) as [a|]; [|reflexivity].
  pose proof (attrs_faults_ok fs a) as H. unfold outcome in *.
  destruct (attrs_faults fs a) as [|e l]; [destruct H as [x ->]; eexists; reflexivity|now rewrite H].
Qed.

Lemma collect_outcome {A} w (l : list value) (p : value -> M A) (u : value -> bool) (fl : value -> list exc) :
  Forall (fun y => u y = true -> exists c ty, snd (p y) = Err (Unimplemented c ty)) l ->
  Forall (fun y => u y = false -> not_unimpl (snd (p y)) /\ outcome (snd (p y)) (fl y)) l ->
  outcome (snd (collect w (map p l))) (flat_map (fun y => if u y then [] else fl y) l).
Proof.
  intros H1 H2. induction l as [|y l IH]; [eexists; reflexivity|].
  inversion_clear H1 as [|? ? U1 F1]. inversion_clear H2 as [|? ? U2 F2]. specialize (IH F1 F2).
  cbn [map flat_map]. rewrite collect_cons. destruct (p y) as [lg r]. cbn [snd] in *.
  destruct (u y).
  - destruct (U1 eq_refl) as (c & ty & ->). destruct (collect w (map p l)) as [lg' r']. exact IH.
  - destruct (U2 eq_refl) as [NU O]. unfold outcome in O. destruct (fl y) as [|e fe] eqn:FY.
    + destruct O as [a ->]. cbn [app]. destruct (collect w (map p l)) as [lg' [xs|e]]; cbn [snd] in *.
      * unfold outcome in *. destruct (flat_map _ l); [eexists; reflexivity|destruct e; discriminate IH].
      * unfold outcome in *. destruct (flat_map _ l); [destruct IH; discriminate|exact IH].
    + rewrite O. rewrite O in NU. destruct e; try reflexivity. exfalso. exact (NU _ _ eq_refl).
Qed.

Lemma construct_outcome k d oa oc om :
  outcome (construct k d oa oc om)
    (field_fault (nc_text (nk_class k)) (s "text") d
     ++ (if is_required (option_map fst (nc_attrs (nk_class k))) && match oa with None => true | _ => false end then [ParamError] else [])
     ++ (if is_required (nc_content (nk_class k)) && match oc with None => true | _ => false end then [ParamError] else [])
     ++ (if is_required (nc_marks (nk_class k)) && match om with None => true | _ => false end then [ParamError] else [])).
Proof.
  unfold construct, field_fault, has.
  destruct (nc_text (nk_class k)); cbn [andb].
  1: destruct (lookup (s "text") d); cbn [negb]; [|reflexivity].
  all: cbn [rbind app]; unfold attrs_field; destruct (nc_attrs (nk_class k)) as [[[] fs]|]; destruct oa;
       cbn [rbind app andb is_required option_map fst]; try reflexivity.
  all: unfold slot_field; destruct (nc_content (nk_class k)) as [[]|]; destruct oc;
       cbn [rbind app andb is_required]; try reflexivity.
  all: destruct (nc_marks (nk_class k)) as [[]|]; destruct om;
       cbn [rbind app andb is_required]; try reflexivity; eexists; reflexivity.
Qed.

Lemma run_entry_list {A} w (ms : list (M A)) :
  run_entry w (EList ms) = match collect w ms with (lg, Ok l) => (lg, Ok (Some (Items l))) | (lg, Err e) => (lg, Err e) end.
Proof. cbn. destruct (collect w ms) as [lg [l|e]]; cbn; [now rewrite app_nil_r|reflexivity]. Qed.

(** Outcome of the content/marks entry, and whether the constructor gets an argument. *)
Definition entry_outcome {A} (r : res (option (slot A))) (present : bool) (fl : list exc) : Prop :=
  match fl with
  | [] => exists o, r = Ok o /\ match o with None => present = false | Some _ => present = true end
  | e :: _ => r = Err e
  end.

Lemma run_list_outcome {A} w ms (fl : list exc) :
  outcome (snd (@collect A w ms)) fl -> entry_outcome (snd (run_entry w (EList ms))) true fl.
Proof.
  intros H. rewrite run_entry_list. destruct (collect w ms) as [lg [l|e]]; cbn in *;
    (destruct fl; cbn in *; [destruct H as [a E]; try discriminate; eexists; split; reflexivity|congruence]).
Qed.
Lemma run_other_outcome {A} w v : entry_outcome (snd (@run_entry A w (EOther v))) true [].
Proof. destruct v; cbn; eexists; split; reflexivity. Qed.

Lemma marks_outcome w d :
  entry_outcome (snd (run_entry w (marks_entry d))) (has (s "marks") d)
    (flat_map (fun y => if unregistered mark_names y then [] else mark_faults y) (list_at (s "marks") d)).
Proof.
  unfold marks_entry, list_at, has. destruct (lookup (s "marks") d) as [v|]; [|cbn; eexists; split; reflexivity].
  destruct v; try apply run_other_outcome. apply run_list_outcome.
  apply (collect_outcome w l (fun v => lift (parse_mark v))).
  - apply Forall_forall. intros y _ U. rewrite (parse_mark_unregistered _ U). cbn. eauto.
  - apply Forall_forall. intros y _ U. split; [now apply parse_mark_nu|apply mark_faults_ok].
Qed.

Definition faults_claim (v : value) : Prop := forall w, outcome (snd (parse_node w v)) (faults v).

Lemma content_outcome w d :
  (forall l, lookup (s "content") d = Some (VList l) -> Forall faults_claim l) ->
  entry_outcome (snd (run_entry w (content_entry w d))) (has (s "content") d)
    (flat_map (fun y => if unregistered node_names y then [] else faults y) (list_at (s "content") d)).
Proof.
  intros HF. unfold content_entry, list_at, has. destruct (lookup (s "content") d) as [v|]; [|cbn; eexists; split; reflexivity].
  destruct v; try apply run_other_outcome. apply run_list_outcome.
  specialize (HF _ eq_refl). apply (collect_outcome w l (parse_node w)).
  - apply Forall_forall. intros y _ U. rewrite (parse_node_unregistered _ _ U). cbn. eauto.
  - eapply Forall_impl; [|exact HF]. intros y C U. split; [now apply parse_node_nu|apply C].
Qed.

Lemma from_dict_outcome k d :
  (forall l, lookup (s "content") d = Some (VList l) -> Forall faults_claim l) ->
  forall w, outcome (snd (from_dict w k (VDict d))) (faults_for k (VDict d)).
Proof.
  intros HF w. cbn [from_dict faults_for]. unfold node_from_entry, faults_of.
  pose proof (content_outcome w d HF) as HC. pose proof (marks_outcome w d) as HM.
  set (cf := flat_map _ (list_at (s "content") d)) in *. set (mf := flat_map _ (list_at (s "marks") d)) in *.
  set (af := match nc_attrs (nk_class k) with Some (_, fs) => _ | None => _ end).
  assert (HA : match af with
               | [] => exists o, attrs_entry (nk_class k) d = Ok o /\
                         (nc_attrs (nk_class k) = None \/ match o with None => has (s "attrs") d = false | Some _ => has (s "attrs") d = true end)
               | e :: _ => attrs_entry (nk_class k) d = Err e
               end).
  { unfold af, attrs_entry, has. destruct (nc_attrs (nk_class k)) as [[fk fs]|]; [|eauto].
    destruct (lookup (s "attrs") d) as [a|]; [|eauto].
    pose proof (attrs_faults_ok fs a) as H. unfold outcome in H. destruct (attrs_faults fs a).
    - destruct H as [l ->]. cbn. eauto.
    - now rewrite H. }
  destruct af as [|ea af']. 2:{ rewrite HA. reflexivity. }
  destruct HA as (oa & -> & HA). cbn [lift bind app].
  unfold lift. cbn [bind].
  destruct (run_entry w (content_entry w d)) as [lg rc]. cbn [snd] in HC.
  destruct cf as [|ec cf']. 2:{ rewrite HC. reflexivity. }
  destruct HC as (oc & -> & HC). cbn [bind app].
  destruct (run_entry w (marks_entry d)) as [lg' rm]. cbn [snd] in HM.
  destruct mf as [|em mf']. 2:{ rewrite HM. reflexivity. }
  destruct HM as (om & -> & HM). cbn [bind app snd].
  pose proof (construct_outcome k d oa oc om) as H. unfold field_fault at 2 3 4.
  replace (match oc with None => true | Some _ => false end) with (negb (has (s "content") d)) in H
    by (destruct oc; now rewrite HC).
  replace (match om with None => true | Some _ => false end) with (negb (has (s "marks") d)) in H
    by (destruct om; now rewrite HM).
  destruct HA as [HA|HA].
  - rewrite HA in *. cbn [option_map is_required andb] in *. exact H.
  - replace (match oa with None => true | Some _ => false end) with (negb (has (s "attrs") d)) in H
      by (destruct oa; now rewrite HA). exact H.
Qed.

Lemma faults_dict d :
  faults (VDict d) =
  match lookup (s "type") d with
  | None => [KeyError]
  | Some ty => match node_class_of ty with
               | Found k => faults_for k (VDict d)
               | Missing => [Unimplemented CNode ty]
               | Unhashable => [TypeError]
               end
  end.
Proof.
  cbn [faults]. destruct (lookup (s "type") d) as [ty|]; [|reflexivity].
  destruct (node_class_of ty) as [k| |]; try reflexivity. unfold faults_for. f_equal. unfold list_at.
  clear k. induction d as [|[k x] d IH]; [reflexivity|]. cbn [lookup].
  destruct (str_eqb k (s "content")); [destruct x; reflexivity|exact IH].
Qed.

Lemma faults_correct v : faults_claim v.
Proof.
  induction v as [v HX|d IH] using doc_ind; intros w.
  - rewrite parse_node_nondict by exact HX. destruct v; try reflexivity. exfalso. eapply HX. reflexivity.
  - rewrite parse_node_dict, faults_dict. destruct (lookup (s "type") d) as [ty|]; [|reflexivity].
    destruct (node_class_of ty) as [k| |]; try reflexivity.
    apply from_dict_outcome. intros l HL. exact (IH _ _ HL).
Qed.
Lemma from_dict_faults k v w : outcome (snd (from_dict w k v)) (faults_for k v).
Proof.
  destruct v; try reflexivity. apply from_dict_outcome.
  intros l _. apply Forall_forall. intros y _. apply faults_correct.
Qed.

(** ---------------------------------------------------------------- acceptance = no fault *)
Lemma attrs_acceptable_faults fs v : attrs_acceptable fs v = true <-> attrs_faults fs v = [].
Proof.
  unfold attrs_acceptable, attrs_faults. destruct v; try (split; discriminate).
  induction fs as [|[f fk] fs IH]; [cbn; tauto|]. cbn [forallb existsb fst snd].
  destruct fk; cbn [orb]; destruct (has f d); cbn [negb orb andb]; try exact IH.
  - destruct (existsb _ fs); split; discriminate.
  - split; discriminate.
Qed.
Lemma mark_acceptable_faults v : mark_acceptable v = true <-> mark_faults v = [].
Proof.
  unfold mark_acceptable, mark_faults. destruct v; try (split; discriminate).
  destruct (lookup (s "type") d) as [ty|]; [|split; discriminate].
  destruct (mark_class_of ty) as [k| |]; try (split; discriminate).
  destruct (mk_attrs k) as [fs|]; [|tauto].
  destruct (lookup (s "attrs") d) as [a|]; [apply attrs_acceptable_faults|split; discriminate].
Qed.
Lemma flat_map_nil {A B} (f : A -> list B) l : flat_map f l = [] <-> forall a, In a l -> f a = [].
Proof.
  induction l as [|a l IH]; cbn; [tauto|]. split.
  - intros H. apply app_eq_nil in H as [H1 H2]. intros b [->|HB]; [exact H1|now apply IH].
  - intros H. rewrite (H a) by auto. cbn. apply IH. auto.
Qed.
Lemma field_fault_nil b key d : field_fault b key d = [] <-> (b = true -> has key d = true).
Proof.
  unfold field_fault. destruct b, (has key d); cbn; split; intros; try reflexivity; try discriminate.
  all: try (now auto). specialize (H eq_refl). discriminate.
Qed.
Lemma own_faults k d cf :
  faults_of k d cf = [] <-> own_fields_acceptable k d = true /\ cf = [].
Proof.
  unfold faults_of, own_fields_acceptable, present_if_required. rewrite !andb_true_iff, forallb_forall.
  assert (HM : flat_map (fun y => if unregistered mark_names y then [] else mark_faults y) (list_at (s "marks") d) = []
               <-> forall x, In x (list_at (s "marks") d) -> unregistered mark_names x || mark_acceptable x = true).
  { rewrite flat_map_nil. split; intros H x HI; specialize (H x HI); destruct (unregistered mark_names x); auto;
      cbn [orb] in *; now apply mark_acceptable_faults. }
  rewrite <- HM. clear HM.
  split.
  - intros H. apply app_eq_nil in H as [H1 H]. apply app_eq_nil in H as [H2 H]. apply app_eq_nil in H as [H3 H].
    apply app_eq_nil in H as [H4 H]. apply app_eq_nil in H as [H5 H]. apply app_eq_nil in H as [H6 H7].
    rewrite field_fault_nil in *. repeat split; auto.
    + destruct (nc_text (nk_class k)); auto.
    + destruct (nc_attrs (nk_class k)) as [[fk fs]|]; [|reflexivity].
      unfold has in H5. destruct (lookup (s "attrs") d) as [a|].
      * now apply attrs_acceptable_faults.
      * cbn in H5. destruct fk; auto.
    + destruct (nc_content (nk_class k)) as [[]|]; auto.
    + destruct (nc_marks (nk_class k)) as [[]|]; auto.
  - intros [[[[[H1 H2] H3] H4] H5] ->]. rewrite H5. clear H5.
    assert (E1 : field_fault (nc_text (nk_class k)) (s "text") d = []).
    { apply field_fault_nil. intros E. now rewrite E in H1. }
    assert (E3 : field_fault (is_required (nc_content (nk_class k))) (s "content") d = []).
    { apply field_fault_nil. destruct (nc_content (nk_class k)) as [[]|]; auto; discriminate. }
    assert (E4 : field_fault (is_required (nc_marks (nk_class k))) (s "marks") d = []).
    { apply field_fault_nil. destruct (nc_marks (nk_class k)) as [[]|]; auto; discriminate. }
    rewrite E1, E3, E4. cbn [app].
    destruct (nc_attrs (nk_class k)) as [[fk fs]|]; [|reflexivity].
    cbn [option_map fst]. unfold field_fault, has. destruct (lookup (s "attrs") d) as [a|].
    + apply attrs_acceptable_faults in H2. rewrite H2. cbn [negb]. now rewrite andb_false_r.
    + destruct fk; try discriminate. reflexivity.
Qed.

Definition acceptable_for (k : nkind) (v : value) : bool :=
  match v with
  | VDict d => own_fields_acceptable k d
               && forallb (fun y => unregistered node_names y || acceptable y) (list_at (s "content") d)
  | _ => false
  end.
Lemma acceptable_dict d :
  acceptable (VDict d) =
  match lookup (s "type") d with
  | Some ty => match node_class_of ty with Found k => acceptable_for k (VDict d) | _ => false end
  | None => false
  end.
Proof.
  cbn [acceptable]. destruct (lookup (s "type") d) as [ty|]; [|reflexivity].
  destruct (node_class_of ty) as [k| |]; try reflexivity. unfold acceptable_for. f_equal. unfold list_at.
  clear k. induction d as [|[k x] d IH]; [reflexivity|]. cbn [lookup].
  destruct (str_eqb k (s "content")); [destruct x; reflexivity|exact IH].
Qed.
Lemma acceptable_for_faults k d :
  (forall l, lookup (s "content") d = Some (VList l) -> Forall (fun y => acceptable y = true <-> faults y = []) l) ->
  acceptable_for k (VDict d) = true <-> faults_for k (VDict d) = [].
Proof.
  intros HF. cbn [faults_for acceptable_for]. rewrite own_faults, andb_true_iff.
  assert (HL : Forall (fun y => acceptable y = true <-> faults y = []) (list_at (s "content") d)).
  { unfold list_at. destruct (lookup (s "content") d) as [v|]; [|constructor]. destruct v; try constructor. auto. }
  rewrite Forall_forall in HL. rewrite forallb_forall, flat_map_nil. split; intros [H1 H2]; (split; [exact H1|]).
  - intros y HY. specialize (H2 y HY). destruct (unregistered node_names y); [reflexivity|]. now apply HL.
  - intros y HY. specialize (H2 y HY). destruct (unregistered node_names y); [reflexivity|]. cbn. now apply HL.
Qed.
Lemma acceptable_faults v : acceptable v = true <-> faults v = [].
Proof.
  induction v as [v HX|d IH] using doc_ind.
  - destruct v; try (split; discriminate). exfalso. eapply HX. reflexivity.
  - rewrite acceptable_dict, faults_dict. destruct (lookup (s "type") d) as [ty|]; [|split; discriminate].
    destruct (node_class_of ty) as [k| |]; try (split; discriminate).
    apply acceptable_for_faults. intros l HL. exact (IH _ _ HL).
Qed.
Lemma parse_ok_iff w v : (exists n, snd (parse_node w v) = Ok n) <-> acceptable v = true.
Proof.
  rewrite acceptable_faults. pose proof (faults_correct v w) as H. unfold outcome in H.
  destruct (faults v) as [|e l]; split; auto; try discriminate. intros [n E]. congruence.
Qed.
Lemma from_dict_ok_iff w k v : (exists n, snd (from_dict w k v) = Ok n) <-> acceptable_for k v = true.
Proof.
  pose proof (from_dict_faults k v w) as H. unfold outcome in H.
  destruct v; try (cbn in *; split; [intros [n E]; congruence|discriminate]).
  rewrite acceptable_for_faults by (intros l _; apply Forall_forall; intros y _; apply acceptable_faults).
  destruct (faults_for k (VDict d)) as [|e l]; split; auto; try discriminate. intros [n E]. congruence.
Qed.

(** A failing descendant always fails the whole parse. *)
Lemma reached_fails v x : reached v x -> forall w e,
  snd (parse_node w x) = Err e -> not_unimpl (snd (parse_node w x)) ->
  exists e', snd (parse_node w v) = Err e'.
Proof.
  induction 1 as [v|d k l y x LT LC HI HR IH]; intros w e HE NU; [eauto|].
  destruct (IH w e HE NU) as [e' HY]. destruct (snd (parse_node w (VDict d))) as [n|e2] eqn:P; [exfalso|eauto].
  assert (A : acceptable (VDict d) = true) by (apply (parse_ok_iff w); eauto).
  rewrite acceptable_dict, LT, node_class_of_name in A. cbn [acceptable_for] in A.
  apply andb_true_iff in A as [_ A]. rewrite forallb_forall in A. unfold list_at in A. rewrite LC in A.
  specialize (A y HI). apply orb_true_iff in A as [A|A].
  - clear -A HR NU HE. pose proof (parse_node_unregistered w y A) as PU.
    destruct HR as [v|d k l y x LT LC HI HR].
    + apply (NU CNode (type_of_elem v)). now rewrite PU.
    + apply unregistered_iff in A as (d' & ty & [= <-] & L & R). rewrite LT in L. injection L as <-.
      pose proof (node_class_of_name k). unfold node_class_of in *. congruence.
  - apply (parse_ok_iff w) in A as [n2 A]. congruence.
Qed.
