(** C45: the generated public module lists exactly the public classes, in order, and when its names resolve. *)
From Coq Require Import List NArith Bool String Arith Lia Sorting Permutation.
From Verif Require Import PyStr Values Basics LeafFacts GenCode SpecApi ApiFacts RepoApi.
Import ListNotations.
Open Scope string_scope.
Open Scope list_scope.

Definition marks_package : str := s "atlas_doc_parser.marks.".
Definition nodes_package : str := s "atlas_doc_parser.nodes.".
Definition loads (p : project) : Prop :=
  (forall m e, has_module (marks_dir p) (s "mark_") m -> import_module p (marks_package ++ m) <> Crashes e) /\
  (forall m e, has_module (nodes_dir p) (s "node_") m -> import_module p (nodes_package ++ m) <> Crashes e).

Lemma sorted_nodup l : StronglySorted in_order l -> NoDup l.
Proof.
  induction 1 as [|e l HS IH HF]; constructor; [|exact IH]. intros HI. rewrite Forall_forall in HF. destruct (HF e HI) as [H|[_ H]]; apply strictly_iff in H; now apply H.
Qed.

(** The generated text is the fixed header, one line per exported name of each marks module, the second
    header, and one line per exported name of each nodes module; each exactly once, in order of file name and
    then of class name. *)
Theorem C45_exact : forall p x, well_formed p -> sane_path p -> generate_api_py p = Ok x ->
  exists ml nl_, x = header ++ lines ".marks." ml ++ nodes_header ++ lines ".nodes." nl_ /\
    (forall m c, In (m, c) ml <-> has_module (marks_dir p) (s "mark_") m /\ exported p (marks_package ++ m) c) /\
    (forall m c, In (m, c) nl_ <-> has_module (nodes_dir p) (s "node_") m /\ exported p (nodes_package ++ m) c) /\
    StronglySorted in_order ml /\ StronglySorted in_order nl_ /\ NoDup ml /\ NoDup nl_.
Proof.
  intros p x (NM & NN & ND & NA) HS HG. unfold generate_api_py in HG. apply rbind_ok in HG as ([ms ns] & HA & HG).
  unfold scan_all_modules in HA. apply rbind_ok in HA as (ms' & HM & HA). apply rbind_ok in HA as (ns' & HN & HA).
  assert (E : ms' = ms /\ ns' = ns) by (split; congruence). destruct E as [-> ->]. clear HA.
  rewrite (dir_text p (s "marks") (s "mark_") marks_package ".marks." (marks_dir p) (fun n _ => scan_marks p n) path_marks NM ms HM) in HG. cbn [rbind] in HG.
  rewrite (dir_text p (s "nodes") (s "node_") nodes_package ".nodes." (nodes_dir p) (fun n H => scan_nodes p n HS H) path_nodes NN ns HN) in HG. cbn [rbind] in HG.
  assert (HX := HG). clear HG. eexists _, _. split; [symmetry; apply (f_equal (fun r => match r with Ok y => y | Err _ => [] end)) in HX; exact HX|].
  assert (S1 := dir_pairs_sorted p (s "mark_") marks_package (marks_dir p) NM ND NA).
  assert (S2 := dir_pairs_sorted p (s "node_") nodes_package (nodes_dir p) NN ND NA).
  split; [intros m c; apply dir_pairs_in|]. split; [intros m c; apply dir_pairs_in|]. auto using sorted_nodup.
Qed.

(** Generation fails only with the exception of a module that fails to import other than with ImportError. *)
Theorem C45_succeeds_iff_modules_load : forall p, NoDup (marks_dir p) -> NoDup (nodes_dir p) -> sane_path p ->
  ((exists x, generate_api_py p = Ok x) <-> loads p).
Proof.
  intros p NM NN HS. split.
  - intros [x HG]. unfold generate_api_py in HG. apply rbind_ok in HG as ([ms ns] & HA & _).
    unfold scan_all_modules in HA. apply rbind_ok in HA as (ms' & HM & HA). apply rbind_ok in HA as (ns' & HN & _). split.
    + intros m e [HI [y ->]] HC. unfold scan_dir in HM. apply rbind_ok in HM as (l & HM & _). apply SerFacts2.mapM_forall2 in HM.
      assert (HF : In ((s "mark_" ++ y) ++ s ".py") (files (s "mark_") (marks_dir p))).
      { apply files_in. split; [exact HI|]. apply glob_iff. eauto. }
      unfold files in HF. revert HF. induction HM as [|n a fs l H HM IH]; [intros []|]. intros [->|HF]; [|now apply IH].
      rewrite scan_marks, stem_py in H. unfold marks_package in HC. rewrite HC in H. discriminate.
    + intros m e [HI [y ->]] HC. unfold scan_dir in HN. apply rbind_ok in HN as (l & HN & _). apply SerFacts2.mapM_forall2 in HN.
      assert (HF : In ((s "node_" ++ y) ++ s ".py") (files (s "node_") (nodes_dir p))).
      { apply files_in. split; [exact HI|]. apply glob_iff. eauto. }
      assert (HGL : glob_match (s "node_") ((s "node_" ++ y) ++ s ".py") = true) by (apply glob_iff; eauto).
      unfold files in HF. revert HF. induction HN as [|n a fs l H HN IH]; [intros []|]. intros [->|HF]; [|now apply IH].
      rewrite scan_nodes, stem_py in H by assumption. unfold nodes_package in HC. rewrite HC in H. discriminate.
  - intros [LM LN]. unfold generate_api_py, scan_all_modules.
    assert (HM := scan_dir_total p (s "marks") (s "mark_") marks_package (marks_dir p) (fun n _ => scan_marks p n) LM).
    assert (HN := scan_dir_total p (s "nodes") (s "node_") nodes_package (nodes_dir p) (fun n H => scan_nodes p n HS H) LN).
    rewrite HM. cbn [rbind]. rewrite HN. cbn [rbind].
    rewrite (dir_text p (s "marks") (s "mark_") marks_package ".marks." (marks_dir p) (fun n _ => scan_marks p n) path_marks NM _ HM). cbn [rbind].
    rewrite (dir_text p (s "nodes") (s "node_") nodes_package ".nodes." (nodes_dir p) (fun n H => scan_nodes p n HS H) path_nodes NN _ HN). cbn [rbind].
    eauto.
Qed.

(** The order in which the file system lists the directories and Python the members does not matter. *)
Definition same_up_to_order (p p' : project) : Prop :=
  pkg_parts p = pkg_parts p' /\ Permutation (marks_dir p) (marks_dir p') /\ Permutation (nodes_dir p) (nodes_dir p') /\
  forall full, match import_module p full, import_module p' full with
               | Loaded ms, Loaded ms' => NoDup (map fst ms) /\ Permutation ms ms'
               | NoImport, NoImport => True
               | Crashes e, Crashes e' => e = e'
               | _, _ => False
               end.
Lemma nodup_key {A} (f : A -> str) l : NoDup (map f l) -> forall x y, In x l -> In y l -> f x = f y -> x = y.
Proof.
  induction l as [|a l IH]; cbn; [intros _ x y []|]. intros HN. inversion HN as [|? ? HI HN']; subst. intros x y [<-|Hx] [<-|Hy] HE; auto.
  - exfalso. apply HI. rewrite HE. now apply in_map.
  - exfalso. apply HI. rewrite <- HE. now apply in_map.
Qed.
Lemma mapM_ext {A B} (f g : A -> res B) l : (forall a, f a = g a) -> mapM f l = mapM g l.
Proof. intros H. induction l as [|a l IH]; [reflexivity|]. cbn. fold (mapM f) (mapM g). now rewrite H, IH. Qed.
Lemma perm_filter {A} (f : A -> bool) l l' : Permutation l l' -> Permutation (filter f l) (filter f l').
Proof.
  induction 1 as [|x l l' HP IH|x y l|l l' l'' H1 IH1 H2 IH2]; cbn; [constructor| | |etransitivity; eauto].
  - destruct (f x); [now constructor|exact IH].
  - destruct (f x), (f y); try apply perm_swap; reflexivity.
Qed.
Theorem C45_order_independent : forall p p', same_up_to_order p p' -> generate_api_py p = generate_api_py p'.
Proof.
  intros p p' (HP & HM & HN & HI). unfold generate_api_py.
  assert (HS : forall sub name, scan_module p sub name = scan_module p' sub name).
  { intros sub name. unfold scan_module. rewrite HP.
    assert (HF : forall full, match import_module p full with Loaded ms => Ok (flat_map (member_apis (stem name) full) (sorted_by fst ms)) | NoImport => Ok [] | Crashes e => Err e end
                 = match import_module p' full with Loaded ms => Ok (flat_map (member_apis (stem name) full) (sorted_by fst ms)) | NoImport => Ok [] | Crashes e => Err e end).
    { intros full. specialize (HI full). destruct (import_module p full) as [ms| |], (import_module p' full) as [ms'| |]; try contradiction; try reflexivity.
      - destruct HI as [H1 H2]. now rewrite (sorted_by_perm fst ms ms' (nodup_key fst ms H1) H2).
      - now subst. }
    destruct (existsb (str_eqb (s "marks")) (pkg_parts p' ++ [sub; name])); [apply HF|].
    destruct (existsb (str_eqb (s "nodes")) (pkg_parts p' ++ [sub; name])); [apply HF|reflexivity]. }
  assert (HD : forall sub prefix names names', Permutation names names' -> scan_dir p sub prefix names = scan_dir p' sub prefix names').
  { intros sub prefix names names' HX. unfold scan_dir. rewrite (mapM_ext _ _ _ (HS sub)).
    rewrite (sorted_by_perm (fun x => x) _ (filter (glob_match prefix) names')); [reflexivity|auto|now apply perm_filter]. }
  unfold scan_all_modules. now rewrite (HD _ _ _ _ HM), (HD _ _ _ _ HN).
Qed.

(** Executing the generated file: a name is bound by the last line that imports it. *)
Lemma binding_none c l : binding c l = None <-> ~ In c (map snd l).
Proof.
  induction l as [|[m' c'] l IH]; cbn; [tauto|]. destruct (binding c l) as [m|].
  - split; [discriminate|]. intros H. exfalso. apply H. right.
    destruct (in_dec str_eq_dec c (map snd l)) as [HI|HI]; [exact HI|]. apply IH in HI. discriminate.
  - destruct (str_eqb c' c) eqn:E.
    + apply str_eqb_eq in E. subst. split; [discriminate|tauto].
    + apply str_eqb_neq in E. split; [intros _ [H|H]; [congruence|revert H; now apply IH]|auto].
Qed.
Theorem C45_last_import_wins : forall c m l, binding c l = Some m <-> exists l1 l2, l = l1 ++ (m, c) :: l2 /\ ~ In c (map snd l2).
Proof.
  intros c m l. split.
  - induction l as [|[m' c'] l IH]; cbn; [discriminate|]. destruct (binding c l) as [m2|] eqn:E.
    + intros HX. destruct (IH HX) as (l1 & l2 & -> & H). exists ((m', c') :: l1), l2. auto.
    + destruct (str_eqb c' c) eqn:EC; [|discriminate]. intros [= ->]. apply str_eqb_eq in EC. subst. exists [], l. split; [reflexivity|]. now apply binding_none.
  - intros (l1 & l2 & -> & H). induction l1 as [|[m1 c1] l1 IH]; cbn.
    + apply binding_none in H. rewrite H, str_eqb_refl. reflexivity.
    + now rewrite IH.
Qed.
(** So if the exported names are pairwise different and different from the names in the header, each of them
    resolves to its own module. *)
Theorem C45_collision_free : forall l, NoDup (map snd l) -> forall m c, In (m, c) l -> binding c l = Some m.
Proof.
  intros l HN m c HI. apply C45_last_import_wins. apply in_split in HI as (l1 & l2 & ->). exists l1, l2. split; [reflexivity|].
  rewrite map_app in HN. cbn in HN. apply NoDup_remove_2 in HN. intros HX. apply HN. apply in_or_app. now right.
Qed.
(** Otherwise the earlier module's class is unreachable under its name: the generator does not notice. *)
Definition clash : project :=
  Project [s "/"; s "src"; s "atlas_doc_parser"] [] [s "node_a.py"; s "node_b.py"]
    (fun full => if str_eqb full (s "atlas_doc_parser.nodes.node_a") || str_eqb full (s "atlas_doc_parser.nodes.node_b")
                 then Loaded [(s "NodeX", AClass full true)] else NoImport).
Theorem C45_same_name_in_two_modules_refuted :
  generate_api_py clash = Ok (header ++ nodes_header ++ lines ".nodes." [(s "node_a", s "NodeX"); (s "node_b", s "NodeX")]) /\
  sane_path clash /\ binding (s "NodeX") [(s "node_a", s "NodeX"); (s "node_b", s "NodeX")] = Some (s "node_b").
Proof.
  split; [vm_compute; reflexivity|]. split; [|vm_compute; reflexivity]. intros [H|[H|[H|[]]]]; discriminate.
Qed.
(** And if some directory above the package is called "marks", every node module is looked up in the marks
    package: the generator prints warnings and produces a module without any node. *)
Theorem C45_marks_in_path_refuted : forall p, In (s "marks") (pkg_parts p) -> NoDup (marks_dir p) -> 
  (forall m, import_module p (marks_package ++ s "node_" ++ m) = NoImport) ->
  forall x, generate_api_py p = Ok x -> exists ml, x = header ++ lines ".marks." ml ++ nodes_header.
Proof.
  intros p HI NM HN x HG. unfold generate_api_py in HG. apply rbind_ok in HG as ([ms ns] & HA & HG).
  unfold scan_all_modules in HA. apply rbind_ok in HA as (ms' & HM & HA). apply rbind_ok in HA as (ns' & HS & HA).
  assert (E : ms' = ms /\ ns' = ns) by (split; congruence). destruct E as [-> ->]. clear HA.
  rewrite (dir_text p (s "marks") (s "mark_") marks_package ".marks." (marks_dir p) (fun n _ => scan_marks p n) path_marks NM ms HM) in HG. cbn [rbind] in HG.
  assert (E : ns = []).
  { unfold scan_dir in HS. apply rbind_ok in HS as (l & HS & HL). injection HL as <-. apply SerFacts2.mapM_forall2 in HS.
    assert (HF : forall n, In n (sorted_by (fun x => x) (filter (glob_match (s "node_")) (nodes_dir p))) -> glob_match (s "node_") n = true).
    { intros n HX. apply (Permutation_in _ (Permutation_sym (sorted_perm (fun x => x) _))) in HX. now apply filter_In in HX. }
    clear HG. induction HS as [|n a fs l H HS IH]; [reflexivity|]. cbn. rewrite IH by (intros; apply HF; now right). rewrite app_nil_r.
    assert (HGN := HF n (or_introl eq_refl)). apply glob_iff in HGN as [y ->]. unfold scan_module in H.
    rewrite existsb_app in H. rewrite (proj2 (existsb_exists (str_eqb (s "marks")) (pkg_parts p))) in H by (exists (s "marks"); split; [exact HI|apply str_eqb_refl]).
    cbn [orb] in H. rewrite stem_py in H. unfold marks_package in HN. rewrite HN in H. congruence. }
  subst ns. exists (dir_pairs p (s "mark_") marks_package (marks_dir p)).
  apply (f_equal (fun r => match r with Ok y => y | Err _ => [] end)) in HG. cbn in HG. rewrite <- HG. now rewrite app_nil_r.
Qed.

(** ---------------------------------------------------------------- this repository *)
(** The committed api.py is what the generator produces from the repository's modules. *)
Theorem C45_committed_file : generate_api_py repo_project = Ok api_py.
Proof. vm_compute. reflexivity. Qed.
Fixpoint nodupb (l : list str) : bool := match l with [] => true | x :: r => negb (existsb (str_eqb x) r) && nodupb r end.
Lemma nodupb_ok l : nodupb l = true -> NoDup l.
Proof.
  induction l as [|x l IH]; cbn; [constructor|]. rewrite andb_true_iff, negb_true_iff. intros [H1 H2]. constructor; [|auto].
  intros HI. assert (HE : existsb (str_eqb x) l = true) by (apply existsb_exists; exists x; split; [exact HI|apply str_eqb_refl]). congruence.
Qed.
Theorem C45_repository_well_formed : well_formed repo_project /\ sane_path repo_project /\ loads repo_project.
Proof.
  split; [|split].
  - split; [apply nodupb_ok; vm_compute; reflexivity|]. split; [apply nodupb_ok; vm_compute; reflexivity|].
    assert (HT : forall full ms, import_module repo_project full = Loaded ms -> In (full, ms) repo_table).
    { intros full ms. cbn [repo_project import_module]. destruct (lookup full repo_table) eqn:E; [|discriminate]. intros [= <-]. now apply lookup_In. }
    split.
    + intros full ms HL. apply HT in HL. apply nodupb_ok.
      assert (HA : forallb (fun e => nodupb (map fst (snd e))) repo_table = true) by (vm_compute; reflexivity).
      rewrite forallb_forall in HA. exact (HA _ HL).
    + intros full c (ms & HL & HI) x. apply HT in HL.
      assert (HA : forallb (fun e => forallb (fun f => negb (is_alias (fst f))) (snd e)) repo_table = true) by (vm_compute; reflexivity).
      rewrite forallb_forall in HA. specialize (HA _ HL). cbn [snd] in HA. rewrite forallb_forall in HA. specialize (HA _ HI). cbn [fst] in HA.
      apply negb_true_iff in HA. split; intros E; (assert (is_alias c = true) by (apply is_alias_iff; exists x; auto)); congruence.
  - intros [H|[H|[H|[]]]]; discriminate.
  - split; intros m e _; cbn [repo_project import_module]; destruct (lookup _ repo_table); discriminate.
Qed.
(** In it all 95 exported names are different, and different from the names imported by the header. *)
Definition header_names : list str :=
  map s ["ParamError"; "UnimplementedTypeError"; "T_DATA"; "TypeEnum"; "TAB"; "logger"; "Base"; "BaseMarkOrNode"; "BaseMark"; "T_MARK";
         "BaseNode"; "T_NODE"; "parse_mark"; "parse_node"].
Definition repo_pairs : list (str * str) :=
  dir_pairs repo_project (s "mark_") marks_package repo_marks ++ dir_pairs repo_project (s "node_") nodes_package repo_nodes.
Theorem C45_repository_collision_free : NoDup (header_names ++ map snd repo_pairs) /\
  (forall m c, In (m, c) repo_pairs -> binding c repo_pairs = Some m).
Proof.
  assert (HN : NoDup (header_names ++ map snd repo_pairs)) by (apply nodupb_ok; vm_compute; reflexivity).
  split; [exact HN|]. apply C45_collision_free. revert HN. generalize header_names (map snd repo_pairs). intros h q. induction h as [|x h IH]; cbn; [auto|].
  intros HN. apply IH. now inversion HN.
Qed.
