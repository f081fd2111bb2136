(** The model's tables (Schema.v) against the tables generated from the source (RepoSchema.v). *)
From Coq Require Import List NArith ZArith Bool String.
From Verif Require Import PyStr Values Schema Parse Basics SpecParse ParseFacts ParseFacts3 RepoSchema SpecSchema.
Import ListNotations.
Open Scope string_scope.
Open Scope list_scope.

Definition dk (d : decl) : fkind := match d with Required => Req | Positional => Pos | _ => Opt end.
Fixpoint field (name : string) (l : list (string * decl)) : option decl :=
  match l with [] => None | (n, d) :: r => if String.eqb n name then Some d else field name r end.
Definition is_some {A} (o : option A) : bool := match o with Some _ => true | None => false end.
Definition attrs_fields (r : row) : list (str * fkind) := map (fun f => (s (fst f), dk (snd f))) (r_attrs r).
Definition row_class (r : row) : nclass :=
  NClass (is_some (field "version" (r_fields r))) (is_some (field "text" (r_fields r)))
    (match field "attrs" (r_fields r) with Some d => Some (dk d, attrs_fields r) | None => None end)
    (option_map dk (field "content" (r_fields r))) (option_map dk (field "marks" (r_fields r))).
Lemma node_tables : map (fun k => (nk_name k, nk_class k)) all_nkinds = map (fun r => (s (r_type r), row_class r)) node_rows.
Proof. vm_compute. reflexivity. Qed.
Definition row_attrs (r : row) : option (list (str * fkind)) :=
  match field "attrs" (r_fields r) with Some _ => Some (attrs_fields r) | None => None end.
Lemma mark_tables : map (fun k => (mk_name k, mk_attrs k)) all_mkinds = map (fun r => (s (r_type r), row_attrs r)) mark_rows.
Proof. vm_compute. reflexivity. Qed.

Definition opt_in (o : option decl) (l : list decl) : Prop := match o with None => True | Some d => In d l end.
Definition entries (names : list string) (fs : list (string * decl)) : list (string * decl) :=
  flat_map (fun n => match field n fs with Some d => [(n, d)] | None => [] end) names.
(** Shape of the source tables. *)
Definition node_shape (r : row) : Prop :=
  opt_in (field "text" (r_fields r)) [Required] /\ opt_in (field "version" (r_fields r)) [DefaultInt 1] /\
  opt_in (field "attrs" (r_fields r)) [Required; Optional] /\ opt_in (field "content" (r_fields r)) [Required; Optional] /\
  opt_in (field "marks" (r_fields r)) [Required; Optional] /\
  r_fields r = entries ["type"; "version"; "text"; "attrs"; "content"; "marks"] (r_fields r) /\
  field "type" (r_fields r) = Some (DefaultStr (r_type r)).
Definition mark_shape (r : row) : Prop :=
  opt_in (field "attrs" (r_fields r)) [Required] /\ r_fields r = entries ["type"; "attrs"] (r_fields r) /\
  field "type" (r_fields r) = Some (DefaultStr (r_type r)).
Ltac shape := repeat (apply Forall_cons; [repeat apply conj; vm_compute; solve [reflexivity|tauto]|]); apply Forall_nil.
Lemma node_rows_shape : Forall node_shape node_rows.
Proof. unfold node_shape. shape. Qed.
Lemma mark_rows_shape : Forall mark_shape mark_rows.
Proof. unfold mark_shape. shape. Qed.

Lemma all_nkinds_complete k : In k all_nkinds.
Proof. destruct k; cbn; tauto. Qed.
Lemma all_mkinds_complete k : In k all_mkinds.
Proof. destruct k; cbn; tauto. Qed.
Lemma node_row k : exists r, In r node_rows /\ nk_name k = s (r_type r) /\ nk_class k = row_class r.
Proof.
  assert (H : In (nk_name k, nk_class k) (map (fun r => (s (r_type r), row_class r)) node_rows)).
  { rewrite <- node_tables. apply (in_map (fun k => (nk_name k, nk_class k))), all_nkinds_complete. }
  apply in_map_iff in H as (r & H & HI). exists r. split; [exact HI|]. split; congruence.
Qed.
Lemma row_node r : In r node_rows -> exists k, nk_name k = s (r_type r) /\ nk_class k = row_class r.
Proof.
  intros H. apply (in_map (fun r => (s (r_type r), row_class r))) in H. rewrite <- node_tables in H.
  apply in_map_iff in H as (k & H & _). exists k. split; congruence.
Qed.
Lemma mark_row k : exists r, In r mark_rows /\ mk_name k = s (r_type r) /\ mk_attrs k = row_attrs r.
Proof.
  assert (H : In (mk_name k, mk_attrs k) (map (fun r => (s (r_type r), row_attrs r)) mark_rows)).
  { rewrite <- mark_tables. apply (in_map (fun k => (mk_name k, mk_attrs k))), all_mkinds_complete. }
  apply in_map_iff in H as (r & H & HI). exists r. split; [exact HI|]. split; congruence.
Qed.
Lemma row_mark r : In r mark_rows -> exists k, mk_name k = s (r_type r) /\ mk_attrs k = row_attrs r.
Proof.
  intros H. apply (in_map (fun r => (s (r_type r), row_attrs r))) in H. rewrite <- mark_tables in H.
  apply in_map_iff in H as (k & H & _). exists k. split; congruence.
Qed.
Lemma node_names_rows : node_names = map (fun r => s (r_type r)) node_rows.
Proof. vm_compute. reflexivity. Qed.
Lemma mark_names_rows : mark_names = map (fun r => s (r_type r)) mark_rows.
Proof. vm_compute. reflexivity. Qed.

Lemma skipped_iff names rows v : names = map (fun r => s (r_type r)) rows -> skipped rows v <-> unregistered names v = true.
Proof.
  intros ->. unfold skipped, unregistered, elem_type. split.
  - intros (d & t & -> & L & H1 & H2 & H3). rewrite L. destruct t; try reflexivity.
    + apply negb_true_iff. destruct (mem x _) eqn:E; [|reflexivity]. apply mem_In in E. apply in_map_iff in E as (r & <- & HI).
      exfalso. now apply (H3 r HI).
    + exfalso. now apply (H1 l).
    + exfalso. now apply (H2 d0).
  - destruct v; try discriminate. destruct (lookup (s "type") d) as [t|] eqn:L; [|discriminate]. intros H.
    exists d, t. split; [reflexivity|]. split; [exact L|]. split; [intros l ->; discriminate|]. split; [intros l ->; discriminate|].
    intros r HI ->. apply negb_true_iff in H. assert (HM : mem (s (r_type r)) (map (fun r => s (r_type r)) rows) = true).
    { apply mem_In. now apply (in_map (fun r => s (r_type r))). }
    congruence.
Qed.

Lemma has_lookup {A} k (d : list (str * A)) : has k d = true <-> lookup k d <> None.
Proof. unfold has. destruct (lookup k d); split; congruence. Qed.
Lemma required_present_iff fs d : required_present fs d <->
  forallb (fun f => match snd f with Required | Positional => has (s (fst f)) d | _ => true end) fs = true.
Proof.
  unfold required_present. rewrite forallb_forall. split.
  - intros H [f k] HI. cbn [fst snd]. destruct k; try reflexivity; apply has_lookup, H; auto.
  - intros H f [HI|HI]; apply H in HI; cbn [fst snd] in HI; now apply has_lookup.
Qed.
Lemma attrs_acceptable_iff r v : attrs_acceptable (attrs_fields r) v = true <-> exists a, v = VDict a /\ required_present (r_attrs r) a.
Proof.
  split.
  - destruct v; try discriminate. intros H. exists d. split; [reflexivity|]. apply required_present_iff.
    unfold attrs_acceptable, attrs_fields in H. rewrite forallb_forall in *. intros [f k] HI.
    specialize (H (s f, dk k)). cbn [fst snd] in *. destruct k; try reflexivity; apply H;
      apply (in_map (fun f => (s (fst f), dk (snd f)))) in HI; exact HI.
  - intros (a & -> & H). apply required_present_iff in H. unfold attrs_acceptable, attrs_fields. rewrite forallb_forall in *.
    intros x HI. apply in_map_iff in HI as ([f k] & <- & HI). specialize (H _ HI). cbn [fst snd] in *. destruct k; auto.
Qed.
Lemma field_in n fs names : fs = entries names fs -> In n (map fst fs) <-> In n names /\ is_some (field n fs) = true.
Proof.
  intros E. split.
  - intros H. rewrite E in H. unfold entries in H. apply in_map_iff in H as ([m d] & EM & H). cbn in EM. subst m.
    apply in_flat_map in H as (m & HI & H). destruct (field m fs) eqn:F; [|contradiction].
    destruct H as [H|[]]. injection H as -> ->. split; [exact HI|]. now rewrite F.
  - intros [HI HF]. rewrite E. unfold entries. destruct (field n fs) as [d|] eqn:F; [|discriminate].
    apply in_map_iff. exists (n, d). split; [reflexivity|]. apply in_flat_map. exists n. split; [exact HI|]. rewrite F. now left.
Qed.
Lemma own_node_iff k r d : In r node_rows -> nk_class k = row_class r ->
  own_fields_acceptable k d = true <->
  own_part_fits r d /\ forall y, In y (list_at (s "marks") d) -> unregistered mark_names y || mark_acceptable y = true.
Proof.
  intros HI HK. pose proof (proj1 (Forall_forall _ _) node_rows_shape r HI) as (HT & HV & HA & HC & HM & HE & HTy).
  unfold own_fields_acceptable, own_part_fits. rewrite HK. rewrite !andb_true_iff, forallb_forall.
  setoid_rewrite (field_in "attrs" _ _ HE). rewrite (required_present_iff (r_fields r)).
  match goal with |- context [forallb ?P (r_fields r)] =>
    replace (forallb P (r_fields r)) with (forallb P (entries ["type"; "version"; "text"; "attrs"; "content"; "marks"] (r_fields r)))
      by (now rewrite <- HE) end.
  unfold entries. cbn [flat_map].
  rewrite !forallb_app, !andb_true_iff. unfold row_class, present_if_required.
  cbn [nc_text nc_attrs nc_content nc_marks]. rewrite HTy.
  assert (X : (match (match field "attrs" (r_fields r) with Some d => Some (dk d, attrs_fields r) | None => None end) with
               | None => true
               | Some (fk, fs) => match lookup (s "attrs") d with
                                  | Some a => attrs_acceptable fs a
                                  | None => match fk with Opt => true | _ => false end end end = true) <->
              (match field "attrs" (r_fields r) with Some Required => has (s "attrs") d | _ => true end = true /\
               (forall v, In "attrs" ["type"; "version"; "text"; "attrs"; "content"; "marks"] /\
                          is_some (field "attrs" (r_fields r)) = true ->
                lookup (s "attrs") d = Some v -> exists a, v = VDict a /\ required_present (r_attrs r) a))).
  { unfold has. destruct (field "attrs" (r_fields r)) as [dc|]; cbn [is_some].
    - destruct (lookup (s "attrs") d) as [v|].
      + rewrite attrs_acceptable_iff. split.
        * intros H. split; [now destruct dc|]. intros v0 _ E. now injection E as <-.
        * intros [_ H]. apply H; [|reflexivity]. split; [cbn; tauto|reflexivity].
      + split.
        * intros H. split; [now destruct dc|discriminate].
        * intros [H _]. cbn [opt_in In] in HA. destruct HA as [<-|[<-|[]]]; [discriminate|reflexivity].
    - split; [intros _; split; [reflexivity|intros v [_ H]; discriminate]|reflexivity]. }
  rewrite X. clear X.
  assert (X1 : (if is_some (field "text" (r_fields r)) then has (s "text") d else true) = true <->
    forallb (fun f => match snd f with Required | Positional => has (s (fst f)) d | _ => true end)
      (match field "text" (r_fields r) with Some d => [("text", d)] | None => [] end) = true).
  { destruct (field "text" (r_fields r)) as [dt|]; [|tauto]. destruct HT as [<-|[]]. cbn. now rewrite andb_true_r. }
  assert (X2 : forall n, opt_in (field n (r_fields r)) [Required; Optional] ->
    match option_map dk (field n (r_fields r)) with Some Opt | None => true | Some _ => has (s n) d end = true <->
    forallb (fun f => match snd f with Required | Positional => has (s (fst f)) d | _ => true end)
      (match field n (r_fields r) with Some d => [(n, d)] | None => [] end) = true).
  { intros n Hn. destruct (field n (r_fields r)) as [dt|]; [|tauto]. destruct Hn as [<-|[<-|[]]]; cbn; rewrite ?andb_true_r; tauto. }
  assert (X3 : forallb (fun f => match snd f with Required | Positional => has (s (fst f)) d | _ => true end)
      (match field "version" (r_fields r) with Some d => [("version", d)] | None => [] end) = true).
  { destruct (field "version" (r_fields r)) as [dt|]; [|reflexivity]. now destruct HV as [<-|[]]. }
  assert (X4 : match field "attrs" (r_fields r) with Some Required => has (s "attrs") d | _ => true end = true <->
    forallb (fun f => match snd f with Required | Positional => has (s (fst f)) d | _ => true end)
      (match field "attrs" (r_fields r) with Some d => [("attrs", d)] | None => [] end) = true).
  { destruct (field "attrs" (r_fields r)) as [dt|]; [|tauto]. destruct HA as [<-|[<-|[]]]; cbn; rewrite ?andb_true_r; tauto. }
  rewrite X1, (X2 "content" HC), (X2 "marks" HM), X4, X3. cbn [forallb snd fst andb]. tauto.
Qed.

Lemma own_mark_iff k r d : In r mark_rows -> mk_attrs k = row_attrs r ->
  match mk_attrs k with
  | None => True
  | Some fs => exists a, lookup (s "attrs") d = Some a /\ attrs_acceptable fs a = true
  end <-> own_part_fits r d.
Proof.
  intros HI HK. pose proof (proj1 (Forall_forall _ _) mark_rows_shape r HI) as (HA & HE & HTy).
  rewrite HK. unfold own_part_fits, row_attrs. setoid_rewrite (field_in "attrs" _ _ HE). rewrite (required_present_iff (r_fields r)).
  match goal with |- context [forallb ?P (r_fields r)] =>
    replace (forallb P (r_fields r)) with (forallb P (entries ["type"; "attrs"] (r_fields r))) by (now rewrite <- HE) end.
  unfold entries. cbn [flat_map]. rewrite HTy.
  destruct (field "attrs" (r_fields r)) as [da|]; cbn [opt_in In] in HA; [destruct HA as [<-|[]]|];
    cbn [is_some app forallb fst snd].
  - cbn [forallb fst snd app]. rewrite andb_true_r. cbn [andb]. rewrite has_lookup. split.
    + intros (a & L & H). rewrite L. split; [discriminate|]. intros v _ E. injection E as <-. now apply attrs_acceptable_iff.
    + intros [H1 H2]. destruct (lookup (s "attrs") d) as [a|]; [|congruence]. exists a. split; [reflexivity|].
      apply attrs_acceptable_iff, H2; [|reflexivity]. split; [cbn; tauto|reflexivity].
  - split; [|auto]. intros _. split; [reflexivity|]. intros v [_ H]. discriminate.
Qed.
Lemma mark_fits_iff v : mark_fits v <-> mark_acceptable v = true.
Proof.
  split.
  - intros [r d HI L H]. destruct (row_mark r HI) as (k & HN & HK). cbn [mark_acceptable]. rewrite L, <- HN, mark_class_of_name.
    apply (own_mark_iff k r d HI HK) in H. destruct (mk_attrs k) as [fs|]; [|reflexivity].
    destruct H as (a & -> & H). exact H.
  - destruct v; try discriminate. cbn [mark_acceptable]. destruct (lookup (s "type") d) as [ty|] eqn:L; [|discriminate].
    destruct (mark_class_of ty) as [k| |] eqn:C; try discriminate. apply mark_class_of_found in C. subst ty. intros H.
    destruct (mark_row k) as (r & HI & HN & HK). apply (mark_fits_intro r d HI); [congruence|].
    apply (own_mark_iff k r d HI HK). destruct (mk_attrs k) as [fs|]; [|exact I].
    destruct (lookup (s "attrs") d) as [a|]; [|discriminate]. eauto.
Qed.
Lemma node_fits_iff v : node_fits v <-> acceptable v = true.
Proof.
  induction v as [v HX|d IH] using doc_ind.
  - split; [intros H; inversion H; subst; exfalso; eapply HX; reflexivity|].
    destruct v; try discriminate. exfalso. eapply HX. reflexivity.
  - assert (IHl : forall y, In y (list_at (s "content") d) -> (node_fits y <-> acceptable y = true)).
    { unfold list_at. destruct (lookup (s "content") d) as [c|] eqn:L; [|intros y []]. destruct c; try (intros y []; fail).
      pose proof (IH _ _ L) as HF. rewrite Forall_forall in HF. exact HF. }
    clear IH. rewrite acceptable_dict. split.
    + intros H. inversion H as [r d0 HI L HO HC HM E]. subst d0. clear H. rewrite L.
      destruct (row_node r HI) as (k & HN & HK). rewrite <- HN, node_class_of_name. cbn [acceptable_for].
      apply andb_true_iff. split.
      * apply (own_node_iff k r d HI HK). split; [exact HO|]. intros y HY. apply orb_true_iff.
        destruct (HM y HY) as [H|H]; [left; now apply (skipped_iff _ mark_rows y mark_names_rows)|right; now apply mark_fits_iff].
      * apply forallb_forall. intros y HY. apply orb_true_iff.
        destruct (HC y HY) as [H|H]; [left; now apply (skipped_iff _ node_rows y node_names_rows)|right; now apply IHl].
    + destruct (lookup (s "type") d) as [ty|] eqn:L; [|discriminate].
      destruct (node_class_of ty) as [k| |] eqn:C; try discriminate. apply node_class_of_found in C. subst ty.
      cbn [acceptable_for]. intros H. apply andb_true_iff in H as [H1 H2].
      destruct (node_row k) as (r & HI & HN & HK). apply (own_node_iff k r d HI HK) in H1 as [HO HM].
      apply (node_fits_intro r d HI); [congruence|exact HO| |].
      * intros y HY. rewrite forallb_forall in H2. specialize (H2 y HY). apply orb_true_iff in H2 as [H|H].
        -- left. now apply (skipped_iff _ node_rows y node_names_rows).
        -- right. now apply IHl.
      * intros y HY. specialize (HM y HY). apply orb_true_iff in HM as [H|H].
        -- left. now apply (skipped_iff _ mark_rows y mark_names_rows).
        -- right. now apply mark_fits_iff.
Qed.
