(** The cache is transparent: refinement of the cached parser to the pure one. *)
From Coq Require Import List NArith ZArith Bool String Lia.
From Verif Require Import PyStr Values Schema Parse Basics SpecParse ParseFacts ParseFacts2 ParseFacts4 Cache.
Import ListNotations.
Open Scope string_scope.
Open Scope list_scope.

Definition valid (w : world) : Prop := forall c f, cached c (w_cache w) = Some f -> f = declared c.
Definition extends (w w' : world) : Prop :=
  forall c f, cached c (w_cache w) = Some f -> cached c (w_cache w') = Some f.

Definition refine {A} (m : ST A) (p : bool -> M A) : Prop :=
  forall w, valid w ->
    snd (m w) = snd (p (w_flag w)) /\
    w_flag (fst (m w)) = w_flag w /\
    w_log (fst (m w)) = w_log w ++ fst (p (w_flag w)) /\
    valid (fst (m w)) /\ extends w (fst (m w)).

Lemma extends_refl w : extends w w.
Proof. intros c f H. exact H. Qed.
Lemma refine_pure {A} (r : res A) : refine (fun w => (w, r)) (fun _ => lift r).
Proof. intros w HV. cbn. rewrite app_nil_r. repeat split; auto using extends_refl. Qed.
Lemma refine_ret {A} (a : A) : refine (sret a) (fun _ => ret a).
Proof. exact (refine_pure (Ok a)). Qed.
Lemma refine_raise {A} (e : exc) : refine (@sraise A e) (fun _ => raise e).
Proof. exact (refine_pure (Err e)). Qed.
Lemma refine_bind {A B} (m : ST A) (f : A -> ST B) p g :
  refine m p -> (forall a, refine (f a) (g a)) ->
  refine (sbind m f) (fun b => bind (p b) (fun a => g a b)).
Proof.
  intros HM HF w HV. destruct (HM w HV) as (H1 & H2 & H3 & H4 & H5). unfold sbind.
  destruct (m w) as [w' [a|e]]; cbn [fst snd] in *; destruct (p (w_flag w)) as [lg r]; cbn [fst snd] in *; subst r.
  - destruct (HF a w' H4) as (K1 & K2 & K3 & K4 & K5). rewrite H2 in *. cbn [bind].
    destruct (f a w') as [w2 r2]. cbn [fst snd] in *. destruct (g a (w_flag w)) as [lg2 r2']. cbn [fst snd] in *.
    subst. repeat split; auto.
    + rewrite K3, H3. now rewrite app_assoc.
    + intros c x HC. apply K5. now apply H5.
  - cbn. repeat split; auto.
Qed.
Lemma refine_ext {A} (m : ST A) p p' : (forall b, p b = p' b) -> refine m p -> refine m p'.
Proof. intros E H w HV. specialize (H w HV). rewrite <- E. exact H. Qed.

Lemma get_fields_refine c : refine (get_fields c) (fun _ => ret (declared c)).
Proof.
  intros w HV. unfold get_fields. destruct (cached c (w_cache w)) as [f|] eqn:E.
  - apply HV in E. subst. cbn. rewrite app_nil_r. repeat split; auto using extends_refl.
  - cbn. rewrite app_nil_r. repeat split; auto.
    + intros c' f H. cbn in H. destruct (cls_eq_dec c c') as [->|N]; [congruence|now apply HV].
    + intros c' f H. cbn. destruct (cls_eq_dec c c') as [->|N]; [congruence|exact H].
Qed.

Lemma lookup_kwargs {A} f names (d : list (str * A)) :
  lookup f (kwargs names d) = if mem f names then lookup f d else None.
Proof.
  unfold kwargs, mem. induction names as [|x names IH]; [reflexivity|]. cbn [flat_map existsb].
  rewrite lookup_app, IH. rewrite (str_eqb_sym f x). destruct (lookup x d) as [v|] eqn:L.
  - cbn [lookup]. destruct (str_eqb x f) eqn:E; cbn [orb]; [|reflexivity].
    apply str_eqb_eq in E. now subst.
  - cbn [lookup]. destruct (str_eqb x f) eqn:E; cbn [orb]; [|reflexivity].
    apply str_eqb_eq in E. subst. rewrite L. now destruct (existsb _ names).
Qed.
Lemma kwargs_expected {A} c (d : list (str * A)) : unexpected c (kwargs (declared c) d) = false.
Proof.
  unfold unexpected. apply not_true_iff_false. intros H. apply existsb_exists in H as ([f v] & HI & HN).
  cbn in HN. unfold kwargs in HI. apply in_flat_map in HI as (x & HX & HI).
  destruct (lookup x d); [|contradiction]. destruct HI as [E|[]]. injection E as -> ->.
  apply negb_true_iff in HN. assert (M : mem f (declared c) = true) by now apply mem_In.
  unfold mem in M. congruence.
Qed.

Lemma c_attrs_refine c fs v : declared c = map fst fs -> fs <> [] ->
  refine (c_attrs_from_dict c fs v) (fun _ => lift (attrs_from_dict fs v)).
Proof.
  intros HD HN. unfold c_attrs_from_dict.
  eapply refine_ext; [|eapply refine_bind; [apply get_fields_refine|]].
  2:{ intros names. instantiate (1 := fun names _ =>
        match v with
        | VDict d => if unexpected c (kwargs names d) then raise TypeError else lift (attrs_from_dict fs (VDict (kwargs names d)))
        | _ => match names with [] => ret [] | _ => raise TypeError end end).
      destruct v; try (destruct names; [apply refine_ret|apply refine_raise]).
      destruct (unexpected c (kwargs names d)); [apply refine_raise|apply refine_pure]. }
  intros b. cbn [bind ret]. destruct v; try (rewrite HD; destruct fs; [congruence|reflexivity]).
  rewrite kwargs_expected. cbn. unfold lift. f_equal. apply attrs_from_dict_same.
  intros f HF. rewrite lookup_kwargs, HD. apply mem_In in HF. now rewrite HF.
Qed.

Lemma mk_fields_nonempty k fs : mk_attrs k = Some fs -> fs <> [].
Proof. destruct k; cbn; intros H; try discriminate; injection H as <-; discriminate. Qed.
Lemma nk_fields_nonempty k fk fs : nc_attrs (nk_class k) = Some (fk, fs) -> fs <> [].
Proof. destruct k; cbn; intros H; try discriminate; injection H as <- <-; discriminate. Qed.

Lemma mem_declared_mark k key :
  mem key (declared (MarkC k)) = str_eqb key (s "type") || (match mk_attrs k with Some _ => true | None => false end && str_eqb key (s "attrs")).
Proof. unfold mem. cbn [declared existsb]. destruct (mk_attrs k); cbn; now rewrite ?orb_false_r. Qed.
Lemma mem_declared_node k key :
  mem key (declared (NodeC k)) =
  str_eqb key (s "type") || (nc_version (nk_class k) && str_eqb key (s "version"))
  || (nc_text (nk_class k) && str_eqb key (s "text"))
  || (match nc_attrs (nk_class k) with Some _ => true | None => false end && str_eqb key (s "attrs"))
  || (match nc_content (nk_class k) with Some _ => true | None => false end && str_eqb key (s "content"))
  || (match nc_marks (nk_class k) with Some _ => true | None => false end && str_eqb key (s "marks")).
Proof.
  unfold mem. cbn [declared]. rewrite !existsb_app.
  destruct (nc_version _), (nc_text _), (nc_attrs _), (nc_content _), (nc_marks _); cbn;
    now rewrite ?orb_false_r, ?orb_assoc.
Qed.

Lemma c_mark_refine k v : refine (c_mark_from_dict k v) (fun _ => lift (mark_from_dict k v)).
Proof.
  destruct v; try apply refine_raise. cbn [c_mark_from_dict].
  eapply refine_ext; [|eapply refine_bind].
  3:{ intros oa. eapply refine_bind; [apply get_fields_refine|]. intros names.
      instantiate (1 := fun names _ =>
        if unexpected (MarkC k) (kwargs names d) then raise TypeError else
        match mk_attrs k with
        | None => ret (Mark k (match lookup (s "type") (kwargs names d) with Some t => t | None => VStr (mk_name k) end) NoAttrs)
        | Some _ => match lookup (s "attrs") (kwargs names d), oa with
                    | Some _, Some a => ret (Mark k (match lookup (s "type") (kwargs names d) with Some t => t | None => VStr (mk_name k) end) a)
                    | _, _ => raise ParamError end end).
      cbv beta zeta. destruct (unexpected _ _); [apply refine_raise|].
      destruct (mk_attrs k); [|apply refine_ret].
      destruct (lookup (s "attrs") (kwargs names d)); [|apply refine_raise].
      destruct oa; [apply refine_ret|apply refine_raise]. }
  2:{ instantiate (1 := fun _ => match lookup (s "attrs") d, mk_attrs k with
        | Some a, Some fs => lift (do l <- attrs_from_dict fs a; Ok (Some (AObj l)))
        | _, _ => ret None end).
      destruct (lookup (s "attrs") d) as [a|]; [|apply refine_ret].
      eapply refine_ext; [|eapply refine_bind; [apply get_fields_refine|]].
      2:{ intros names. instantiate (1 := fun names _ =>
            if mem (s "attrs") names
            then match mk_attrs k with
                 | Some fs => lift (do l <- attrs_from_dict fs a; Ok (Some (AObj l)))
                 | None => raise KeyError end
            else ret None). cbv beta. unfold mem.
          destruct (existsb _ names); [|apply refine_ret].
          destruct (mk_attrs k) as [fs|] eqn:A; [|apply refine_raise].
          eapply refine_ext; [|eapply refine_bind; [apply (c_attrs_refine (MarkAttrsC k) fs a)|]].
          - intros b. instantiate (1 := fun l _ => ret (Some (AObj l))). cbv beta. unfold lift.
            destruct (attrs_from_dict fs a); reflexivity.
          - cbn. now rewrite A.
          - now apply mk_fields_nonempty with k.
          - intros l. apply refine_ret. }
      intros b. cbn [bind ret]. rewrite mem_declared_mark. change (str_eqb (s "attrs") (s "type")) with false.
      change (str_eqb (s "attrs") (s "attrs")) with true. destruct (mk_attrs k); cbn [orb andb]; [|reflexivity].
      unfold lift. destruct (attrs_from_dict l a); reflexivity. }
  intros b. unfold mark_from_dict, type_field. unfold ret. cbn [bind].
  rewrite kwargs_expected, !lookup_kwargs, !mem_declared_mark.
  change (str_eqb (s "attrs") (s "type")) with false. change (str_eqb (s "attrs") (s "attrs")) with true.
  change (str_eqb (s "type") (s "type")) with true. cbn [orb].
  destruct (mk_attrs k) as [fs|]; cbn [andb].
  - destruct (lookup (s "attrs") d) as [a|]; [|reflexivity].
    destruct (attrs_from_dict fs a); reflexivity.
  - destruct (lookup (s "attrs") d); reflexivity.
Qed.

Lemma c_parse_mark_refine v : refine (c_parse_mark v) (fun _ => lift (parse_mark v)).
Proof.
  destruct v; try apply refine_raise. unfold c_parse_mark, parse_mark.
  destruct (lookup (s "type") d) as [ty|]; [|apply refine_raise].
  destruct (mark_class_of ty); [apply c_mark_refine|apply refine_raise|apply refine_raise].
Qed.

Lemma log_refine x : refine (log_warning x) (fun b => ((if b then [x] else []), Ok tt)).
Proof. intros w HV. cbn. repeat split; [exact HV|intros c f H; exact H]. Qed.

Lemma c_collect_refine {A} (ms : list (ST A)) (ps : list (bool -> M A)) :
  Forall2 refine ms ps -> refine (c_collect ms) (fun b => collect b (map (fun p => p b) ps)).
Proof.
  induction 1 as [|m p ms ps HM HF IH]; [apply refine_ret|]. intros w HV. cbn [c_collect map]. rewrite collect_cons.
  destruct (HM w HV) as (H1 & H2 & H3 & H4 & H5).
  destruct (m w) as [w' r] eqn:EM. destruct (p (w_flag w)) as [lg r'] eqn:EP. cbn [fst snd] in *. subst r'.
  destruct r as [a|e].
  - assert (HB : refine (sbind (c_collect ms) (fun l => sret (a :: l)))
                        (fun b => bind (collect b (map (fun p => p b) ps)) (fun l => ret (a :: l))))
      by (apply refine_bind; [exact IH|intros l; apply refine_ret]).
    destruct (HB w' H4) as (K1 & K2 & K3 & K4 & K5). rewrite H2 in *.
    destruct (collect (w_flag w) (map (fun p => p (w_flag w)) ps)) as [lg' [l|e]]; cbn [bind ret fst snd] in *;
      rewrite ?app_nil_r in *; (repeat split; auto; [now rewrite K3, H3, app_assoc|intros c x HC; apply K5; now apply H5]).
  - destruct e; try solve [cbn [fst snd]; repeat split; auto].
    assert (HB : refine (sbind (log_warning (Warn c ty)) (fun _ => c_collect ms))
                        (fun b => bind ((if b then [Warn c ty] else []), Ok tt) (fun _ => collect b (map (fun p => p b) ps))))
      by (apply refine_bind; [apply log_refine|intros l; apply IH]).
    destruct (HB w' H4) as (K1 & K2 & K3 & K4 & K5). rewrite H2 in *.
    destruct (collect (w_flag w) (map (fun p => p (w_flag w)) ps)) as [lg' r']; cbn [bind ret fst snd] in *.
    repeat split; auto; [now rewrite K3, H3, !app_assoc|intros c0 x HC; apply K5; now apply H5].
Qed.

(** Entries. *)
Definition entry_refine {A} (ce : c_entry A) (e : bool -> entry A) : Prop :=
  match ce with
  | CEAbsent => forall b, e b = EAbsent
  | CEList ms => exists ps, Forall2 refine ms ps /\ forall b, e b = EList (map (fun p => p b) ps)
  | CEOther v => forall b, e b = EOther v
  end.
Lemma c_run_entry_refine {A} (ce : c_entry A) e : entry_refine ce e -> refine (c_run_entry ce) (fun b => run_entry b (e b)).
Proof.
  destruct ce as [|ms|v]; cbn [entry_refine c_run_entry].
  - intros H. eapply refine_ext; [|apply refine_ret]. intros b. now rewrite H.
  - intros (ps & HF & HE).
    eapply refine_ext; [|eapply refine_bind; [apply c_collect_refine; exact HF|intros l; apply refine_ret]].
    intros b. rewrite HE. reflexivity.
  - intros H. destruct v; (eapply refine_ext; [|apply refine_ret]; intros bb; rewrite H; reflexivity).
Qed.
Lemma marks_entry_refine d : entry_refine (c_marks_entry d) (fun _ => marks_entry d).
Proof.
  unfold c_marks_entry, marks_entry. destruct (lookup (s "marks") d) as [v|]; [|intros b; reflexivity].
  destruct v; try (intros ?; reflexivity). cbn. exists (map (fun v _ => lift (parse_mark v)) l). split.
  - induction l as [|v l IH]; constructor; [apply c_parse_mark_refine|exact IH].
  - intros b. rewrite map_map. reflexivity.
Qed.

Lemma c_node_refine k d ce e : entry_refine ce e ->
  (forall b, match e b with EAbsent => lookup (s "content") d = None | _ => lookup (s "content") d <> None end) ->
  refine (c_node_from_entry k d ce) (fun b => node_from_entry b k d (e b)).
Proof.
  intros HE HP. unfold c_node_from_entry.
  eapply refine_ext; [|eapply refine_bind].
  3:{ intros oa. eapply refine_bind; [apply c_run_entry_refine; exact HE|]. intros oc.
      eapply refine_bind; [apply c_run_entry_refine; apply marks_entry_refine|]. intros om.
      eapply refine_bind; [apply get_fields_refine|]. intros names.
      instantiate (1 := fun names _ =>
        if unexpected (NodeC k) (kwargs names d) then raise TypeError else
        lift (construct k (kwargs names d) (if has (s "attrs") (kwargs names d) then oa else None)
                (if has (s "content") (kwargs names d) then oc else None)
                (if has (s "marks") (kwargs names d) then om else None))).
      cbv beta zeta. destruct (unexpected _ _); [apply refine_raise|apply refine_pure]. }
  2:{ instantiate (1 := fun _ => lift (attrs_entry (nk_class k) d)). unfold attrs_entry.
      destruct (lookup (s "attrs") d) as [a|].
      2:{ destruct (nc_attrs (nk_class k)) as [[fk fs]|]; apply refine_ret. }
      eapply refine_ext; [|eapply refine_bind; [apply get_fields_refine|]].
      2:{ intros names. instantiate (1 := fun names _ =>
            if mem (s "attrs") names
            then match nc_attrs (nk_class k) with
                 | Some (_, fs) => lift (do l <- attrs_from_dict fs a; Ok (Some (AObj l)))
                 | None => raise KeyError end
            else ret None). cbv beta. unfold mem.
          destruct (existsb _ names); [|apply refine_ret].
          destruct (nc_attrs (nk_class k)) as [[fk fs]|] eqn:A; [|apply refine_raise].
          eapply refine_ext; [|eapply refine_bind; [apply (c_attrs_refine (NodeAttrsC k) fs a)|]].
          - intros b. instantiate (1 := fun l _ => ret (Some (AObj l))). cbv beta. unfold lift.
            destruct (attrs_from_dict fs a); reflexivity.
          - cbn. now rewrite A.
          - now apply nk_fields_nonempty with k fk.
          - intros l. apply refine_ret. }
      intros b. cbn [bind ret]. rewrite mem_declared_node.
      change (str_eqb (s "attrs") (s "attrs")) with true.
      change (str_eqb (s "attrs") (s "type")) with false. change (str_eqb (s "attrs") (s "version")) with false.
      change (str_eqb (s "attrs") (s "text")) with false. change (str_eqb (s "attrs") (s "content")) with false.
      change (str_eqb (s "attrs") (s "marks")) with false. rewrite !andb_false_r. cbn [orb].
      destruct (nc_attrs (nk_class k)) as [[fk fs]|]; cbn [andb]; [|reflexivity].
      unfold lift. cbn. destruct (attrs_from_dict fs a); reflexivity. }
  intros b. unfold node_from_entry.
  assert (HK : forall key, lookup key (kwargs (declared (NodeC k)) d) = if mem key (declared (NodeC k)) then lookup key d else None)
    by (intros; apply lookup_kwargs).
  (* [construct] looks at the declared keys only *)
  assert (HC : forall oa oc om,
    attrs_entry (nk_class k) d = Ok oa ->
    (match oc with None => lookup (s "content") d = None | Some _ => lookup (s "content") d <> None end) ->
    (match om with None => lookup (s "marks") d = None | Some _ => lookup (s "marks") d <> None end) ->
    construct k (kwargs (declared (NodeC k)) d) (if has (s "attrs") (kwargs (declared (NodeC k)) d) then oa else None)
       (if has (s "content") (kwargs (declared (NodeC k)) d) then oc else None)
       (if has (s "marks") (kwargs (declared (NodeC k)) d) then om else None)
    = construct k d oa oc om).
  { intros oa oc om HA HOC HOM. unfold has.
    rewrite !HK, !mem_declared_node.
    change (str_eqb (s "attrs") (s "attrs")) with true.
    change (str_eqb (s "attrs") (s "type")) with false. change (str_eqb (s "attrs") (s "version")) with false.
    change (str_eqb (s "attrs") (s "text")) with false. change (str_eqb (s "attrs") (s "content")) with false.
    change (str_eqb (s "attrs") (s "marks")) with false.
    change (str_eqb (s "content") (s "content")) with true.
    change (str_eqb (s "content") (s "type")) with false. change (str_eqb (s "content") (s "version")) with false.
    change (str_eqb (s "content") (s "text")) with false. change (str_eqb (s "content") (s "attrs")) with false.
    change (str_eqb (s "content") (s "marks")) with false.
    change (str_eqb (s "marks") (s "marks")) with true.
    change (str_eqb (s "marks") (s "type")) with false. change (str_eqb (s "marks") (s "version")) with false.
    change (str_eqb (s "marks") (s "text")) with false. change (str_eqb (s "marks") (s "content")) with false.
    change (str_eqb (s "marks") (s "attrs")) with false.
    rewrite !andb_false_r, !andb_true_r, !orb_false_r. cbn [orb].
    rewrite (construct_lookups k d (kwargs (declared (NodeC k)) d)).
    - unfold construct. f_equal.
      assert (E1 : attrs_field (nk_class k) (if match (if match nc_attrs (nk_class k) with Some _ => true | None => false end
                     then lookup (s "attrs") d else None) with Some _ => true | None => false end then oa else None)
                   = attrs_field (nk_class k) oa).
      { unfold attrs_entry, attrs_field in *. destruct (nc_attrs (nk_class k)) as [[fk fs]|]; [|reflexivity].
        destruct (lookup (s "attrs") d); [reflexivity|]. injection HA as <-. reflexivity. }
      rewrite E1.
      assert (E2 : slot_field (nc_content (nk_class k)) (if match (if match nc_content (nk_class k) with Some _ => true | None => false end
                     then lookup (s "content") d else None) with Some _ => true | None => false end then oc else None)
                   = slot_field (nc_content (nk_class k)) oc).
      { unfold slot_field. destruct (nc_content (nk_class k)); [|reflexivity].
        destruct (lookup (s "content") d), oc; congruence. }
      rewrite E2.
      assert (E3 : slot_field (nc_marks (nk_class k)) (if match (if match nc_marks (nk_class k) with Some _ => true | None => false end
                     then lookup (s "marks") d else None) with Some _ => true | None => false end then om else None)
                   = slot_field (nc_marks (nk_class k)) om).
      { unfold slot_field. destruct (nc_marks (nk_class k)); [|reflexivity].
        destruct (lookup (s "marks") d), om; congruence. }
      rewrite E3. reflexivity.
    - rewrite HK, mem_declared_node. reflexivity.
    - intros T. rewrite HK, mem_declared_node, T. change (str_eqb (s "text") (s "text")) with true.
      cbn [andb]. now rewrite !orb_true_r.
    - intros T. rewrite HK, mem_declared_node, T. change (str_eqb (s "version") (s "version")) with true.
      cbn [andb]. now rewrite !orb_true_r. }
  unfold lift. destruct (attrs_entry (nk_class k) d) as [oa|e0] eqn:EA; cbn [bind]; [|reflexivity].
  specialize (HP b).
  destruct (run_entry b (e b)) as [lg [oc|e0]] eqn:EC; cbn [bind]; [|reflexivity].
  destruct (run_entry b (marks_entry d)) as [lg' [om|e0]] eqn:EM; cbn [bind]; [|reflexivity].
  unfold ret. cbn [bind]. rewrite kwargs_expected. cbn [ret bind app]. rewrite app_nil_r. rewrite (HC oa oc om).
  - reflexivity.
  - reflexivity.
  - destruct (e b) as [|ms|v]; [cbn in EC; now injection EC as <- <-| |].
    + cbn in EC. destruct (collect b ms) as [? [?|?]]; [|discriminate]. now injection EC as <- <-.
    + destruct v; cbn in EC; injection EC as <- <-; exact HP.
  - unfold marks_entry in EM. destruct (lookup (s "marks") d) as [v|].
    + destruct v; try (cbn in EM; injection EM as <- <-; discriminate).
      cbn in EM. destruct (collect b _) as [? [?|?]]; [|discriminate]. injection EM as <- <-. discriminate.
    + cbn in EM. now injection EM as <- <-.
Qed.

Lemma c_parse_node_dict d :
  c_parse_node (VDict d) =
  match lookup (s "type") d with
  | None => sraise KeyError
  | Some ty =>
      match node_class_of ty with
      | Found k => c_node_from_entry k d (c_content_entry d)
      | Missing => sraise (Unimplemented CNode ty)
      | Unhashable => sraise TypeError
      end
  end.
Proof.
  cbn [c_parse_node]. destruct (lookup (s "type") d) as [ty|]; [|reflexivity].
  destruct (node_class_of ty) as [k| |]; try reflexivity. f_equal. unfold c_content_entry.
  clear k. induction d as [|[k x] d IH]; [reflexivity|]. cbn [lookup].
  destruct (str_eqb k (s "content")); [destruct x; reflexivity|exact IH].
Qed.

Definition refine_claim (v : value) : Prop := refine (c_parse_node v) (fun b => parse_node b v).

Lemma content_entry_refine d :
  (forall l, lookup (s "content") d = Some (VList l) -> Forall refine_claim l) ->
  entry_refine (c_content_entry d) (fun b => content_entry b d).
Proof.
  intros HF. unfold c_content_entry, content_entry. destruct (lookup (s "content") d) as [v|]; [|intros b; reflexivity].
  destruct v; try (intros ?; reflexivity). cbn. exists (map (fun v b => parse_node b v) l). split.
  - specialize (HF _ eq_refl). induction HF as [|v l HV HF IH]; constructor; [exact HV|exact IH].
  - intros b. rewrite map_map. reflexivity.
Qed.
Lemma content_entry_present b d :
  match content_entry b d with EAbsent => lookup (s "content") d = None | _ => lookup (s "content") d <> None end.
Proof. unfold content_entry. destruct (lookup (s "content") d) as [v|]; [|reflexivity]. destruct v; discriminate. Qed.

Lemma c_from_dict_step k d :
  (forall l, lookup (s "content") d = Some (VList l) -> Forall refine_claim l) ->
  refine (c_from_dict k (VDict d)) (fun b => from_dict b k (VDict d)).
Proof.
  intros HF. cbn [c_from_dict from_dict].
  apply (c_node_refine k d (c_content_entry d) (fun b => content_entry b d)).
  - now apply content_entry_refine.
  - intros b. apply content_entry_present.
Qed.

Lemma c_parse_node_refine v : refine_claim v.
Proof.
  induction v as [v HX|d IH] using doc_ind; unfold refine_claim.
  - destruct v; try apply refine_raise. exfalso. eapply HX. reflexivity.
  - rewrite c_parse_node_dict. eapply refine_ext; [intros b; symmetry; apply parse_node_dict|].
    destruct (lookup (s "type") d) as [ty|]; [|apply refine_raise].
    destruct (node_class_of ty) as [k| |]; [|apply refine_raise|apply refine_raise].
    apply c_from_dict_step. intros l HL. exact (IH _ _ HL).
Qed.
Lemma c_from_dict_refine k v : refine (c_from_dict k v) (fun b => from_dict b k v).
Proof.
  destruct v; try apply refine_raise. apply c_from_dict_step.
  intros l _. apply Forall_forall. intros y _. apply c_parse_node_refine.
Qed.

(** ---------------------------------------------------------------- histories *)
Lemma fresh_valid : valid fresh.
Proof. intros c f H. discriminate. Qed.

(** What each operation logs, given the flag. *)
Definition op_log (b : bool) (o : op) : list warning :=
  match o with
  | OpParse v => fst (parse_node b v)
  | OpFromDict k v => fst (from_dict b k v)
  | _ => []
  end.
Fixpoint history_log (b : bool) (os : list op) : list warning :=
  match os with
  | [] => []
  | o :: r => op_log b o ++ history_log (match o with OpFlag b' => b' | _ => b end) r
  end.

Lemma step_spec o w : valid w ->
  snd (step o w) = snd (step o fresh) /\ valid (fst (step o w)) /\ extends w (fst (step o w)) /\
  w_log (fst (step o w)) = w_log w ++ op_log (w_flag w) o /\
  w_flag (fst (step o w)) = match o with OpFlag b' => b' | _ => w_flag w end.
Proof.
  intros HV. destruct o as [v|k v|v|c|b]; cbn [step].
  - destruct (c_parse_node_refine v w HV) as (H1 & H2 & H3 & H4 & H5).
    destruct (c_parse_node_refine v fresh fresh_valid) as (K1 & _).
    destruct (c_parse_node v w) as [w' r], (c_parse_node v fresh) as [w2 r2]. cbn [fst snd] in *.
    repeat split; auto. cbn in K1. rewrite H1, K1. f_equal. apply parse_flag.
  - destruct (c_from_dict_refine k v w HV) as (H1 & H2 & H3 & H4 & H5).
    destruct (c_from_dict_refine k v fresh fresh_valid) as (K1 & _).
    destruct (c_from_dict k v w) as [w' r], (c_from_dict k v fresh) as [w2 r2]. cbn [fst snd] in *.
    repeat split; auto. cbn in K1. rewrite H1, K1. f_equal. apply from_dict_flag.
  - destruct (c_parse_mark_refine v w HV) as (H1 & H2 & H3 & H4 & H5).
    destruct (c_parse_mark_refine v fresh fresh_valid) as (K1 & _).
    destruct (c_parse_mark v w) as [w' r], (c_parse_mark v fresh) as [w2 r2]. cbn [fst snd lift] in *.
    unfold lift in *. cbn [fst snd] in *.
    split; [congruence|]. split; [exact H4|]. split; [exact H5|]. split; assumption.
  - destruct (get_fields_refine c w HV) as (H1 & H2 & H3 & H4 & H5).
    destruct (get_fields_refine c fresh fresh_valid) as (K1 & _).
    destruct (get_fields c w) as [w' r], (get_fields c fresh) as [w2 r2]. unfold ret in *. cbn [fst snd] in *.
    split; [congruence|]. split; [exact H4|]. split; [exact H5|]. split; assumption.
  - cbn. rewrite app_nil_r. split; [reflexivity|]. split; [exact HV|]. split; [|auto]. intros c f H. exact H.
Qed.

Lemma run_spec os : forall w, valid w ->
  snd (run os w) = map (fun o => snd (step o fresh)) os /\
  valid (fst (run os w)) /\ extends w (fst (run os w)) /\
  w_log (fst (run os w)) = w_log w ++ history_log (w_flag w) os.
Proof.
  induction os as [|o os IH]; intros w HV; cbn [run map history_log].
  - cbn. rewrite app_nil_r. repeat split; auto using extends_refl.
  - destruct (step_spec o w HV) as (H1 & H2 & H3 & H4 & H5).
    destruct (step o w) as [w1 a]. cbn [fst snd] in *.
    destruct (IH w1 H2) as (K1 & K2 & K3 & K4). destruct (run os w1) as [w2 l]. cbn [fst snd] in *.
    repeat split; auto.
    + congruence.
    + intros c f HC. apply K3. now apply H3.
    + rewrite K4, H4, H5. now rewrite app_assoc.
Qed.
