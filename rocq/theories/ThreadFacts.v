(** Threads: every thread's program behaves as the sequential one, whatever the others do to the shared state. *)
From Coq Require Import List NArith ZArith Bool String Lia.
From Verif Require Import PyStr Values Schema Parse Basics SpecParse ParseFacts ParseFacts2 ParseFacts4 Cache CacheFacts
  Threads.
Import ListNotations.
Open Scope string_scope.
Open Scope list_scope.

(** [okp fl kn p r ws]: whatever flags satisfying [fl] the program reads, and whatever correct cache that has entries for
    [kn], it ends with [r], and has the occasion to log [ws], in order; it sets only flags satisfying [fl]. *)
Inductive okp {A} (fl : bool -> Prop) : list cls -> prog A -> res A -> list warning -> Prop :=
| ok_done kn r : okp fl kn (Done r) r []
| ok_read kn c k r ws : okp fl (c :: kn) (k (Some (declared c))) r ws -> (In c kn \/ okp fl kn (k None) r ws) ->
    okp fl kn (ReadCache c k) r ws
| ok_write kn c p r ws : okp fl (c :: kn) p r ws -> okp fl kn (WriteCache c (declared c) p) r ws
| ok_flag kn k x p r ws : k true = LogW x p -> k false = p -> okp fl kn p r ws -> okp fl kn (ReadFlag k) r (x :: ws)
| ok_set kn b p r ws : fl b -> okp fl kn p r ws -> okp fl kn (SetFlag b p) r ws
| ok_log kn x p r ws : fl true -> okp fl kn p r ws -> okp fl kn (LogW x p) r (x :: ws).

Lemma okp_mono {A} fl kn (p : prog A) r ws : okp fl kn p r ws -> forall kn', incl kn kn' -> okp fl kn' p r ws.
Proof.
  assert (HI : forall (c : cls) l l', incl l l' -> incl (c :: l) (c :: l'))
    by (intros c l l' H x [->|Hx]; [now left|right; now apply H]).
  revert kn p r ws. fix F 5. intros kn p r ws [k r'|k c f r' w H1 H2|k c q r' w H1|k f x q r' w E1 E2 H1|k b q r' w HB H1|k x q r' w HB H1] kn' HK.
  - constructor.
  - constructor; [apply (F _ _ _ _ H1); now apply HI|]. destruct H2 as [H2|H2]; [left; now apply HK|right; now apply (F _ _ _ _ H2)].
  - constructor. apply (F _ _ _ _ H1). now apply HI.
  - econstructor; [exact E1|exact E2|]. now apply (F _ _ _ _ H1).
  - constructor; [exact HB|]. now apply (F _ _ _ _ H1).
  - constructor; [exact HB|]. now apply (F _ _ _ _ H1).
Qed.
Lemma okp_try {A B} fl kn (p : prog A) r0 ws : okp fl kn p r0 ws -> forall (f : res A -> prog B) r ws',
  (forall kn', incl kn kn' -> okp fl kn' (f r0) r ws') -> okp fl kn (ptry p f) r (ws ++ ws').
Proof.
  revert kn p r0 ws. fix F 5. intros kn p r0 ws [k r'|k c g r' w H1 H2|k c q r' w H1|k g x q r' w E1 E2 H1|k b q r' w HB H1|k x q r' w HB H1] f r ws' HF; cbn [ptry app].
  - apply HF. apply incl_refl.
  - constructor.
    + apply (F _ _ _ _ H1). intros kn' HK. apply HF. intros y Hy. apply HK. now right.
    + destruct H2 as [H2|H2]; [now left|right]. now apply (F _ _ _ _ H2).
  - constructor. apply (F _ _ _ _ H1). intros kn' HK. apply HF. intros y Hy. apply HK. now right.
  - apply ok_flag with (p := ptry q f); [now rewrite E1|now rewrite E2|]. now apply (F _ _ _ _ H1).
  - constructor; [exact HB|]. now apply (F _ _ _ _ H1).
  - constructor; [exact HB|]. now apply (F _ _ _ _ H1).
Qed.

Definition prefine {A} (p : prog A) (m : bool -> M A) : Prop := forall fl kn, okp fl kn p (snd (m true)) (fst (m true)).
Lemma prefine_pure {A} (r : res A) : prefine (Done r) (fun _ => lift r).
Proof. intros fl kn. constructor. Qed.
Lemma prefine_ret {A} (a : A) : prefine (pret a) (fun _ => ret a).
Proof. intros fl kn. constructor. Qed.
Lemma prefine_raise {A} (e : exc) : prefine (@praise A e) (fun _ => raise e).
Proof. intros fl kn. constructor. Qed.
Lemma prefine_bind {A B} (m : prog A) (f : A -> prog B) p g :
  prefine m p -> (forall a, prefine (f a) (g a)) -> prefine (pbind m f) (fun b => bind (p b) (fun a => g a b)).
Proof.
  intros HM HF fl kn. specialize (HM fl kn). unfold pbind. destruct (p true) as [lg [a|e]]; cbn [bind fst snd] in *.
  - specialize (HF a fl). destruct (g a true) as [lg' r]. cbn [fst snd] in *. apply (okp_try _ _ _ _ _ HM). intros kn' _. apply HF.
  - rewrite <- (app_nil_r lg). apply (okp_try _ _ _ _ _ HM). intros kn' _. constructor.
Qed.
Lemma prefine_ext {A} (m : prog A) p p' : (forall b, p b = p' b) -> prefine m p -> prefine m p'.
Proof. intros E H fl kn. specialize (H fl kn). now rewrite E in H. Qed.
Lemma p_get_fields_refine c : prefine (p_get_fields c) (fun _ => ret (declared c)).
Proof.
  intros fl kn. cbn. constructor; [constructor|]. right. constructor. constructor; [constructor|]. left. now left.
Qed.
Lemma p_attrs_refine c fs v : declared c = map fst fs -> fs <> [] ->
  prefine (p_attrs_from_dict c fs v) (fun _ => lift (attrs_from_dict fs v)).
Proof.
  intros HD HN. unfold p_attrs_from_dict.
  eapply prefine_ext; [|eapply prefine_bind; [apply p_get_fields_refine|]].
  2:{ intros names. instantiate (1 := fun names _ =>
        match v with
        | VDict d => if unexpected c (kwargs names d) then raise TypeError else lift (attrs_from_dict fs (VDict (kwargs names d)))
        | _ => match names with [] => ret [] | _ => raise TypeError end end).
      destruct v; try (destruct names; [apply prefine_ret|apply prefine_raise]).
      destruct (unexpected c (kwargs names d)); [apply prefine_raise|apply prefine_pure]. }
  intros b. cbn [bind ret]. destruct v; try (rewrite HD; destruct fs; [congruence|reflexivity]).
  rewrite kwargs_expected. cbn. unfold lift. f_equal. apply attrs_from_dict_same.
  intros f HF. rewrite lookup_kwargs, HD. apply mem_In in HF. now rewrite HF.
Qed.

Lemma p_mark_refine k v : prefine (p_mark_from_dict k v) (fun _ => lift (mark_from_dict k v)).
Proof.
  destruct v; try apply prefine_raise. cbn [p_mark_from_dict].
  eapply prefine_ext; [|eapply prefine_bind].
  3:{ intros oa. eapply prefine_bind; [apply p_get_fields_refine|]. intros names.
      instantiate (1 := fun names _ =>
        if unexpected (MarkC k) (kwargs names d) then raise TypeError else
        match mk_attrs k with
        | None => ret (Mark k (match lookup (s "type") (kwargs names d) with Some t => t | None => VStr (mk_name k) end) NoAttrs)
        | Some _ => match lookup (s "attrs") (kwargs names d), oa with
                    | Some _, Some a => ret (Mark k (match lookup (s "type") (kwargs names d) with Some t => t | None => VStr (mk_name k) end) a)
                    | _, _ => raise ParamError end end).
      cbv beta zeta. destruct (unexpected _ _); [apply prefine_raise|].
      destruct (mk_attrs k); [|apply prefine_ret].
      destruct (lookup (s "attrs") (kwargs names d)); [|apply prefine_raise].
      destruct oa; [apply prefine_ret|apply prefine_raise]. }
  2:{ instantiate (1 := fun _ => match lookup (s "attrs") d, mk_attrs k with
        | Some a, Some fs => lift (do l <- attrs_from_dict fs a; Ok (Some (AObj l)))
        | _, _ => ret None end).
      destruct (lookup (s "attrs") d) as [a|]; [|apply prefine_ret].
      eapply prefine_ext; [|eapply prefine_bind; [apply p_get_fields_refine|]].
      2:{ intros names. instantiate (1 := fun names _ =>
            if mem (s "attrs") names
            then match mk_attrs k with
                 | Some fs => lift (do l <- attrs_from_dict fs a; Ok (Some (AObj l)))
                 | None => raise KeyError end
            else ret None). cbv beta. unfold mem.
          destruct (existsb _ names); [|apply prefine_ret].
          destruct (mk_attrs k) as [fs|] eqn:A; [|apply prefine_raise].
          eapply prefine_ext; [|eapply prefine_bind; [apply (p_attrs_refine (MarkAttrsC k) fs a)|]].
          - intros b. instantiate (1 := fun l _ => ret (Some (AObj l))). cbv beta. unfold lift.
            destruct (attrs_from_dict fs a); reflexivity.
          - cbn. now rewrite A.
          - now apply mk_fields_nonempty with k.
          - intros l. apply prefine_ret. }
      intros b. cbn [bind ret]. rewrite mem_declared_mark. change (str_eqb (s "attrs") (s "type")) with false.
      change (str_eqb (s "attrs") (s "attrs")) with true. destruct (mk_attrs k); cbn [orb andb]; [|reflexivity].
      unfold lift. destruct (attrs_from_dict l a); reflexivity. }
  intros b. unfold mark_from_dict, type_field. unfold ret. cbn [bind].
  rewrite kwargs_expected, !lookup_kwargs, !mem_declared_mark.
  change (str_eqb (s "attrs") (s "type")) with false. change (str_eqb (s "attrs") (s "attrs")) with true.
  change (str_eqb (s "type") (s "type")) with true. cbn [orb].
  destruct (mk_attrs k) as [fs|]; cbn [andb].
  - destruct (lookup (s "attrs") d) as [a|]; [|reflexivity].
    destruct (attrs_from_dict fs a); reflexivity.
  - destruct (lookup (s "attrs") d); reflexivity.
Qed.

Lemma p_parse_mark_refine v : prefine (p_parse_mark v) (fun _ => lift (parse_mark v)).
Proof.
  destruct v; try apply prefine_raise. unfold p_parse_mark, parse_mark.
  destruct (lookup (s "type") d) as [ty|]; [|apply prefine_raise].
  destruct (mark_class_of ty); [apply p_mark_refine|apply prefine_raise|apply prefine_raise].
Qed.


Lemma p_log_refine x : prefine (p_warn x) (fun b => ((if b then [x] else []), Ok tt)).
Proof. intros fl kn. cbn. econstructor; [reflexivity|reflexivity|constructor]. Qed.

Lemma p_collect_refine {A} (ms : list (prog A)) (ps : list (bool -> M A)) :
  Forall2 prefine ms ps -> prefine (p_collect ms) (fun b => collect b (map (fun p => p b) ps)).
Proof.
  induction 1 as [|m p ms ps HM HF IH]; [apply prefine_ret|]. intros fl kn. cbn [p_collect map]. rewrite collect_cons.
  specialize (HM fl kn). destruct (p true) as [lg r]. cbn [fst snd] in *. destruct r as [a|e].
  - assert (HB : prefine (pbind (p_collect ms) (fun l => pret (a :: l)))
                         (fun b => bind (collect b (map (fun p => p b) ps)) (fun l => ret (a :: l))))
      by (apply prefine_bind; [exact IH|intros l; apply prefine_ret]).
    specialize (HB fl). cbv beta in HB. destruct (collect true (map (fun p => p true) ps)) as [lg' [l|e]]; cbn [bind ret fst snd] in *;
      try setoid_rewrite app_nil_r in HB; apply (okp_try _ _ _ _ _ HM); intros kn' _; apply HB.
  - destruct e; try (rewrite <- (app_nil_r lg); cbn [fst snd]; apply (okp_try _ _ _ _ _ HM); intros kn' _; constructor).
    assert (HB : prefine (pbind (p_warn (Warn c ty)) (fun _ => p_collect ms))
                         (fun b => bind ((if b then [Warn c ty] else []), Ok tt) (fun _ => collect b (map (fun p => p b) ps))))
      by (apply prefine_bind; [apply p_log_refine|intros l; apply IH]).
    specialize (HB fl). cbv beta in HB. destruct (collect true (map (fun p => p true) ps)) as [lg' r']; cbn [bind ret fst snd app] in *.
    rewrite <- ?app_assoc. cbn [app]. apply (okp_try _ _ _ _ _ HM). intros kn' _. apply HB.
Qed.
(** Entries. *)
Definition t_entry_refine {A} (ce : p_entry A) (e : bool -> entry A) : Prop :=
  match ce with
  | PEAbsent => forall b, e b = EAbsent
  | PEList ms => exists ps, Forall2 prefine ms ps /\ forall b, e b = EList (map (fun p => p b) ps)
  | PEOther v => forall b, e b = EOther v
  end.
Lemma p_run_entry_refine {A} (ce : p_entry A) e : t_entry_refine ce e -> prefine (p_run_entry ce) (fun b => run_entry b (e b)).
Proof.
  destruct ce as [|ms|v]; cbn [t_entry_refine p_run_entry].
  - intros H. eapply prefine_ext; [|apply prefine_ret]. intros b. now rewrite H.
  - intros (ps & HF & HE).
    eapply prefine_ext; [|eapply prefine_bind; [apply p_collect_refine; exact HF|intros l; apply prefine_ret]].
    intros b. rewrite HE. reflexivity.
  - intros H. destruct v; (eapply prefine_ext; [|apply prefine_ret]; intros bb; rewrite H; reflexivity).
Qed.
Lemma t_marks_entry_refine d : t_entry_refine (p_marks_entry d) (fun _ => marks_entry d).
Proof.
  unfold p_marks_entry, marks_entry. destruct (lookup (s "marks") d) as [v|]; [|intros b; reflexivity].
  destruct v; try (intros ?; reflexivity). cbn. exists (map (fun v _ => lift (parse_mark v)) l). split.
  - induction l as [|v l IH]; constructor; [apply p_parse_mark_refine|exact IH].
  - intros b. rewrite map_map. reflexivity.
Qed.

Lemma p_node_refine k d ce e : t_entry_refine ce e ->
  (forall b, match e b with EAbsent => lookup (s "content") d = None | _ => lookup (s "content") d <> None end) ->
  prefine (p_node_from_entry k d ce) (fun b => node_from_entry b k d (e b)).
Proof.
  intros HE HP. unfold p_node_from_entry.
  eapply prefine_ext; [|eapply prefine_bind].
  3:{ intros oa. eapply prefine_bind; [apply p_run_entry_refine; exact HE|]. intros oc.
      eapply prefine_bind; [apply p_run_entry_refine; apply t_marks_entry_refine|]. intros om.
      eapply prefine_bind; [apply p_get_fields_refine|]. intros names.
      instantiate (1 := fun names _ =>
        if unexpected (NodeC k) (kwargs names d) then raise TypeError else
        lift (construct k (kwargs names d) (if has (s "attrs") (kwargs names d) then oa else None)
                (if has (s "content") (kwargs names d) then oc else None)
                (if has (s "marks") (kwargs names d) then om else None))).
      cbv beta zeta. destruct (unexpected _ _); [apply prefine_raise|apply prefine_pure]. }
  2:{ instantiate (1 := fun _ => lift (attrs_entry (nk_class k) d)). unfold attrs_entry.
      destruct (lookup (s "attrs") d) as [a|].
      2:{ destruct (nc_attrs (nk_class k)) as [[fk fs]|]; apply prefine_ret. }
      eapply prefine_ext; [|eapply prefine_bind; [apply p_get_fields_refine|]].
      2:{ intros names. instantiate (1 := fun names _ =>
            if mem (s "attrs") names
            then match nc_attrs (nk_class k) with
                 | Some (_, fs) => lift (do l <- attrs_from_dict fs a; Ok (Some (AObj l)))
                 | None => raise KeyError end
            else ret None). cbv beta. unfold mem.
          destruct (existsb _ names); [|apply prefine_ret].
          destruct (nc_attrs (nk_class k)) as [[fk fs]|] eqn:A; [|apply prefine_raise].
          eapply prefine_ext; [|eapply prefine_bind; [apply (p_attrs_refine (NodeAttrsC k) fs a)|]].
          - intros b. instantiate (1 := fun l _ => ret (Some (AObj l))). cbv beta. unfold lift.
            destruct (attrs_from_dict fs a); reflexivity.
          - cbn. now rewrite A.
          - now apply nk_fields_nonempty with k fk.
          - intros l. apply prefine_ret. }
      intros b. cbn [bind ret]. rewrite mem_declared_node.
      change (str_eqb (s "attrs") (s "attrs")) with true.
      change (str_eqb (s "attrs") (s "type")) with false. change (str_eqb (s "attrs") (s "version")) with false.
      change (str_eqb (s "attrs") (s "text")) with false. change (str_eqb (s "attrs") (s "content")) with false.
      change (str_eqb (s "attrs") (s "marks")) with false. rewrite !andb_false_r. cbn [orb].
      destruct (nc_attrs (nk_class k)) as [[fk fs]|]; cbn [andb]; [|reflexivity].
      unfold lift. cbn. destruct (attrs_from_dict fs a); reflexivity. }
  intros b. unfold node_from_entry.
  assert (HK : forall key, lookup key (kwargs (declared (NodeC k)) d) = if mem key (declared (NodeC k)) then lookup key d else None)
    by (intros; apply lookup_kwargs).
  (* [construct] looks at the declared keys only *)
  assert (HC : forall oa oc om,
    attrs_entry (nk_class k) d = Ok oa ->
    (match oc with None => lookup (s "content") d = None | Some _ => lookup (s "content") d <> None end) ->
    (match om with None => lookup (s "marks") d = None | Some _ => lookup (s "marks") d <> None end) ->
    construct k (kwargs (declared (NodeC k)) d) (if has (s "attrs") (kwargs (declared (NodeC k)) d) then oa else None)
       (if has (s "content") (kwargs (declared (NodeC k)) d) then oc else None)
       (if has (s "marks") (kwargs (declared (NodeC k)) d) then om else None)
    = construct k d oa oc om).
  { intros oa oc om HA HOC HOM. unfold has.
    rewrite !HK, !mem_declared_node.
    change (str_eqb (s "attrs") (s "attrs")) with true.
    change (str_eqb (s "attrs") (s "type")) with false. change (str_eqb (s "attrs") (s "version")) with false.
    change (str_eqb (s "attrs") (s "text")) with false. change (str_eqb (s "attrs") (s "content")) with false.
    change (str_eqb (s "attrs") (s "marks")) with false.
    change (str_eqb (s "content") (s "content")) with true.
    change (str_eqb (s "content") (s "type")) with false. change (str_eqb (s "content") (s "version")) with false.
    change (str_eqb (s "content") (s "text")) with false. change (str_eqb (s "content") (s "attrs")) with false.
    change (str_eqb (s "content") (s "marks")) with false.
    change (str_eqb (s "marks") (s "marks")) with true.
    change (str_eqb (s "marks") (s "type")) with false. change (str_eqb (s "marks") (s "version")) with false.
    change (str_eqb (s "marks") (s "text")) with false. change (str_eqb (s "marks") (s "content")) with false.
    change (str_eqb (s "marks") (s "attrs")) with false.
    rewrite !andb_false_r, !andb_true_r, !orb_false_r. cbn [orb].
    rewrite (construct_lookups k d (kwargs (declared (NodeC k)) d)).
    - unfold construct. f_equal.
      assert (E1 : attrs_field (nk_class k) (if match (if match nc_attrs (nk_class k) with Some _ => true | None => false end
                     then lookup (s "attrs") d else None) with Some _ => true | None => false end then oa else None)
                   = attrs_field (nk_class k) oa).
      { unfold attrs_entry, attrs_field in *. destruct (nc_attrs (nk_class k)) as [[fk fs]|]; [|reflexivity].
        destruct (lookup (s "attrs") d); [reflexivity|]. injection HA as <-. reflexivity. }
      rewrite E1.
      assert (E2 : slot_field (nc_content (nk_class k)) (if match (if match nc_content (nk_class k) with Some _ => true | None => false end
                     then lookup (s "content") d else None) with Some _ => true | None => false end then oc else None)
                   = slot_field (nc_content (nk_class k)) oc).
      { unfold slot_field. destruct (nc_content (nk_class k)); [|reflexivity].
        destruct (lookup (s "content") d), oc; congruence. }
      rewrite E2.
      assert (E3 : slot_field (nc_marks (nk_class k)) (if match (if match nc_marks (nk_class k) with Some _ => true | None => false end
                     then lookup (s "marks") d else None) with Some _ => true | None => false end then om else None)
                   = slot_field (nc_marks (nk_class k)) om).
      { unfold slot_field. destruct (nc_marks (nk_class k)); [|reflexivity].
        destruct (lookup (s "marks") d), om; congruence. }
      rewrite E3. reflexivity.
    - rewrite HK, mem_declared_node. reflexivity.
    - intros T. rewrite HK, mem_declared_node, T. change (str_eqb (s "text") (s "text")) with true.
      cbn [andb]. now rewrite !orb_true_r.
    - intros T. rewrite HK, mem_declared_node, T. change (str_eqb (s "version") (s "version")) with true.
      cbn [andb]. now rewrite !orb_true_r. }
  unfold lift. destruct (attrs_entry (nk_class k) d) as [oa|e0] eqn:EA; cbn [bind]; [|reflexivity].
  specialize (HP b).
  destruct (run_entry b (e b)) as [lg [oc|e0]] eqn:EC; cbn [bind]; [|reflexivity].
  destruct (run_entry b (marks_entry d)) as [lg' [om|e0]] eqn:EM; cbn [bind]; [|reflexivity].
  unfold ret. cbn [bind]. rewrite kwargs_expected. cbn [ret bind app]. rewrite app_nil_r. rewrite (HC oa oc om).
  - reflexivity.
  - reflexivity.
  - destruct (e b) as [|ms|v]; [cbn in EC; now injection EC as <- <-| |].
    + cbn in EC. destruct (collect b ms) as [? [?|?]]; [|discriminate]. now injection EC as <- <-.
    + destruct v; cbn in EC; injection EC as <- <-; exact HP.
  - unfold marks_entry in EM. destruct (lookup (s "marks") d) as [v|].
    + destruct v; try (cbn in EM; injection EM as <- <-; discriminate).
      cbn in EM. destruct (collect b _) as [? [?|?]]; [|discriminate]. injection EM as <- <-. discriminate.
    + cbn in EM. now injection EM as <- <-.
Qed.

Lemma p_parse_node_dict d :
  p_parse_node (VDict d) =
  match lookup (s "type") d with
  | None => praise KeyError
  | Some ty =>
      match node_class_of ty with
      | Found k => p_node_from_entry k d (p_content_entry d)
      | Missing => praise (Unimplemented CNode ty)
      | Unhashable => praise TypeError
      end
  end.
Proof.
  cbn [p_parse_node]. destruct (lookup (s "type") d) as [ty|]; [|reflexivity].
  destruct (node_class_of ty) as [k| |]; try reflexivity. f_equal. unfold p_content_entry.
  clear k. induction d as [|[k x] d IH]; [reflexivity|]. cbn [lookup].
  destruct (str_eqb k (s "content")); [destruct x; reflexivity|exact IH].
Qed.

Definition prefine_claim (v : value) : Prop := prefine (p_parse_node v) (fun b => parse_node b v).

Lemma t_content_entry_refine d :
  (forall l, lookup (s "content") d = Some (VList l) -> Forall prefine_claim l) ->
  t_entry_refine (p_content_entry d) (fun b => content_entry b d).
Proof.
  intros HF. unfold p_content_entry, content_entry. destruct (lookup (s "content") d) as [v|]; [|intros b; reflexivity].
  destruct v; try (intros ?; reflexivity). cbn. exists (map (fun v b => parse_node b v) l). split.
  - specialize (HF _ eq_refl). induction HF as [|v l HV HF IH]; constructor; [exact HV|exact IH].
  - intros b. rewrite map_map. reflexivity.
Qed.
Lemma t_content_entry_present b d :
  match content_entry b d with EAbsent => lookup (s "content") d = None | _ => lookup (s "content") d <> None end.
Proof. unfold content_entry. destruct (lookup (s "content") d) as [v|]; [|reflexivity]. destruct v; discriminate. Qed.

Lemma p_from_dict_step k d :
  (forall l, lookup (s "content") d = Some (VList l) -> Forall prefine_claim l) ->
  prefine (p_from_dict k (VDict d)) (fun b => from_dict b k (VDict d)).
Proof.
  intros HF. cbn [p_from_dict from_dict].
  apply (p_node_refine k d (p_content_entry d) (fun b => content_entry b d)).
  - now apply t_content_entry_refine.
  - intros b. apply t_content_entry_present.
Qed.

Lemma p_parse_node_refine v : prefine_claim v.
Proof.
  induction v as [v HX|d IH] using doc_ind; unfold prefine_claim.
  - destruct v; try apply prefine_raise. exfalso. eapply HX. reflexivity.
  - rewrite p_parse_node_dict. eapply prefine_ext; [intros b; symmetry; apply parse_node_dict|].
    destruct (lookup (s "type") d) as [ty|]; [|apply prefine_raise].
    destruct (node_class_of ty) as [k| |]; [|apply prefine_raise|apply prefine_raise].
    apply p_from_dict_step. intros l HL. exact (IH _ _ HL).
Qed.
Lemma p_from_dict_refine k v : prefine (p_from_dict k v) (fun b => from_dict b k v).
Proof.
  destruct v; try apply prefine_raise. apply p_from_dict_step.
  intros l _. apply Forall_forall. intros y _. apply p_parse_node_refine.
Qed.

