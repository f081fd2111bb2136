(** Properties whose statement uses the class tables generated from the source text (RepoSchema.v), not the model's own
    class tables: what is accepted, what an object holds, which keys to_dict writes. *)
From Coq Require Import List NArith ZArith Bool String.
From Verif Require Import PyStr Values Schema Parse Serialize Basics SpecParse ParseFacts ParseFacts3 ParseFacts4
  SerFacts SerFacts2 RepoSchema SpecSchema SchemaFacts.
Import ListNotations.
Open Scope string_scope.
Open Scope list_scope.

(** ================================================================ C04 *)
(** The two registries and the enumeration of the model are those of the source, in order. *)
Theorem C04_registries_of_source :
  node_names = map (fun r => s (r_type r)) node_rows /\
  mark_names = map (fun r => s (r_type r)) mark_rows /\
  type_enum = map (fun e => s (snd e)) type_enum_rows.
Proof. split; [exact node_names_rows|]. split; [exact mark_names_rows|]. vm_compute. reflexivity. Qed.
(** In the source itself: a registered class's default type is its registry key, keys are distinct, every key is a member
    of TypeEnum, and every member's value is its name. *)
Theorem C04_source_consistent :
  (forall r, In r (node_rows ++ mark_rows) -> In ("type", DefaultStr (r_type r)) (r_fields r)) /\
  NoDup (map r_type node_rows) /\ NoDup (map r_type mark_rows) /\
  (forall r, In r (node_rows ++ mark_rows) -> In (r_type r, r_type r) type_enum_rows) /\
  (forall n v, In (n, v) type_enum_rows -> n = v).
Proof.
  assert (ND : forall l : list string, (fix nd (l : list string) : bool :=
      match l with [] => true | x :: r => negb (existsb (String.eqb x) r) && nd r end) l = true -> NoDup l).
  { induction l as [|x l IH]; [constructor|]. intros H. apply andb_true_iff in H as [H1 H2]. constructor; [|now apply IH].
    intros HI. apply negb_true_iff in H1. assert (X : existsb (String.eqb x) l = true).
    { apply existsb_exists. exists x. split; [exact HI|apply String.eqb_refl]. }
    congruence. }
  split; [|split; [|split; [|split]]].
  - intros r HI. apply in_app_or in HI as [HI|HI].
    + pose proof (proj1 (Forall_forall _ _) node_rows_shape r HI) as (_ & _ & _ & _ & _ & HE & HTy).
      rewrite HE. unfold entries. apply in_flat_map. exists "type". split; [cbn; tauto|]. rewrite HTy. now left.
    + pose proof (proj1 (Forall_forall _ _) mark_rows_shape r HI) as (_ & HE & HTy).
      rewrite HE. unfold entries. apply in_flat_map. exists "type". split; [cbn; tauto|]. rewrite HTy. now left.
  - apply ND. vm_compute. reflexivity.
  - apply ND. vm_compute. reflexivity.
  - intros r HI.
    assert (X : forallb (fun r => existsb (fun e => String.eqb (fst e) (r_type r) && String.eqb (snd e) (r_type r))
                  type_enum_rows) (node_rows ++ mark_rows) = true) by (vm_compute; reflexivity).
    rewrite forallb_forall in X. apply X in HI. apply existsb_exists in HI as ([n v] & HI & H).
    apply andb_true_iff in H as [H1 H2]. apply String.eqb_eq in H1, H2. cbn [fst snd] in *. now subst.
  - intros n v HI.
    assert (X : forallb (fun e => String.eqb (fst e) (snd e)) type_enum_rows = true) by (vm_compute; reflexivity).
    rewrite forallb_forall in X. apply X in HI. now apply String.eqb_eq.
Qed.

(** ================================================================ C05 *)
(** A dictionary is accepted exactly when it fits the classes declared in the source. *)
Theorem C05_accepted_iff_source : forall w v, (exists n, snd (parse_node w v) = Ok n) <-> node_fits v.
Proof. intros w v. rewrite node_fits_iff. apply parse_ok_iff. Qed.
Theorem C05_accepted_iff_source_mark : forall v, (exists m, parse_mark v = Ok m) <-> mark_fits v.
Proof.
  intros v. rewrite mark_fits_iff, mark_acceptable_faults. pose proof (mark_faults_ok v) as H. unfold outcome in H.
  destruct (mark_faults v) as [|e l].
  - split; [reflexivity|]. intros _. exact H.
  - split; [intros [m E]; congruence|discriminate].
Qed.
Example C05_source_example :
  node_fits (VDict [(s "type", VStr (s "taskItem")); (s "attrs", VDict [(s "state", VStr (s "DONE")); (s "localId", VStr (s "1"))]);
                    (s "content", VList [VDict [(s "type", VStr (s "nope"))];
                                         VDict [(s "type", VStr (s "text")); (s "text", VStr (s "x"))]])]) /\
  ~ node_fits (VDict [(s "type", VStr (s "taskItem")); (s "attrs", VDict [(s "localId", VStr (s "1"))])]).
Proof.
  split.
  - apply (C05_accepted_iff_source false). eexists. vm_compute. reflexivity.
  - intros H. apply (C05_accepted_iff_source false) in H as [n H]. vm_compute in H. discriminate.
Qed.

(** ================================================================ C06 *)
(** The value an object holds for a declared name. *)
Definition given (d : list (str * value)) (f : string) : value :=
  match lookup (s f) d with Some v => v | None => VOpt end.
Definition declared (r : row) (f : string) : Prop := In f (map fst (r_fields r)).
(** The attrs field of an object of class [r] built from [d]: a declared one holds one entry per attribute declared in the
    source, in that order, with the input's value or OPT. *)
Definition attrs_as_declared (r : row) (d : list (str * value)) (a : attrs) : Prop :=
  match a with
  | NoAttrs => ~ declared r "attrs"
  | AOpt => In ("attrs", Optional) (r_fields r) /\ lookup (s "attrs") d = None
  | AObj l => declared r "attrs" /\
      exists ad, lookup (s "attrs") d = Some (VDict ad) /\ l = map (fun f => (s (fst f), given ad (fst f))) (r_attrs r)
  end.
Definition field_as_declared (r : row) (d : list (str * value)) (f : string) (dflt : option value) (o : option value) : Prop :=
  (declared r f /\ o = match lookup (s f) d with Some v => Some v | None => dflt end) \/ (~ declared r f /\ o = None).
Definition slot_as_declared {A} (r : row) (d : list (str * value)) (f : string) (x : slot A) : Prop :=
  match x with
  | NoField => ~ declared r f
  | SOpt => (In (f, Optional) (r_fields r) /\ lookup (s f) d = None) \/ (declared r f /\ lookup (s f) d = Some VOpt)
  | Items _ => declared r f /\ exists l, lookup (s f) d = Some (VList l)
  | Raw v => declared r f /\ lookup (s f) d = Some v /\ forall l, v <> VList l
  end.

Lemma declared_iff names r f : r_fields r = entries names (r_fields r) -> In f names ->
  declared r f <-> is_some (field f (r_fields r)) = true.
Proof. intros E HI. unfold declared. rewrite (field_in f _ _ E). tauto. Qed.
Lemma holds_given r ad l : holds_attrs (attrs_fields r) ad l -> NoDup (map fst (attrs_fields r)) ->
  l = map (fun f => (s (fst f), given ad (fst f))) (r_attrs r).
Proof.
  intros [E H] ND. transitivity (map (fun f => (f, match lookup f ad with Some v => v | None => VOpt end)) (map fst (attrs_fields r))).
  - assert (ND' : NoDup (map fst l)) by (now rewrite E). assert (H' : forall f, In f (map fst l) ->
      lookup f l = Some match lookup f ad with Some v => v | None => VOpt end) by (intros f; rewrite E; apply H).
    rewrite <- E. clear E H ND. induction l as [|[f v] l IH]; [reflexivity|]. cbn [map fst]. inversion ND' as [|? ? N1 N2]; subst.
    f_equal.
    + f_equal. specialize (H' f (or_introl eq_refl)). cbn [lookup] in H'. rewrite str_eqb_refl in H'. congruence.
    + apply IH; [exact N2|]. intros g HG. specialize (H' g (or_intror HG)). cbn [lookup] in H'.
      destruct (str_eqb f g) eqn:EG; [|exact H']. apply str_eqb_eq in EG. now subst g.
  - unfold attrs_fields. rewrite !map_map. reflexivity.
Qed.
Theorem C06_fields_of_source : forall w v n, snd (parse_node w v) = Ok n ->
  exists d r, v = VDict d /\ In r node_rows /\ nk_name (n_kind n) = s (r_type r) /\
    lookup (s "type") d = Some (VStr (s (r_type r))) /\ n_type n = VStr (s (r_type r)) /\
    field_as_declared r d "version" (Some (VInt 1)) (n_version n) /\
    field_as_declared r d "text" None (n_text n) /\
    attrs_as_declared r d (n_attrs n) /\
    slot_as_declared r d "content" (n_content n) /\ slot_as_declared r d "marks" (n_marks n).
Proof.
  intros w v n H.
  assert (HAc : acceptable v = true) by (apply (parse_ok_iff w); eauto).
  assert (HT : exists d, v = VDict d /\ lookup (s "type") d <> None).
  { destruct v; try discriminate. exists d. split; [reflexivity|]. cbn [parse_node] in H.
    destruct (lookup (s "type") d); discriminate. }
  destruct HT as (d & -> & HT). apply parse_represents in H. inversion H as [d0 k ty ve tx a co ma ET EC HF E1 E2]. subst d0 n. clear H.
  rewrite acceptable_dict in HAc.
  destruct (lookup (s "type") d) as [t|] eqn:L; [|congruence]. subst ty. rewrite EC in HAc. apply node_class_of_found in EC. subst t.
  destruct (node_row k) as (r & HI & HN & HK). exists d, r. cbn [n_kind n_type n_version n_text n_attrs n_content n_marks].
  cbn [acceptable_for] in HAc. apply andb_true_iff in HAc as [HAc _]. apply (own_node_iff k r d HI HK) in HAc as [[HReq _] _].
  rewrite HN. inversion HF as [k0 d0 ve0 tx0 a0 co0 ma0 EV EX EA ECo EMa]. subst. clear HF.
  pose proof (proj1 (Forall_forall _ _) node_rows_shape r HI) as (HX & HV & HA & HC & HM & HE & HTy).
  set (names := ["type"; "version"; "text"; "attrs"; "content"; "marks"]) in *.
  assert (DI : forall f, In f names ->
    declared r f <-> is_some (field f (r_fields r)) = true) by (intros f; apply declared_iff; exact HE).
  assert (FI : forall f dc, In f names -> field f (r_fields r) = Some dc -> In (f, dc) (r_fields r)).
  { intros f dc HIn F. rewrite HE. unfold entries. apply in_flat_map. exists f. split; [exact HIn|]. rewrite F. now left. }
  assert (OI : forall f, In f names -> opt_in (field f (r_fields r)) [Required; Optional] ->
    is_some (field f (r_fields r)) = true -> lookup (s f) d = None -> In (f, Optional) (r_fields r)).
  { intros f HIn HO HS HL. destruct (field f (r_fields r)) as [dc|] eqn:F; [|discriminate]. pose proof (FI f dc HIn F) as HG.
    destruct HO as [<-|[<-|[]]]; [|exact HG]. exfalso. exact (HReq f (or_introl HG) HL). }
  assert (SI : forall A (sk : value -> bool) (R : value -> A -> Prop) f x, In f names ->
    opt_in (field f (r_fields r)) [Required; Optional] ->
    slot_from sk R (declares (option_map dk (field f (r_fields r)))) (lookup (s f) d) x -> slot_as_declared r d f x).
  { intros A sk R f x HIn HO HS.
    assert (ED : declares (option_map dk (field f (r_fields r))) = is_some (field f (r_fields r)))
      by (now destruct (field f (r_fields r))). rewrite ED in HS. clear ED.
    inversion HS as [o D E1 E2|D E1 E2|D E1 E2|l xs D HF2 E1 E2|y D N1 N2 E1 E2]; subst; cbn [slot_as_declared].
    - rewrite (DI f HIn), D. discriminate.
    - left. split; [now apply OI|congruence].
    - right. split; [now apply DI|congruence].
    - split; [now apply DI|]. exists l. congruence.
    - split; [now apply DI|]. split; [congruence|exact N2]. }
  rewrite HK in *. unfold row_class in *. cbn [nc_version nc_text nc_attrs nc_content nc_marks] in *.
  split; [reflexivity|]. split; [exact HI|]. split; [reflexivity|]. split; [congruence|]. split; [reflexivity|].
  split; [|split; [|split; [|split]]].
  - unfold field_as_declared. rewrite (DI "version") by (cbn; tauto). destruct (field "version" (r_fields r)); cbn [is_some].
    + left. split; [reflexivity|]. now destruct (lookup (s "version") d).
    + right. split; [discriminate|reflexivity].
  - unfold field_as_declared. rewrite (DI "text") by (cbn; tauto). destruct (field "text" (r_fields r)); cbn [is_some].
    + left. split; [reflexivity|]. now destruct (lookup (s "text") d).
    + right. split; [discriminate|reflexivity].
  - destruct (field "attrs" (r_fields r)) as [da|] eqn:FA.
    + remember (lookup (s "attrs") d) as la eqn:EL.
      inversion EA as [EN1 EN2|ad l HH EN1 EN2]; subst a; cbn [attrs_as_declared].
      * split; [|congruence]. apply OI; [cbn; tauto|now rewrite FA|now rewrite FA|congruence].
      * split; [apply DI; [cbn; tauto|now rewrite FA]|]. exists ad. split; [congruence|]. apply holds_given; [exact HH|].
        apply (nk_fields_nodup k (dk da)). rewrite HK; cbn [nc_attrs]; try rewrite FA; reflexivity.
    + subst a. cbn [attrs_as_declared]. rewrite (DI "attrs") by (cbn; tauto). now rewrite FA.
  - apply (SI _ _ _ "content" co) in ECo; [exact ECo|cbn; tauto|exact HC].
  - apply (SI _ _ _ "marks" ma) in EMa; [exact EMa|cbn; tauto|exact HM].
Qed.
Theorem C06_fields_of_source_mark : forall v m, parse_mark v = Ok m ->
  exists d r, v = VDict d /\ In r mark_rows /\ mk_name (m_kind m) = s (r_type r) /\
    lookup (s "type") d = Some (VStr (s (r_type r))) /\ m_type m = VStr (s (r_type r)) /\
    attrs_as_declared r d (m_attrs m) /\ m_attrs m <> AOpt.
Proof.
  intros v m H. apply parse_mark_represents in H. inversion H as [d k L N E1 E2|d k fs a L N HA NO E1 E2]; subst;
    destruct (mark_row k) as (r & HI & HN & HK); exists d, r;
    pose proof (proj1 (Forall_forall _ _) mark_rows_shape r HI) as (_ & HE & _);
    cbn [m_kind m_type m_attrs]; rewrite L, HN; rewrite N in HK; unfold row_attrs in HK.
  - refine (conj eq_refl (conj HI (conj eq_refl (conj eq_refl (conj eq_refl (conj _ _)))))); [|discriminate].
    cbn [attrs_as_declared]. rewrite (declared_iff _ r "attrs" HE) by (cbn; tauto).
    destruct (field "attrs" (r_fields r)); [discriminate|]. discriminate.
  - refine (conj eq_refl (conj HI (conj eq_refl (conj eq_refl (conj eq_refl (conj _ NO)))))).
    remember (lookup (s "attrs") d) as la eqn:EL.
    inversion HA as [EN1 EN2|ad l HH EN1 EN2]; subst a; [congruence|]. cbn [attrs_as_declared].
    rewrite (declared_iff _ r "attrs" HE) by (cbn; tauto).
    destruct (field "attrs" (r_fields r)) as [da|]; [|discriminate]. split; [reflexivity|]. exists ad. split; [congruence|].
    injection HK as ->. apply holds_given; [exact HH|]. exact (mk_fields_nodup k _ N).
Qed.
Example C06_source_example : exists n, snd (parse_node true
  (VDict [(s "type", VStr (s "orderedList")); (s "attrs", VDict [(s "order", VInt 3); (s "x", VNone)]);
          (s "content", VList []); (s "marks", VList [])])) = Ok n /\
  n_attrs n = AObj [(s "order", VInt 3); (s "localId", VOpt)] /\ n_marks n = NoField.
Proof. eexists. split; [vm_compute; reflexivity|]. split; vm_compute; reflexivity. Qed.

(** ================================================================ C11 *)
(** A field is written when the input has it with a value other than OPT, or when it has a default value. *)
Definition written (d : list (str * value)) (f : string * decl) : bool :=
  match lookup (s (fst f)) d with
  | Some v => negb (is_opt v)
  | None => match snd f with DefaultStr _ | DefaultInt _ => true | _ => false end
  end.
Definition written_attrs (r : row) (ad : list (str * value)) : list (str * value) :=
  flat_map (fun f => match lookup (s (fst f)) ad with
                     | Some v => if is_opt v then [] else [(s (fst f), v)] | None => [] end) (r_attrs r).
Lemma remove_given fs ad :
  remove_optional (map (fun f : string * decl => (s (fst f), given ad (fst f))) fs) =
  flat_map (fun f => match lookup (s (fst f)) ad with
                     | Some v => if is_opt v then [] else [(s (fst f), v)] | None => [] end) fs.
Proof.
  induction fs as [|f fs IH]; [reflexivity|]. cbn [map flat_map]. unfold remove_optional in *. cbn [filter snd]. rewrite IH.
  unfold given. destruct (lookup (s (fst f)) ad) as [v|]; [|reflexivity]. now destruct v.
Qed.
Lemma keys_app a b : map fst (remove_optional (a ++ b)) = map fst (remove_optional a) ++ map fst (remove_optional b).
Proof. unfold remove_optional. now rewrite filter_app, map_app. Qed.
(** The keys to_dict writes, in the order of the fields in the source, and the attributes it writes. *)
Theorem C11_keys_of_source : forall w v n o, snd (parse_node w v) = Ok n -> node_to_dict n = Ok o ->
  exists d r out, v = VDict d /\ o = VDict out /\ In r node_rows /\ lookup (s "type") d = Some (VStr (s (r_type r))) /\
    map fst out = map (fun f => s (fst f)) (filter (written d) (r_fields r)) /\
    (forall ad, declared r "attrs" -> lookup (s "attrs") d = Some (VDict ad) ->
                In (s "attrs", VDict (written_attrs r ad)) out).
Proof.
  intros w v n o H HO. apply C06_fields_of_source in H as (d & r & -> & HI & HN & HT & HTy & HV & HX & HA & HC & HM).
  destruct n as [k ty ve tx a co ma]. cbn [n_kind n_type n_version n_text n_attrs n_content n_marks] in *. subst ty.
  cbn [node_to_dict] in HO.
  pose proof (proj1 (Forall_forall _ _) node_rows_shape r HI) as (SX & SV & SA & SC & SM & HE & STy).
  set (names := ["type"; "version"; "text"; "attrs"; "content"; "marks"]) in *.
  assert (DI : forall f, In f names ->
    declared r f <-> is_some (field f (r_fields r)) = true) by (intros f; apply declared_iff; exact HE).
  (* one slot *)
  assert (SLOT : forall A (g : A -> res value) f (x : slot A) c, In f names -> opt_in (field f (r_fields r)) [Required; Optional] ->
    slot_as_declared r d f x ->
    match x with
    | NoField | SOpt => Ok None
    | Items l => do xs <- mapM g l; Ok (Some xs)
    | Raw v => do xs <- raw_to_dicts v; Ok (Some xs)
    end = Ok c ->
    map fst (remove_optional match c with Some l => [(s f, VList l)] | None => [] end) =
    map (fun f => s (fst f)) (filter (written d) match field f (r_fields r) with Some d => [(f, d)] | None => [] end)).
  { intros A g f x c HIn HO' HS HC'. destruct x as [| |l|y]; cbn [slot_as_declared] in HS.
    - injection HC' as <-. rewrite (DI f HIn) in HS. now destruct (field f (r_fields r)).
    - injection HC' as <-. destruct HS as [[HS L]|[HS L]].
      + assert (DF : declared r f) by (now apply (in_map fst) in HS). apply (DI f HIn) in DF.
        destruct (field f (r_fields r)) as [dc|]; [|discriminate]. cbn [filter]. unfold written. cbn [fst snd]. rewrite L.
        now destruct HO' as [<-|[<-|[]]].
      + apply (DI f HIn) in HS. destruct (field f (r_fields r)) as [dc|]; [|discriminate]. cbn [filter]. unfold written.
        cbn [fst snd]. now rewrite L.
    - destruct HS as [HS [l0 L]]. destruct (mapM g l) as [xs|]; [|discriminate]. injection HC' as <-. apply (DI f HIn) in HS.
      destruct (field f (r_fields r)) as [dc|]; [|discriminate]. cbn [filter]. unfold written. cbn [fst snd]. now rewrite L.
    - destruct HS as (HS & L & _). destruct (raw_to_dicts y) as [xs|] eqn:RD; [|discriminate]. injection HC' as <-.
      apply (DI f HIn) in HS. destruct (field f (r_fields r)) as [dc|]; [|discriminate]. cbn [filter]. unfold written.
      cbn [fst snd]. rewrite L. now destruct y. }
  match type of HO with (do cs <- ?X; _) = _ => destruct X as [cs|] eqn:ECs; [|discriminate] end. cbn [rbind] in HO.
  match type of HO with (do ms <- ?X; _) = _ => destruct X as [ms|] eqn:EMs; [|discriminate] end. cbn [rbind] in HO.
  match type of HO with Ok ?X = _ => assert (EO : o = X) by congruence; subst o; clear HO end.
  exists d, r. eexists. split; [reflexivity|]. split; [reflexivity|]. split; [exact HI|]. split; [exact HT|].
  pose proof (SLOT _ node_to_dict "content" co cs ltac:(cbn; tauto) SC HC ECs) as KC.
  assert (EMs' : match ma with
    | NoField | SOpt => Ok None
    | Items l => do xs <- mapM (fun m => Ok (mark_to_dict m)) l; Ok (Some xs)
    | Raw v => do xs <- raw_to_dicts v; Ok (Some xs)
    end = Ok ms).
  { rewrite <- EMs. destruct ma as [| |l|y]; try reflexivity.
    replace (mapM (fun m => Ok (mark_to_dict m)) l) with (@Ok (list value) (map mark_to_dict l)); [reflexivity|].
    clear. induction l as [|m l IH]; [reflexivity|]. cbn [mapM map]. rewrite <- IH. reflexivity. }
  pose proof (SLOT _ _ "marks" ma ms ltac:(cbn; tauto) SM HM EMs') as KM. clear SLOT ECs EMs EMs' HC HM SC SM.
  split.
  - match goal with |- _ = map ?g (filter ?p (r_fields r)) =>
      transitivity (map g (filter p (entries names (r_fields r)))); [|now rewrite <- HE] end.
    unfold entries, names. cbn [flat_map]. rewrite STy.
    match goal with |- map fst (remove_optional (?x :: ?l)) = _ => change (x :: l) with ([x] ++ l) end.
    rewrite !keys_app, !filter_app, !map_app, KC, KM, app_nil_r. f_equal; [|f_equal; [|f_equal; [|f_equal]]].
    + cbn [filter]. unfold written. cbn [fst]. now rewrite HT.
    + unfold field_as_declared in HV. rewrite (DI "version") in HV by (cbn; tauto).
      destruct (field "version" (r_fields r)) as [dc|]; cbn [is_some] in HV.
      * destruct HV as [[_ ->]|[HV _]]; [|congruence]. destruct SV as [<-|[]]. cbn [filter]. unfold written. cbn [fst snd].
        destruct (lookup (s "version") d) as [y|]; [now destruct y|reflexivity].
      * destruct HV as [[HV _]|[_ ->]]; [discriminate|reflexivity].
    + unfold field_as_declared in HX. rewrite (DI "text") in HX by (cbn; tauto).
      destruct (field "text" (r_fields r)) as [dc|]; cbn [is_some] in HX.
      * destruct HX as [[_ ->]|[HX _]]; [|congruence]. destruct SX as [<-|[]]. cbn [filter]. unfold written. cbn [fst snd].
        destruct (lookup (s "text") d) as [y|]; [now destruct y|reflexivity].
      * destruct HX as [[HX _]|[_ ->]]; [discriminate|reflexivity].
    + destruct a as [| |l]; cbn [attrs_as_declared] in HA.
      * rewrite (DI "attrs") in HA by (cbn; tauto). now destruct (field "attrs" (r_fields r)).
      * destruct HA as [HA L]. assert (DF : declared r "attrs") by (now apply (in_map fst) in HA).
        apply DI in DF; [|cbn; tauto]. destruct (field "attrs" (r_fields r)) as [dc|]; [|discriminate]. cbn [filter].
        unfold written. cbn [fst snd]. rewrite L. now destruct SA as [<-|[<-|[]]].
      * destruct HA as [DF (ad & L & _)]. apply DI in DF; [|cbn; tauto].
        destruct (field "attrs" (r_fields r)) as [dc|]; [|discriminate]. cbn [filter]. unfold written. cbn [fst snd].
        now rewrite L.
  - intros ad DF L. destruct a as [| |l]; cbn [attrs_as_declared] in HA.
    + contradiction.
    + destruct HA as [_ HA]. congruence.
    + destruct HA as [_ (ad' & L' & ->)]. assert (ad' = ad) as -> by congruence.
      apply filter_In. split; [|reflexivity]. right. apply in_or_app. right. apply in_or_app. right. apply in_or_app. left. left.
      f_equal. unfold attrs_to_dict. now rewrite remove_given.
Qed.
Example C11_source_example : exists n o, snd (parse_node true
  (VDict [(s "marks", VList []); (s "content", VList []); (s "attrs", VDict [(s "localId", VStr (s "a")); (s "level", VInt 3)]);
          (s "junk", VNone); (s "type", VStr (s "heading"))])) = Ok n /\ node_to_dict n = Ok (VDict o) /\
  o = [(s "type", VStr (s "heading")); (s "attrs", VDict [(s "level", VInt 3); (s "localId", VStr (s "a"))]);
       (s "content", VList []); (s "marks", VList [])].
Proof. do 2 eexists. split; [vm_compute; reflexivity|]. split; vm_compute; reflexivity. Qed.
