From Coq Require Import List NArith ZArith Bool String Arith Lia Sorted Permutation Relations.
From Verif Require Import PyStr Values Basics GenCode SpecApi ApiFacts Analyze SpecAnalyze AnalyzeFacts AnalyzeFacts2 SpecEqual EqualFacts.
Import ListNotations.
Open Scope string_scope.
Open Scope list_scope.

(** ---------------------------------------------------------------- loops that collect into a set *)
Definition collects {A} (f : A -> list str -> res (list str)) (ex : exc) (good : A -> Prop) (adds : A -> str -> Prop) (a : A) : Prop :=
  forall l, match f a l with
            | Ok r => good a /\ (forall x, In x r <-> In x l \/ adds a x) /\ (NoDup l -> NoDup r)
            | Err e => e = ex /\ ~ good a
            end.
Lemma foldM_collects {A} (f : A -> list str -> res (list str)) ex good adds (as_ : list A) :
  Forall (collects f ex good adds) as_ ->
  collects (foldM f) ex (fun l => forall a, In a l -> good a) (fun l x => exists a, In a l /\ adds a x) as_.
Proof.
  induction 1 as [|a as_ HA HF IH]; intros l; cbn.
  - split; [intros a []|]. split; [|auto]. intros x. split; [now left|]. intros [H|(a & [] & _)]; assumption.
  - specialize (HA l). destruct (f a l) as [r|e]; cbn.
    + destruct HA as (HG & HI & HN). specialize (IH r). fold (foldM f). destruct (foldM f as_ r) as [r'|e].
      * destruct IH as (HG' & HI' & HN'). split; [intros b [<-|HB]; auto|]. split; [|auto]. intros x. rewrite HI', HI. split.
        -- intros [[H|H]|(b & HB & H)]; [now left|right; exists a; auto|right; exists b; auto].
        -- intros [H|(b & [<-|HB] & H)]; [tauto|tauto|]. right. now exists b.
      * destruct IH as [-> HG']. split; [reflexivity|]. intros H. apply HG'. intros b HB. apply H. now right.
    + destruct HA as [-> HG]. split; [reflexivity|]. intros H. apply HG. apply H. now left.
Qed.
Lemma lookup_in {A} k (d : list (str * A)) v : NoDup (map fst d) -> In (k, v) d -> lookup k d = Some v.
Proof.
  induction d as [|[k' v'] r IH]; [intros _ []|]. cbn. intros HN [HI|HI].
  - assert (k' = k) by congruence. assert (v' = v) by congruence. subst. now rewrite str_eqb_refl.
  - inversion HN as [|? ? HX HR]; subst. destruct (str_eqb k' k) eqn:EQ; [|now apply IH]. apply str_eqb_eq in EQ. subst. destruct HX. apply in_map_iff. now exists (k, v).
Qed.
Lemma lookup_none_in {A} k (d : list (str * A)) v : lookup k d = None -> ~ In (k, v) d.
Proof.
  induction d as [|[k' v'] r IH]; [intros _ []|]. cbn. destruct (str_eqb k' k) eqn:EQ; [discriminate|]. intros HL [HI|HI]; [|now apply IH].
  assert (k' = k) by congruence. subst. rewrite str_eqb_refl in EQ. discriminate.
Qed.
Lemma inside_trans x y z : inside x y -> inside y z -> inside x z.
Proof. intros H1 H2. induction H2; [assumption|eapply in_list; eauto|eapply in_dict; eauto]. Qed.
Lemma inside_atom d v : is_atom v = true -> ~ inside (VDict d) v.
Proof. intros HA HI. inversion HI; subst; discriminate. Qed.

Lemma prefix_skip p r : prefixb p r = true <-> r = p ++ skipn (List.length p) r.
Proof.
  rewrite prefixb_iff. split; [|intros H; eauto]. intros [y ->]. f_equal. rewrite skipn_app, skipn_all, Nat.sub_diag. reflexivity.
Qed.

(** ---------------------------------------------------------------- extract_refs *)
Lemma extract_refs_spec v : distinct_keys v -> collects extract_refs AttributeError refs_are_strings refers v.
Proof.
  induction v as [| | | |x| |vs IH|d IH] using value_ind'; intros DK.
  1-6: intros l; cbn; split; [intros d w HI; apply inside_atom in HI; [destruct HI|reflexivity]|]; split; [|auto];
       intros y; split; [now left|]; intros [H|(d & HI & _)]; [assumption|apply inside_atom in HI; [destruct HI|reflexivity]].
  - inversion DK as [? HAt|? HD|]; subst; [discriminate|].
    assert (HC : Forall (collects extract_refs AttributeError refs_are_strings refers) vs).
    { rewrite Forall_forall in *. intros x HX. apply IH; auto. }
    intros l. cbn. pose proof (foldM_collects _ _ _ _ _ HC l) as HF. destruct (foldM extract_refs vs l) as [r|e].
    + destruct HF as (HG & HI & HN). split; [|split; [|assumption]].
      * intros d w HD' HW. inversion HD' as [|v ? HV HS|]; subst. now apply (HG v HV d w).
      * intros x. rewrite HI. split; (intros [H|H]; [now left|right]).
        -- destruct H as (v & HV & d & HS & HR). exists d. split; [|assumption]. eapply in_list; eauto.
        -- destruct H as (d & HS & HR). inversion HS as [|v ? HV HS'|]; subst. exists v. split; [assumption|]. exists d. now split.
    + destruct HF as [-> HG]. split; [reflexivity|]. intros H. apply HG. intros v HV d w HS HW. apply (H d w); [|assumption]. eapply in_list; eauto.
  - inversion DK as [? HAt| |? HN HD]; subst; [discriminate|].
    assert (HC : Forall (collects (fun e => extract_refs (snd e)) AttributeError (fun e => refs_are_strings (snd e)) (fun e => refers (snd e))) d).
    { rewrite Forall_forall in *. intros [k x] HX l. apply (IH _ HX). apply (HD _ HX). }
    intros l. cbn [extract_refs].
    assert (INV : forall d', inside (VDict d') (VDict d) -> d' = d \/ exists e, In e d /\ inside (VDict d') (snd e)).
    { intros d' HI. inversion HI as [|? ? HV HS|k v ? HV HS]; subst; [now left|]. right. exists (k, v). auto. }
    assert (MK : forall d' e, In e d -> inside (VDict d') (snd e) -> inside (VDict d') (VDict d)).
    { intros d' [k v] HE HS. eapply in_dict; eauto. }
    set (m := match lookup (s "$ref") d with None => Ok l | Some (VStr ref) => _ | Some _ => Err AttributeError end).
    assert (HM : match m with
                 | Ok r => (forall w, In (s "$ref", w) d -> exists r, w = VStr r) /\
                           (forall x, In x r <-> In x l \/ In (s "$ref", VStr (s "#/definitions/" ++ x)) d) /\ (NoDup l -> NoDup r)
                 | Err e => e = AttributeError /\ ~ (forall w, In (s "$ref", w) d -> exists r, w = VStr r)
                 end).
    { unfold m. destruct (lookup (s "$ref") d) as [w|] eqn:EL.
      - assert (HW : forall w', In (s "$ref", w') d <-> w' = w).
        { intros w'. split; [intros HI; apply lookup_in in HI; [congruence|assumption]|]. intros ->. now apply lookup_In. }
        destruct w as [| | | |ref| | |].
        1-4,6-8: split; [reflexivity|]; intros H; edestruct (H _ (proj2 (HW _) eq_refl)); discriminate.
        destruct (prefixb (s "#/definitions/") ref) eqn:EP.
        + apply prefix_skip in EP. split; [intros w' HI; apply HW in HI; eauto|]. split; [|apply add_nodup].
          intros x. rewrite add_in, HW. split.
          * intros [->|H]; [|now left]. right. now rewrite <- EP.
          * intros [H|H]; [now right|]. left. assert (HE : ref = s "#/definitions/" ++ x) by congruence. rewrite HE at 1.
            rewrite skipn_app, skipn_all, Nat.sub_diag. reflexivity.
        + split; [intros w' HI; apply HW in HI; eauto|]. split; [|auto]. intros x. split; [now left|]. intros [H|H]; [assumption|].
          apply HW in H. assert (HE : ref = s "#/definitions/" ++ x) by congruence. exfalso.
          assert (HP : prefixb (s "#/definitions/") ref = true) by (apply prefixb_iff; eauto). congruence.
      - split; [intros w HI; destruct (lookup_none_in _ _ _ EL HI)|]. split; [|auto]. intros x. split; [now left|]. intros [H|H]; [assumption|].
        destruct (lookup_none_in _ _ _ EL H). }
    destruct m as [l'|e]; cbn [rbind].
    + destruct HM as (HG & HI & HNd). pose proof (foldM_collects _ _ _ _ _ HC l') as HF.
      destruct (foldM (fun e => extract_refs (snd e)) d l') as [r|e].
      * destruct HF as (HG' & HI' & HNd'). split; [|split; [|auto]].
        -- intros d' w HS HW. destruct (INV d' HS) as [->|(e & HE & HS')]; [now apply HG|]. now apply (HG' e HE d' w).
        -- intros x. rewrite HI', HI. split.
           ++ intros [[H|H]|(e & HE & d' & HS & HR)]; [now left|right; exists d; split; [constructor|assumption]|right; exists d'; split; [now apply (MK d' e)|assumption]].
           ++ intros [H|(d' & HS & HR)]; [tauto|]. destruct (INV d' HS) as [->|(e & HE & HS')]; [tauto|]. right. exists e. split; [assumption|]. now exists d'.
      * destruct HF as [-> HG']. split; [reflexivity|]. intros H. apply HG'. intros e HE d' w HS HW. apply (H d' w); [now apply (MK d' e)|assumption].
    + destruct HM as [-> HG]. split; [reflexivity|]. intros H. apply HG. intros w HW. apply (H d w); [constructor|assumption].
Qed.

(** ---------------------------------------------------------------- extract_type_enums *)
Lemma fold_add {A} (f : A -> str) (as_ : list A) : forall l,
  (forall x, In x (fold_left (fun a e => add (f e) a) as_ l) <-> In x l \/ exists a, In a as_ /\ x = f a) /\
  (NoDup l -> NoDup (fold_left (fun a e => add (f e) a) as_ l)).
Proof.
  induction as_ as [|a as_ IH]; intros l; cbn.
  - split; [|auto]. intros x. split; [now left|]. intros [H|(a & [] & _)]; assumption.
  - destruct (IH (add (f a) l)) as [HI HN]. split; [|intros H; apply HN; now apply add_nodup]. intros x. rewrite HI, add_in. split.
    + intros [[->|H]|(b & HB & ->)]; [right; exists a; auto|now left|right; exists b; auto].
    + intros [H|(b & [<-|HB] & ->)]; [tauto|tauto|]. right. now exists b.
Qed.
Lemma enum_values_spec w : collects enum_values TypeError names loops_over w.
Proof.
  intros l. destruct w as [| | | |x|vs|d|]; cbn [enum_values names loops_over]; try (split; [reflexivity|intros []]).
  - destruct (fold_add (fun c : N => [c]) x l) as [HI HN]. split; [exact I|]. split; [|exact HN]. intros y. rewrite HI. split; (intros [H|(c & HC & HE)]; [now left|right; now exists c]).
  - assert (HC : Forall (collects add_value TypeError (fun v => exists t, v = VStr t) (fun v x => v = VStr x)) vs).
    { apply Forall_forall. intros v _ l'. destruct v as [| | | |x| | |]; cbn; try (split; [reflexivity|intros [t HT]; discriminate]).
      split; [eauto|]. split; [|apply add_nodup]. intros y. rewrite add_in. split; (intros [H|H]; [|]); try tauto; [right; now subst|left; congruence]. }
    pose proof (foldM_collects _ _ _ _ _ HC l) as HF. destruct (foldM add_value vs l) as [r|e].
    + destruct HF as (HG & HI & HN). split; [exact HG|]. split; [|exact HN]. intros x. rewrite HI. split; (intros [H|H]; [now left|right]).
      * destruct H as (a & HA & ->). exact HA.
      * now exists (VStr x).
    + exact HF.
  - destruct (fold_add (fun e : str * value => fst e) d l) as [HI HN]. split; [exact I|]. split; [|exact HN]. intros y. rewrite HI. split; (intros [H|H]; [now left|right]).
    + destruct H as ([k v] & HD & ->). now exists v.
    + destruct H as (v & HV). now exists (y, v).
Qed.
Lemma extract_type_enums_spec v : distinct_keys v -> collects extract_type_enums TypeError enums_are_names type_value v.
Proof.
  induction v as [| | | |x| |vs IH|d IH] using value_ind'; intros DK.
  1-6: intros l; cbn; split; [intros d e w HI; apply inside_atom in HI; [destruct HI|reflexivity]|]; split; [|auto];
       intros y; split; [now left|]; intros [H|(d & e & w & HI & _)]; [assumption|apply inside_atom in HI; [destruct HI|reflexivity]].
  - inversion DK as [? HAt|? HD|]; subst; [discriminate|].
    assert (HC : Forall (collects extract_type_enums TypeError enums_are_names type_value) vs).
    { rewrite Forall_forall in *. intros x HX. apply IH; auto. }
    intros l. cbn. pose proof (foldM_collects _ _ _ _ _ HC l) as HF. destruct (foldM extract_type_enums vs l) as [r|e].
    + destruct HF as (HG & HI & HN). split; [|split; [|assumption]].
      * intros d e w HD' HT HW. inversion HD' as [|v ? HV HS|]; subst. now apply (HG v HV d e w).
      * intros x. rewrite HI. split; (intros [H|H]; [now left|right]).
        -- destruct H as (v & HV & d & e & w & HS & HR). exists d, e, w. split; [|assumption]. eapply in_list; eauto.
        -- destruct H as (d & e & w & HS & HR). inversion HS as [|v ? HV HS'|]; subst. exists v. split; [assumption|]. exists d, e, w. now split.
    + destruct HF as [-> HG]. split; [reflexivity|]. intros H. apply HG. intros v HV d e w HS HT HW. apply (H d e w); [|assumption|assumption]. eapply in_list; eauto.
  - inversion DK as [? HAt| |? HN HD]; subst; [discriminate|].
    assert (HC : Forall (collects (fun e => extract_type_enums (snd e)) TypeError (fun e => enums_are_names (snd e)) (fun e => type_value (snd e))) d).
    { rewrite Forall_forall in *. intros [k x] HX l. apply (IH _ HX). apply (HD _ HX). }
    intros l. cbn [extract_type_enums].
    assert (INV : forall d', inside (VDict d') (VDict d) -> d' = d \/ exists e, In e d /\ inside (VDict d') (snd e)).
    { intros d' HI. inversion HI as [|? ? HV HS|k v ? HV HS]; subst; [now left|]. right. exists (k, v). auto. }
    assert (MK : forall d' e, In e d -> inside (VDict d') (snd e) -> inside (VDict d') (VDict d)).
    { intros d' [k v] HE HS. eapply in_dict; eauto. }
    set (m := match lookup (s "type") d with Some (VDict t) => _ | _ => Ok l end).
    assert (HM : match m with
                 | Ok r => (forall e w, In (s "type", VDict e) d -> In (s "enum", w) e -> names w) /\
                           (forall x, In x r <-> In x l \/ exists e w, In (s "type", VDict e) d /\ In (s "enum", w) e /\ loops_over w x) /\ (NoDup l -> NoDup r)
                 | Err ex => ex = TypeError /\ ~ (forall e w, In (s "type", VDict e) d -> In (s "enum", w) e -> names w)
                 end).
    { unfold m. assert (NO : (forall e w, In (s "type", VDict e) d -> In (s "enum", w) e -> False) ->
        (forall e w, In (s "type", VDict e) d -> In (s "enum", w) e -> names w) /\
        (forall x, In x l <-> In x l \/ exists e w, In (s "type", VDict e) d /\ In (s "enum", w) e /\ loops_over w x) /\ (NoDup l -> NoDup l)).
      { intros HF. split; [intros e w H1 H2; destruct (HF e w H1 H2)|]. split; [|auto]. intros x. split; [now left|]. intros [H|(e & w & H1 & H2 & _)]; [assumption|destruct (HF e w H1 H2)]. }
      destruct (lookup (s "type") d) as [w|] eqn:EL.
      - assert (HW : forall w', In (s "type", w') d <-> w' = w).
        { intros w'. split; [intros HI; apply lookup_in in HI; [congruence|assumption]|]. intros ->. now apply lookup_In. }
        destruct w as [| | | | | |t|].
        1-6,8: apply NO; intros e w H1 _; apply HW in H1; discriminate.
        assert (DT : NoDup (map fst t)).
        { rewrite Forall_forall in HD. pose proof (HD _ (lookup_In _ _ _ EL)) as HT. cbn in HT. inversion HT; subst; [discriminate|assumption]. }
        destruct (lookup (s "enum") t) as [w|] eqn:ET.
        + assert (HX : forall e w', In (s "type", VDict e) d /\ In (s "enum", w') e <-> e = t /\ w' = w).
          { intros e w'. rewrite HW. split.
            - intros [H1 H2]. assert (e = t) by congruence. subst. split; [reflexivity|]. apply lookup_in in H2; [congruence|assumption].
            - intros [-> ->]. split; [reflexivity|]. now apply lookup_In. }
          pose proof (enum_values_spec w l) as HV. destruct (enum_values w l) as [r|ex].
          * destruct HV as (HG & HI & HN'). split; [|split; [|assumption]].
            -- intros e w' H1 H2. destruct (proj1 (HX e w') (conj H1 H2)) as [_ ->]. assumption.
            -- intros x. rewrite HI. split; (intros [H|H]; [now left|right]).
               ++ exists t, w. destruct (proj2 (HX t w) (conj eq_refl eq_refl)). auto.
               ++ destruct H as (e & w' & H1 & H2 & H3). destruct (proj1 (HX e w') (conj H1 H2)) as [_ ->]. assumption.
          * destruct HV as [-> HG]. split; [reflexivity|]. intros H. apply HG. destruct (proj2 (HX t w) (conj eq_refl eq_refl)) as [H1 H2]. exact (H t w H1 H2).
        + apply NO. intros e w H1 H2. apply HW in H1. assert (e = t) by congruence. subst. exact (lookup_none_in _ _ _ ET H2).
      - apply NO. intros e w H1 _. exact (lookup_none_in _ _ _ EL H1). }
    destruct m as [l'|ex]; cbn [rbind].
    + destruct HM as (HG & HI & HNd). pose proof (foldM_collects _ _ _ _ _ HC l') as HF.
      destruct (foldM (fun e => extract_type_enums (snd e)) d l') as [r|ex].
      * destruct HF as (HG' & HI' & HNd'). split; [|split; [|auto]].
        -- intros d' e w HS HT HW. destruct (INV d' HS) as [->|(e' & HE & HS')]; [now apply (HG e)|]. now apply (HG' e' HE d' e w).
        -- intros x. rewrite HI', HI. split.
           ++ intros [[H|(e & w & H)]|(e' & HE & d' & e & w & HS & HR)]; [now left|right; exists d, e, w; split; [constructor|assumption]|right; exists d', e, w; split; [now apply (MK d' e')|assumption]].
           ++ intros [H|(d' & e & w & HS & HR)]; [tauto|]. destruct (INV d' HS) as [->|(e' & HE & HS')]; [left; right; now exists e, w|]. right. exists e'. split; [assumption|]. now exists d', e, w.
      * destruct HF as [-> HG']. split; [reflexivity|]. intros H. apply HG'. intros e' HE d' e w HS HT HW. apply (H d' e w); [now apply (MK d' e')|assumption|assumption].
    + destruct HM as [-> HG]. split; [reflexivity|]. intros H. apply HG. intros e w HT HW. apply (H d e w); [constructor|assumption|assumption].
Qed.
