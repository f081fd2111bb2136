From Coq Require Import List NArith ZArith Bool String Arith Lia Sorted Permutation Relations.
From Verif Require Import PyStr Values Basics GenCode SpecApi ApiFacts Analyze SpecAnalyze AnalyzeFacts AnalyzeFacts2 AnalyzeFacts3 AnalyzeFacts4 SpecEqual EqualFacts LeafFacts.
Import ListNotations.
Open Scope string_scope.
Open Scope list_scope.

Lemma alphabetical_sort (P : str -> Prop) l : NoDup l -> (forall x, In x l <-> P x) -> alphabetical P (sort l).
Proof. intros HN HI. split; [now apply sort_strict|]. intros x. rewrite sort_in. apply HI. Qed.
Lemma sort_length l : List.length (sort l) = List.length l.
Proof. symmetry. apply Permutation_length, sort_perm. Qed.
Lemma names_filter p (defs : list (str * value)) : NoDup (map fst defs) ->
  size_of (fun n => defined defs n /\ p n = true) (List.length (dict_names p defs)).
Proof.
  intros HN. exists (map fst (dict_names p defs)). unfold dict_names. split; [|split; [|apply map_length]].
  - induction defs as [|[k v] r IH]; [constructor|]. inversion HN as [|? ? HX HR]; subst. cbn. destruct (p k); [|now apply IH]. cbn. constructor; [|now apply IH].
    intros HI. apply HX. apply in_map_iff in HI as (e & HE & HI). apply filter_In in HI as [HI _]. apply in_map_iff. now exists e.
  - intros x. rewrite in_map_iff. unfold defined. split.
    + intros ([k v] & HE & HI). cbn in HE. subst. apply filter_In in HI as [HI HP]. split; [now exists v|exact HP].
    + intros [[v HI] HP]. exists (x, v). split; [reflexivity|]. apply filter_In. now split.
Qed.
Lemma size_ext (P Q : str -> Prop) n : (forall x, P x <-> Q x) -> size_of P n -> size_of Q n.
Proof. intros HE (l & H1 & H2 & H3). exists l. split; [assumption|]. split; [|assumption]. intros x. now rewrite H2. Qed.
Lemma size_unique (P : str -> Prop) n m : size_of P n -> size_of P m -> n = m.
Proof.
  intros (l & H1 & H2 & <-) (l' & H1' & H2' & <-). apply Permutation_length, NoDup_Permutation; try assumption. intros x. now rewrite H2, H2'.
Qed.

Theorem report_exact E defs text : walks E -> distinct_keys (VDict defs) -> report E defs = Ok (Some text) ->
  exists r, reports defs r /\ text = report_text (upper E) r.
Proof.
  intros W DK HR. unfold report in HR. apply rbind_ok in HR as ([[en g] ord] & HA & HR). pose proof (analysis_spec E W defs DK) as HS. rewrite HA in HS.
  destruct HS as (H1 & H2 & H3 & H4 & H5 & H6 & H7 & ->).
  destruct (topological_sort_spec E g W H5) as (out & HT & HO). rewrite HT in HR.
  assert (DN : NoDup (map fst defs)) by (inversion DK; subst; [discriminate|assumption]).
  exists (ReportData (List.length defs) (List.length (node_defs defs)) (List.length (mark_defs defs)) (List.length (other_defs defs))
            (sort en) (sort (mark_bases defs)) out (fun b => sort (deps_of g b))).
  split.
  - unfold reports. cbn [n_all n_nodes n_marks n_others enums marks order needed_by].
    assert (HNM : forall n, negb (is_node n) && is_mark n = true <-> ends_with "_mark" n).
    { intros n. rewrite andb_true_iff, negb_true_iff, is_mark_iff. split; [tauto|]. intros HM. split; [|assumption]. destruct (is_node n) eqn:EN; [|reflexivity].
      apply is_node_iff in EN as [x ->]. destruct HM as [y HY]. destruct (node_not_mark _ _ HY). }
    split; [|split; [|split; [|split; [|split; [|split; [|split]]]]]].
    + exists (map fst defs). split; [assumption|]. split; [|apply map_length]. intros x. unfold defined. rewrite in_map_iff. split.
      * intros ([k v] & <- & HI). now exists v.
      * intros [v HI]. now exists (x, v).
    + eapply size_ext; [|now apply names_filter]. intros x. cbv beta. now rewrite is_node_iff.
    + eapply size_ext; [|now apply names_filter]. intros x. cbv beta. now rewrite HNM.
    + eapply size_ext; [|now apply names_filter]. intros x. cbv beta. rewrite andb_true_iff, !negb_true_iff.
      rewrite <- (not_true_iff_false (is_node x)), <- (not_true_iff_false (is_mark x)), is_node_iff, is_mark_iff. reflexivity.
    + now apply alphabetical_sort.
    + unfold mark_bases. destruct (fold_some (fun e : str * value => get_base_type (fst e)) (mark_defs defs) []) as [HI HN]. cbv zeta in HI, HN.
      apply alphabetical_sort; [apply HN; constructor|]. intros x. rewrite HI. unfold mark_defs, dict_names. split.
      * intros [[]|([n v] & HN' & HB)]. apply filter_In in HN' as [HN' HM]. cbn in HM, HB. apply HNM in HM as [y ->]. apply base_type_iff in HB.
        destruct HB as [HNx [(z & HZ & _)|HZ]]; [symmetry in HZ; now destruct (node_not_mark _ _ HZ)|]. exists (y ++ s "_mark"), v. auto.
      * intros (n & v & HI' & -> & HNx). right. exists (x ++ s "_mark", v). split; [apply filter_In; split; [assumption|cbn; apply HNM; now exists x]|].
        cbn. apply base_type_iff. split; [assumption|]. now right.
    + intros b HB. apply alphabetical_sort; [now apply deps_nodup|]. intros c. rewrite <- H7. apply H6 in HB as [l HL]. rewrite (deps_in g H5 b l HL). split.
      * intros HC. exists l. auto.
      * intros (l' & HL' & HC). rewrite <- (deps_in g H5 b l HL), (deps_in g H5 b l' HL'). assumption.
    + exists g. auto.
  - assert (HE : forall b k, (dec (Z.of_nat k) ++ s ". **" ++ b ++ s "**" ++ match deps_of g b with [] => s " - no dependencies" | _ => s " - depends on: " ++ comma_list (deps_of g b) end)
                 = entry k b (sort (deps_of g b))).
    { intros b k. unfold entry, number, comma_list. f_equal. f_equal. f_equal. pose proof (sort_length (deps_of g b)) as HL.
      destruct (deps_of g b) as [|x l]; [reflexivity|]. destruct (sort (x :: l)) eqn:ES; [discriminate|]. reflexivity. }
    assert (HN : forall order k, numbered g (Z.of_nat k) order = entries (fun b => sort (deps_of g b)) k order).
    { induction order as [|b r IH]; intros k; [reflexivity|]. cbn [numbered entries]. rewrite HE, <- IH. f_equal. f_equal. lia. }
    assert (HF : forall b, nonempty (sort (deps_of g b)) = match deps_of g b with [] => false | _ => true end).
    { intros b. pose proof (sort_length (deps_of g b)) as HL. destruct (deps_of g b), (sort _); try reflexivity; discriminate. }
    assert (HX : Some (join nl (report_lines E defs en g out (mark_bases defs))) = Some text) by congruence.
    assert (text = join nl (report_lines E defs en g out (mark_bases defs))) by congruence. subst text. clear HX HR.
    unfold report_text, report_lines. cbn [n_all n_nodes n_marks n_others enums marks order needed_by].
    unfold count, number. rewrite !sort_length. change 1%Z with (Z.of_nat 1). rewrite HN.
    assert (L1 : filter (fun b => match deps_of g b with [] => true | _ => false end) out = filter (fun b => negb (nonempty (sort (deps_of g b)))) out).
    { apply filter_ext. intros b. rewrite HF. destruct (deps_of g b); reflexivity. }
    assert (L2 : filter (fun b => match deps_of g b with [] => false | _ => true end) out = filter (fun b => nonempty (sort (deps_of g b))) out).
    { apply filter_ext. intros b. rewrite HF. destruct (deps_of g b); reflexivity. }
    rewrite L1, L2. reflexivity.
Qed.

(** ---------------------------------------------------------------- order of keys *)
Lemma reordered_sym v v' : reordered v v' -> reordered v' v.
Proof. apply sd_sym. congruence. Qed.
Lemma reordered_key d d' k x : reordered (VDict d) (VDict d') -> In (k, x) d -> exists y, In (k, y) d' /\ reordered x y.
Proof.
  intros HR HI. inversion HR as [a b HA|?|? ? HN HN' HK HV]; subst; [discriminate|].
  assert (HK' : In k (map fst d')) by (apply HK, in_map_iff; now exists (k, x)). apply in_map_iff in HK' as ([k' y] & HE & HY). cbn in HE. subst k'. exists y. split; [assumption|].
  exact (HV k x y HI HY).
Qed.
Lemma reordered_inside x v : inside x v -> forall v', reordered v v' -> exists x', inside x' v' /\ reordered x x'.
Proof.
  induction 1 as [|v l HI HS IH|k v d HI HS IH]; intros v' HR.
  - exists v'. split; [constructor|assumption].
  - inversion HR as [a b HA|? l' HF|]; subst; [discriminate|].
    assert (HX : exists y, In y l' /\ reordered v y). { clear -HF HI. induction HF as [|a b l l' HAB HF IH]; [destruct HI|]. destruct HI as [<-|HI]; [exists b; split; [now left|assumption]|]. destruct (IH HI) as (y & HY & HR). exists y. split; [now right|assumption]. }
    destruct HX as (y & HY & HRy). destruct (IH y HRy) as (x' & HX & HRx). exists x'. split; [eapply in_list; eauto|assumption].
  - inversion HR as [a b HA| |? d' HN HN' HK HV]; subst; [discriminate|]. destruct (reordered_key d d' k v HR HI) as (y & HY & HRy).
    destruct (IH y HRy) as (x' & HX & HRx). exists x'. split; [eapply in_dict; eauto|assumption].
Qed.
Lemma reordered_dict d v' : reordered (VDict d) v' -> exists d', v' = VDict d'.
Proof. intros HR. inversion HR; subst; [discriminate|eauto]. Qed.
Lemma reordered_str x v' : reordered (VStr x) v' -> v' = VStr x.
Proof. intros HR. inversion HR; subst. congruence. Qed.
Lemma reordered_refers v v' n : reordered v v' -> refers v n -> refers v' n.
Proof.
  intros HR (d & HI & HD). destruct (reordered_inside _ _ HI v' HR) as (x & HX & HRx). destruct (reordered_dict _ _ HRx) as [d' ->].
  exists d'. split; [assumption|]. destruct (reordered_key _ _ _ _ HRx HD) as (y & HY & HRy). apply reordered_str in HRy. now subst.
Qed.
Lemma reordered_elem l l' v : reordered (VList l) (VList l') -> In v l -> exists y, In y l' /\ reordered v y.
Proof.
  intros HR HI. inversion HR as [? ? HA|? ? HF|]; subst; [discriminate|]. clear HR. induction HF as [|a b l l' HAB HF IH]; [destruct HI|].
  destruct HI as [<-|HI]; [exists b; split; [now left|assumption]|]. destruct (IH HI) as (y & HY & HR). exists y. split; [now right|assumption].
Qed.
Lemma reordered_loops w w' t : reordered w w' -> loops_over w t -> loops_over w' t.
Proof.
  intros HR HL. destruct w as [| | | |x|l|d|]; cbn in HL; try contradiction.
  - apply reordered_str in HR. subst. exact HL.
  - inversion HR as [? ? HA|? l' HF|]; subst; [discriminate|]. destruct (reordered_elem _ _ _ HR HL) as (y & HY & HRy). apply reordered_str in HRy. now subst.
  - destruct (reordered_dict _ _ HR) as [d' ->]. destruct HL as [v HV]. destruct (reordered_key _ _ _ _ HR HV) as (y & HY & _). now exists y.
Qed.
Lemma reordered_names w w' : reordered w w' -> names w -> names w'.
Proof.
  intros HR HN. destruct w as [| | | |x|l|d|]; cbn in HN; try contradiction.
  - apply reordered_str in HR. subst. exact I.
  - inversion HR as [? ? HA|? l' HF|]; subst; [discriminate|]. intros y HY. destruct (reordered_elem _ _ _ (reordered_sym _ _ HR) HY) as (x & HX & HRx).
    destruct (HN x HX) as [t ->]. apply reordered_sym, reordered_str in HRx. now exists t.
  - destruct (reordered_dict _ _ HR) as [d' ->]. exact I.
Qed.
Lemma reordered_type_value v v' t : reordered v v' -> type_value v t -> type_value v' t.
Proof.
  intros HR (d & e & w & HI & HT & HW & HL). destruct (reordered_inside _ _ HI v' HR) as (x & HX & HRx). destruct (reordered_dict _ _ HRx) as [d' ->].
  destruct (reordered_key _ _ _ _ HRx HT) as (y & HY & HRy). destruct (reordered_dict _ _ HRy) as [e' ->].
  destruct (reordered_key _ _ _ _ HRy HW) as (w' & HW' & HRw). exists d', e', w'. repeat (split; [assumption|]). now apply (reordered_loops w).
Qed.
Lemma reordered_enums v v' : reordered v v' -> enums_are_names v -> enums_are_names v'.
Proof.
  intros HR HE d e w HI HT HW. apply reordered_sym in HR. destruct (reordered_inside _ _ HI v HR) as (x & HX & HRx). destruct (reordered_dict _ _ HRx) as [d' ->].
  destruct (reordered_key _ _ _ _ HRx HT) as (y & HY & HRy). destruct (reordered_dict _ _ HRy) as [e' ->].
  destruct (reordered_key _ _ _ _ HRy HW) as (w' & HW' & HRw). apply (reordered_names w'); [now apply reordered_sym|]. now apply (HE d' e' w').
Qed.
Lemma reordered_refs v v' : reordered v v' -> refs_are_strings v -> refs_are_strings v'.
Proof.
  intros HR HE d w HI HW. apply reordered_sym in HR. destruct (reordered_inside _ _ HI v HR) as (x & HX & HRx). destruct (reordered_dict _ _ HRx) as [d' ->].
  destruct (reordered_key _ _ _ _ HRx HW) as (y & HY & HRy). destruct (HE d' y HX HY) as [r ->]. apply reordered_sym, reordered_str in HRy. now exists r.
Qed.
Lemma reordered_all_refs d d' : reordered (VDict d) (VDict d') -> all_refs_strings d -> all_refs_strings d'.
Proof.
  intros HR HA x v HI. destruct (reordered_key _ _ _ _ (reordered_sym _ _ HR) HI) as (y & HY & HRy). apply (reordered_refs y); [now apply reordered_sym|]. exact (HA x y HY).
Qed.
Lemma reordered_base_node d d' b : reordered (VDict d) (VDict d') -> base_node d b -> base_node d' b.
Proof. intros HR (n & v & x & HI & H). destruct (reordered_key _ _ _ _ HR HI) as (y & HY & _). now exists n, y, x. Qed.
Lemma reordered_base_mark d d' b : reordered (VDict d) (VDict d') -> base_mark d b -> base_mark d' b.
Proof. intros HR (n & v & HI & H). destruct (reordered_key _ _ _ _ HR HI) as (y & HY & _). now exists n, y. Qed.
Lemma reordered_base_refers d d' b c : reordered (VDict d) (VDict d') -> base_refers d b c -> base_refers d' b c.
Proof.
  intros HR (n & v & x & ref & HI & HX & HB & HRf & H). destruct (reordered_key _ _ _ _ HR HI) as (y & HY & HRy). exists n, y, x, ref.
  repeat (split; [assumption|]). split; [now apply (reordered_refers v)|assumption].
Qed.
Lemma reordered_defined d d' n : reordered (VDict d) (VDict d') -> defined d n -> defined d' n.
Proof. intros HR (v & HI). destruct (reordered_key _ _ _ _ HR HI) as (y & HY & _). now exists y. Qed.

Lemma alphabetical_unique P l l' : alphabetical P l -> alphabetical P l' -> l = l'.
Proof. intros [S1 I1] [S2 I2]. apply strict_ext; try assumption. intros x. now rewrite I1, I2. Qed.
Lemma entries_ext f f' order : (forall b, In b order -> f b = f' b) -> forall k, entries f k order = entries f' k order.
Proof. induction order as [|b r IH]; intros HF k; [reflexivity|]. cbn. rewrite HF by (now left). f_equal. apply IH. intros; apply HF; now right. Qed.

(** The data determine the text, whatever the order of the keys. *)
Theorem report_unique up d d' r r' : reordered (VDict d) (VDict d') -> reports d r -> reports d' r' -> report_text up r = report_text up r'.
Proof.
  intros HR (A1 & A2 & A3 & A4 & A5 & A6 & A7 & g & G1 & G2 & G3 & G4) (B1 & B2 & B3 & B4 & B5 & B6 & B7 & g' & G1' & G2' & G3' & G4').
  pose proof (reordered_sym _ _ HR) as HR'.
  assert (DD : forall n, defined d n <-> defined d' n) by (intros n; split; apply reordered_defined; assumption).
  assert (BN : forall b, base_node d b <-> base_node d' b) by (intros b; split; apply reordered_base_node; assumption).
  assert (BR : forall b c, base_refers d b c <-> base_refers d' b c) by (intros b c; split; apply reordered_base_refers; assumption).
  assert (E1 : n_all r = n_all r') by (eapply size_unique; [eapply size_ext; [exact DD|exact A1]|exact B1]).
  assert (E2 : n_nodes r = n_nodes r'). { eapply size_unique; [eapply size_ext; [|exact A2]|exact B2]. intros x. cbv beta. now rewrite DD. }
  assert (E3 : n_marks r = n_marks r'). { eapply size_unique; [eapply size_ext; [|exact A3]|exact B3]. intros x. cbv beta. now rewrite DD. }
  assert (E4 : n_others r = n_others r'). { eapply size_unique; [eapply size_ext; [|exact A4]|exact B4]. intros x. cbv beta. now rewrite DD. }
  assert (E5 : enums r = enums r').
  { destruct A5 as [S1 I1], B5 as [S2 I2]. apply strict_ext; try assumption. intros x. rewrite I1, I2. split; apply reordered_type_value; assumption. }
  assert (E6 : marks r = marks r').
  { destruct A6 as [S1 I1], B6 as [S2 I2]. apply strict_ext; try assumption. intros x. rewrite I1, I2. split; apply reordered_base_mark; assumption. }
  assert (SG : same_graph g g').
  { assert (NN : forall n, node_of g n <-> node_of g' n) by (intros n; now rewrite G2, G2'). split; [assumption|]. intros n c. unfold needs. now rewrite G3, G3', BR, NN. }
  assert (E7 : order r = order r'). { eapply smallest_first_unique; [|reflexivity|exact G4']. now apply (sf_same g). }
  assert (E8 : forall b, In b (order r) -> needed_by r b = needed_by r' b).
  { intros b HB. assert (HN : base_node d b). { apply G2. destruct (sf_nodup g [] _ G4) as [_ HI]. apply HI in HB. apply HB. }
    destruct (A7 b HN) as [S1 I1], (B7 b (proj1 (BN b) HN)) as [S2 I2]. apply strict_ext; try assumption. intros x. now rewrite I1, I2. }
  unfold report_text. rewrite E1, E2, E3, E4, E5, E6, <- E7. rewrite (entries_ext _ _ _ E8).
  assert (F1 : filter (fun b => negb (nonempty (needed_by r b))) (order r) = filter (fun b => negb (nonempty (needed_by r' b))) (order r)).
  { apply filter_ext_in. intros b HB. now rewrite E8. }
  assert (F2 : filter (fun b => nonempty (needed_by r b)) (order r) = filter (fun b => nonempty (needed_by r' b)) (order r)).
  { apply filter_ext_in. intros b HB. now rewrite E8. }
  rewrite F1, F2.
  assert (F3 : map (fun b => bullet (s "Node" ++ capital up b) ++ s " - needs: " ++ join (s ", ") (needed_by r b)) (filter (fun b => nonempty (needed_by r' b)) (order r)) =
               map (fun b => bullet (s "Node" ++ capital up b) ++ s " - needs: " ++ join (s ", ") (needed_by r' b)) (filter (fun b => nonempty (needed_by r' b)) (order r))).
  { apply map_ext_in. intros b HB. apply filter_In in HB as [HB _]. now rewrite E8. }
  rewrite F3. reflexivity.
Qed.
