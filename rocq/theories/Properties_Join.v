(** C69: content can be cut in two and joined again. *)
From Coq Require Import List NArith ZArith Bool String Lia.
From Verif Require Import PyStr Values Schema Parse Serialize Date Markdown Basics StrFacts ParseFacts ParseFacts2 ParseFacts4 ParseFacts5 Collapse LayoutFacts MdFacts LeafFacts
  SpecParse MdFacts2 SpecMd SpecList SpecJoin Properties_Marks Properties_Nodes Properties_Layout Properties_Lists.
Import ListNotations.
Open Scope string_scope.
Open Scope list_scope.
Open Scope nat_scope.

(** ================================================================ reading *)
Lemma bind_bind {A B C} (m : M A) (f : A -> M B) (g : B -> M C) : bind (bind m f) g = bind m (fun a => bind (f a) g).
Proof. destruct m as [lg [a|e]]; cbn; [|reflexivity]. destruct (f a) as [lg' [b|e]]; cbn; [|reflexivity]. destruct (g b) as [lg'' r]. now rewrite app_assoc. Qed.
Lemma ret_bind {A B} (a : A) (f : A -> M B) : bind (ret a) f = f a.
Proof. cbn. now destruct (f a) as [lg r]. Qed.
Lemma collect_join {A} w (a b : list (M A)) :
  collect w (a ++ b) = bind (collect w a) (fun l => bind (collect w b) (fun l' => ret (l ++ l'))).
Proof.
  induction a as [|[lg [x|e]] a IH].
  - cbn [app collect ret bind]. destruct (collect w b) as [lg [l|e]]; cbn; now rewrite ?app_nil_r.
  - cbn [app]. rewrite !collect_cons, IH. destruct (collect w a) as [lg1 [l1|e1]]; cbn; [|reflexivity].
    destruct (collect w b) as [lg2 [l2|e2]]; cbn; now rewrite ?app_nil_r, ?app_assoc.
  - cbn [app]. rewrite !collect_cons. destruct e; try reflexivity. rewrite IH. destruct (collect w a) as [lg1 [l1|e1]]; cbn; [|reflexivity].
    destruct (collect w b) as [lg2 [l2|e2]]; cbn; now rewrite ?app_nil_r, ?app_assoc.
Qed.
Definition rest (w : bool) (k : nkind) (d : list (str * value)) (oa : option attrs) (l : list node) : M node :=
  bind (run_entry w (marks_entry d)) (fun om => lift (construct k d oa (Some (Items l)) om)).
Lemma from_dict_list w k d l : lookup (s "content") d = Some (VList l) ->
  from_dict w k (VDict d) = bind (lift (attrs_entry (nk_class k) d)) (fun oa => bind (collect w (map (parse_node w) l)) (fun c => rest w k d oa c)).
Proof.
  intros H. unfold from_dict, node_from_entry, content_entry. rewrite H. cbn [run_entry]. destruct (lift _) as [lg [oa|e]]; [|reflexivity]. cbn [bind].
  rewrite bind_bind. destruct (collect w _) as [lg' [c|e]]; [|reflexivity]. cbn [bind]. rewrite ret_bind. reflexivity.
Qed.
Lemma rest_same w k d d' oa l : (forall x, x <> s "content" -> lookup x d' = lookup x d) -> rest w k d' oa l = rest w k d oa l.
Proof.
  intros H. unfold rest, marks_entry. rewrite (H (s "marks")) by discriminate. destruct (run_entry w _) as [lg [om|e]]; [|reflexivity]. cbn [bind].
  rewrite (construct_same k d d'); [reflexivity|]. intros key [<-|[<-|[<-|[]]]]; apply H; discriminate.
Qed.
Lemma attrs_entry_same c d d' : (forall x, x <> s "content" -> lookup x d' = lookup x d) -> attrs_entry c d' = attrs_entry c d.
Proof. intros H. unfold attrs_entry. now rewrite (H (s "attrs")) by discriminate. Qed.
(** The rest does not depend on the elements. *)
Definition with_items (n : node) (l : list node) : node :=
  match n with Node k ty ve tx a co ma => Node k ty ve tx a (match co with NoField => NoField | _ => Items l end) ma end.
Lemma rest_items w k d oa l l' : rest w k d oa l' = bind (rest w k d oa l) (fun n => ret (with_items n l')).
Proof.
  unfold rest. destruct (run_entry w (marks_entry d)) as [lg [om|e]]; [|reflexivity]. cbn [bind]. unfold construct.
  destruct (if nc_text (nk_class k) then _ else _) as [tx|e]; [|reflexivity]. cbn [rbind]. destruct (attrs_field (nk_class k) oa) as [a|e]; [|reflexivity].
  cbn [rbind]. unfold slot_field. destruct (nc_content (nk_class k)); destruct (nc_marks (nk_class k)) as [fk|]; cbn [rbind];
    try (destruct om as [m|]; [|destruct fk]); cbn; rewrite ?app_nil_r; reflexivity.
Qed.
Lemma rest_content w k d oa l lg n : rest w k d oa l = (lg, Ok n) -> n_content n = NoField \/ n_content n = Items l.
Proof.
  unfold rest. destruct (run_entry w (marks_entry d)) as [lg' [om|e]]; [|discriminate]. cbn [bind]. unfold construct.
  destruct (if nc_text (nk_class k) then _ else _) as [tx|e]; [|discriminate]. cbn [rbind]. destruct (attrs_field (nk_class k) oa) as [a|e]; [|discriminate].
  cbn [rbind]. unfold slot_field. destruct (nc_content (nk_class k)); destruct (nc_marks (nk_class k)) as [fk|]; cbn [rbind];
    try (destruct om as [m|]; [|destruct fk]); cbn; intros H; try discriminate; injection H as <- <-; cbn; auto.
Qed.
Lemma with_items_joined n l1 l2 : n_content n = Items l1 -> joined n (with_items n l2) (with_items n (l1 ++ l2)).
Proof. destruct n as [k ty ve tx a co ma]. cbn [n_content]. intros ->. repeat split. exists l1, l2. auto. Qed.
Lemma with_items_self n l : n_content n = NoField \/ n_content n = Items l -> with_items n l = n.
Proof. destruct n as [k ty ve tx a co ma]. cbn [n_content]. intros [->| ->]; reflexivity. Qed.
Lemma with_items_twice n l l' : with_items (with_items n l) l' = with_items n l'.
Proof. destruct n as [k ty ve tx a co ma]. now destruct co. Qed.

(** Everything at once: if the first part can be read, the whole reads exactly like the second. *)
Lemma from_dict_joined w k d1 d2 d n1 : joined_input d1 d2 d -> snd (from_dict w k (VDict d1)) = Ok n1 ->
  exists lg1 lg1' lg2 r,
    (lookup (s "marks") d = None -> lg1' = []) /\
    from_dict w k (VDict d1) = (lg1 ++ lg1', Ok n1) /\ from_dict w k (VDict d2) = (lg2, r) /\
    match r with
    | Err e => from_dict w k (VDict d) = (lg1 ++ lg2, Err e)
    | Ok n2 => exists n, from_dict w k (VDict d) = (lg1 ++ lg2, Ok n) /\ (n_content n1 <> NoField -> joined n1 n2 n)
    end.
Proof.
  intros [HS (l1 & l2 & H1 & H2 & H3)] HN.
  assert (S1 : forall x, x <> s "content" -> lookup x d1 = lookup x d) by (intros x HX; apply HS, HX).
  assert (S2 : forall x, x <> s "content" -> lookup x d2 = lookup x d) by (intros x HX; apply HS, HX).
  rewrite (from_dict_list w k d1 l1 H1), (attrs_entry_same _ d d1 S1) in HN |- *.
  rewrite (from_dict_list w k d2 l2 H2), (attrs_entry_same _ d d2 S2).
  rewrite (from_dict_list w k d (l1 ++ l2) H3). rewrite map_app, collect_join.
  destruct (attrs_entry (nk_class k) d) as [oa|e]; [|discriminate]. cbn [lift bind] in *.
  destruct (collect w (map (parse_node w) l1)) as [lg1 [c1|e1]]; [|discriminate]. cbn [bind] in *.
  rewrite (rest_same w k d d1 oa c1 S1) in HN |- *.
  destruct (rest w k d oa c1) as [lgr [n|e]] eqn:R; [|discriminate]. cbn [snd] in HN. injection HN as ->.
  exists lg1, lgr.
  destruct (collect w (map (parse_node w) l2)) as [lg2 [c2|e2]]; cbn [bind ret].
  - rewrite (rest_same w k d d2 oa c2 S2), (rest_items w k d oa c1 c2), (rest_items w k d oa c1 (c1 ++ c2)), R. cbn [bind ret].
    exists (lg2 ++ lgr ++ []), (Ok (with_items n1 c2)). split; [|split; [reflexivity|split; [reflexivity|]]].
    + intros HM. unfold rest, marks_entry in R. rewrite HM in R. cbn in R. destruct (construct _ _ _ _ _); cbn in R; [injection R as <- _; reflexivity|discriminate].
    + exists (with_items n1 (c1 ++ c2)). split; [now rewrite !app_nil_r, !app_assoc|]. intros HC. apply with_items_joined.
      destruct (rest_content w k d oa c1 lgr n1 R) as [HX|HX]; [congruence|exact HX].
  - exists lg2, (Err e2). split; [|split; [reflexivity|split; [reflexivity|]]]; [|now rewrite ?app_assoc].
    intros HM. unfold rest, marks_entry in R. rewrite HM in R. cbn in R. destruct (construct _ _ _ _ _); cbn in R; [injection R as <- _; reflexivity|discriminate].
Qed.
(** Reading the whole gives the joined object, when both parts can be read. *)
Theorem C69_reading_joins : forall w k d1 d2 d n1 n2, joined_input d1 d2 d ->
  snd (from_dict w k (VDict d1)) = Ok n1 -> snd (from_dict w k (VDict d2)) = Ok n2 -> n_content n1 <> NoField ->
  exists n, snd (from_dict w k (VDict d)) = Ok n /\ joined n1 n2 n.
Proof.
  intros w k d1 d2 d n1 n2 HJ H1 H2 HC. destruct (from_dict_joined w k d1 d2 d n1 HJ H1) as (lg1 & lg1' & lg2 & r & _ & E1 & E2 & HR).
  rewrite E2 in H2. cbn in H2. subst r. destruct HR as (n & E3 & HN). exists n. rewrite E3. auto.
Qed.
(** If the whole can be read, so can the parts, and it is them joined. *)
Theorem C69_reading_cuts : forall w k d1 d2 d n, joined_input d1 d2 d -> snd (from_dict w k (VDict d)) = Ok n -> n_content n <> NoField ->
  exists n1 n2, snd (from_dict w k (VDict d1)) = Ok n1 /\ snd (from_dict w k (VDict d2)) = Ok n2 /\ joined n1 n2 n.
Proof.
  intros w k d1 d2 d n [HS (l1 & l2 & H1 & H2 & H3)] HN HC.
  assert (S1 : forall x, x <> s "content" -> lookup x d1 = lookup x d) by (intros x HX; apply HS, HX).
  assert (S2 : forall x, x <> s "content" -> lookup x d2 = lookup x d) by (intros x HX; apply HS, HX).
  rewrite (from_dict_list w k d1 l1 H1), (attrs_entry_same _ d d1 S1).
  rewrite (from_dict_list w k d2 l2 H2), (attrs_entry_same _ d d2 S2).
  rewrite (from_dict_list w k d (l1 ++ l2) H3) in HN. rewrite map_app, collect_join in HN.
  destruct (attrs_entry (nk_class k) d) as [oa|e]; [|discriminate]. cbn [lift bind] in *.
  destruct (collect w (map (parse_node w) l1)) as [lg1 [c1|e1]]; [|discriminate]. cbn [bind] in *.
  destruct (collect w (map (parse_node w) l2)) as [lg2 [c2|e2]]; [|discriminate]. cbn [bind ret] in *.
  rewrite (rest_same w k d d1 oa c1 S1), (rest_same w k d d2 oa c2 S2). rewrite (rest_items w k d oa (c1 ++ c2) c1), (rest_items w k d oa (c1 ++ c2) c2).
  destruct (rest w k d oa (c1 ++ c2)) as [lgr [n'|e]] eqn:R; [|discriminate]. cbn in HN. injection HN as ->. cbn.
  exists (with_items n c1), (with_items n c2). split; [reflexivity|]. split; [reflexivity|].
  destruct (rest_content w k d oa _ lgr n R) as [HX|HX]; [congruence|].
  pose proof (with_items_joined (with_items n c1) c1 c2) as HJ. rewrite !with_items_twice in HJ. rewrite (with_items_self n (c1 ++ c2)) in HJ by auto. apply HJ.
  destruct n as [? ? ? ? ? co ?]. cbn [n_content] in HX. subst co. reflexivity.
Qed.
(** If the first part can be read, the whole raises what the second raises. *)
Theorem C69_reading_fails : forall w k d1 d2 d n1 e, joined_input d1 d2 d -> snd (from_dict w k (VDict d1)) = Ok n1 ->
  (snd (from_dict w k (VDict d)) = Err e <-> snd (from_dict w k (VDict d2)) = Err e).
Proof.
  intros w k d1 d2 d n1 e HJ H1. destruct (from_dict_joined w k d1 d2 d n1 HJ H1) as (lg1 & lg1' & lg2 & r & _ & E1 & E2 & HR).
  rewrite E2. cbn [snd]. destruct r as [n2|e2].
  - destruct HR as (n & -> & _). split; discriminate.
  - rewrite HR. reflexivity.
Qed.
(** The warnings of the whole are those of the parts, in order (those of the marks of the object itself come once, at the end). *)
Theorem C69_warnings : forall w k d1 d2 d n1, joined_input d1 d2 d -> snd (from_dict w k (VDict d1)) = Ok n1 -> lookup (s "marks") d = None ->
  fst (from_dict w k (VDict d)) = fst (from_dict w k (VDict d1)) ++ fst (from_dict w k (VDict d2)).
Proof.
  intros w k d1 d2 d n1 HJ H1 HM. destruct (from_dict_joined w k d1 d2 d n1 HJ H1) as (lg1 & lg1' & lg2 & r & HL & E1 & E2 & HR).
  rewrite E1, E2, (HL HM). cbn [fst]. rewrite app_nil_r. destruct r as [n2|e2]; [destruct HR as (n & -> & _)|rewrite HR]; reflexivity.
Qed.

(** ================================================================ writing *)
Lemma lookup_skip {A} k c (v v' : A) (a b : list (str * A)) : k <> c -> lookup k (a ++ (c, v) :: b) = lookup k (a ++ (c, v') :: b).
Proof.
  intros H. induction a as [|[k0 x] a IH]; cbn [app lookup].
  - destruct (str_eqb c k) eqn:E; [apply str_eqb_eq in E; congruence|reflexivity].
  - destruct (str_eqb k0 k); [reflexivity|exact IH].
Qed.
Lemma lookup_mid {A} c (v : A) (a b : list (str * A)) : ~ In c (map fst a) -> lookup c (a ++ (c, v) :: b) = Some v.
Proof.
  induction a as [|[k0 x] a IH]; cbn [app lookup map fst In]; intros H.
  - now rewrite str_eqb_refl.
  - destruct (str_eqb k0 c) eqn:E; [apply str_eqb_eq in E; tauto|]. apply IH. tauto.
Qed.
Definition before (n : node) : list (str * value) :=
  (s "type", n_type n)
  :: match n_version n with Some v => [(s "version", v)] | None => [] end
  ++ match n_text n with Some v => [(s "text", v)] | None => [] end
  ++ match n_attrs n with NoAttrs | AOpt => [] | AObj l => [(s "attrs", attrs_to_dict l)] end.
Definition marks_out (n : node) : res (option (list value)) :=
  match n_marks n with
  | NoField | SOpt => Ok None
  | Items l => Ok (Some (map mark_to_dict l))
  | Raw v => do xs <- raw_to_dicts v; Ok (Some xs)
  end.
Lemma to_dict_items n l : n_content n = Items l ->
  node_to_dict n = do xs <- mapM node_to_dict l; do ms <- marks_out n;
    Ok (VDict (remove_optional (before n) ++ (s "content", VList xs) :: remove_optional (match ms with Some l => [(s "marks", VList l)] | None => [] end))).
Proof.
  destruct n as [k ty ve tx a co ma]. cbn [n_content]. intros ->. cbn [node_to_dict]. destruct (mapM node_to_dict l) as [xs|e]; [|reflexivity]. cbn [rbind].
  unfold marks_out, before. cbn [n_marks n_type n_version n_text n_attrs].
  destruct (match ma with NoField | SOpt => _ | _ => _ end) as [ms|e]; [|reflexivity]. cbn [rbind]. do 2 f_equal.
  unfold remove_optional.
  replace ((s "type", ty) :: _) with (((s "type", ty) :: match ve with Some v => [(s "version", v)] | None => [] end
    ++ match tx with Some v => [(s "text", v)] | None => [] end ++ match a with NoAttrs | AOpt => [] | AObj l0 => [(s "attrs", attrs_to_dict l0)] end)
    ++ [(s "content", VList xs)] ++ match ms with Some l0 => [(s "marks", VList l0)] | None => [] end).
  - rewrite !filter_app. reflexivity.
  - cbn [app]. now rewrite <- !app_assoc.
Qed.
Lemma before_same a b : same_but_content a b -> before a = before b /\ marks_out a = marks_out b.
Proof. intros (H1 & H2 & H3 & H4 & H5 & H6). unfold before, marks_out. now rewrite H2, H3, H4, H5, H6. Qed.
Lemma before_no_content n : ~ In (s "content") (map fst (remove_optional (before n))).
Proof.
  intros H. apply in_map_iff in H as ((k & v) & HK & HI). cbn in HK. subst k. apply filter_In in HI as [HI _]. unfold before in HI.
  destruct HI as [HI|HI]; [discriminate|]. rewrite !in_app_iff in HI.
  destruct (n_version n), (n_text n), (n_attrs n); cbn in HI; intuition discriminate.
Qed.
Lemma mapM_join {A B} (f : A -> res B) a b : mapM f (a ++ b) = do x <- mapM f a; do y <- mapM f b; Ok (x ++ y).
Proof.
  induction a as [|x a IH]; cbn [app mapM].
  - cbn. now destruct (mapM f b).
  - destruct (f x) as [y|e]; [|reflexivity]. cbn [rbind]. rewrite IH. destruct (mapM f a) as [ys|e]; [|reflexivity]. cbn [rbind].
    now destruct (mapM f b).
Qed.
Theorem C69_writing_joins : forall n1 n2 n o1 o2, joined n1 n2 n -> node_to_dict n1 = Ok (VDict o1) -> node_to_dict n2 = Ok (VDict o2) ->
  exists o, node_to_dict n = Ok (VDict o) /\ joined_input o1 o2 o.
Proof.
  intros n1 n2 n o1 o2 (S1 & S2 & l1 & l2 & C1 & C2 & C3) H1 H2.
  rewrite (to_dict_items n1 l1 C1) in H1. rewrite (to_dict_items n2 l2 C2) in H2. rewrite (to_dict_items n _ C3).
  destruct (before_same _ _ S1) as [B1 M1]. destruct (before_same _ _ S2) as [B2 M2]. rewrite B1, M1 in H1. rewrite B2, M2 in H2. rewrite mapM_join.
  destruct (mapM node_to_dict l1) as [xs1|e]; [|discriminate]. destruct (mapM node_to_dict l2) as [xs2|e]; [|discriminate]. cbn [rbind] in *.
  destruct (marks_out n) as [ms|e]; [|discriminate]. cbn [rbind] in *.
  assert (o1 = _) by (symmetry; injection H1 as H1; exact H1). assert (o2 = _) by (symmetry; injection H2 as H2; exact H2). subst o1 o2.
  eexists. split; [reflexivity|]. split.
  - intros k HK. split; apply lookup_skip; exact HK.
  - exists xs1, xs2. rewrite !lookup_mid by apply before_no_content. auto.
Qed.
Theorem C69_writing_cuts : forall n1 n2 n o, joined n1 n2 n -> node_to_dict n = Ok (VDict o) ->
  exists o1 o2, node_to_dict n1 = Ok (VDict o1) /\ node_to_dict n2 = Ok (VDict o2) /\ joined_input o1 o2 o.
Proof.
  intros n1 n2 n o HJ H. pose proof HJ as (S1 & S2 & l1 & l2 & C1 & C2 & C3).
  assert (HO : exists o1 o2, node_to_dict n1 = Ok (VDict o1) /\ node_to_dict n2 = Ok (VDict o2)).
  { rewrite (to_dict_items n1 l1 C1), (to_dict_items n2 l2 C2). rewrite (to_dict_items n _ C3), mapM_join in H.
    destruct (before_same _ _ S1) as [B1 M1]. destruct (before_same _ _ S2) as [B2 M2]. rewrite M1, M2.
    destruct (mapM node_to_dict l1) as [xs1|e]; [|discriminate]. destruct (mapM node_to_dict l2) as [xs2|e]; [|discriminate]. cbn [rbind] in *.
    destruct (marks_out n) as [ms|e]; [|discriminate]. cbn [rbind] in *. eauto. }
  destruct HO as (o1 & o2 & H1 & H2). exists o1, o2. split; [exact H1|]. split; [exact H2|].
  destruct (C69_writing_joins n1 n2 n o1 o2 HJ H1 H2) as (o' & H' & HJ'). rewrite H' in H. injection H as ->. exact HJ'.
Qed.

(** ================================================================ rendering *)
Lemma for_each_join {A B} (f : A -> res (list B)) a b : for_each f (a ++ b) = do x <- for_each f a; do y <- for_each f b; Ok (x ++ y).
Proof.
  induction a as [|x a IH]; cbn [app for_each].
  - cbn. fold (for_each f). now destruct (for_each f b).
  - cbn. fold (for_each f). destruct (f x) as [y|e]; [|reflexivity]. cbn [rbind]. rewrite IH. destruct (for_each f a) as [ys|e]; [|reflexivity]. cbn [rbind].
    destruct (for_each f b); [|reflexivity]. cbn. now rewrite app_assoc.
Qed.
Definition additive {B} (F : list node -> res (list B)) : Prop :=
  forall a b xs, F (a ++ b) = Ok xs <-> exists xa xb, F a = Ok xa /\ F b = Ok xb /\ xs = xa ++ xb.
Lemma ok_eq {A} (a b : A) : Ok a = Ok b <-> a = b.
Proof. split; [intros [= H]; exact H|congruence]. Qed.
Lemma additive_for_each {B} (f : node -> res (list B)) : additive (for_each f).
Proof.
  intros a b xs. rewrite for_each_join. destruct (for_each f a) as [xa|e]; cbn [rbind]; [destruct (for_each f b) as [xb|e]; cbn [rbind]|].
  - rewrite ok_eq. split; [intros <-; exists xa, xb; auto|]. now intros (? & ? & [= <-] & [= <-] & ->).
  - split; [discriminate|]. intros (? & ? & _ & [=] & _).
  - split; [discriminate|]. intros (? & ? & [=] & _).
Qed.
Lemma additive_map {B C} (F : list node -> res (list B)) (g : list B -> res (list C)) :
  additive F -> (forall a b xs, g (a ++ b) = Ok xs <-> exists xa xb, g a = Ok xa /\ g b = Ok xb /\ xs = xa ++ xb) ->
  additive (fun l => do v <- F l; g v).
Proof.
  intros HF HG a b xs. split.
  - intros H. destruct (F (a ++ b)) as [v|e] eqn:E; [|discriminate]. cbn [rbind] in H. apply HF in E as (va & vb & E1 & E2 & ->).
    rewrite E1, E2. cbn [rbind]. now apply HG.
  - intros (xa & xb & H1 & H2 & ->). destruct (F a) as [va|e] eqn:E1; [|discriminate]. destruct (F b) as [vb|e] eqn:E2; [|discriminate]. cbn [rbind] in *.
    rewrite (proj2 (HF a b (va ++ vb))); [|eauto]. cbn [rbind]. apply HG. eauto.
Qed.
Lemma as_str_split a b xs : mapM as_str (a ++ b) = Ok xs <-> exists xa xb, mapM as_str a = Ok xa /\ mapM as_str b = Ok xb /\ xs = xa ++ xb.
Proof.
  rewrite mapM_join. destruct (mapM as_str a) as [xa|e]; cbn [rbind]; [destruct (mapM as_str b) as [xb|e]; cbn [rbind]|].
  - rewrite ok_eq. split; [intros <-; exists xa, xb; auto|]. now intros (? & ? & [= <-] & [= <-] & ->).
  - split; [discriminate|]. intros (? & ? & _ & [=] & _).
  - split; [discriminate|]. intros (? & ? & [=] & _).
Qed.
Lemma join_pasted sep a b : pasted sep (join sep a) (join sep b) (join sep (a ++ b)).
Proof.
  destruct a as [|x a]; [right; left; auto|]. destruct b as [|y b]; [right; right; rewrite app_nil_r; auto|].
  left. apply join_app; discriminate.
Qed.
(** Pieces joined by a separator. *)
Definition in_pieces (sep : str) (F : list node -> res (list str)) (r : res value) (l : list node) : Prop :=
  forall x, r = Ok (VStr x) <-> exists xs, F l = Ok xs /\ x = join sep xs.
Lemma okstr_iff a b : Ok (VStr a) = Ok (VStr b) <-> b = a.
Proof. split; [intros [= ->]; reflexivity|congruence]. Qed.
Lemma pieces_values sep f l : in_pieces sep (fun l => do vs <- for_each f l; mapM as_str vs) (do vs <- for_each f l; do x <- join_values sep vs; Ok (VStr x)) l.
Proof.
  intros x. cbn beta. destruct (for_each f l) as [vs|e]; cbn [rbind]; [|split; [discriminate|intros (? & [=] & _)]].
  unfold join_values. destruct (mapM as_str vs) as [xs|e]; cbn [rbind]; [|split; [discriminate|intros (? & [=] & _)]].
  rewrite okstr_iff. split; [intros ->; eauto|]. now intros (? & [= <-] & ->).
Qed.
Lemma same_parts m n : same_but_content m n -> exists co, m = Node (n_kind n) (n_type n) (n_version n) (n_text n) (n_attrs n) co (n_marks n).
Proof. destruct m as [k ty ve tx a co ma]. intros (H1 & H2 & H3 & H4 & H5 & H6). cbn in *. subst. now exists co. Qed.
Lemma separator_pieces E ign n sep : separator (n_kind n) = Some sep -> exists F, additive F /\
  forall m l, same_but_content m n -> n_content m = Items l -> in_pieces sep F (to_markdown E m ign) l.
Proof.
  intros HS.
  assert (HV : forall f : node -> res (list value), (forall m l, same_but_content m n -> n_content m = Items l ->
     to_markdown E m ign = do vs <- for_each f l; do x <- join_values sep vs; Ok (VStr x)) -> exists F, additive F /\
     forall m l, same_but_content m n -> n_content m = Items l -> in_pieces sep F (to_markdown E m ign) l).
  { intros f Hf. exists (fun l => do vs <- for_each f l; mapM as_str vs). split.
    - apply additive_map; [apply additive_for_each|exact as_str_split].
    - intros m l HM HC. rewrite (Hf m l HM HC). apply pieces_values. }
  destruct n as [k ty ve tx a co ma]. cbn [n_kind] in HS.
  destruct k; try discriminate; cbn [separator] in HS; injection HS as <-.
  all: first
    [ refine (HV (fun c => try_ ign (to_md E c None false)) _); intros m l HM HC; destruct (same_parts _ _ HM) as (co' & ->); cbn in HC; subst co';
      unfold to_markdown; cbn [to_md content_to_markdown loop n_kind n_type n_version n_text n_attrs n_marks]; cbn [content_to_markdown loop];
      destruct (for_each _ l); reflexivity
    | refine (HV (table_row_lines (to_md E) ign) _); intros m l HM HC; destruct (same_parts _ _ HM) as (co' & ->); cbn in HC; subst co'; reflexivity
    | refine (HV _ _); intros m l HM HC; destruct (same_parts _ _ HM) as (co' & ->); cbn in HC; subst co'; reflexivity
    | idtac ].
  exists (fun l => do its <- for_each (fun item => if is_type_of item [s "listItem"] then do ls <- item_lines (to_md E) (s "bulletList") 0 ign item; Ok [ls] else Ok []) l;
                   Ok (List.concat (map (bullet_item 0) its))).
  split.
  - apply additive_map; [apply additive_for_each|]. intros x y xs. rewrite ok_eq, map_app, concat_app. split; [intros <-; eauto|].
    now intros (? & ? & [= <-] & [= <-] & ->).
  - intros m l HM HC. destruct (same_parts _ _ HM) as (co' & ->). cbn in HC. subst co'. unfold to_markdown.
    cbn [to_md n_kind n_type n_version n_text n_attrs n_marks]. unfold bullet_list_md, list_items. cbn [loop]. intros x.
    destruct (for_each _ l) as [its|e]; cbn [rbind]; [|split; [discriminate|intros (? & [=] & _)]].
    rewrite okstr_iff. split; [intros ->; eauto|]. now intros (? & [= <-] & ->).
Qed.
Theorem C69_rendering_joins : forall E n1 n2 n ign sep x1 x2, joined n1 n2 n -> separator (n_kind n) = Some sep ->
  to_markdown E n1 ign = Ok (VStr x1) -> to_markdown E n2 ign = Ok (VStr x2) ->
  exists x, to_markdown E n ign = Ok (VStr x) /\ pasted sep x1 x2 x.
Proof.
  intros E n1 n2 n ign sep x1 x2 (S1 & S2 & l1 & l2 & C1 & C2 & C3) HS H1 H2. destruct (separator_pieces E ign n sep HS) as (F & HA & HF).
  apply (HF n1 l1 S1 C1) in H1 as (a & A1 & ->). apply (HF n2 l2 S2 C2) in H2 as (b & A2 & ->).
  exists (join sep (a ++ b)). split; [|apply join_pasted]. apply (HF n (l1 ++ l2)); [repeat split|exact C3|]. exists (a ++ b). split; [|reflexivity].
  apply HA. eauto.
Qed.
Theorem C69_rendering_cuts : forall E n1 n2 n ign sep x, joined n1 n2 n -> separator (n_kind n) = Some sep ->
  to_markdown E n ign = Ok (VStr x) ->
  exists x1 x2, to_markdown E n1 ign = Ok (VStr x1) /\ to_markdown E n2 ign = Ok (VStr x2) /\ pasted sep x1 x2 x.
Proof.
  intros E n1 n2 n ign sep x (S1 & S2 & l1 & l2 & C1 & C2 & C3) HS H. destruct (separator_pieces E ign n sep HS) as (F & HA & HF).
  assert (SN : same_but_content n n) by (repeat split). destruct (proj1 (HF n (l1 ++ l2) SN C3 x) H) as (xs & A & ->). apply HA in A as (a & b & A1 & A2 & ->).
  exists (join sep a), (join sep b). split; [apply (HF n1 l1 S1 C1); eauto|]. split; [apply (HF n2 l2 S2 C2); eauto|apply join_pasted].
Qed.

(** ---------------------------------------------------------------- documents and expands: the lines that are not blank *)
Lemma doc_pieces E ign n : In (n_kind n) [Kdoc; KnestedExpand] -> exists F, additive F /\
  forall m l, same_but_content m n -> n_content m = Items l ->
    forall x, to_markdown E m ign = Ok (VStr x) <-> exists xs, F l = Ok xs /\ x = strip_double_empty_line (join nl xs).
Proof.
  intros HK. exists (fun l => do vs <- for_each (fun c => try_ ign (block_md (to_md E) c)) l; mapM as_str vs). split.
  - apply additive_map; [apply additive_for_each|exact as_str_split].
  - intros m l HM HC x. destruct (same_parts _ _ HM) as (co' & ->). cbn in HC. subst co'.
    destruct n as [k ty ve tx a co ma]. cbn [n_kind n_type n_version n_text n_attrs n_marks] in *.
    assert (HE : to_markdown E (Node k ty ve tx a (Items l) ma) ign = do y <- doc_content_to_markdown (to_md E) (Items l) ign; Ok (VStr y)).
    { destruct HK as [<-|[<-|[]]]; reflexivity. }
    rewrite HE. unfold doc_content_to_markdown. cbn [loop]. destruct (for_each _ l) as [vs|e]; cbn [rbind]; [|split; [discriminate|intros (? & [=] & _)]].
    unfold join_values. destruct (mapM as_str vs) as [xs|e]; cbn [rbind]; [|split; [discriminate|intros (? & [=] & _)]].
    rewrite okstr_iff. split; [intros ->; eauto|]. now intros (? & [= <-] & ->).
Qed.
Theorem C69_documents_join : forall E n1 n2 n ign x1 x2, joined n1 n2 n -> In (n_kind n) [Kdoc; KnestedExpand] ->
  to_markdown E n1 ign = Ok (VStr x1) -> to_markdown E n2 ign = Ok (VStr x2) ->
  exists x, to_markdown E n ign = Ok (VStr x) /\ full_lines x = full_lines x1 ++ full_lines x2.
Proof.
  intros E n1 n2 n ign x1 x2 (S1 & S2 & l1 & l2 & C1 & C2 & C3) HK H1 H2. destruct (doc_pieces E ign n HK) as (F & HA & HF).
  destruct (proj1 (HF n1 l1 S1 C1 x1) H1) as (a & A1 & ->). destruct (proj1 (HF n2 l2 S2 C2 x2) H2) as (b & A2 & ->).
  exists (strip_double_empty_line (join nl (a ++ b))). assert (SN : same_but_content n n) by (repeat split). split.
  - apply (HF n (l1 ++ l2) SN C3). exists (a ++ b). split; [|reflexivity]. apply HA. eauto.
  - now rewrite !strip_full_lines, !full_lines_join, map_app, concat_app.
Qed.
Theorem C69_documents_cut : forall E n1 n2 n ign x, joined n1 n2 n -> In (n_kind n) [Kdoc; KnestedExpand] ->
  to_markdown E n ign = Ok (VStr x) ->
  exists x1 x2, to_markdown E n1 ign = Ok (VStr x1) /\ to_markdown E n2 ign = Ok (VStr x2) /\ full_lines x = full_lines x1 ++ full_lines x2.
Proof.
  intros E n1 n2 n ign x (S1 & S2 & l1 & l2 & C1 & C2 & C3) HK H. destruct (doc_pieces E ign n HK) as (F & HA & HF).
  assert (SN : same_but_content n n) by (repeat split). destruct (proj1 (HF n (l1 ++ l2) SN C3 x) H) as (xs & A & ->). apply HA in A as (a & b & A1 & A2 & ->).
  exists (strip_double_empty_line (join nl a)), (strip_double_empty_line (join nl b)).
  split; [apply (HF n1 l1 S1 C1); eauto|]. split; [apply (HF n2 l2 S2 C2); eauto|]. now rewrite !strip_full_lines, !full_lines_join, map_app, concat_app.
Qed.

(** ---------------------------------------------------------------- ordered lists: the second part goes on counting *)
Lemma ordered_items_app lv st a : forall i b, ordered_items lv st i (a ++ b) = ordered_items lv st i a ++ ordered_items lv st (i + List.length a) b.
Proof.
  induction a as [|x a IH]; intros i b; cbn [app ordered_items List.length]; [now rewrite Nat.add_0_r|].
  rewrite IH, <- app_assoc. do 3 f_equal. lia.
Qed.
Lemma ordered_items_shift lv z m b : forall i, ordered_items lv (VInt z) (m + i) b = ordered_items lv (VInt (z + Z.of_nat m)) i b.
Proof.
  induction b as [|x b IH]; intros i; cbn [ordered_items]; [reflexivity|]. rewrite <- Nat.add_succ_r, IH. f_equal.
  unfold ordered_item. cbn [ol_number]. do 4 f_equal. lia.
Qed.
Lemma items_count E ign l its : Forall consistent l ->
  for_each (fun item => if is_type_of item [s "listItem"] then do ls <- item_lines (to_md E) (s "orderedList") 0 ign item; Ok [ls] else Ok []) l = Ok its ->
  List.length its = List.length (filter is_item l).
Proof.
  intros HC. revert its. induction HC as [|c l HC1 HC2 IH]; intros its H; [injection H as <-; reflexivity|]. cbn in H. fold (@for_each node (list str)) in H.
  assert (HT : is_type_of c [s "listItem"] = is_item c).
  { unfold is_item. destruct (nk_eq_dec (n_kind c) KlistItem) as [HK|HK].
    - now apply (is_type_of_kind c KlistItem HC1).
    - destruct (is_type_of c [s "listItem"]) eqn:E0; [|reflexivity]. apply (is_type_of_kind c KlistItem HC1) in E0. congruence. }
  rewrite HT in H. cbn [filter]. destruct (is_item c).
  - destruct (item_lines _ _ _ _ _) as [ls|e]; [|discriminate]. cbn [rbind] in H. destruct (for_each _ l) as [its'|e]; [|discriminate]. cbn in H. injection H as <-.
    cbn [List.length]. now rewrite (IH its' eq_refl).
  - cbn [rbind] in H. destruct (for_each _ l) as [its'|e]; [|discriminate]. cbn in H. injection H as <-. now apply IH.
Qed.
Theorem C69_ordered_lists : forall E w v n n1 n2 l1 l2 z ign x1 x2,
  snd (parse_node w v) = Ok n -> n_kind n = KorderedList -> n_kind n1 = KorderedList -> n_kind n2 = KorderedList ->
  n_content n = Items (l1 ++ l2) -> n_content n1 = Items l1 -> n_content n2 = Items l2 ->
  attr (n_attrs n) (s "order") = Ok (VInt z) -> attr (n_attrs n1) (s "order") = Ok (VInt z) ->
  attr (n_attrs n2) (s "order") = Ok (VInt (z + Z.of_nat (List.length (filter is_item l1)))) ->
  to_markdown E n1 ign = Ok (VStr x1) -> to_markdown E n2 ign = Ok (VStr x2) ->
  exists x, to_markdown E n ign = Ok (VStr x) /\ pasted nl x1 x2 x.
Proof.
  intros E w v n n1 n2 l1 l2 z ign x1 x2 HP K K1 K2 C C1 C2 A A1 A2 H1 H2.
  assert (HL : Forall consistent l1).
  { pose proof (consistent_items n (l1 ++ l2) (parse_consistent w v n HP) C) as HF. apply Forall_app in HF. tauto. }
  destruct n as [k ty ve tx a co ma], n1 as [k1 ty1 ve1 tx1 a1 co1 ma1], n2 as [k2 ty2 ve2 tx2 a2 co2 ma2].
  cbn [n_kind n_content n_attrs] in *. subst k k1 k2 co co1 co2. unfold to_markdown in *. cbn [to_md] in *. unfold ordered_list_md, list_items in *.
  rewrite A. rewrite A1 in H1. rewrite A2 in H2. cbn [rbind loop] in *.
  rewrite for_each_join. destruct (for_each _ l1) as [i1|e] eqn:F1; [|discriminate]. destruct (for_each _ l2) as [i2|e] eqn:F2; [|discriminate]. cbn [rbind] in *.
  apply okstr_iff in H1, H2. subst x1 x2. eexists. split; [reflexivity|].
  rewrite ordered_items_app, <- (items_count E ign l1 i1 HL F1). rewrite <- (ordered_items_shift 0 z (List.length i1) i2 0), Nat.add_0_r. cbn [Nat.add].
  apply join_pasted.
Qed.

Theorem C69_ordered_lists_cut : forall E n n1 n2 l1 l2 z z2 ign x,
  n_kind n = KorderedList -> n_kind n1 = KorderedList -> n_kind n2 = KorderedList ->
  n_content n = Items (l1 ++ l2) -> n_content n1 = Items l1 -> n_content n2 = Items l2 ->
  attr (n_attrs n) (s "order") = Ok (VInt z) -> attr (n_attrs n1) (s "order") = Ok (VInt z) -> attr (n_attrs n2) (s "order") = Ok (VInt z2) ->
  to_markdown E n ign = Ok (VStr x) -> exists x1 x2, to_markdown E n1 ign = Ok (VStr x1) /\ to_markdown E n2 ign = Ok (VStr x2).
Proof.
  intros E n n1 n2 l1 l2 z z2 ign x K K1 K2 C C1 C2 A A1 A2 H.
  destruct n as [k ty ve tx a co ma], n1 as [k1 ty1 ve1 tx1 a1 co1 ma1], n2 as [k2 ty2 ve2 tx2 a2 co2 ma2].
  cbn [n_kind n_content n_attrs] in *. subst k k1 k2 co co1 co2. unfold to_markdown in *. cbn [to_md] in *. unfold ordered_list_md, list_items in *.
  rewrite A in H. rewrite A1, A2. cbn [rbind loop] in *.
  rewrite for_each_join in H. destruct (for_each _ l1) as [i1|e] eqn:F1; [|discriminate]. destruct (for_each _ l2) as [i2|e] eqn:F2; [|discriminate]. cbn [rbind].
  eauto.
Qed.

(** ---------------------------------------------------------------- examples *)
Definition ex_part (l : list value) : list (str * value) := [tyv "doc"; (s "version", VInt 1); (s "content", VList l)].
Definition ex_whole : list value := [ex_p "one"; VDict [tyv "mystery"]; ex_ul [ex_li [ex_p "a"]; ex_li [ex_p "b"]]; ex_p "two"; VDict [tyv "riddle"]].
Example C69_example :
  let d1 := ex_part (firstn 2 ex_whole) in let d2 := ex_part (skipn 2 ex_whole) in let d := ex_part ex_whole in
  joined_input d1 d2 d /\ lookup (s "marks") d = None /\
  from_dict true Kdoc (VDict d1) = ([Warn CNode (VStr (s "mystery"))], Ok (get (VDict d1))) /\
  from_dict true Kdoc (VDict d2) = ([Warn CNode (VStr (s "riddle"))], Ok (get (VDict d2))) /\
  n_content (get (VDict d1)) <> NoField /\
  to_markdown rt0 (get (VDict d1)) false = Ok (VStr (s "one" ++ nl)) /\
  to_markdown rt0 (get (VDict d2)) false = Ok (VStr (nl ++ s "- a" ++ nl ++ s "- b" ++ nl ++ nl ++ s "two" ++ nl)) /\
  to_markdown rt0 (get (VDict d)) false = Ok (VStr (s "one" ++ nl ++ nl ++ s "- a" ++ nl ++ s "- b" ++ nl ++ nl ++ s "two" ++ nl)).
Proof.
  cbn zeta. split.
  - split; [|exists (firstn 2 ex_whole), (skipn 2 ex_whole); repeat split; reflexivity].
    intros k HK. unfold ex_part, tyv. cbn [lookup]. rewrite (proj2 (str_eqb_neq (s "content") k)) by congruence. split; reflexivity.
  - repeat split; vm_compute; try reflexivity. discriminate.
Qed.
Definition ex_items (l : list string) : list value := map (fun x => ex_li [ex_p x]) l.
Definition ex_ol1 : value := ex_ol 5 (ex_items ["a"; "b"]).
Definition ex_ol2 : value := ex_ol 7 (ex_items ["c"]).
Definition ex_ol12 : value := ex_ol 5 (ex_items ["a"; "b"; "c"]).
Example C69_ordered_example : exists l1 l2,
  snd (parse_node true ex_ol12) = Ok (get ex_ol12) /\ n_content (get ex_ol12) = Items (l1 ++ l2) /\
  n_content (get ex_ol1) = Items l1 /\ n_content (get ex_ol2) = Items l2 /\ List.length (filter is_item l1) = 2 /\
  attr (n_attrs (get ex_ol2)) (s "order") = Ok (VInt (5 + 2)) /\
  to_markdown rt0 (get ex_ol1) false = Ok (VStr (s "5. a" ++ nl ++ s "6. b")) /\ to_markdown rt0 (get ex_ol2) false = Ok (VStr (s "7. c")) /\
  to_markdown rt0 (get ex_ol12) false = Ok (VStr (s "5. a" ++ nl ++ s "6. b" ++ nl ++ s "7. c")).
Proof.
  set (items n := match n_content n with Items l => l | _ => [] end). exists (items (get ex_ol1)), (items (get ex_ol2)).
  repeat split; vm_compute; reflexivity.
Qed.
Definition ex_ul1 : value := ex_ul (ex_items ["a"; "b"]).
Definition ex_ul2 : value := ex_ul (ex_items ["c"]).
Definition ex_ul12 : value := ex_ul (ex_items ["a"; "b"; "c"]).
Example C69_joined_example : joined (get ex_ul1) (get ex_ul2) (get ex_ul12) /\ separator (n_kind (get ex_ul12)) = Some [NL] /\
  to_markdown rt0 (get ex_ul1) false = Ok (VStr (s "- a" ++ nl ++ s "- b")) /\ to_markdown rt0 (get ex_ul2) false = Ok (VStr (s "- c")) /\
  to_markdown rt0 (get ex_ul12) false = Ok (VStr (s "- a" ++ nl ++ s "- b" ++ nl ++ s "- c")) /\
  exists o1 o2, node_to_dict (get ex_ul1) = Ok (VDict o1) /\ node_to_dict (get ex_ul2) = Ok (VDict o2).
Proof.
  split; [|split; [reflexivity|split; [vm_compute; reflexivity|split; [vm_compute; reflexivity|split; [vm_compute; reflexivity|]]]]].
  - evaluated ex_ul1. evaluated ex_ul2. evaluated ex_ul12. split; [repeat split|split; [repeat split|]]. cbn [n_content].
    eexists _, _. split; [reflexivity|]. split; [reflexivity|]. reflexivity.
  - eexists _, _. split; vm_compute; reflexivity.
Qed.
