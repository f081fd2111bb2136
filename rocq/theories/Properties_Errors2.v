(** C24, C25 for the classes that do not render their children through the shared helpers: tables and lists. *)
From Coq Require Import List NArith ZArith Bool String Lia.
From Verif Require Import PyStr Values Schema Parse Date Markdown Basics StrFacts MarkFacts SpecParse ParseFacts4 ParseFacts5
  MdFacts SpecMd MdFacts2 LeafFacts Collapse LayoutFacts SpecErr ErrFacts SpecTable TableFacts
  Properties_Marks Properties_Nodes Properties_Layout Properties_Errors.
Import ListNotations.
Open Scope string_scope.
Open Scope list_scope.

(** ================================================================ tables, ignore_error=True *)
(** What a row (any child of a table) contributes: nothing if it does not render strictly; its line; and a
    delimiter as wide as the row if its first cell is a header cell. *)
Definition starts_with_header (row : node) : Prop := exists c cs, n_content row = Items (c :: cs) /\ n_kind c = KtableHeader.
Inductive row_part (E : runtime) (row : node) : list str -> Prop :=
| rp_fails e : to_markdown E row false = Err e -> row_part E row []
| rp_header x c cs : renders E row x -> n_content row = Items (c :: cs) -> n_kind c = KtableHeader ->
    row_part E row [x; delimiter_line (S (List.length cs))]
| rp_plain x : renders E row x -> ~ starts_with_header row -> row_part E row [x].

Lemma header_kind c : consistent c -> is_type_of c [s "tableHeader"] = true <-> n_kind c = KtableHeader.
Proof. exact (is_type_of_kind c KtableHeader). Qed.
Lemma row_lines_part E row : consistent row -> (n_kind row = Ktext -> exists t, n_text row = Some (VStr t)) ->
  exists part, row_part E row part /\ table_row_lines (to_md E) true row = Ok (map VStr part).
Proof.
  intros HC HT. unfold table_row_lines. destruct (to_md E row None false) as [v|e] eqn:M.
  - destruct (to_md_str E row None false v HT M) as [x ->]. unfold header_width.
    destruct (n_content row) as [| |l|r] eqn:CO.
    + exists [x]. split; [|reflexivity]. apply rp_plain; [exact M|]. intros (c & cs & H & _). congruence.
    + exists [x]. split; [|reflexivity]. apply rp_plain; [exact M|]. intros (c & cs & H & _). congruence.
    + destruct l as [|c cs].
      * exists [x]. split; [|reflexivity]. apply rp_plain; [exact M|]. intros (c & cs & H & _). congruence.
      * assert (HCc : consistent c).
        { pose proof (consistent_items _ _ HC CO) as H. now inversion H. }
        destruct (is_type_of c [s "tableHeader"]) eqn:T.
        -- exists [x; delimiter_line (S (List.length cs))]. split; [|reflexivity].
           eapply rp_header; [exact M|exact CO|]. now apply header_kind.
        -- exists [x]. split; [|reflexivity]. apply rp_plain; [exact M|]. intros (c' & cs' & H & HK).
           assert (c' = c) by congruence. subst c'. apply header_kind in HK; [|exact HCc]. congruence.
    + exists [x]. split; [|destruct r as [| | | |[|]| |[|]|]; reflexivity]. apply rp_plain; [exact M|]. intros (c & cs & H & _). congruence.
  - exists []. split; [|reflexivity]. eapply rp_fails. exact M.
Qed.
(** With ignore_error=True a parsed table never raises; its lines are those of its rows, in order; only rows that
    do not render are left out (a row without cells, on which the strict call raises, keeps its line). *)
Theorem C24_table : forall E w v n rows, snd (parse_node w v) = Ok n -> n_kind n = Ktable -> n_content n = Items rows ->
  top_texts_are_strings rows ->
  exists parts, Forall2 (row_part E) rows parts /\ to_markdown E n true = Ok (VStr (join nl (List.concat parts))).
Proof.
  intros E w v n rows HP HK HI HT.
  assert (HC : Forall consistent rows) by (eapply consistent_items; [eapply parse_consistent; exact HP|exact HI]).
  destruct n as [k ty ve tx a co ma]. cbn [n_kind n_content] in *. subst k co. unfold to_markdown. cbn [to_md]. unfold table_md, loop.
  assert (H : exists parts, Forall2 (row_part E) rows parts /\
              for_each (table_row_lines (to_md E) true) rows = Ok (map VStr (List.concat parts))).
  { clear HP. induction HC as [|r rows HR HC IH]; [exists []; split; [constructor|reflexivity]|].
    inversion HT as [|? ? HT1 HT2]; subst. destruct (IH HT2) as (parts & HF & HE).
    destruct (row_lines_part E r HR HT1) as (part & HPt & HL). exists (part :: parts). split; [now constructor|].
    cbn [for_each]. fold (for_each (table_row_lines (to_md E) true)). rewrite HL, HE. cbn [rbind List.concat]. now rewrite map_app. }
  destruct H as (parts & HF & ->). exists parts. split; [exact HF|]. cbn [rbind]. now rewrite join_values_str.
Qed.

(** ================================================================ tables, strict *)
(** A strict table call fails iff a row fails or has no cells; with that row's error or IndexError. *)
Theorem C25_table : forall E w v n rows e, snd (parse_node w v) = Ok n -> n_kind n = Ktable -> n_content n = Items rows ->
  top_texts_are_strings rows -> Forall (fun r => exists cs, n_content r = Items cs) rows ->
  (to_markdown E n false = Err e <->
   exists before r after, rows = before ++ r :: after /\
     Forall (fun b => (exists x, renders E b x) /\ n_content b <> Items []) before /\
     (to_markdown E r false = Err e \/ (exists x, renders E r x) /\ n_content r = Items [] /\ e = IndexError)).
Proof.
  intros E w v n rows e HP HK HI HT HCs.
  assert (HC : Forall consistent rows) by (eapply consistent_items; [eapply parse_consistent; exact HP|exact HI]). clear HP.
  destruct n as [k ty ve tx a co ma]. cbn [n_kind n_content] in *. subst k co. unfold to_markdown. cbn [to_md]. unfold table_md, loop.
  assert (HB : Forall (fun r => (exists x, renders E r x /\ n_content r <> Items [] /\ exists ys, table_row_lines (to_md E) false r = Ok (map VStr ys))
                             \/ (exists x, renders E r x /\ n_content r = Items [] /\ table_row_lines (to_md E) false r = Err IndexError)
                             \/ (exists e', to_markdown E r false = Err e' /\ table_row_lines (to_md E) false r = Err e')) rows).
  { unfold top_texts_are_strings in HT. rewrite Forall_forall in *. intros r Hr. destruct (HCs r Hr) as [cs HCO].
    unfold table_row_lines, renders, to_markdown. destruct (to_md E r None false) as [v0|e0] eqn:M; [|right; right; eauto].
    destruct (to_md_str E r None false v0 (HT r Hr) M) as [x ->]. unfold header_width. rewrite HCO. destruct cs as [|c cs].
    - right. left. exists x. auto.
    - left. exists x. split; [reflexivity|]. split; [discriminate|]. destruct (is_type_of c _).
      + now exists [x; delimiter_line (S (List.length cs))].
      + now exists [x]. }
  assert (HA : for_each (table_row_lines (to_md E) false) rows = Err e <->
    exists before r after, rows = before ++ r :: after /\
     Forall (fun b => (exists x, renders E b x) /\ n_content b <> Items []) before /\
     (to_md E r None false = Err e \/ (exists x, renders E r x) /\ n_content r = Items [] /\ e = IndexError)).
  { rewrite for_each_fail. rewrite Forall_forall in HB. unfold to_markdown in *.
    split; intros (b & c & d & E1 & HBB & HCC); exists b, c, d; (split; [exact E1|]);
      assert (HX : In c rows) by (rewrite E1; apply in_or_app; right; left; reflexivity);
      (split; [apply Forall_forall; rewrite Forall_forall in HBB; intros z Hz; specialize (HBB z Hz);
               assert (HZ : In z rows) by (rewrite E1; apply in_or_app; auto);
               destruct (HB z HZ) as [(x & H1 & H2 & ys & H3)|[(x & H1 & H2 & H3)|(e' & H1 & H2)]]
              |destruct (HB c HX) as [(x & H1 & H2 & ys & H3)|[(x & H1 & H2 & H3)|(e' & H1 & H2)]]]).
    - eauto.
    - destruct HBB as [y Hy]. congruence.
    - destruct HBB as [y Hy]. congruence.
    - congruence.
    - right. split; [eauto|]. split; [exact H2|congruence].
    - left. congruence.
    - eauto.
    - destruct HBB as [_ HBB]. congruence.
    - destruct HBB as [[y Hy] _]. unfold renders, to_markdown in Hy. congruence.
    - unfold renders, to_markdown in H1. destruct HCC as [HCC|(_ & HCC & _)]; congruence.
    - unfold renders, to_markdown in H1. destruct HCC as [HCC|(_ & _ & ->)]; congruence.
    - destruct HCC as [HCC|([y Hy] & _)]; [congruence|]. unfold renders, to_markdown in Hy. congruence. }
  rewrite <- HA. destruct (for_each _ rows) as [ys|e'] eqn:F; cbn [rbind]; [|split; congruence].
  destruct (join_values_total nl ys) as [x ->]; [|split; cbn; congruence].
  eapply for_each_all; [|exact F]. eapply Forall_impl; [|exact HB].
  intros c [(x & _ & _ & zs & ->)|[(x & _ & _ & ->)|(e' & _ & ->)]]; [|discriminate|discriminate].
  intros y [= <-]. apply Forall_forall. intros z Hz. apply in_map_iff in Hz as (u & <- & _). eauto.
Qed.

(** ================================================================ lists, strict *)
Definition children (n : node) : list node := match n_content n with Items l => l | _ => [] end.
(** What a list renders, in order, when called at indentation level [level]: the children of its list items
    (sub-lists of its own class one level deeper); the children of its task items and its sub-lists; its decision
    items. Children of other classes are ignored. *)
Definition jobs_of (level : nat) (k : nkind) (i : node) : list (option nat * node) :=
  match k, n_kind i with
  | KbulletList, KlistItem | KorderedList, KlistItem =>
      map (fun c => (if nk_eq_dec (n_kind c) k then Some (S level) else None, c)) (children i)
  | KtaskList, KtaskItem => map (fun c => (None, c)) (children i)
  | KtaskList, KtaskList => [(Some (S level), i)]
  | KdecisionList, KdecisionItem => [(None, i)]
  | _, _ => []
  end.
Definition jobs (level : nat) (n : node) : list (option nat * node) :=
  flat_map (jobs_of level (n_kind n)) (children n).
Definition run (E : runtime) (j : option nat * node) : res value := to_md E (snd j) (fst j) false.
Definition first_failing_job (E : runtime) (js : list (option nat * node)) (e : exc) : Prop :=
  exists before j after, js = before ++ j :: after /\ Forall (fun b => exists v, run E b = Ok v) before /\ run E j = Err e.
(** The list itself is in order: its items have lists of children, task items have a state, and an outermost
    ordered list can be asked for its start number. *)
Definition list_usable (level : nat) (n : node) : Prop :=
  n_content n = Items (children n) /\
  top_texts_are_strings (map snd (jobs level n)) /\
  Forall (fun i =>
    match n_kind n, n_kind i with
    | KbulletList, KlistItem | KorderedList, KlistItem => n_content i = Items (children i)
    | KtaskList, KtaskItem => n_content i = Items (children i) /\ exists st, attr (n_attrs i) (s "state") = Ok st
    | _, _ => True
    end) (children n) /\
  (n_kind n = KorderedList -> level = 0 -> exists o, attr (n_attrs n) (s "order") = Ok o).

Lemma for_each_app {A B} (f : A -> res (list B)) l1 l2 :
  for_each f (l1 ++ l2) = do x <- for_each f l1; do y <- for_each f l2; Ok (x ++ y).
Proof.
  induction l1 as [|a l1 IH]; cbn [app]; [cbn; now destruct (for_each f l2)|].
  cbn [for_each]. fold (for_each f). rewrite IH. destruct (f a); cbn [rbind]; [|reflexivity].
  destruct (for_each f l1); cbn [rbind]; [|reflexivity]. destruct (for_each f l2); cbn [rbind]; [|reflexivity]. now rewrite app_assoc.
Qed.
Lemma for_each_map {A B C} (h : A -> B) (f : B -> res (list C)) l : for_each f (map h l) = for_each (fun a => f (h a)) l.
Proof. induction l as [|a l IH]; [reflexivity|]. cbn. now rewrite IH. Qed.
Lemma nested_fail {A J B C} (h : A -> list J) (g : J -> res (list B)) (F : A -> list B -> res (list C)) (f : A -> res (list C)) l e :
  (forall a, In a l -> f a = do y <- for_each g (h a); F a y) ->
  (forall a y, In a l -> for_each g (h a) = Ok y -> exists z, F a y = Ok z) ->
  for_each f l = Err e <-> for_each g (flat_map h l) = Err e.
Proof.
  induction l as [|a l IH]; intros HF HT; [cbn; split; discriminate|].
  cbn [flat_map]. rewrite for_each_app. cbn [for_each]. fold (for_each f). rewrite HF by (now left).
  assert (IH' : for_each f l = Err e <-> for_each g (flat_map h l) = Err e).
  { apply IH; [intros a' H'; apply HF; now right|intros a' y' H'; apply HT; now right]. }
  destruct (for_each g (h a)) as [y|e'] eqn:G; cbn [rbind]; [|split; congruence].
  destruct (HT a y (or_introl eq_refl) G) as [z ->]. cbn [rbind].
  destruct (for_each f l) as [u|e1]; destruct (for_each g (flat_map h l)) as [u'|e2]; cbn [rbind]; destruct IH' as [I1 I2];
    split; intros H; try discriminate.
  - specialize (I2 (f_equal _ (f_equal (fun r => match r with Err x => x | Ok _ => e end) H))). discriminate.
  - specialize (I1 (f_equal _ (f_equal (fun r => match r with Err x => x | Ok _ => e end) H))). discriminate.
  - apply I1. injection H as ->. reflexivity.
  - apply I2. injection H as ->. reflexivity.
Qed.
Lemma nested_all {A J B} (P : B -> Prop) (h : A -> list J) (g : J -> res (list B)) l a y :
  (forall j z, In j (flat_map h l) -> g j = Ok z -> Forall P z) -> In a l -> for_each g (h a) = Ok y -> Forall P y.
Proof.
  intros HP Ha G. eapply for_each_all; [|exact G]. apply Forall_forall. intros j Hj z Hz.
  apply (HP j z); [|exact Hz]. apply in_flat_map. eauto.
Qed.
Definition strv (v : value) : Prop := exists x, v = VStr x.

Lemma jobs_fail E (g : option nat * node -> res (list value)) js e :
  (forall j v, In j js -> run E j = Ok v -> exists v', g j = Ok v') ->
  (forall j e', In j js -> run E j = Err e' -> g j = Err e') ->
  for_each g js = Err e <-> first_failing_job E js e.
Proof.
  intros H1 H2. rewrite for_each_fail. unfold first_failing_job.
  split; intros (b & j & d & E1 & HB & HJ); exists b, j, d; (split; [exact E1|]);
    assert (HIj : In j js) by (rewrite E1; apply in_or_app; right; now left);
    assert (HIb : forall z, In z b -> In z js) by (intros z Hz; rewrite E1; apply in_or_app; now left).
  - split.
    + rewrite Forall_forall in *. intros z Hz. destruct (HB z Hz) as [y Hy]. destruct (run E z) as [v|e'] eqn:R; [eauto|].
      rewrite (H2 z e' (HIb z Hz) R) in Hy. discriminate.
    + destruct (run E j) as [v|e'] eqn:R.
      * destruct (H1 j v HIj R) as [v' Hv]. congruence.
      * rewrite (H2 j e' HIj R) in HJ. congruence.
  - split; [|now apply H2]. rewrite Forall_forall in *. intros z Hz. destruct (HB z Hz) as [v Hv]. destruct (H1 z v (HIb z Hz) Hv) as [v' ->]. eauto.
Qed.
Lemma job_strings level n : top_texts_are_strings (map snd (jobs level n)) ->
  forall j, In j (jobs level n) -> n_kind (snd j) = Ktext -> exists t, n_text (snd j) = Some (VStr t).
Proof.
  intros H j Hj. unfold top_texts_are_strings in H. rewrite Forall_forall in H. apply H. now apply in_map.
Qed.
Lemma consistent_below n l i : consistent n -> n_content n = Items l -> In i l -> consistent i.
Proof. intros HC HI Hi. pose proof (consistent_items _ _ HC HI) as H. rewrite Forall_forall in H. auto. Qed.

(** The jobs of a list item, as the two list classes run them. *)
Definition item_job (E : runtime) (j : option nat * node) : res (list value) :=
  match fst j with
  | Some _ => try_ false (run E j)
  | None => try_ false (do v <- run E j; rstrip_value v)
  end.
Lemma item_job_str E j z : (n_kind (snd j) = Ktext -> exists t, n_text (snd j) = Some (VStr t)) ->
  item_job E j = Ok z -> Forall strv z.
Proof.
  destruct j as [lv c]. cbn [snd]. intros HT. unfold item_job, run. cbn [fst snd].
  destruct lv as [l|]; destruct (to_md E c _ false) as [v|] eqn:M; try discriminate;
    destruct (to_md_str E c _ false v HT M) as [x ->]; cbn; intros [= <-]; repeat constructor; unfold strv; eauto.
Qed.
Lemma list_items_fail E own k co level e n : nk_name k = own -> (k = KbulletList \/ k = KorderedList) -> n_kind n = k -> n_content n = co ->
  consistent n -> list_usable level n ->
  list_items (to_md E) own co level false = Err e <-> first_failing_job E (jobs level n) e.
Proof.
  intros HO HK HKn HCO HC (HI & HS & HU & _). rewrite <- (jobs_fail E (item_job E)).
  - unfold jobs, list_items. rewrite <- HCO, HI. cbn [loop].
    apply nested_fail with (F := fun i y => match n_kind i with KlistItem => do x <- join_values nl y; Ok [split_on NL x] | _ => Ok [] end).
    + intros i Hi. pose proof (consistent_below n _ i HC HI Hi) as HCi.
      rewrite Forall_forall in HU. specialize (HU i Hi).
      destruct (is_type_of i [s "listItem"]) eqn:T.
      * apply (is_type_of_kind i KlistItem HCi) in T. rewrite T in *. unfold item_lines.
        assert (HIc : n_content i = Items (children i)) by (destruct HK; subst k; rewrite HKn in HU; exact HU). rewrite HIc. cbn [loop].
        assert (HG : forall cs, (forall c, In c cs -> consistent c) ->
          for_each (fun nd => if is_type_of nd [own] then try_ false (to_md E nd (Some (S level)) false)
                              else try_ false (do v <- to_md E nd None false; rstrip_value v)) cs =
          for_each (item_job E) (map (fun c => (if nk_eq_dec (n_kind c) k then Some (S level) else None, c)) cs)).
        { intros cs Hcs. rewrite for_each_map. apply for_each_ext2. induction cs as [|c cs IH]; constructor.
          - pose proof (is_type_of_kind c k (Hcs c (or_introl eq_refl))) as HT. rewrite HO in HT.
            destruct (nk_eq_dec (n_kind c) k) as [e1|e1].
            + rewrite (proj2 HT e1). reflexivity.
            + destruct (is_type_of c [own]); [exfalso; apply e1; now apply HT|reflexivity].
          - apply IH. intros c' H'. apply Hcs. now right. }
        rewrite HG by (intros c Hc; exact (consistent_below i _ c HCi HIc Hc)). rewrite HKn. unfold jobs_of. rewrite T.
        destruct HK; subst k; cbn [nk_eq_dec]; destruct (for_each (item_job E) _) as [y|]; cbn [rbind]; try reflexivity;
          destruct (join_values nl y); reflexivity.
      * assert (HN : n_kind i <> KlistItem) by (intros H; apply (is_type_of_kind i KlistItem HCi) in H; change (nk_name KlistItem) with (s "listItem") in H; congruence).
        rewrite HKn. unfold jobs_of. destruct HK; subst k; destruct (n_kind i); try reflexivity; congruence.
    + intros i y Hi G.
      assert (HY : Forall strv y).
      { apply (nested_all strv (jobs_of level (n_kind n)) (item_job E) (children n) i y); [|exact Hi|exact G].
        intros j z Hj. apply item_job_str. exact (job_strings level n HS j Hj). }
      destruct (join_values_total nl y HY) as [x ->]. destruct (n_kind i); cbn [rbind]; eauto.
  - intros [lv c] v Hj R. unfold item_job. cbn [fst]. destruct lv as [l|].
    + rewrite R. cbn. eauto.
    + destruct (to_md_str E c None false v (job_strings level n HS _ Hj) R) as [x ->]. rewrite R. cbn. eauto.
  - intros [lv c] e' Hj R. unfold item_job. cbn [fst]. destruct lv as [l|]; rewrite R; reflexivity.
Qed.
Theorem C25_list : forall E w v n lv e, snd (parse_node w v) = Ok n -> (n_kind n = KbulletList \/ n_kind n = KorderedList) ->
  list_usable (match lv with Some l => l | None => 0 end) n ->
  (to_md E n lv false = Err e <-> first_failing_job E (jobs (match lv with Some l => l | None => 0 end) n) e).
Proof.
  intros E w v n lv e HP HK HU. pose proof (parse_consistent _ _ _ HP) as HC. clear HP.
  set (level := match lv with Some l => l | None => 0 end) in *.
  destruct HK as [HK|HK].
  - rewrite <- (list_items_fail E (s "bulletList") KbulletList (n_content n) level e n); auto.
    destruct n as [k ty ve tx a co ma]. cbn [n_kind n_content] in *. subst k. cbn [to_md]. fold level.
    unfold bullet_list_md. apply rbind_err. eauto.
  - pose proof HU as (_ & _ & _ & HA). specialize (HA HK).
    rewrite <- (list_items_fail E (s "orderedList") KorderedList (n_content n) level e n); auto.
    destruct n as [k ty ve tx a co ma]. cbn [n_kind n_content n_attrs] in *. subst k. cbn [to_md]. fold level.
    unfold ordered_list_md.
    assert (HST : exists st, (match level with
               | O => do o <- attr a (s "order");
                      Ok (match o with VInt _ | VBool _ => o | _ => VInt 1 end)
               | _ => Ok (VInt 1)
               end) = Ok st).
    { destruct level; [|eauto]. destruct (HA eq_refl) as [o ->]. cbn. eauto. }
    destruct HST as [st ->]. cbn [rbind]. apply rbind_err. eauto.
Qed.

(** Task lists: the children of the task items, and the sub-lists one level deeper. *)
Lemma task_job_ok E level n e : n_kind n = KtaskList -> consistent n -> list_usable level n ->
  task_list_md (to_md E) (n_content n) level false = Err e <-> first_failing_job E (jobs level n) e.
Proof.
  intros HKn HC (HI & HS & HU & _). rewrite <- (jobs_fail E (fun j => try_ false (run E j))).
  - unfold task_list_md. rewrite HI. cbn [loop].
    assert (HG : forall j z, In j (jobs level n) -> try_ false (run E j) = Ok z -> Forall strv z).
    { intros [lv c] z Hj. unfold run. cbn [fst snd]. destruct (to_md E c lv false) as [v|] eqn:M; [|discriminate].
      destruct (to_md_str E c lv false v (job_strings level n HS _ Hj) M) as [x ->]. intros [= <-]. repeat constructor. unfold strv. eauto. }
    match goal with |- context [for_each ?f (children n)] => set (body := f) end.
    assert (HN : for_each body (children n) = Err e <-> for_each (fun j => try_ false (run E j)) (jobs level n) = Err e).
    { unfold jobs. apply nested_fail with (F := fun i y => match n_kind i with
        | KtaskItem => do x <- join_values [] y; do st <- attr (n_attrs i) (s "state");
                       Ok [VStr (indent_of level ++ s "- " ++ (match st with VStr u => if str_eqb u (s "DONE") then s "[x]" else s "[ ]" | _ => s "[ ]" end) ++ s " " ++ rstrip x)]
        | KtaskList => Ok y
        | _ => Ok [] end).
      - intros i Hi. pose proof (consistent_below n _ i HC HI Hi) as HCi. unfold body.
        rewrite Forall_forall in HU. specialize (HU i Hi). rewrite HKn in *. unfold jobs_of.
        pose proof (is_type_of_kind i KtaskItem HCi) as T1. pose proof (is_type_of_kind i KtaskList HCi) as T2.
        change (nk_name KtaskItem) with (s "taskItem") in T1. change (nk_name KtaskList) with (s "taskList") in T2.
        destruct (is_type_of i [s "taskItem"]).
        + rewrite (proj1 T1 eq_refl) in *. destruct HU as [HIc [st Hst]]. unfold task_item_line. rewrite HIc, Hst. cbn [loop].
          rewrite for_each_map. unfold run. cbn [fst snd].
          destruct (for_each _ (children i)) as [y|]; cbn [rbind]; [|reflexivity]. now destruct (join_values [] y).
        + destruct (is_type_of i [s "taskList"]).
          * rewrite (proj1 T2 eq_refl) in *. cbn [for_each]. unfold run. cbn [fst snd].
            destruct (try_ false (to_md E i (Some (S level)) false)); cbn [rbind]; [|reflexivity]. now rewrite app_nil_r.
          * destruct (n_kind i) eqn:KI; try reflexivity.
            -- destruct T1 as [_ T1]. discriminate (T1 eq_refl).
            -- destruct T2 as [_ T2]. discriminate (T2 eq_refl).
      - intros i y Hi G. rewrite Forall_forall in HU. specialize (HU i Hi). rewrite HKn in HU.
        pose proof (nested_all strv (jobs_of level (n_kind n)) _ (children n) i y HG Hi G) as HY.
        destruct (n_kind i); eauto. destruct HU as [_ [st ->]].
        destruct (join_values_total [] y HY) as [x ->]. cbn [rbind]. eauto. }
    rewrite <- HN. destruct (for_each body (children n)) as [ys|e'] eqn:F; cbn [rbind]; [|split; congruence].
    destruct (join_values_total nl ys) as [x ->]; [|split; cbn; congruence].
    eapply for_each_all; [|exact F]. apply Forall_forall. intros i Hi y. unfold body.
    destruct (is_type_of i [s "taskItem"]).
    + unfold task_item_line. destruct (loop _ _ _); cbn [rbind]; [|discriminate]. destruct (join_values [] _); cbn [rbind]; [|discriminate].
      destruct (attr _ _); cbn [rbind]; [|discriminate]. intros [= <-]. repeat constructor. eauto.
    + destruct (is_type_of i [s "taskList"]) eqn:T2; [|intros [= <-]; constructor].
      pose proof (consistent_below n _ i HC HI Hi) as HCi. apply (is_type_of_kind i KtaskList HCi) in T2.
      destruct (to_md E i (Some (S level)) false) as [v|] eqn:M; [|discriminate]. cbn. intros [= <-]. constructor; [|constructor].
      eapply to_md_str; [|exact M]. rewrite T2. discriminate.
  - intros j v Hj R. rewrite R. cbn. eauto.
  - intros j e' Hj R. rewrite R. reflexivity.
Qed.
Theorem C25_task_list : forall E w v n lv e, snd (parse_node w v) = Ok n -> n_kind n = KtaskList ->
  list_usable (match lv with Some l => l | None => 0 end) n ->
  (to_md E n lv false = Err e <-> first_failing_job E (jobs (match lv with Some l => l | None => 0 end) n) e).
Proof.
  intros E w v n lv e HP HK HU. pose proof (parse_consistent _ _ _ HP) as HC. clear HP.
  rewrite <- (task_job_ok E _ n e HK HC HU).
  destruct n as [k ty ve tx a co ma]. cbn [n_kind n_content] in *. subst k. cbn [to_md]. reflexivity.
Qed.
(** Decision lists: the decision items. *)
Theorem C25_decision_list : forall E w v n e, snd (parse_node w v) = Ok n -> n_kind n = KdecisionList ->
  n_content n = Items (children n) ->
  (to_markdown E n false = Err e <-> first_failing_job E (jobs 0 n) e).
Proof.
  intros E w v n e HP HK HI. pose proof (parse_consistent _ _ _ HP) as HC. clear HP.
  rewrite <- (jobs_fail E (fun j => try_ false (run E j))).
  - assert (HCs : Forall consistent (children n)) by (apply (consistent_items n); [exact HC|exact HI]).
    destruct n as [k ty ve tx a co ma]. cbn [n_kind n_content] in *. destruct co as [| |cs|]; try discriminate. subst k.
    change (children (Node KdecisionList ty ve tx a (Items cs) ma)) with cs in *. unfold jobs, to_markdown.
    change (children (Node KdecisionList ty ve tx a (Items cs) ma)) with cs. cbn [n_kind].
    cbn [to_md]. unfold decision_list_md. cbn [loop].
    match goal with |- context [for_each ?f cs] => set (body := f) end.
    assert (HN : for_each body cs = Err e <-> for_each (fun j => try_ false (run E j)) (flat_map (jobs_of 0 KdecisionList) cs) = Err e).
    { apply nested_fail with (F := fun i y => Ok y); [|eauto]. intros i Hi. rewrite Forall_forall in HCs. specialize (HCs i Hi).
      pose proof (is_type_of_kind i KdecisionItem HCs) as T. change (nk_name KdecisionItem) with (s "decisionItem") in T.
      unfold body, jobs_of. destruct (is_type_of i [s "decisionItem"]).
      - rewrite (proj1 T eq_refl). cbn [for_each]. unfold run. cbn [fst snd].
        destruct (try_ false (to_md E i None false)); cbn [rbind]; [|reflexivity]. now rewrite app_nil_r.
      - destruct (n_kind i) eqn:KI; try reflexivity. destruct T as [_ T]. discriminate (T eq_refl). }
    rewrite <- HN. destruct (for_each body cs) as [ys|e'] eqn:F; cbn [rbind]; [|split; congruence].
    destruct (join_values_total (nl ++ nl) ys) as [x ->]; [|split; cbn; congruence].
    eapply for_each_all; [|exact F]. eapply Forall_impl; [|exact HCs]. intros i HCi y. unfold body.
    destruct (is_type_of i [s "decisionItem"]) eqn:T; [|intros [= <-]; constructor].
    apply (is_type_of_kind i KdecisionItem HCi) in T.
    destruct (to_md E i None false) as [u|] eqn:M; [|discriminate]. cbn. intros [= <-]. constructor; [|constructor].
    eapply to_md_str; [|exact M]. rewrite T. discriminate.
  - intros j u Hj R. rewrite R. cbn. eauto.
  - intros j e' Hj R. rewrite R. reflexivity.
Qed.

(** ================================================================ examples *)
Definition ex_node (t : string) (l : list value) : value := VDict [tyv t; (s "content", VList l)].
Definition ex_good_cell : value := ex_node "tableHeader" [ex_p "h"].
Definition ex_bad_cell : value := ex_node "tableCell" [ex_node "paragraph" [bad_card]].
(** A row with a header cell, a row that does not render, a row without cells, an ordinary row. *)
Definition ex_rough_table : value :=
  ex_node "table" [ex_node "tableRow" [ex_good_cell; ex_good_cell]; ex_node "tableRow" [ex_bad_cell];
                   ex_node "tableRow" []; ex_node "tableRow" [ex_node "tableCell" [ex_p "z"]]].
Ltac evaluated v := let n := eval vm_compute in (get v) in change (get v) with n.
Ltac strings := unfold top_texts_are_strings; vm_compute;
  repeat (apply Forall_cons || apply Forall_nil); cbn; intros; try discriminate; eexists; reflexivity.
Example C24_table_example :
  (exists w, snd (parse_node w ex_rough_table) = Ok (get ex_rough_table)) /\
  n_kind (get ex_rough_table) = Ktable /\ n_content (get ex_rough_table) = Items (children (get ex_rough_table)) /\
  List.length (children (get ex_rough_table)) = 4 /\ top_texts_are_strings (children (get ex_rough_table)) /\
  Forall (fun r => exists cs, n_content r = Items cs) (children (get ex_rough_table)) /\
  to_markdown rt0 (get ex_rough_table) true =
    Ok (VStr (s "| h<br> | h<br> |" ++ nl ++ s "| --- | --- |" ++ nl ++ s "|  |" ++ nl ++ s "| z<br> |")) /\
  to_markdown rt0 (get ex_rough_table) false = Err NotImplementedErr.
Proof.
  split; [exists true; vm_compute; reflexivity|]. split; [reflexivity|]. split; [reflexivity|]. split; [reflexivity|].
  split; [strings|]. split; [|split; vm_compute; reflexivity].
  let l := eval vm_compute in (children (get ex_rough_table)) in change (children (get ex_rough_table)) with l.
  repeat (apply Forall_cons || apply Forall_nil); eexists; reflexivity.
Qed.
Definition ex_rough_list : value :=
  ex_node "bulletList" [ex_node "listItem" [ex_p "a"; ex_node "bulletList" [ex_node "listItem" [ex_p "b"]]]; ex_node "listItem" [ex_bad_para]].
Definition ex_state : str * value := (s "attrs", VDict [(s "localId", VStr []); (s "state", VStr (s "TODO"))]).
Definition ex_lid : str * value := (s "attrs", VDict [(s "localId", VStr [])]).
Definition ex_rough_tasks : value :=
  VDict [tyv "taskList"; ex_lid; (s "content", VList
    [VDict [tyv "taskItem"; ex_state; (s "content", VList [VDict [tyv "text"; (s "text", VStr (s "t"))]])];
     VDict [tyv "taskList"; ex_lid; (s "content", VList [VDict [tyv "taskItem"; ex_state; (s "content", VList [bad_card])]])]])].
Example C25_list_example :
  (exists w, snd (parse_node w ex_rough_list) = Ok (get ex_rough_list)) /\ n_kind (get ex_rough_list) = KbulletList /\
  list_usable 0 (get ex_rough_list) /\ map fst (jobs 0 (get ex_rough_list)) = [None; Some 1; None] /\
  to_markdown rt0 (get ex_rough_list) false = Err NotImplementedErr.
Proof.
  split; [exists true; vm_compute; reflexivity|]. split; [reflexivity|]. split; [|split; vm_compute; reflexivity].
  split; [reflexivity|]. split; [strings|]. split; [|discriminate].
  evaluated ex_rough_list. cbn [children n_content n_kind]. repeat (apply Forall_cons || apply Forall_nil); reflexivity.
Qed.
Example C25_task_list_example :
  (exists w, snd (parse_node w ex_rough_tasks) = Ok (get ex_rough_tasks)) /\ n_kind (get ex_rough_tasks) = KtaskList /\
  list_usable 0 (get ex_rough_tasks) /\ map fst (jobs 0 (get ex_rough_tasks)) = [None; Some 1] /\
  to_markdown rt0 (get ex_rough_tasks) false = Err NotImplementedErr.
Proof.
  split; [exists true; vm_compute; reflexivity|]. split; [reflexivity|]. split; [|split; vm_compute; reflexivity].
  split; [reflexivity|]. split; [strings|]. split; [|discriminate].
  evaluated ex_rough_tasks. cbn [children n_content n_kind]. repeat (apply Forall_cons || apply Forall_nil); cbn; auto.
  split; [reflexivity|eexists; reflexivity].
Qed.
