(** Instances of the outline lemmas, item depths, and task lists. *)
From Coq Require Import List NArith ZArith Bool Ascii String Lia.
From Verif Require Import PyStr Values Schema Parse Date Markdown Basics StrFacts SpecParse ParseFacts4
  MdFacts SpecMd MdFacts2 LeafFacts SpecErr ErrFacts SpecList ListFacts.
Import ListNotations.
Open Scope string_scope.
Open Scope list_scope.
Open Scope nat_scope.

(** ---------------------------------------------------------------- depths *)
Lemma item_depths_cont more : item_depths (map Cont more) = [].
Proof. induction more; cbn; auto. Qed.
Lemma item_depths_app a b : item_depths (a ++ b) = item_depths a ++ item_depths b.
Proof. apply flat_map_app. Qed.
Lemma depths_list own d n cs : n_kind n = own -> n_content n = Items cs ->
  depths own d n = flat_map (fun c => if nk_eq_dec (n_kind c) KlistItem then d :: depths own d c else []) cs.
Proof.
  destruct n as [k ty ve tx a co ma]. cbn [n_kind n_content]. intros -> ->. cbn [depths].
  destruct (nk_eq_dec own own); [reflexivity|congruence].
Qed.
Lemma depths_item own d n cs : own <> KlistItem -> n_kind n = KlistItem -> n_content n = Items cs ->
  depths own d n = flat_map (fun c => if nk_eq_dec (n_kind c) own then depths own (S d) c else []) cs.
Proof.
  intros HO. destruct n as [k ty ve tx a co ma]. cbn [n_kind n_content]. intros -> ->. cbn [depths].
  destruct (nk_eq_dec KlistItem own); [congruence|]. reflexivity.
Qed.
Lemma filter_items_kind cs : Forall (fun c => n_kind c = KlistItem) (filter is_item cs).
Proof.
  apply Forall_forall. intros c Hc. apply filter_In in Hc as [_ H]. unfold is_item in H.
  destruct (nk_eq_dec (n_kind c) KlistItem); congruence.
Qed.
Lemma flat_map_filter {A B} (p : A -> bool) (f : A -> list B) l : flat_map (fun c => if p c then f c else []) l = flat_map f (filter p l).
Proof. induction l as [|a l IH]; [reflexivity|]. cbn. destruct (p a); cbn; now rewrite IH. Qed.
Lemma outline_depths E own : own <> KlistItem ->
  (forall d n ls, outline E own d n ls -> item_depths ls = depths own d n) /\
  (forall d i its ls, items E own d i its ls -> Forall (fun c => n_kind c = KlistItem) its ->
     item_depths ls = flat_map (fun c => d :: depths own d c) its) /\
  (forall d bs ls, blocks E own d bs ls ->
     item_depths ls = flat_map (fun c => if nk_eq_dec (n_kind c) own then depths own (S d) c else []) bs).
Proof.
  intros HO. apply outline_mutind.
  - intros d n cs ls HK HI _ IH. rewrite (depths_list own d n cs HK HI), IH by apply filter_items_kind.
    rewrite <- flat_map_filter. apply flat_map_ext. intros c. unfold is_item. now destruct (nk_eq_dec (n_kind c) KlistItem).
  - reflexivity.
  - intros d i item b bs x t more ls rest ls' HI HB _ _ _ IHb _ IHi HF. apply Forall_cons_iff in HF as [HF1 HF2].
    change (Item d i t :: map Cont more ++ ls ++ ls') with ([Item d i t] ++ map Cont more ++ ls ++ ls').
    rewrite !item_depths_app, item_depths_cont, IHb, (IHi HF2). cbn [flat_map app].
    rewrite (depths_item own d item (b :: bs) HO HF1 HI). cbn [flat_map].
    destruct (nk_eq_dec (n_kind b) own); [congruence|]. reflexivity.
  - reflexivity.
  - intros d b bs ls ls' HK _ IHo _ _ IHb. rewrite item_depths_app, IHo, IHb. cbn [flat_map].
    destruct (nk_eq_dec (n_kind b) own); [reflexivity|congruence].
  - intros d b bs x ls HK _ _ IHb. rewrite item_depths_app, item_depths_cont, IHb. cbn [flat_map].
    destruct (nk_eq_dec (n_kind b) own); [congruence|reflexivity].
Qed.

(** ---------------------------------------------------------------- markers *)
Lemma repeat_in {A} (a b : A) n : In a (repeat b n) -> a = b.
Proof. intros H. now apply repeat_spec in H. Qed.
Lemma indentation_free d : ~ In NL (indentation d).
Proof. intros H. apply repeat_in in H. discriminate. Qed.
Definition bullet_mk (d i : nat) : str := indentation d ++ s "- ".
Definition ordered_mk (start : Z) (d i : nat) : str :=
  indentation d ++ dec ((if Nat.eqb d 0 then start else 1%Z) + Z.of_nat i) ++ s ". ".
Lemma dec_chars z c : In c (dec z) -> (45 <= c <= 57)%N.
Proof.
  assert (HU : forall u, In c (s (DecimalString.NilEmpty.string_of_uint u)) -> (48 <= c <= 57)%N).
  { induction u; cbn [DecimalString.NilEmpty.string_of_uint]; [intros []|..];
    (match goal with |- context [s (String ?c ?x)] => let v := eval vm_compute in (Ascii.N_of_ascii c) in
       change (s (String c x)) with (v :: s x) end; intros [<-|H]; [lia|auto]). }
  unfold dec. destruct (Z.to_int z) as [u|u]; cbn [DecimalString.NilEmpty.string_of_int]; intros H.
  - specialize (HU u H). lia.
  - change (s (String "-"%char (DecimalString.NilEmpty.string_of_uint u))) with (45%N :: s (DecimalString.NilEmpty.string_of_uint u)) in H.
    destruct H as [<-|H]; [lia|]. specialize (HU u H). lia.
Qed.
Lemma bullet_mk_free d i : ~ In NL (bullet_mk d i).
Proof.
  unfold bullet_mk. intros H. apply in_app_or in H as [H|H]; [now apply indentation_free in H|]. vm_compute in H. intuition congruence.
Qed.
Lemma ordered_mk_free start d i : ~ In NL (ordered_mk start d i).
Proof.
  unfold ordered_mk. intros H. apply in_app_or in H as [H|H]; [now apply indentation_free in H|].
  apply in_app_or in H as [H|H]; [|vm_compute in H; intuition congruence].
  apply dec_chars in H. unfold NL in H. lia.
Qed.
Lemma pr_bullet l : pr bullet_mk l = print_bullet l.
Proof. destruct l; cbn [pr print_bullet]; [|reflexivity]. unfold bullet_mk. now rewrite <- app_assoc. Qed.
Lemma pr_ordered start l : pr (ordered_mk start) l = print_ordered start l.
Proof. destruct l; cbn [pr print_ordered]; [|reflexivity]. unfold ordered_mk. now rewrite <- !app_assoc. Qed.
Lemma marked_bullet d lss : forall i, marked bullet_mk d i lss = List.concat (map (bullet_item d) lss).
Proof.
  induction lss as [|ls lss IH]; intros i; [reflexivity|]. cbn [marked map List.concat]. rewrite IH. unfold bullet_item, bullet_mk.
  now rewrite indent_indentation, <- app_assoc.
Qed.
Lemma marked_ordered start d lss : forall i,
  marked (ordered_mk start) d i lss = ordered_items d (VInt (if Nat.eqb d 0 then start else 1%Z)) i lss.
Proof.
  induction lss as [|ls lss IH]; intros i; [reflexivity|]. cbn [marked ordered_items]. rewrite IH. unfold ordered_item, ordered_mk.
  cbn [ol_number]. rewrite indent_indentation. rewrite <- !app_assoc. reflexivity.
Qed.

Section Instances.
Variable E : runtime.
Lemma bullet_sub d n lss : n_kind n = KbulletList -> list_items (to_md E) (s "bulletList") (n_content n) (S d) false = Ok lss ->
  to_md E n (Some (S d)) false = Ok (VStr (join nl (marked bullet_mk (S d) 0 lss))).
Proof.
  destruct n as [k ty ve tx a co ma]. cbn [n_kind n_content]. intros -> H. cbn [to_md]. unfold bullet_list_md. rewrite H. cbn [rbind].
  now rewrite marked_bullet.
Qed.
Lemma ordered_sub start d n lss : n_kind n = KorderedList -> list_items (to_md E) (s "orderedList") (n_content n) (S d) false = Ok lss ->
  to_md E n (Some (S d)) false = Ok (VStr (join nl (marked (ordered_mk start) (S d) 0 lss))).
Proof.
  destruct n as [k ty ve tx a co ma]. cbn [n_kind n_content]. intros -> H. cbn [to_md]. unfold ordered_list_md. cbn [rbind]. rewrite H. cbn [rbind].
  now rewrite marked_ordered.
Qed.
Lemma bullet_inv d n v : n_kind n = KbulletList -> to_md E n (Some (S d)) false = Ok v ->
  exists lss, list_items (to_md E) (s "bulletList") (n_content n) (S d) false = Ok lss.
Proof.
  destruct n as [k ty ve tx a co ma]. cbn [n_kind n_content]. intros -> H. cbn [to_md] in H. unfold bullet_list_md in H.
  apply rbind_ok in H as (lss & H & _). eauto.
Qed.
Lemma ordered_inv d n v : n_kind n = KorderedList -> to_md E n (Some (S d)) false = Ok v ->
  exists lss, list_items (to_md E) (s "orderedList") (n_content n) (S d) false = Ok lss.
Proof.
  destruct n as [k ty ve tx a co ma]. cbn [n_kind n_content]. intros -> H. cbn [to_md] in H. unfold ordered_list_md in H. cbn [rbind] in H.
  apply rbind_ok in H as (lss & H & _). eauto.
Qed.

Lemma bullet_sound d n ls : outline E KbulletList d n ls -> consistent n ->
  Forall (fun l => ~ In NL l) (map print_bullet ls) /\
  to_md E n (Some d) false = Ok (VStr (join nl (map print_bullet ls))) /\
  (d = 0 -> to_md E n None false = Ok (VStr (join nl (map print_bullet ls)))).
Proof.
  intros HO HC. pose proof (outline_main E KbulletList "bulletList" eq_refl bullet_mk bullet_mk_free bullet_sub) as (HM & _).
  destruct (HM d n ls HO HC) as (HF & lss & H1 & H2). unfold free in HF. rewrite marked_bullet in H2.
  rewrite (map_ext _ _ pr_bullet) in HF, H2. split; [exact HF|].
  destruct HO as [d n cs ls HK HI _]. destruct n as [k ty ve tx a co ma]. cbn [n_kind n_content] in *. subst k.
  split; [|intros ->]; cbn [to_md]; unfold bullet_list_md; rewrite H1, H2; reflexivity.
Qed.
Lemma ordered_sound start d n ls : outline E KorderedList d n ls -> consistent n ->
  Forall (fun l => ~ In NL l) (map (print_ordered start) ls) /\
  (0 < d -> to_md E n (Some d) false = Ok (VStr (join nl (map (print_ordered start) ls)))) /\
  (d = 0 -> attr (n_attrs n) (s "order") = Ok (VInt start) \/
            (start = 1%Z /\ exists v, attr (n_attrs n) (s "order") = Ok v /\ (forall z, v <> VInt z) /\ (forall b, v <> VBool b)) ->
   to_md E n None false = Ok (VStr (join nl (map (print_ordered start) ls)))).
Proof.
  intros HO HC.
  pose proof (outline_main E KorderedList "orderedList" eq_refl (ordered_mk start) (ordered_mk_free start) (ordered_sub start)) as (HM & _).
  destruct (HM d n ls HO HC) as (HF & lss & H1 & H2). unfold free in HF. rewrite marked_ordered in H2.
  rewrite (map_ext _ _ (pr_ordered start)) in HF, H2. split; [exact HF|].
  destruct HO as [d n cs ls HK HI _]. destruct n as [k ty ve tx a co ma]. cbn [n_kind n_content n_attrs] in *. subst k.
  split.
  - intros HD. destruct d as [|d]; [lia|]. cbn [to_md]. unfold ordered_list_md. cbn [rbind]. rewrite H1, H2. reflexivity.
  - intros -> HA. cbn [to_md]. unfold ordered_list_md. cbn [Nat.eqb] in H2.
    destruct HA as [HA|(HS & v & HA & HZ & HB)]; rewrite HA; cbn [rbind].
    + rewrite H1. cbn [rbind]. now rewrite H2.
    + subst start. assert (match v with VInt _ | VBool _ => v | _ => VInt 1 end = VInt 1%Z) as ->.
      { destruct v; try reflexivity; [now destruct (HB b)|now destruct (HZ z)]. }
      rewrite H1. cbn [rbind]. now rewrite H2.
Qed.
Lemma bullet_complete n x : consistent n -> shaped KbulletList n -> n_kind n = KbulletList ->
  to_md E n None false = Ok x -> exists ls, outline E KbulletList 0 n ls.
Proof.
  intros HC HS HK H.
  assert (HL : exists lss, list_items (to_md E) (s "bulletList") (n_content n) 0 false = Ok lss).
  { destruct n as [k ty ve tx a co ma]. cbn [n_kind n_content] in *. subst k. cbn [to_md] in H. unfold bullet_list_md in H.
    apply rbind_ok in H as (lss & H & _). eauto. }
  destruct HL as [lss HL].
  apply (proj1 (complete E KbulletList "bulletList" eq_refl bullet_inv n)) with (lss := lss); assumption.
Qed.
Lemma ordered_complete n x : consistent n -> shaped KorderedList n -> n_kind n = KorderedList ->
  to_md E n None false = Ok x -> exists ls, outline E KorderedList 0 n ls.
Proof.
  intros HC HS HK H.
  assert (HL : exists lss, list_items (to_md E) (s "orderedList") (n_content n) 0 false = Ok lss).
  { destruct n as [k ty ve tx a co ma]. cbn [n_kind n_content] in *. subst k. cbn [to_md] in H. unfold ordered_list_md in H.
    apply rbind_ok in H as (st & _ & H). apply rbind_ok in H as (lss & H & _). eauto. }
  destruct HL as [lss HL].
  apply (proj1 (complete E KorderedList "orderedList" eq_refl ordered_inv n)) with (lss := lss); assumption.
Qed.

(** ---------------------------------------------------------------- task lists *)
Definition task_fun (d : nat) (ign : bool) (item : node) : res (list value) :=
  if is_type_of item [s "taskItem"] then do l <- task_item_line (to_md E) d ign item; Ok [l]
  else if is_type_of item [s "taskList"] then try_ ign (to_md E item (Some (S d)) ign) else Ok [].
Lemma task_line d c kids xs st done : n_content c = Items kids -> Forall2 (renders E) kids xs -> state_of c st ->
  (done = true <-> st = VStr (s "DONE")) ->
  task_item_line (to_md E) d false c = Ok (VStr (print_task (Task d done (rstrip (List.concat xs))))).
Proof.
  intros HI HF (l & HA & HL) HD. unfold task_item_line. rewrite HI. unfold loop.
  rewrite (for_each_single _ kids (map VStr xs)).
  - cbn [rbind]. rewrite join_values_str. cbn [rbind]. rewrite HA. cbn [attr]. rewrite HL. cbn [rbind print_task].
    rewrite indent_indentation, join_nil. do 2 f_equal. unfold print_task. f_equal.
    set (y := rstrip (List.concat xs)). clearbody y.
    assert (HB : (match st with VStr x => if str_eqb x (s "DONE") then s "[x]" else s "[ ]" | _ => s "[ ]" end)
                 = if done then s "[x]" else s "[ ]").
    { destruct done.
      - rewrite (proj1 HD eq_refl). reflexivity.
      - destruct st; try reflexivity. destruct (str_eqb x (s "DONE")) eqn:EX; [|reflexivity].
        apply str_eqb_eq in EX. subst x. destruct HD as [_ HD]. specialize (HD eq_refl). discriminate. }
    rewrite HB. destruct done; reflexivity.
  - clear - HF. induction HF as [|n x l xs H HF IH]; constructor; [|exact IH]. unfold renders, to_markdown in H. now rewrite H.
Qed.
Lemma tasks_main :
  (forall d n ls, tasks E d n ls -> consistent n -> forall lv, match lv with Some l => l | None => 0 end = d ->
     to_md E n lv false = Ok (VStr (join nl (map print_task ls)))) /\
  (forall d cs ls, entries E d cs ls -> Forall consistent cs ->
     exists ys, for_each (task_fun d false) cs = Ok (map VStr ys) /\ join nl ys = join nl (map print_task ls) /\
                (ys = [] <-> ls = [])).
Proof.
  apply tasks_mutind.
  - intros d n cs ls HK HI _ IH HC lv HL. pose proof (consistent_items _ _ HC HI) as HCC. destruct (IH HCC) as (ys & H1 & H2 & _).
    destruct n as [k ty ve tx a co ma]. cbn [n_kind n_content] in *. subst k co. cbn [to_md]. rewrite HL. unfold task_list_md, loop.
    change (for_each _ cs) with (for_each (task_fun d false) cs). rewrite H1. cbn [rbind]. rewrite join_values_str. cbn [rbind]. now rewrite H2.
  - intros d _. exists []. repeat split; reflexivity.
  - intros d c cs kids xs st done ls HK HI HF HS HD _ IH HC. apply Forall_cons_iff in HC as [HC1 HC2].
    destruct (IH HC2) as (ys & H1 & H2 & H3). exists (print_task (Task d done (rstrip (List.concat xs))) :: ys).
    split; [|split; [|split; discriminate]].
    + cbn [map]. apply (for_each_app (task_fun d false) cs _ [VStr (print_task (Task d done (rstrip (List.concat xs))))] (map VStr ys) c).
      * unfold task_fun. rewrite (type_is c "taskItem" KtaskItem) by (assumption || reflexivity).
        destruct (nk_eq_dec (n_kind c) KtaskItem); [|congruence]. rewrite (task_line d c kids xs st done) by assumption. reflexivity.
      * exact H1.
      * reflexivity.
    + cbn [map]. destruct ys as [|y ys], ls as [|l ls]; try reflexivity.
      * destruct H3 as [H3 _]. specialize (H3 eq_refl). discriminate.
      * destruct H3 as [_ H3]. specialize (H3 eq_refl). discriminate.
      * rewrite !join_cons by discriminate. now rewrite H2.
  - intros d c cs ls ls' HK _ IHt HN _ IH HC. apply Forall_cons_iff in HC as [HC1 HC2].
    destruct (IH HC2) as (ys & H1 & H2 & H3). exists (join nl (map print_task ls) :: ys).
    split; [|split].
    + cbn [map]. apply (for_each_app (task_fun d false) cs _ [VStr (join nl (map print_task ls))] (map VStr ys) c).
      * unfold task_fun. rewrite (type_is c "taskItem" KtaskItem) by (assumption || reflexivity).
        rewrite (type_is c "taskList" KtaskList) by (assumption || reflexivity). rewrite HK. cbn.
        rewrite (IHt HC1 (Some (S d)) eq_refl). reflexivity.
      * exact H1.
      * reflexivity.
    + rewrite map_app. destruct ys as [|y ys].
      * destruct H3 as [H3 _]. rewrite (H3 eq_refl). cbn [map]. rewrite app_nil_r. reflexivity.
      * rewrite join_cons by discriminate. rewrite H2. symmetry. apply join_app.
        -- destruct ls; [congruence|discriminate].
        -- destruct ls'; [|discriminate]. destruct H3 as [_ H3]. specialize (H3 eq_refl). discriminate.
    + split; [discriminate|]. intros K. apply app_eq_nil in K as [-> _]. congruence.
  - intros d c cs ls HK1 HK2 _ IH HC. apply Forall_cons_iff in HC as [HC1 HC2]. destruct (IH HC2) as (ys & H1 & H2 & H3).
    exists ys. split; [|split; assumption].
    apply (for_each_app (task_fun d false) cs _ [] (map VStr ys) c); [|exact H1|reflexivity].
    unfold task_fun. rewrite (type_is c "taskItem" KtaskItem) by (assumption || reflexivity).
    rewrite (type_is c "taskList" KtaskList) by (assumption || reflexivity).
    destruct (nk_eq_dec (n_kind c) KtaskItem); [congruence|]. destruct (nk_eq_dec (n_kind c) KtaskList); [congruence|]. reflexivity.
Qed.
Definition task_line_depths (ls : list tline) : list nat := map (fun l => match l with Task d _ _ => d end) ls.
Lemma tasks_depths :
  (forall d n ls, tasks E d n ls -> task_line_depths ls = task_depths d n) /\
  (forall d cs ls, entries E d cs ls -> task_line_depths ls =
     flat_map (fun c => if nk_eq_dec (n_kind c) KtaskItem then [d] else if nk_eq_dec (n_kind c) KtaskList then task_depths (S d) c else []) cs).
Proof.
  apply tasks_mutind.
  - intros d n cs ls HK HI _ IH. destruct n as [k ty ve tx a co ma]. cbn [n_kind n_content] in *. subst k co. exact IH.
  - reflexivity.
  - intros d c cs kids xs st done ls HK HI HF HS HD _ IH. cbn [task_line_depths map flat_map]. unfold task_line_depths in IH.
    rewrite IH. destruct (nk_eq_dec (n_kind c) KtaskItem); [reflexivity|congruence].
  - intros d c cs ls ls' HK _ IHt HN _ IH. unfold task_line_depths in *. rewrite map_app, IHt, IH. cbn [flat_map].
    destruct (nk_eq_dec (n_kind c) KtaskItem); [congruence|]. destruct (nk_eq_dec (n_kind c) KtaskList); [reflexivity|congruence].
  - intros d c cs ls H1 H2 _ IH. cbn [flat_map]. rewrite IH.
    destruct (nk_eq_dec (n_kind c) KtaskItem); [congruence|]. destruct (nk_eq_dec (n_kind c) KtaskList); [congruence|reflexivity].
Qed.
End Instances.
