(** C31-C34: bullet, ordered, task and mixed lists.  Vocabulary: SpecList.v ([outline], [print_bullet],
    [print_ordered], [depths], [shaped], [tasks], [print_task], ...). *)
From Coq Require Import List NArith ZArith Bool String Lia.
From Verif Require Import PyStr Values Schema Parse Date Markdown Basics StrFacts MarkFacts SpecParse ParseFacts4
  MdFacts SpecMd MdFacts2 LeafFacts SpecErr ErrFacts SpecList ListFacts ListFacts2 ListFacts3
  Properties_Marks Properties_Nodes Properties_Layout Properties_Errors.
Import ListNotations.
Open Scope string_scope.
Open Scope list_scope.
Open Scope nat_scope.

(** ================================================================ C31 *)
(** A parsed bullet list with the outline ls renders as the lines of ls, whatever the flag. *)
Theorem C31_bullet_outline : forall E w v n ls ign, snd (parse_node w v) = Ok n -> outline E KbulletList 0 n ls ->
  to_markdown E n ign = Ok (VStr (join nl (map print_bullet ls))).
Proof.
  intros E w v n ls ign HP HO. apply parse_consistent in HP.
  destruct (bullet_sound E 0 n ls HO HP) as (_ & _ & H). specialize (H eq_refl).
  destruct ign; [now apply ignore_conservative|exact H].
Qed.
(** The same for any list of the tree, at its own depth: to_markdown(level=d). *)
Theorem C31_bullet_at_level : forall E w v n d ls ign, snd (parse_node w v) = Ok n -> outline E KbulletList d n ls ->
  to_md E n (Some d) ign = Ok (VStr (join nl (map print_bullet ls))).
Proof.
  intros E w v n d ls ign HP HO. apply parse_consistent in HP.
  destruct (bullet_sound E d n ls HO HP) as (_ & H & _).
  destruct ign; [now apply ignore_conservative|exact H].
Qed.
(** No outline line contains a newline, so the outline lines are the lines of the output. *)
Theorem C31_lines_are_the_outline : forall E w v n ls x ign, snd (parse_node w v) = Ok n -> outline E KbulletList 0 n ls -> ls <> [] ->
  to_markdown E n ign = Ok (VStr x) -> split_on NL x = map print_bullet ls.
Proof.
  intros E w v n ls x ign HP HO HN H. rewrite (C31_bullet_outline E w v n ls ign HP HO) in H. apply okstr_inj in H as <-.
  apply parse_consistent in HP. destruct (bullet_sound E 0 n ls HO HP) as (HF & _).
  apply split_join_free; [|exact HF]. destruct ls; [congruence|discriminate].
Qed.
(** Every list item, at every depth, has exactly one item line, in document order and at its own depth. *)
Theorem C31_one_line_per_item : forall E n d ls, outline E KbulletList d n ls -> item_depths ls = depths KbulletList d n.
Proof. intros E n d ls HO. exact (proj1 (outline_depths E KbulletList (fun H => ltac:(discriminate H))) d n ls HO). Qed.
(** The outline is determined by the list ... *)
Theorem C31_outline_unique : forall E d n ls ls', outline E KbulletList d n ls -> outline E KbulletList d n ls' -> ls = ls'.
Proof. intros. eapply outline_unique; eauto. Qed.
(** ... and every bullet list of the shape ADF prescribes that renders at all has one. *)
Theorem C31_rendering_lists_have_an_outline : forall E w v n x, snd (parse_node w v) = Ok n -> n_kind n = KbulletList ->
  shaped KbulletList n -> to_markdown E n false = Ok x -> exists ls, outline E KbulletList 0 n ls.
Proof. intros E w v n x HP HK HS H. apply parse_consistent in HP. eapply bullet_complete; eauto. Qed.

Ltac ol_step :=
  match goal with
  | |- outline _ _ _ _ _ =>
      eapply o_list; [reflexivity|reflexivity|
        match goal with |- items _ _ _ _ (filter ?f ?l) _ => let r := eval vm_compute in (filter f l) in change (filter f l) with r end]
  | |- items _ _ _ _ [] _ => apply i_nil
  | |- items _ _ _ _ (_ :: _) _ => eapply i_cons; [reflexivity|discriminate|vm_compute; reflexivity|vm_compute; reflexivity| |]
  | |- blocks _ _ _ [] _ => apply b_nil
  | |- _ <> [] => discriminate
  | |- blocks _ _ _ (_ :: _) _ => first [eapply b_sub; [reflexivity| | |] | eapply b_text; [discriminate|vm_compute; reflexivity|]]
  end.
Ltac ol := repeat ol_step.

Definition ex_li (l : list value) : value := VDict [tyv "listItem"; (s "content", VList l)].
Definition ex_ul (l : list value) : value := VDict [tyv "bulletList"; (s "content", VList l)].
Definition ex_ol (start : Z) (l : list value) : value :=
  VDict [tyv "orderedList"; (s "attrs", VDict [(s "order", VInt start)]); (s "content", VList l)].
Definition ex_lines : str := s "two" ++ nl ++ s "lines".
Definition ex_bullets : value :=
  ex_ul [ex_li [ex_p "one"; ex_ul [ex_li [ex_p "deep"; ex_ul [ex_li [ex_p "deeper"]]]; ex_li [ex_p "next"]]];
         ex_li [VDict [tyv "paragraph"; (s "content", VList [VDict [tyv "text"; (s "text", VStr ex_lines)]])]; ex_p "more"]].
Ltac evaluated v := let n := eval vm_compute in (get v) in change (get v) with n.
Example C31_example : (exists w, snd (parse_node w ex_bullets) = Ok (get ex_bullets)) /\
  exists ls, outline rt0 KbulletList 0 (get ex_bullets) ls /\
    map print_bullet ls = [s "- one"; s "    - deep"; s "        - deeper"; s "    - next"; s "- two"; s "lines"; s "more"] /\
    item_depths ls = [0; 1; 2; 1; 0].
Proof.
  split; [exists true; vm_compute; reflexivity|]. evaluated ex_bullets. eexists. split; [ol|split; vm_compute; reflexivity].
Qed.
Example C31_shaped_example : shaped KbulletList (get ex_bullets).
Proof.
  evaluated ex_bullets. repeat match goal with
  | |- shaped _ _ => econstructor; [reflexivity|]; intros item [<-|HIn] _; [eexists _, _; split; [reflexivity|split; [discriminate|]]|]
  | H : In _ (_ :: _) |- _ => destruct H as [<-|H]
  | H : In _ [] |- _ => destruct H
  | |- forall c, In c _ -> _ -> _ => intros c HIn HK; cbn [In] in HIn
  | H : _ \/ _ |- _ => destruct H as [<-|H]
  | H : False |- _ => destruct H
  | H : n_kind _ = _ |- _ => first [discriminate H|clear H; split; [|eexists _, _; split; [reflexivity|split; [left; reflexivity|reflexivity]]]]
  | |- exists b bs, _ => eexists _, _; split; [reflexivity|split; [discriminate|]]
  end.
Qed.

(** ================================================================ C32 *)
(** Items are numbered consecutively: from attrs.order at the top if that is an integer, else from 1; nested lists from 1. *)
Theorem C32_ordered_outline : forall E w v n ls start ign, snd (parse_node w v) = Ok n -> outline E KorderedList 0 n ls ->
  attr (n_attrs n) (s "order") = Ok (VInt start) ->
  to_markdown E n ign = Ok (VStr (join nl (map (print_ordered start) ls))).
Proof.
  intros E w v n ls start ign HP HO HA. apply parse_consistent in HP.
  destruct (ordered_sound E start 0 n ls HO HP) as (_ & _ & H). specialize (H eq_refl (or_introl HA)).
  destruct ign; [now apply ignore_conservative|exact H].
Qed.
Theorem C32_default_start : forall E w v n ls o ign, snd (parse_node w v) = Ok n -> outline E KorderedList 0 n ls ->
  attr (n_attrs n) (s "order") = Ok o -> (forall z, o <> VInt z) -> (forall b, o <> VBool b) ->
  to_markdown E n ign = Ok (VStr (join nl (map (print_ordered 1) ls))).
Proof.
  intros E w v n ls o ign HP HO HA HZ HB. apply parse_consistent in HP.
  destruct (ordered_sound E 1 0 n ls HO HP) as (_ & _ & H).
  specialize (H eq_refl (or_intror (conj eq_refl (ex_intro _ o (conj HA (conj HZ HB)))))).
  destruct ign; [now apply ignore_conservative|exact H].
Qed.
(** A nested list ignores its own order attribute (and needs no attrs). *)
Theorem C32_nested_start : forall E w v n d ls start ign, snd (parse_node w v) = Ok n -> outline E KorderedList (S d) n ls ->
  to_md E n (Some (S d)) ign = Ok (VStr (join nl (map (print_ordered start) ls))).
Proof.
  intros E w v n d ls start ign HP HO. apply parse_consistent in HP.
  destruct (ordered_sound E start (S d) n ls HO HP) as (_ & H & _). specialize (H (Nat.lt_0_succ d)).
  destruct ign; [now apply ignore_conservative|exact H].
Qed.
(** The k-th item of the list itself is printed with the number start + k, for every k. *)
Definition top_numbers (ls : list oline) : list nat :=
  flat_map (fun l => match l with Item 0 i _ => [i] | _ => [] end) ls.
Theorem C32_consecutive : forall E n cs ls, outline E KorderedList 0 n ls -> n_content n = Items cs ->
  top_numbers ls = seq 0 (List.length (filter is_item cs)).
Proof. intros E n cs ls HO HI. eapply outline_top_numbers; eauto. Qed.
Theorem C32_one_line_per_item : forall E n d ls, outline E KorderedList d n ls -> item_depths ls = depths KorderedList d n.
Proof. intros E n d ls HO. exact (proj1 (outline_depths E KorderedList (fun H => ltac:(discriminate H))) d n ls HO). Qed.
Theorem C32_lines_are_the_outline : forall E w v n ls start x ign, snd (parse_node w v) = Ok n -> outline E KorderedList 0 n ls -> ls <> [] ->
  attr (n_attrs n) (s "order") = Ok (VInt start) -> to_markdown E n ign = Ok (VStr x) -> split_on NL x = map (print_ordered start) ls.
Proof.
  intros E w v n ls start x ign HP HO HN HA H. rewrite (C32_ordered_outline E w v n ls start ign HP HO HA) in H. apply okstr_inj in H as <-.
  apply parse_consistent in HP. destruct (ordered_sound E start 0 n ls HO HP) as (HF & _).
  apply split_join_free; [|exact HF]. destruct ls; [congruence|discriminate].
Qed.
Theorem C32_rendering_lists_have_an_outline : forall E w v n x, snd (parse_node w v) = Ok n -> n_kind n = KorderedList ->
  shaped KorderedList n -> to_markdown E n false = Ok x -> exists ls, outline E KorderedList 0 n ls.
Proof. intros E w v n x HP HK HS H. apply parse_consistent in HP. eapply ordered_complete; eauto. Qed.
Theorem C32_outline_unique : forall E d n ls ls', outline E KorderedList d n ls -> outline E KorderedList d n ls' -> ls = ls'.
Proof. intros. eapply outline_unique; eauto. Qed.
(** An ordered list without attrs (valid ADF) never renders, with either flag, whatever it contains. *)
Theorem C32_no_attrs_raises : forall E n ign, n_kind n = KorderedList -> n_attrs n = AOpt ->
  to_markdown E n ign = Err AttributeError.
Proof. intros E [k ty ve tx a co ma] ign. cbn [n_kind n_attrs]. intros -> ->. reflexivity. Qed.
Definition ex_ordered : value :=
  ex_ol 9 [ex_li [ex_p "one"; ex_ol 5 [ex_li [ex_p "deep"]; ex_li [ex_p "deep2"]]]; ex_li [ex_p "two"]; ex_li [ex_p "three"]].
Example C32_example : (exists w, snd (parse_node w ex_ordered) = Ok (get ex_ordered)) /\
  attr (n_attrs (get ex_ordered)) (s "order") = Ok (VInt 9) /\
  exists ls, outline rt0 KorderedList 0 (get ex_ordered) ls /\
    map (print_ordered 9) ls = [s "9. one"; s "    1. deep"; s "    2. deep2"; s "10. two"; s "11. three"].
Proof.
  split; [exists true; vm_compute; reflexivity|]. split; [vm_compute; reflexivity|].
  evaluated ex_ordered. eexists. split; [ol|vm_compute; reflexivity].
Qed.
Example C32_no_attrs_example : n_kind (get ex_ordered_bare) = KorderedList /\ n_attrs (get ex_ordered_bare) = AOpt.
Proof. split; vm_compute; reflexivity. Qed.

(** ================================================================ C33 *)
Theorem C33_task_outline : forall E w v n ls ign, snd (parse_node w v) = Ok n -> tasks E 0 n ls ->
  to_markdown E n ign = Ok (VStr (join nl (map print_task ls))).
Proof.
  intros E w v n ls ign HP HO. apply parse_consistent in HP.
  pose proof (proj1 (tasks_main E) 0 n ls HO HP None eq_refl) as H.
  destruct ign; [now apply ignore_conservative|exact H].
Qed.
Theorem C33_task_at_level : forall E w v n d ls ign, snd (parse_node w v) = Ok n -> tasks E d n ls ->
  to_md E n (Some d) ign = Ok (VStr (join nl (map print_task ls))).
Proof.
  intros E w v n d ls ign HP HO. apply parse_consistent in HP.
  pose proof (proj1 (tasks_main E) d n ls HO HP (Some d) eq_refl) as H.
  destruct ign; [now apply ignore_conservative|exact H].
Qed.
(** One line per task item, in document order, at its own depth. *)
Theorem C33_one_line_per_task : forall E n d ls, tasks E d n ls -> map (fun l => match l with Task d' _ _ => d' end) ls = task_depths d n.
Proof. intros E n d ls HO. exact (proj1 (tasks_depths E) d n ls HO). Qed.
Theorem C33_outline_unique : forall E d n ls ls', tasks E d n ls -> tasks E d n ls' -> ls = ls'.
Proof. intros. eapply tasks_unique; eauto. Qed.
(** Every task list that renders, whose items hold a list of nodes and whose nested lists hold a task, has such an outline. *)
Theorem C33_rendering_lists_have_an_outline : forall E w v n x, snd (parse_node w v) = Ok n -> n_kind n = KtaskList ->
  task_shaped n -> to_markdown E n false = Ok x -> exists ls, tasks E 0 n ls.
Proof. intros E w v n x HP HK HS H. apply parse_consistent in HP. eapply tasks_complete; eauto. Qed.
(** A task item without content (valid ADF) makes the list raise, with either flag, unless an earlier entry raises first. *)
Theorem C33_item_without_content_raises : forall E w v n cs pre c post ign, snd (parse_node w v) = Ok n -> n_kind n = KtaskList ->
  n_content n = Items cs -> cs = pre ++ c :: post -> n_kind c = KtaskItem -> n_content c = SOpt ->
  exists e, to_markdown E n ign = Err e.
Proof.
  intros E w v n cs pre c post ign HP HK HI -> HKc HC. apply parse_consistent in HP. pose proof (consistent_items _ _ HP HI) as HCC.
  destruct n as [k ty ve tx a co ma]. cbn [n_kind n_content] in *. subst k co. unfold to_markdown. cbn [to_md]. unfold task_list_md, loop.
  match goal with |- exists e, rbind (for_each ?f _) _ = _ => set (F := f) end.
  assert (HE : exists e, for_each F (pre ++ c :: post) = Err e); [|destruct HE as [e ->]; exists e; reflexivity].
  clear HP. apply Forall_app in HCC as [_ HCC]. apply Forall_cons_iff in HCC as [HCc _].
  assert (HF : F c = Err TypeError).
  { unfold F. rewrite (type_is c "taskItem" KtaskItem) by (assumption || reflexivity). destruct (nk_eq_dec (n_kind c) KtaskItem); [|congruence].
    unfold task_item_line. rewrite HC. reflexivity. }
  clearbody F. induction pre as [|p pre [e IH]]; cbn [app for_each].
  - rewrite HF. exists TypeError. reflexivity.
  - fold (for_each F). rewrite IH. destruct (F p); eexists; reflexivity.
Qed.
Definition ex_task (st : string) (l : list value) : value :=
  VDict [tyv "taskItem"; (s "attrs", VDict [(s "localId", VStr []); (s "state", VStr (s st))]); (s "content", VList l)].
Definition ex_tl (l : list value) : value :=
  VDict [tyv "taskList"; (s "attrs", VDict [(s "localId", VStr [])]); (s "content", VList l)].
Definition tx (x : string) : value := VDict [tyv "text"; (s "text", VStr (s x))].
Definition ex_tasks : value :=
  ex_tl [ex_task "DONE" [tx "one"; tx " more  "]; ex_tl [ex_task "TODO" [tx "sub"]; ex_tl [ex_task "DONE" []]]; ex_task "TODO" [tx "last"]].
Example C33_example : (exists w, snd (parse_node w ex_tasks) = Ok (get ex_tasks)) /\
  exists ls, tasks rt0 0 (get ex_tasks) ls /\
    map print_task ls = [s "- [x] one more"; s "    - [ ] sub"; s "        - [x] "; s "- [ ] last"].
Proof.
  split; [exists true; vm_compute; reflexivity|]. evaluated ex_tasks. eexists. split.
  - repeat match goal with
    | |- tasks _ _ _ _ => eapply t_list; [reflexivity|reflexivity|]
    | |- entries _ _ [] _ => apply e_nil
    | |- _ <> [] => discriminate
    | |- entries _ _ (_ :: _) _ => first
        [eapply (e_item _ _ _ _ _ _ _ true); [reflexivity|reflexivity| |eexists; split; [reflexivity|vm_compute; reflexivity]|split; reflexivity|]
        |eapply (e_item _ _ _ _ _ _ _ false); [reflexivity|reflexivity| |eexists; split; [reflexivity|vm_compute; reflexivity]|split; discriminate|]
        |eapply e_sub; [reflexivity| | |]]
    | |- Forall2 (SpecMd.renders _) [] _ => constructor
    | |- Forall2 (SpecMd.renders _) (_ :: _) _ => eapply Forall2_cons; [vm_compute; reflexivity|]
    end.
  - vm_compute. reflexivity.
Qed.

(** ================================================================ C34 *)
(** What really happens to a list of another kind inside an item, at whatever depth of the list: its own top-level
    rendering is copied, line by line and without any indentation. *)
Inductive foreign (own : nkind) (f : node) : node -> Prop :=
| f_here n cs item b bs : n_content n = Items cs -> In item cs -> n_kind item = KlistItem -> n_content item = Items (b :: bs) ->
    In f bs -> n_kind f <> own -> foreign own f n
| f_below n cs item b bs sub : n_content n = Items cs -> In item cs -> n_kind item = KlistItem -> n_content item = Items (b :: bs) ->
    In sub bs -> n_kind sub = own -> foreign own f sub -> foreign own f n.
Theorem C34_foreign_list_is_copied_flat : forall E own d n ls f x, own <> KlistItem ->
  outline E own d n ls -> foreign own f n -> renders E f x ->
  exists pre post, ls = pre ++ map Cont (split_on NL (rstrip x)) ++ post.
Proof.
  intros E own d n ls f x _ HO HF HR. revert d ls HO. induction HF as [n cs item b bs HI HIn HK HC HB HKf|n cs item b bs sub HI HIn HK HC HB HKs HF IH];
    intros d ls HO; inversion HO as [d' n' cs' ls' HK' HI' HIt]; subst;
    assert (cs' = cs) by congruence; subst cs'.
  - apply (outline_item_blocks E _ d item b bs HC) in HIt.
    + destruct HIt as (pre & l & post & -> & HBl). destruct (blocks_in E _ d bs l f HBl HB) as (p & q & m & -> & [(HKo & _)|(_ & y & HRy & ->)]); [congruence|].
      exists (pre ++ p), (q ++ post). unfold renders in *. assert (y = x) as -> by congruence. now rewrite <- !app_assoc.
    + apply filter_In. split; [assumption|]. unfold is_item. now rewrite HK.
  - apply (outline_item_blocks E _ d item b bs HC) in HIt.
    + destruct HIt as (pre & l & post & -> & HBl). destruct (blocks_in E _ d bs l sub HBl HB) as (p & q & m & -> & [(_ & HOs)|(HKo & _)]); [|congruence].
      destruct (IH (S d) m HOs) as (p' & q' & ->). exists (pre ++ p ++ p'), (q' ++ q ++ post). now rewrite <- !app_assoc.
    + apply filter_In. split; [assumption|]. unfold is_item. now rewrite HK.
Qed.
(** So the documented nesting is refuted: the markers of the inner list start at column 0. *)
Definition ex_mixed : value := ex_ul [ex_li [ex_p "outer"; ex_ol 1 [ex_li [ex_p "inner"]]]].
Definition ex_mixed2 : value := ex_ol 1 [ex_li [ex_p "outer"; ex_ul [ex_li [ex_p "inner"]]]].
Definition ex_mixed3 : value := ex_ul [ex_li [ex_p "outer"; ex_tl [ex_task "TODO" [tx "inner"]]]].
Theorem C34_mixed_nesting_refuted :
  to_markdown rt0 (get ex_mixed) false = Ok (VStr (s "- outer" ++ nl ++ s "1. inner")) /\
  to_markdown rt0 (get ex_mixed2) false = Ok (VStr (s "1. outer" ++ nl ++ s "- inner")) /\
  to_markdown rt0 (get ex_mixed3) false = Ok (VStr (s "- outer" ++ nl ++ s "- [ ] inner")).
Proof. split; [|split]; vm_compute; reflexivity. Qed.
Example C34_example : exists ls f, outline rt0 KbulletList 0 (get ex_mixed) ls /\ foreign KbulletList f (get ex_mixed) /\
  renders rt0 f (s "1. inner") /\ n_kind f = KorderedList.
Proof.
  evaluated ex_mixed. eexists. eexists. split; [ol|]. split; [|split].
  - eapply f_here; [reflexivity|left; reflexivity|reflexivity|reflexivity|left; reflexivity|discriminate].
  - vm_compute. reflexivity.
  - reflexivity.
Qed.
Example C33_shaped_example : task_shaped (get ex_tasks).
Proof.
  evaluated ex_tasks. repeat match goal with
  | |- task_shaped _ => econstructor; [reflexivity| |]
  | |- forall c, In c _ -> _ => intros c HIn HK; cbn [In] in HIn
  | H : _ \/ _ |- _ => destruct H as [<-|H]
  | H : False |- _ => destruct H
  | H : n_kind _ = _ |- _ => first [discriminate H|clear H]
  | |- exists kids, _ => eexists; reflexivity
  | |- _ /\ _ <> [] => split; [|discriminate]
  end.
Qed.
Example C33_without_content_example : n_kind (get ex_task_no_content) = KtaskList /\
  exists c, n_content (get ex_task_no_content) = Items [c] /\ n_kind c = KtaskItem /\ n_content c = SOpt.
Proof. split; [vm_compute; reflexivity|]. eexists. split; [vm_compute; reflexivity|split; reflexivity]. Qed.
