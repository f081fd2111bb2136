(** C20: no textual content is lost in rendering.
    Vocabulary (SpecText.v): [in_order ts x]: the strings ts occur in x in this order without overlapping;
    [pieces t]: the stripped non-blank lines of t; [all_texts n]: the text leaves of n;
    [lossless n]: n contains none of the constructs that drop content;
    [texts n]: the texts shown, for any n. *)
From Coq Require Import List NArith ZArith Bool String Lia.
From Verif Require Import PyStr Values Schema Parse Date Markdown Basics StrFacts MarkFacts Collapse LayoutFacts SpecParse ParseFacts4
  SpecMd MdFacts MdFacts2 LeafFacts SpecErr ErrFacts SpecTable TableFacts SpecText TextFacts TextFacts2
  Properties_Marks Properties_Nodes Properties_Layout Properties_Lists Properties_Render.
Import ListNotations.
Open Scope string_scope.
Open Scope list_scope.

(** ---------------------------------------------------------------- lists of strings left out *)
Inductive sublist {A} : list A -> list A -> Prop :=
| sub_nil l : sublist [] l
| sub_keep a k l : sublist k l -> sublist (a :: k) (a :: l)
| sub_drop a k l : sublist k l -> sublist k (a :: l).
Lemma sublist_app {A} (a b c d : list A) : sublist a b -> sublist c d -> sublist (a ++ c) (b ++ d).
Proof.
  induction 1 as [l|x k l H IH|x k l H IH]; intros HC; cbn [app].
  - induction l; cbn [app]; [exact HC|now constructor].
  - constructor; auto.
  - apply sub_drop; auto.
Qed.
Lemma sublist_refl {A} (l : list A) : sublist l l.
Proof. induction l; constructor; auto. Qed.
Lemma sublist_map {A B} (f : A -> B) k l : sublist k l -> sublist (map f k) (map f l).
Proof. induction 1; cbn [map]; constructor; auto. Qed.
Lemma io_sublist k l x : sublist k l -> in_order l x -> in_order k x.
Proof.
  intros HS H. revert k HS. induction H as [x|g t ts x H IH]; intros k HS.
  - inversion HS. constructor.
  - inversion HS; subst; [constructor|constructor; auto|]. rewrite app_assoc. apply io_pre. auto.
Qed.

Definition all_pieces (n : node) : list str := List.concat (map pieces (all_texts n)).
Lemma concat_pieces_escape l : List.concat (map pieces (map escape l)) = map escape (List.concat (map pieces l)).
Proof.
  induction l as [|t l IH]; [reflexivity|]. cbn [map List.concat]. now rewrite pieces_escape, IH, map_app.
Qed.
Lemma lossless_texts n : lossless n = true -> sublist (all_pieces n) (texts n).
Proof.
  unfold all_pieces. induction n as [k ty ve tx a co ma IH] using node_ind'. cbn [lossless]. intros H. apply andb_true_iff in H as [HC HM].
  assert (HS : sublist (List.concat (map pieces (match co with Items l => List.concat (map all_texts l) | _ => [] end)))
                       (match co with Items l => List.concat (map (fun c => if kept_child k c then texts c else []) l) | _ => [] end)).
  { destruct co as [| |l|]; try constructor. cbn [on_items] in IH. clear HM. induction IH as [|c l H1 H2 IHl]; [constructor|].
    cbn [forallb] in HC. apply andb_true_iff in HC as [HC1 HC2]. apply andb_true_iff in HC1 as [HK HL].
    cbn [map List.concat]. rewrite map_app, concat_app, HK. apply sublist_app; auto. }
  cbn [all_texts texts]. set (sub := match co with Items _ => List.concat (map all_texts _) | _ => _ end) in *.
  set (shown := match co with Items _ => _ | _ => _ end) in *. clearbody sub shown.
  assert (HN : forall ts, match ma with Items ms => negb (existsb replaces_text ms) | _ => true end = true -> kept_by ma ts = ts).
  { intros ts HN. unfold kept_by. destruct ma; try reflexivity. apply negb_true_iff in HN. now rewrite HN. }
  destruct k; try exact HS; try (constructor; fail).
  - rewrite HN by exact HM. destruct tx as [[]|]; try constructor. cbn [map List.concat pieces_of]. rewrite app_nil_r. apply sublist_refl.
  - rewrite HN by exact HM. exact HS.
  - rewrite HN by exact HM. exact HS.
  - rewrite concat_pieces_escape. now apply sublist_map.
  - rewrite concat_pieces_escape. now apply sublist_map.
Qed.

(** ---------------------------------------------------------------- the property *)
(** Everything [texts] lists occurs in the Markdown, in document order, without overlap. *)
Theorem C20_texts_in_order : forall E w v n x, snd (parse_node w v) = Ok n ->
  to_markdown E n false = Ok (VStr x) -> in_order (texts n) x.
Proof. intros E w v n x HP HX. eapply texts_shown; [eapply parse_consistent; exact HP|exact HX]. Qed.

(** For the content-preserving trees this covers every line of every text leaf. *)
Theorem C20_no_text_lost : forall E w v n x, snd (parse_node w v) = Ok n -> lossless n = true ->
  to_markdown E n false = Ok (VStr x) -> in_order (all_pieces n) x.
Proof.
  intros E w v n x HP HL HX. eapply io_sublist; [now apply lossless_texts|]. eapply C20_texts_in_order; eauto.
Qed.
(** In particular, if the leaves are one-line strings without surrounding whitespace, they occur themselves. *)
Theorem C20_leaves_verbatim : forall E w v n x, snd (parse_node w v) = Ok n -> lossless n = true ->
  (forall t, In t (all_texts n) ->
     (forall c, In c t -> is_lb c = false) /\ (exists c r, t = c :: r /\ is_ws c = false) /\ (exists r c, t = r ++ [c] /\ is_ws c = false)) ->
  to_markdown E n false = Ok (VStr x) -> in_order (all_texts n) x.
Proof.
  intros E w v n x HP HL HT HX. pose proof (C20_no_text_lost E w v n x HP HL HX) as H. unfold all_pieces in H.
  assert (HE : List.concat (map pieces (all_texts n)) = all_texts n); [|now rewrite HE in H].
  clear -HT. induction (all_texts n) as [|t l IH]; [reflexivity|]. cbn [map List.concat].
  rewrite (solid_pieces t (HT t (or_introl eq_refl))), IH; [reflexivity|]. intros u Hu. apply HT. now right.
Qed.

(** ignore_error=True: the same for what is left after skipping the failing children. *)
Lemma skip_consistent E n : consistent n -> forall lv, consistent (skip E n lv).
Proof.
  induction n as [k ty ve tx a co ma IH] using node_ind'. intros HC lv.
  assert (HCC : forall l, co = Items l -> Forall consistent l) by (intros l ->; now apply (consistent_items _ l HC)).
  assert (HMM : forall l, ma = Items l -> Forall mark_consistent l) by (inversion HC; auto).
  assert (HT : ty = VStr (nk_name k)) by (inversion HC; auto). subst ty. cbn [skip]. constructor; [|exact HMM].
  assert (HW : forall i c, consistent i -> (forall l, c = Items l -> Forall consistent l) -> consistent (with_content i c)).
  { intros i c Hi Hc. destruct Hi as [k' ve' tx' a' co' ma' H1 H2]. cbn [with_content]. constructor; auto. }
  assert (HF : forall p (l : list node), Forall consistent l -> Forall consistent (filter p l)).
  { intros p l Hl. rewrite Forall_forall in *. intros c Hc. apply filter_In in Hc as [Hc _]. auto. }
  assert (HO : forall c, (forall l, c = Items l -> Forall consistent l) -> forall l, only_survivors E c = Items l -> Forall consistent l).
  { intros c Hc l HL. destruct c as [| |l0|v]; cbn [only_survivors] in HL; try discriminate.
    - injection HL as <-. apply HF. auto.
    - destruct v; try discriminate; injection HL as <-; constructor. }
  destruct co as [| |l|v].
  1,2: intros l HL; destruct k; cbn [plain_container only_survivors] in HL; discriminate.
  2: { intros l HL. destruct k, v; cbn [plain_container only_survivors] in HL; try discriminate; injection HL as <-; constructor. }
  cbn [on_items] in IH. specialize (HCC l eq_refl).
  assert (HI : Forall (fun c => consistent c /\ forall lv, consistent (skip E c lv)) l).
  { rewrite Forall_forall in *. intros c Hc. split; [auto|]. intros lv'. apply IH; auto. }
  clear IH HC.
  intros l' HL. destruct k; cbn [plain_container only_survivors] in HL; injection HL as <-; try exact HCC; try (apply HF; exact HCC).
  - apply Forall_map. eapply Forall_impl; [|exact HCC]. intros i Hi. destruct (n_kind i) eqn:EK; auto. destruct (n_content i) eqn:EC; auto.
    apply HW; [exact Hi|]. intros l2 [= <-]. apply HF. eapply consistent_items; eauto.
  - apply Forall_map. eapply Forall_impl; [|exact HCC]. intros i Hi. destruct (n_kind i) eqn:EK; auto. destruct (n_content i) eqn:EC; auto.
    apply HW; [exact Hi|]. intros l2 [= <-]. apply HF. eapply consistent_items; eauto.
  - induction HI as [|i l [H1 H2] HI IHl]; [constructor|]. cbn [flat_map]. apply Forall_app. split; [|apply Forall_cons_iff in HCC as [_ HCC]; auto].
    destruct (n_kind i); try (repeat constructor; exact H1).
    + constructor; [|constructor]. apply HW; [exact H1|]. apply HO. intros l0 HE. eapply consistent_items; eauto.
    + cbv zeta. destruct (survives E _ _); repeat constructor. apply H2.
  - induction HI as [|i l [H1 H2] HI IHl]; [constructor|]. cbn [flat_map]. apply Forall_app. split; [|apply Forall_cons_iff in HCC as [_ HCC]; auto].
    destruct (n_kind i); try (repeat constructor; exact H1).
    cbv zeta. destruct (survives E _ _); repeat constructor. apply H2.
  - apply Forall_map. eapply Forall_impl; [|exact HI]. intros i [_ H]. apply H.
Qed.
Theorem C20_ignore_error : forall E w v n x, snd (parse_node w v) = Ok n -> string_texts n -> full_rows n ->
  to_markdown E n true = Ok (VStr x) -> in_order (texts (skip E n None)) x.
Proof.
  intros E w v n x HP HS HF HX. pose proof (parse_consistent _ _ _ HP) as HC. unfold to_markdown in HX. rewrite skip_correct in HX by assumption.
  eapply texts_shown; [|exact HX]. now apply skip_consistent.
Qed.

(** ---------------------------------------------------------------- cases *)
Definition lk (t : string) : value :=
  VDict [tyv "text"; (s "text", VStr (s t)); (s "marks", VList [VDict [tyv "link"; (s "attrs", VDict [(s "href", VStr (s "u"))])];
                                                               VDict [tyv "strong"]])].
Definition ex_kept : value :=
  ex_doc [ VDict [tyv "heading"; at1 "level" (VInt 2); con [tx "Title"]];
           VDict [tyv "blockquote"; con [ex_bullets; VDict [tyv "paragraph"; con [lk "label"; VDict [tyv "hardBreak"]; tx "rest"]]]];
           VDict [tyv "table"; con [VDict [tyv "tableRow"; con [VDict [tyv "tableCell"; con [ex_p "a|b"]]]]]];
           VDict [tyv "codeBlock"; con [VDict [tyv "text"; (s "text", VStr (s "  x = 1" ++ nl ++ nl ++ nl ++ nl ++ s "  y"))]]] ].
Example C20_example : (exists w, snd (parse_node w ex_kept) = Ok (get ex_kept)) /\ lossless (get ex_kept) = true /\
  all_pieces (get ex_kept) =
    map s ["Title"; "one"; "deep"; "deeper"; "next"; "two"; "lines"; "more"; "label"; "rest"; "a\|b"; "x = 1"; "y"].
Proof. split; [exists true; vm_compute; reflexivity|]. split; vm_compute; reflexivity. Qed.

(** Each of the constructs excluded by [lossless] does lose text. *)
Definition para (l : list value) : value := VDict [tyv "paragraph"; con l].
Definition marked_text (m : value) : value := VDict [tyv "text"; (s "text", VStr (s "secret")); (s "marks", VList [m])].
Definition lossy : list value :=
  [ para [marked_text (link_dict [(s "href", VStr (s "u")); (s "title", VStr (s "t"))])];
    para [marked_text indent_dict];
    VDict [tyv "paragraph"; con [tx "secret"]; (s "marks", VList [indent_dict])];
    VDict [tyv "caption"; con [tx "secret"]];
    VDict [tyv "mediaGroup"; con [tx "secret"]];
    VDict [tyv "bulletList"; con [tx "secret"]];
    VDict [tyv "taskList"; (s "attrs", VDict [(s "localId", VStr [])]); con [tx "secret"]];
    VDict [tyv "decisionList"; (s "attrs", VDict [(s "localId", VStr [])]); con [tx "secret"]] ].
Theorem C20_exceptions_refuted : Forall (fun v =>
  exists n x, snd (parse_node true v) = Ok n /\ all_texts n = [s "secret"] /\ lossless n = false /\
              to_markdown rt0 n false = Ok (VStr x) /\ ~ in_order (all_texts n) x) lossy.
Proof.
  assert (HN : forall x, existsb (N.eqb 115) x = false -> ~ in_order [s "secret"] x).
  { intros x HX H. inversion H as [|g t ts y HY]; subst. rewrite !existsb_app in HX. apply orb_false_iff in HX as [_ HX]. discriminate. }
  unfold lossy.
  repeat (apply Forall_cons; [eexists _, _; split; [vm_compute; reflexivity|]; split; [vm_compute; reflexivity|];
    split; [vm_compute; reflexivity|]; split; [vm_compute; reflexivity|];
    match goal with |- ~ in_order ?l _ => change l with [s "secret"] end; apply HN; vm_compute; reflexivity|]).
  constructor.
Qed.
