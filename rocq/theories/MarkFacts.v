(** Facts about the mark functions (Markdown.v). *)
From Coq Require Import List NArith ZArith Bool String Lia.
From Verif Require Import PyStr Values Schema Parse Date Markdown Basics StrFacts.
Import ListNotations.
Open Scope string_scope.
Open Scope list_scope.

Lemma nonblank_true t : nonblank t = true <-> exists c, In c t /\ is_ws c = false.
Proof.
  unfold nonblank. destruct (strip t) as [|a r] eqn:E.
  - apply strip_nil in E. rewrite forallb_forall in E. split; [discriminate|].
    intros (c & HI & HC). rewrite (E c HI) in HC. discriminate.
  - split; [|reflexivity]. intros _.
    destruct (forallb is_ws t) eqn:F; [apply strip_nil in F; congruence|].
    clear E. induction t as [|c t IH]; [discriminate|]. cbn in F.
    destruct (is_ws c) eqn:W; [|exists c; split; [now left|exact W]].
    destruct (IH F) as (c' & H1 & H2). exists c'. split; [now right|exact H2].
Qed.
Lemma nonblank_false t : nonblank t = false <-> forall c, In c t -> is_ws c = true.
Proof.
  split.
  - intros H c HI. destruct (is_ws c) eqn:W; [reflexivity|]. exfalso.
    assert (nonblank t = true) by (apply nonblank_true; eauto). congruence.
  - intros H. destruct (nonblank t) eqn:E; [|reflexivity]. apply nonblank_true in E as (c & H1 & H2).
    rewrite (H c H1) in H2. discriminate.
Qed.

Lemma existsb_NL t : existsb (N.eqb NL) t = true <-> In NL t.
Proof.
  rewrite existsb_exists. split.
  - intros (x & H & E). apply N.eqb_eq in E. now subst.
  - intros H. exists NL. split; [exact H|reflexivity].
Qed.

(** Attributes of a parsed mark. *)
Definition parsed_mark (m : mark) : Prop := exists v, parse_mark v = Ok m.

Lemma lookup_table (fs : list (str * fkind)) (g : str -> value) f :
  In f (map fst fs) -> lookup f (map (fun x => (fst x, g (fst x))) fs) = Some (g f).
Proof.
  induction fs as [|[n k] fs IH]; [intros []|]. cbn [map fst lookup].
  intros HI. destruct (str_eqb n f) eqn:E; [apply str_eqb_eq in E; now subst|].
  apply IH. destruct HI as [->|HI]; [now rewrite str_eqb_refl in E|exact HI].
Qed.
Lemma attrs_from_dict_ok fs d l : attrs_from_dict fs (VDict d) = Ok l ->
  l = map (fun f => (fst f, match lookup (fst f) d with Some x => x | None => VOpt end)) fs.
Proof.
  cbn. destruct (missing is_Pos fs d); [discriminate|]. destruct (missing is_Req fs d); [discriminate|].
  now intros [= <-].
Qed.
Lemma attrs_from_dict_dict fs v l : attrs_from_dict fs v = Ok l -> exists d, v = VDict d.
Proof. destruct v; try discriminate. eauto. Qed.

Lemma parse_mark_inv v m : parse_mark v = Ok m ->
  exists d, v = VDict d /\ lookup (s "type") d = Some (VStr (mk_name (m_kind m))) /\
  m_type m = VStr (mk_name (m_kind m)) /\
  match mk_attrs (m_kind m) with
  | None => m_attrs m = NoAttrs
  | Some fs => exists a l, lookup (s "attrs") d = Some (VDict a) /\ attrs_from_dict fs (VDict a) = Ok l
               /\ m_attrs m = AObj l
  end.
Proof.
  destruct v; try discriminate. cbn [parse_mark]. intros H. exists d. split; [reflexivity|].
  destruct (lookup (s "type") d) as [ty|] eqn:T; [|discriminate].
  destruct (mark_class_of ty) as [k| |] eqn:K; try discriminate.
  apply mark_class_of_found in K. subst ty. cbn [mark_from_dict] in H. unfold type_field in H. rewrite T in H.
  destruct (mk_attrs k) as [fs|] eqn:A.
  - destruct (lookup (s "attrs") d) as [a|] eqn:L; [|discriminate].
    destruct (attrs_from_dict fs a) as [l|] eqn:F; [|discriminate]. cbn in H.
    assert (m = Mark k (VStr (mk_name k)) (AObj l)) by congruence. subst m. cbn [m_kind m_type m_attrs].
    rewrite A. repeat split. destruct (attrs_from_dict_dict _ _ _ F) as (da & ->). exists da, l. auto.
  - assert (m = Mark k (VStr (mk_name k)) NoAttrs) by congruence. subst m. cbn [m_kind m_type m_attrs].
    rewrite A. auto.
Qed.

(** Every declared attribute of a parsed mark can be read. *)
Lemma parsed_attr m fs f : parsed_mark m -> mk_attrs (m_kind m) = Some fs -> In f (map fst fs) ->
  exists v, attr (m_attrs m) f = Ok v.
Proof.
  intros [v H] HF HI. apply parse_mark_inv in H as (d & _ & _ & _ & H). rewrite HF in H.
  destruct H as (a & l & _ & HL & ->). apply attrs_from_dict_ok in HL. subst l. cbn.
  rewrite (lookup_table fs (fun n => match lookup n a with Some x => x | None => VOpt end) f HI). eauto.
Qed.

(** A parsed mark never raises AttributeError on a str, and returns a str. *)
Lemma mark_str E m t : parsed_mark m ->
  match mark_to_markdown E m (VStr t) with
  | Ok v => exists y, v = VStr y
  | Err e => e <> AttributeError
  end.
Proof.
  intros HP. unfold mark_to_markdown. destruct (m_kind m) eqn:K; cbn [wrap_mark code_mark]; eauto.
  - destruct (existsb _ t); [discriminate|eauto].
  - unfold link_mark.
    destruct (parsed_attr m [(s "href", Req); (s "title", Opt); (s "id", Opt); (s "collection", Opt); (s "occurrenceKey", Opt)]
                (s "title") HP) as [x ->]; [now rewrite K|cbn; tauto|]. cbn [rbind].
    destruct (parsed_attr m [(s "href", Req); (s "title", Opt); (s "id", Opt); (s "collection", Opt); (s "occurrenceKey", Opt)]
                (s "href") HP) as [y ->]; [now rewrite K|cbn; tauto|]. cbn [rbind]. eauto.
  - destruct (parsed_attr m [(s "level", Req)] (s "level") HP) as [x ->]; [now rewrite K|cbn; tauto|].
    cbn [rbind]. destruct x; cbn [times rbind]; try discriminate; eauto.
Qed.

(** Marks that do not touch the text. *)
Definition transparent_kinds : list mkind :=
  [MtextColor; MbackgroundColor; Munderline; Msubsup; Mannotation; Malignment; Mborder; Mbreakout;
   MdataConsumer; Mfragment].
Lemma transparent E m v : In (m_kind m) transparent_kinds -> mark_to_markdown E m v = Ok v.
Proof. unfold mark_to_markdown. destruct (m_kind m); cbn; intuition congruence. Qed.

Lemma apply_marks_drop E a m b v : In (m_kind m) transparent_kinds ->
  apply_marks E (a ++ m :: b) v = apply_marks E (a ++ b) v.
Proof.
  intros HT. revert v. induction a as [|x a IH]; intros v; cbn [app apply_marks].
  - now rewrite transparent.
  - destruct (mark_to_markdown E x v) as [y|e]; [apply IH|reflexivity].
Qed.
Definition opaque (m : mark) : bool := if in_dec mk_eq_dec (m_kind m) transparent_kinds then false else true.
Lemma apply_marks_opaque E ms : forall v, apply_marks E (filter opaque ms) v = apply_marks E ms v.
Proof.
  induction ms as [|m ms IH]; intros v; [reflexivity|]. cbn [filter]. unfold opaque at 1.
  destruct (in_dec _ _ _) as [HT|HT].
  - cbn [apply_marks]. now rewrite transparent, IH.
  - cbn [apply_marks]. destruct (mark_to_markdown E m v); [apply IH|reflexivity].
Qed.

(** Sequential application, for strings and parsed marks. *)
Lemma apply_marks_snoc E ms m t : Forall parsed_mark ms -> parsed_mark m ->
  apply_marks E (ms ++ [m]) (VStr t) = do x <- apply_marks E ms (VStr t); mark_to_markdown E m x.
Proof.
  intros HF HM. revert t. induction HF as [|x ms HX HF IH]; intros t; cbn [app apply_marks rbind].
  - pose proof (mark_str E m t HM) as H. destruct (mark_to_markdown E m (VStr t)) as [y|e]; [reflexivity|].
    destruct e; congruence.
  - pose proof (mark_str E x t HX) as H. destruct (mark_to_markdown E x (VStr t)) as [y|e].
    + destruct H as [y' ->]. apply IH.
    + destruct e; reflexivity || congruence.
Qed.
Lemma apply_marks_str E ms t v : Forall parsed_mark ms -> apply_marks E ms (VStr t) = Ok v -> exists y, v = VStr y.
Proof.
  intros HF. revert t. induction HF as [|x ms HX HF IH]; intros t; cbn [apply_marks].
  - intros [= <-]. eauto.
  - pose proof (mark_str E x t HX) as H. destruct (mark_to_markdown E x (VStr t)) as [y|e].
    + destruct H as [y' ->]. apply IH.
    + destruct e; discriminate || congruence.
Qed.

Lemma okstr_inj x y : @Ok value (VStr x) = Ok (VStr y) -> x = y.
Proof. congruence. Qed.
(** A link whose label is its title. *)
Definition titled (m : mark) : bool :=
  match m_kind m, m_attrs m with
  | Mlink, AObj l => match lookup (s "title") l with Some (VStr _) => true | _ => false end
  | _, _ => false
  end.
Definition indents (m : mark) : bool := match m_kind m with Mindentation => true | _ => false end.
Definition keeps_text (m : mark) : bool := negb (indents m) && negb (titled m).

Lemma mark_keeps E m t y : keeps_text m = true -> mark_to_markdown E m (VStr t) = Ok (VStr y) -> contains t y.
Proof.
  unfold keeps_text, indents, titled, mark_to_markdown. intros HK. apply andb_true_iff in HK as [HI HT].
  destruct (m_kind m); cbn [wrap_mark code_mark]; intros H; try discriminate;
    try (injection H as <-; apply contains_refl).
  - destruct (existsb _ t); [discriminate|]. apply okstr_inj in H. subst y.
    destruct (nonblank t); [|apply contains_refl]. apply contains_mid.
  - apply okstr_inj in H. subst y. destruct (nonblank t); [|apply contains_refl]. apply contains_mid.
  - unfold link_mark in H. destruct (m_attrs m) as [| |l]; try discriminate. cbn [attr] in H.
    destruct (lookup (s "title") l) as [tv|]; [|discriminate]. cbn [rbind] in H.
    destruct (lookup (s "href") l) as [hv|]; [|discriminate]. cbn [rbind] in H.
    assert (E1 : y = s "[" ++ t ++ s "](" ++ py_str E hv ++ s ")").
    { destruct tv; cbn [py_str] in H; try congruence. discriminate. }
    rewrite E1. apply contains_mid.
  - apply okstr_inj in H. subst y. destruct (nonblank t); [|apply contains_refl]. apply contains_mid.
  - apply okstr_inj in H. subst y. destruct (nonblank t); [|apply contains_refl]. apply contains_mid.
Qed.
Lemma apply_keeps E ms t y : Forall parsed_mark ms -> forallb keeps_text ms = true ->
  apply_marks E ms (VStr t) = Ok (VStr y) -> contains t y.
Proof.
  intros HF. revert t. induction HF as [|m ms HM HF IH]; intros t HK; cbn [apply_marks].
  - intros [= <-]. apply contains_refl.
  - cbn in HK. apply andb_true_iff in HK as [H1 H2]. pose proof (mark_str E m t HM) as H.
    destruct (mark_to_markdown E m (VStr t)) as [x|e] eqn:EM.
    + destruct H as [x' ->]. intros HA. eapply contains_trans; [eapply mark_keeps; eauto|]. eapply IH; eauto.
    + destruct e; discriminate || congruence.
Qed.

(** The emphasis marks are injective. *)
Lemma wrap_inj delim t1 t2 : (exists c, In c delim /\ is_ws c = false) ->
  (if nonblank t1 then delim ++ t1 ++ delim else t1) = (if nonblank t2 then delim ++ t2 ++ delim else t2) -> t1 = t2.
Proof.
  intros (c & HI & HC). destruct (nonblank t1) eqn:N1, (nonblank t2) eqn:N2; intros H.
  - apply app_inv_head in H. now apply app_inv_tail in H.
  - exfalso. rewrite <- H in N2. rewrite nonblank_false in N2.
    rewrite N2 in HC; [discriminate|]. apply in_or_app. now left.
  - exfalso. rewrite H in N1. rewrite nonblank_false in N1.
    rewrite N1 in HC; [discriminate|]. apply in_or_app. now left.
  - exact H.
Qed.
