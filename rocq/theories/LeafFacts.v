(** Objects obtained by parsing, as the leaf renderers see them. *)
From Coq Require Import List NArith ZArith Bool String Lia.
From Verif Require Import PyStr Values Schema Parse Date Markdown Basics StrFacts MarkFacts SpecParse
  ParseFacts4 MdFacts SpecMd MdFacts2.
Import ListNotations.
Open Scope string_scope.
Open Scope list_scope.

Lemma construct_ok k d oa oc om n : construct k d oa oc om = Ok n ->
  n_kind n = k /\ attrs_field (nk_class k) oa = Ok (n_attrs n) /\
  slot_field (nc_content (nk_class k)) oc = Ok (n_content n) /\
  slot_field (nc_marks (nk_class k)) om = Ok (n_marks n) /\
  (nc_text (nk_class k) = true -> lookup (s "text") d = n_text n).
Proof.
  unfold construct. set (tx := if nc_text (nk_class k) then _ else _). destruct tx as [t|] eqn:T; [|discriminate]. cbn [rbind].
  destruct (attrs_field (nk_class k) oa) as [a|]; [|discriminate]. cbn [rbind].
  destruct (slot_field (nc_content (nk_class k)) oc) as [c|]; [|discriminate]. cbn [rbind].
  destruct (slot_field (nc_marks (nk_class k)) om) as [m|]; [|discriminate]. cbn [rbind].
  intros H. match type of H with Ok ?x = _ => assert (n = x) by congruence; subst n end. cbn [n_kind n_attrs n_content n_marks n_text].
  repeat split. intros HT. unfold tx in T. rewrite HT in T. destruct (lookup (s "text") d); congruence.
Qed.

Lemma from_dict_inv w k d n : snd (from_dict w k (VDict d)) = Ok n ->
  n_kind n = k /\
  (forall fk fs, nc_attrs (nk_class k) = Some (fk, fs) ->
     match lookup (s "attrs") d with
     | Some a => exists l, attrs_from_dict fs a = Ok l /\ n_attrs n = AObj l
     | None => n_attrs n = AOpt
     end) /\
  (nc_attrs (nk_class k) = None -> n_attrs n = NoAttrs) /\
  (nc_text (nk_class k) = true -> lookup (s "text") d = n_text n).
Proof.
  cbn [from_dict]. unfold node_from_entry, lift.
  destruct (attrs_entry (nk_class k) d) as [oa|e] eqn:EA; [|discriminate]. cbn [bind].
  destruct (run_entry w (content_entry w d)) as [lg [oc|e]]; [|discriminate]. cbn [bind].
  destruct (run_entry w (marks_entry d)) as [lg' [om|e]]; [|discriminate]. cbn [bind snd].
  intros HC. apply construct_ok in HC as (HK & HA & _ & _ & HT). split; [exact HK|].
  unfold attrs_entry, attrs_field in *. destruct (nc_attrs (nk_class k)) as [[fk fs]|].
  - split; [|split; [discriminate|exact HT]]. intros fk' fs' H. assert (fk' = fk /\ fs' = fs) as [-> ->] by (split; congruence).
    destruct (lookup (s "attrs") d) as [a|].
    + destruct (attrs_from_dict fs a) as [l|]; [|discriminate]. cbn [rbind] in EA.
      assert (oa = Some (AObj l)) by congruence. subst oa. exists l. split; [reflexivity|congruence].
    + assert (oa = None) by congruence. subst oa. destruct fk; congruence.
  - split; [discriminate|]. split; [intros _; congruence|exact HT].
Qed.

(** The input value of an attribute, OPT when absent. *)
Definition input (a : list (str * value)) (f : string) : value :=
  match lookup (s f) a with Some x => x | None => VOpt end.

(** [n] was parsed from an element of type [name] with attributes [a]. *)
Definition parsed (name : string) (a : list (str * value)) (n : node) : Prop :=
  exists w d, lookup (s "type") d = Some (VStr (s name)) /\ lookup (s "attrs") d = Some (VDict a) /\
              snd (parse_node w (VDict d)) = Ok n.
(** The same without an attrs key. *)
Definition parsed_bare (name : string) (n : node) : Prop :=
  exists w d, lookup (s "type") d = Some (VStr (s name)) /\ lookup (s "attrs") d = None /\
              snd (parse_node w (VDict d)) = Ok n.

Lemma parse_from_dict w d k : lookup (s "type") d = Some (VStr (nk_name k)) ->
  parse_node w (VDict d) = from_dict w k (VDict d).
Proof. intros H. rewrite parse_node_dict, H, node_class_of_name. reflexivity. Qed.

Lemma parsed_attr_value name k a n fk fs f : s name = nk_name k -> parsed name a n ->
  nc_attrs (nk_class k) = Some (fk, fs) -> In (s f) (map fst fs) ->
  n_kind n = k /\ attr (n_attrs n) (s f) = Ok (input a f).
Proof.
  intros HN (w & d & HT & HA & HP) HF HI. rewrite HN in HT. rewrite (parse_from_dict w d k HT) in HP.
  apply from_dict_inv in HP as (HK & HP & _). split; [exact HK|].
  specialize (HP _ _ HF). rewrite HA in HP. destruct HP as (l & HL & ->). apply attrs_from_dict_ok in HL. subst l.
  cbn [attr]. rewrite (lookup_table fs (fun n => match lookup n a with Some x => x | None => VOpt end) (s f) HI).
  reflexivity.
Qed.
Lemma parsed_kind name k a n : s name = nk_name k -> parsed name a n -> n_kind n = k.
Proof.
  intros HN (w & d & HT & HA & HP). rewrite HN in HT. rewrite (parse_from_dict w d k HT) in HP.
  now apply from_dict_inv in HP as (HK & _).
Qed.
Lemma parsed_bare_inv name k n fk fs : s name = nk_name k -> parsed_bare name n ->
  nc_attrs (nk_class k) = Some (fk, fs) -> n_kind n = k /\ n_attrs n = AOpt.
Proof.
  intros HN (w & d & HT & HA & HP) HF. rewrite HN in HT. rewrite (parse_from_dict w d k HT) in HP.
  apply from_dict_inv in HP as (HK & HP & _). split; [exact HK|]. specialize (HP _ _ HF). now rewrite HA in HP.
Qed.

(** ---------------------------------------------------------------- the result is a str *)
Lemma mark_to_markdown_str E m t v : mark_to_markdown E m (VStr t) = Ok v -> exists y, v = VStr y.
Proof.
  unfold mark_to_markdown. destruct (m_kind m); cbn [wrap_mark code_mark]; intros H;
    try (match type of H with Ok ?x = _ => assert (v = x) by congruence; subst v end; eauto; fail).
  - destruct (existsb _ t); [discriminate|]. match type of H with Ok ?x = _ => assert (v = x) by congruence; subst v end. eauto.
  - unfold link_mark in H. destruct (attr (m_attrs m) (s "title")); [|discriminate].
    destruct (attr (m_attrs m) (s "href")); [|discriminate]. cbn [rbind] in H.
    match type of H with Ok ?x = _ => assert (v = x) by congruence; subst v end. eauto.
  - destruct (attr (m_attrs m) (s "level")) as [l|]; [|discriminate]. cbn [rbind] in H.
    destruct (times l [9%N]); [|discriminate]. cbn [rbind] in H.
    match type of H with Ok ?x = _ => assert (v = x) by congruence; subst v end. eauto.
Qed.
Lemma apply_marks_str' E ms : forall t v, apply_marks E ms (VStr t) = Ok v -> exists y, v = VStr y.
Proof.
  induction ms as [|m ms IH]; intros t v; cbn [apply_marks]; [intros [= <-]; eauto|].
  destruct (mark_to_markdown E m (VStr t)) as [x|e] eqn:EM.
  - apply mark_to_markdown_str in EM as [y ->]. apply IH.
  - destruct e; try discriminate. intros [= <-]. eauto.
Qed.
Lemma add_style_str E ma t v : add_style E ma (VStr t) = Ok v -> exists y, v = VStr y.
Proof.
  destruct ma as [| |ms|]; cbn [add_style]; try (intros [= <-]; eauto; fail). apply apply_marks_str'.
Qed.
Lemma rbind_ok {A B} (m : res A) (f : A -> res B) b : rbind m f = Ok b -> exists a, m = Ok a /\ f a = Ok b.
Proof. destruct m; cbn; [eauto|discriminate]. Qed.

Ltac dok H :=
  repeat match type of H with
         | rbind _ _ = Ok _ => let x := fresh "x" in let K := fresh "K" in apply rbind_ok in H as (x & K & H)
         end.
Ltac strdone H v := match type of H with @Ok value ?x = _ => assert (v = x) by congruence; subst v; eauto end.

Lemma to_md_str E n lv ign v : (n_kind n = Ktext -> exists t, n_text n = Some (VStr t)) ->
  to_md E n lv ign = Ok v -> exists x, v = VStr x.
Proof.
  destruct n as [k ty ve tx a co ma]. cbn [n_kind n_text]. intros HT H.
  destruct k; cbn [to_md] in H; try (destruct lv; [discriminate|]);
    try solve [dok H; strdone H v].
  - destruct (HT eq_refl) as [t ->]. now apply add_style_str in H.
  - unfold bullet_list_md in H. dok H. strdone H v.
  - unfold ordered_list_md in H. dok H. strdone H v.
  - unfold task_list_md in H. dok H. strdone H v.
  - unfold decision_item_md in H. dok H. strdone H v.
  - unfold decision_list_md in H. dok H. strdone H v.
  - dok H. destruct x; try (dok H; match type of H with match ?y with _ => _ end = _ => destruct y end; try discriminate; strdone H v; fail).
    strdone H v.
  - dok H. destruct x; strdone H v.
  - dok H. destruct x; try discriminate; strdone H v.
  - dok H. destruct x; try discriminate; strdone H v.
  - unfold media_md in H. dok H.
    match type of H with match ?y with _ => _ end = _ => destruct y end; [now apply add_style_str in H|].
    match type of H with (if ?y then _ else _) = _ => destruct y end; [now apply add_style_str in H|].
    match type of H with (if ?y then _ else _) = _ => destruct y end; [|discriminate]. strdone H v.
  - dok H. now apply add_style_str in H.
  - unfold table_cell_md in H. dok H. strdone H v.
  - unfold table_cell_md in H. dok H. strdone H v.
  - unfold table_row_md in H. dok H. strdone H v.
  - unfold table_md in H. dok H. strdone H v.
Qed.
