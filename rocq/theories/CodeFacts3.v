(** Running the source text (RepoCode.v): fields of attrs, the marks, add_style_to_markdown. *)
From Coq Require Import List NArith ZArith Bool String Lia.
From Verif Require Import PyStr Values Schema Parse Date Markdown Basics StrFacts PySyntax PySem RepoCode CodeFacts CodeFacts2.
Import ListNotations.
Open Scope string_scope.
Open Scope list_scope.

(** No attrs class has a method of that name. *)
Definition plain (f : string) : bool :=
  negb (String.prefix "__" f) && forallb (fun qc => match find_method repo 8 (snd qc) f with None => true | Some _ => false end) (p_attrs repo).
Lemma assoc_In {A} x (l : list (string * A)) a : assoc x l = Some a -> In (x, a) l.
Proof.
  induction l as [|[y b] l IH]; [discriminate|]. cbn. destruct (String.eqb_spec y x) as [->|D]; [intros [= ->]; now left|right; auto].
Qed.
Lemma plain_method f q c l : plain f = true -> assoc q (p_attrs repo) = Some c -> method_or repo node_cls mark_cls (PA c l) f = Exc AttributeError.
Proof.
  intros HP HA. apply andb_true_iff in HP as [_ HP]. rewrite forallb_forall in HP. specialize (HP _ (assoc_In _ _ _ HA)). cbn [snd] in HP.
  unfold method_or, method. cbn [class_of]. destruct (find_method repo 8 c f); [discriminate|reflexivity].
Qed.
Lemma node_attrs_class n : fits_attrs (option_map snd (nc_attrs (nk_class (n_kind n)))) (n_attrs n) ->
  match n_attrs n with
  | AObj l => exists q c, class_of node_cls mark_cls (PN n) = Some q /\ assoc q (p_attrs repo) = Some c
  | _ => True
  end.
Proof.
  destruct n as [k ty ve tx a co ma]. cbn [n_kind n_attrs]. intros H. destruct a as [| |l]; [exact I|exact I|].
  destruct k; cbn in H; try contradiction; eexists; eexists; (split; [vm_compute; reflexivity|vm_compute; reflexivity]).
Qed.
Lemma mark_attrs_class m : fits_mark m ->
  match m_attrs m with
  | AObj l => exists q c, class_of node_cls mark_cls (PM m) = Some q /\ assoc q (p_attrs repo) = Some c
  | _ => True
  end.
Proof.
  destruct m as [k ty a]. unfold fits_mark. cbn [m_kind m_attrs]. intros H. destruct a as [| |l]; [exact I|exact I|].
  destruct k; cbn in H; try contradiction; eexists; eexists; (split; [vm_compute; reflexivity|vm_compute; reflexivity]).
Qed.
Lemma field_run o a f : plain f = true ->
  match a with AObj l => exists q c, class_of node_cls mark_cls o = Some q /\ assoc q (p_attrs repo) = Some c | _ => True end ->
  (let* v := attrs_value repo node_cls mark_cls o a in get_attr repo node_cls mark_cls v f) = of_res (rmap PV (attr a (s f))).
Proof.
  intros HP HC. assert (HU : String.prefix "__" f = false) by (apply andb_true_iff in HP as [HP _]; now apply negb_true_iff).
  destruct a as [| |l]; cbn [attrs_value attr].
  - reflexivity.
  - cbn [obind]. rewrite data_ga by exact HU. reflexivity.
  - destruct HC as (q & c & HQ & HA). rewrite HQ, HA. cbn [obind]. rewrite attrs_ga by exact HU.
    destruct (lookup (s f) l) as [v|]; [reflexivity|]. now rewrite (plain_method _ _ _ _ HP HA).
Qed.

(** [self.attrs.f]. *)
Ltac fieldr HA f := let H := fresh in assert (H : plain f = true) by (vm_compute; reflexivity); cbn [m_attrs n_attrs]; rewrite ?(field_run _ _ f H HA); clear H.
Lemma contains_char c x : contains [c] x = existsb (N.eqb c) x.
Proof. induction x as [|d x IH]; [reflexivity|]. cbn [contains existsb prefixb]. rewrite IH. now rewrite andb_true_r. Qed.
Lemma any_eq_list l : any_eq (PV (VStr nl)) (map PV l) = Val (existsb (fun v => match v with VStr x => str_eqb x nl | _ => false end) l).
Proof.
  induction l as [|v l IH]; [reflexivity|]. cbn [map any_eq pv_eq existsb]. destruct v; cbn [py_eq obind orb]; try exact IH.
  rewrite str_eqb_sym. destruct (str_eqb x nl); [reflexivity|exact IH].
Qed.
Lemma any_eq_keys d : any_eq (PV (VStr nl)) (map (fun e : str * value => PV (VStr (fst e))) d) = Val (existsb (fun e => str_eqb (fst e) nl) d).
Proof.
  induction d as [|[k v] d IH]; [reflexivity|]. cbn [map any_eq pv_eq existsb py_eq obind fst].
  rewrite str_eqb_sym. destruct (str_eqb k nl); [reflexivity|exact IH].
Qed.

Section Run.
Variable E : runtime.
Notation CL k := (call E repo node_cls mark_cls k).
Notation GA := (get_attr repo node_cls mark_cls).
Lemma strip_other v : match v with VStr _ => False | _ => True end -> GA (PV v) "strip" = Exc AttributeError.
Proof. intros H. rewrite data_ga by reflexivity. destruct v; try contradiction; reflexivity. Qed.
Lemma truth_str x : truth (PV (VStr x)) = Val (match x with [] => false | _ => true end).
Proof. reflexivity. Qed.

(** Enter method [f] of a given object. *)
Ltac method_ f := rewrite (call_bound E _ _ _ f) by (vm_compute; reflexivity); enter f; py.
Lemma mark_run k m v : fits_mark m -> CL (S k) (PBound (PM m) "to_markdown") [PV v] [] = of_res (rmap PV (mark_to_markdown E m v)).
Proof.
  intros HM. pose proof (mark_attrs_class m HM) as HA. destruct m as [mk ty a]. destruct mk; unfold mark_to_markdown; cbn [m_kind m_attrs] in *.
  all: try (rewrite (call_bound E _ _ _ m_BaseMark_to_markdown) by (vm_compute; reflexivity); enter m_BaseMark_to_markdown; py; reflexivity).
  - method_ m_MarkCode_to_markdown. change [10%N] with nl. unfold code_mark. destruct v; cbn [py_in]; py; try reflexivity.
    + change (contains nl x) with (contains [NL] x). rewrite contains_char. destruct (existsb (N.eqb NL) x); py; [reflexivity|].
      unfold nonblank. destruct (strip x); reflexivity.
    + rewrite any_eq_list. destruct (existsb _ l); py; [reflexivity|]. rewrite strip_other by exact I. reflexivity.
    + rewrite any_eq_keys. destruct (existsb _ d); py; [reflexivity|]. rewrite strip_other by exact I. reflexivity.
  - method_ m_MarkEm_to_markdown. unfold wrap_mark, nonblank. destruct v; try (rewrite strip_other by exact I; reflexivity). py. destruct (strip x); reflexivity.
  - method_ m_MarkLink_to_markdown. fieldr HA "title". unfold link_mark.
    destruct (attr a (s "title")) as [t|e] eqn:HT; cbn [rmap of_res obind withv rbind]; [|reflexivity].
    destruct t; py; fieldr HA "title"; fieldr HA "href"; rewrite ?HT; py; destruct (attr a (s "href")); reflexivity.
  - method_ m_MarkStrike_to_markdown. unfold wrap_mark, nonblank. destruct v; try (rewrite strip_other by exact I; reflexivity). py. destruct (strip x); reflexivity.
  - method_ m_MarkStrong_to_markdown. unfold wrap_mark, nonblank. destruct v; try (rewrite strip_other by exact I; reflexivity). py. destruct (strip x); reflexivity.
  - method_ m_MarkIndentation_to_markdown. fieldr HA "level". destruct (attr a (s "level")) as [t|e]; cbn [rmap of_res obind withv rbind]; [|reflexivity].
    destruct t; reflexivity.
Qed.

(** ---------------------------------------------------------------- add_style_to_markdown *)
Lemma marks_loop k n (md : value) ms : Forall fits_mark ms -> forall j,
  let env0 v j := [("md", PV v); ("node", PN n); ("mark", j)] in
  match apply_marks E ms md with
  | Ok v => exists j' sg, iterate (fun en v => if owned v then exec_block E repo node_cls mark_cls (CL (S k))
        [Assign "md" (Call (Attr (Name "mark") "to_markdown") [Name "md"] [])] (set_var "mark" v en) else None) (map PM ms) (env0 md j) = Some (env0 v j', sg)
        /\ (sg = Next \/ sg = Rais AttributeError)
  | Err e => exists en', iterate (fun en v => if owned v then exec_block E repo node_cls mark_cls (CL (S k))
        [Assign "md" (Call (Attr (Name "mark") "to_markdown") [Name "md"] [])] (set_var "mark" v en) else None) (map PM ms) (env0 md j) = Some (en', Rais e)
        /\ e <> AttributeError
  end.
Proof.
  intros HM. revert md. induction HM as [|m ms HM HMS IH]; intros md j; cbv zeta.
  - cbn. eauto.
  - cbn [map iterate]. py. rewrite (mark_run k m md HM). cbn [apply_marks].
    destruct (mark_to_markdown E m md) as [md'|e]; cbn [rmap of_res obind withv].
    + py. cbv zeta in IH. specialize (IH md' (PM m)). exact IH.
    + destruct e; py; try (eexists; split; [reflexivity|discriminate]). exists (PM m), (Rais AttributeError). auto.
Qed.
Lemma style_run k n v args kws : fits_slot (nc_marks (nk_class (n_kind n))) (n_marks n) -> (forall l, n_marks n = Items l -> Forall fits_mark l) ->
  (args = [PV v; PN n] /\ kws = [] \/ args = [] /\ kws = [("md", PV v); ("node", PN n)]) ->
  CL (S (S k)) (PFun "markdown_helpers.add_style_to_markdown") args kws = of_res (rmap PV (add_style E (n_marks n) v)).
Proof.
  intros HF HM HA. rewrite (call_fun E _ _ f_add_style_to_markdown) by reflexivity.
  assert (run_func E repo node_cls mark_cls (CL (S k)) f_add_style_to_markdown args kws =
          run_func E repo node_cls mark_cls (CL (S k)) f_add_style_to_markdown [PV v; PN n] []) as -> by now destruct HA as [[-> ->]|[-> ->]].
  clear args kws HA. enter f_add_style_to_markdown. py.
  destruct (n_marks n) as [| |ms|r]; cbn [slot_value add_style].
  - py. reflexivity.
  - py. reflexivity.
  - py. pose proof (marks_loop k n v ms (HM ms eq_refl) PUnbound) as HL. cbv zeta in HL.
    destruct (apply_marks E ms v) as [v'|e].
    + destruct HL as (j' & sg & -> & [-> | ->]); py; reflexivity.
    + destruct HL as (en' & -> & HE). destruct e; try now contradiction HE. all: py; reflexivity.
  - destruct r; py; try reflexivity. destruct (nc_marks (nk_class (n_kind n))); contradiction.
Qed.
End Run.
