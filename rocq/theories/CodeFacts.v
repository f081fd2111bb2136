(** Running the source text (RepoCode.v) by the interpreter (PySem.v): tools. *)
From Coq Require Import List NArith ZArith Bool String Lia.
From Verif Require Import PyStr Values Schema Parse Date Markdown Basics PySyntax PySem RepoCode.
Import ListNotations.
Open Scope string_scope.
Open Scope list_scope.

Definition node_cls (x : str) : option string := lookup x node_registry.
Definition mark_cls (x : str) : option string := lookup x mark_registry.

Section Eqs.
  Variable E : runtime.
  Notation ev := (eval E repo node_cls mark_cls).
  Notation ex := (exec E repo node_cls mark_cls).
  Notation blk := (exec_block E repo node_cls mark_cls).
  Variable cl : caller.
  Variable en : env.
  Definition eval_list (l : list expr) : out (list pv) := omap (ev cl en) l.
  Lemma blk_nil : blk cl [] en = Some (en, Next).
  Proof. reflexivity. Qed.
  Lemma blk_cons x r : blk cl (x :: r) en = match ex cl x en with Some (en', Next) => blk cl r en' | o => o end.
  Proof. reflexivity. Qed.
  Lemma ex_assign x e : ex cl (Assign x e) en = withv en (ev cl en e) (store en x).
  Proof. reflexivity. Qed.
  Lemma ex_aug x o e : ex cl (AugAssign x o e) en = withv en (ev cl en (Bin o (Name x) e)) (store en x).
  Proof. reflexivity. Qed.
  Lemma ex_return e : ex cl (Return e) en = withv en (ev cl en e) (fun v => if owned v then Some (en, Ret v) else None).
  Proof. reflexivity. Qed.
  Lemma ex_if c a b : ex cl (If c a b) en = withv en (ev cl en c) (fun v => withv en (truth v) (fun t => if t then blk cl a en else blk cl b en)).
  Proof. reflexivity. Qed.
  Lemma ex_for x it b : ex cl (For x it b) en =
    withv en (ev cl en it) (fun v => withv en (elements v) (fun vs =>
      match freeze en it v with
      | Some en1 => iterate (fun en v => if owned v then blk cl b (set_var x v en) else None) vs en1
      | None => None
      end)).
  Proof. reflexivity. Qed.
  Lemma ex_append x m a : ex cl (Expr (Call (Attr (Name x) m) [a] [])) en =
    if is_list_var en x then withv en (ev cl en a) (list_stmt en x m)
    else withv en (ev cl en (Call (Attr (Name x) m) [a] [])) (fun _ => Some (en, Next)).
  Proof. reflexivity. Qed.
  Lemma ex_raise e : ex cl (Raise e) en = withv en (ev cl en e) (fun v =>
        match v with
        | PExc x => Some (en, Rais x)
        | PBuiltin q => match exception_class q with Some x => Some (en, Rais x) | None => None end
        | _ => None
        end).
  Proof. reflexivity. Qed.
  Lemma ex_try1 b q x h : ex cl (Try b [(q, x, h)]) en =
    match blk cl b en with
    | Some (en1, Rais e) =>
        match catches q e with
        | Some true => match x with
                       | None => blk cl h en1
                       | Some y => match blk cl h (set_var y (PExc e) en1) with
                                   | Some (en2, sg) => Some (set_var y PUnbound en2, sg)
                                   | None => None
                                   end
                       end
        | Some false => Some (en1, Rais e)
        | None => None
        end
    | o => o
    end.
  Proof. reflexivity. Qed.
  Lemma ex_pass : ex cl Pass en = Some (en, Next).
  Proof. reflexivity. Qed.
  Lemma ex_continue : ex cl Continue en = Some (en, Cont).
  Proof. reflexivity. Qed.
  Lemma ev_call f args kws : ev cl en (Call f args kws) =
    let* g := ev cl en f in
    let* vs := omap (ev cl en) args in
    let* ks := omap (fun kx : string * expr => let (k, x) := kx in let* v := ev cl en x in Val (k, v)) kws in
    apply E cl g vs ks.
  Proof.
    cbn [eval]. destruct (ev cl en f); try reflexivity. cbn [obind].
    match goal with |- obind ?a _ = obind ?b _ => assert (a = b) as -> end.
    { induction args as [|x r IH]; [reflexivity|]. cbn. destruct (ev cl en x); cbn [obind]; [now rewrite IH| |]; reflexivity. }
    destruct (omap (ev cl en) args); try reflexivity. cbn [obind].
    match goal with |- obind ?a _ = obind ?b _ => assert (a = b) as -> end; [|reflexivity].
    induction kws as [|[k x] r IH]; [reflexivity|]. cbn. destruct (ev cl en x); cbn [obind]; [now rewrite IH| |]; reflexivity.
  Qed.
End Eqs.

(** ---------------------------------------------------------------- symbolic execution *)
#[export] Hint Rewrite blk_nil blk_cons ex_assign ex_aug ex_return ex_if ex_for ex_append ex_raise ex_try1 ex_pass ex_continue : py.
Lemma gl_NotImplementedError : glob repo "builtins.NotImplementedError" = Val (PBuiltin "builtins.NotImplementedError").
Proof. vm_compute. reflexivity. Qed.
Lemma gl_TypeError : glob repo "builtins.TypeError" = Val (PBuiltin "builtins.TypeError").
Proof. vm_compute. reflexivity. Qed.
Lemma gl_ValueError : glob repo "builtins.ValueError" = Val (PBuiltin "builtins.ValueError").
Proof. vm_compute. reflexivity. Qed.
Lemma gl_int : glob repo "builtins.int" = Val (PBuiltin "builtins.int").
Proof. vm_compute. reflexivity. Qed.
Lemma gl_isinstance : glob repo "builtins.isinstance" = Val (PBuiltin "builtins.isinstance").
Proof. vm_compute. reflexivity. Qed.
Lemma gl_len : glob repo "builtins.len" = Val (PBuiltin "builtins.len").
Proof. vm_compute. reflexivity. Qed.
Lemma gl_list : glob repo "builtins.list" = Val (PBuiltin "builtins.list").
Proof. vm_compute. reflexivity. Qed.
Lemma gl_range : glob repo "builtins.range" = Val (PBuiltin "builtins.range").
Proof. vm_compute. reflexivity. Qed.
Lemma gl_str : glob repo "builtins.str" = Val (PBuiltin "builtins.str").
Proof. vm_compute. reflexivity. Qed.
Lemma gl_datetime : glob repo "datetime.datetime" = Val (PBuiltin "datetime.datetime").
Proof. vm_compute. reflexivity. Qed.
Lemma gl_timezone : glob repo "datetime.timezone" = Val (PBuiltin "datetime.timezone").
Proof. vm_compute. reflexivity. Qed.
Lemma gl_textwrap : glob repo "textwrap" = Val (PBuiltin "textwrap").
Proof. vm_compute. reflexivity. Qed.
Lemma gl_OPT : glob repo "func_args.api.OPT" = Val (PV VOpt).
Proof. vm_compute. reflexivity. Qed.
Lemma gl_MAP : glob repo "markdown_helpers.ATLASSIAN_LANG_TO_MARKDOWN_LANG_MAPPING" = Val (PV (VDict [])).
Proof. vm_compute. reflexivity. Qed.
Lemma gl_add_style_to_markdown : glob repo "markdown_helpers.add_style_to_markdown" = Val (PFun "markdown_helpers.add_style_to_markdown").
Proof. vm_compute. reflexivity. Qed.
Lemma gl_content_to_markdown : glob repo "markdown_helpers.content_to_markdown" = Val (PFun "markdown_helpers.content_to_markdown").
Proof. vm_compute. reflexivity. Qed.
Lemma gl_doc_content_to_markdown : glob repo "markdown_helpers.doc_content_to_markdown" = Val (PFun "markdown_helpers.doc_content_to_markdown").
Proof. vm_compute. reflexivity. Qed.
Lemma gl_strip_double_empty_line : glob repo "markdown_helpers.strip_double_empty_line" = Val (PFun "markdown_helpers.strip_double_empty_line").
Proof. vm_compute. reflexivity. Qed.
Lemma gl_ctm : glob repo "type_enum.check_type_match" = Val (PFun "type_enum.check_type_match").
Proof. vm_compute. reflexivity. Qed.
Lemma gl_TypeEnum : glob repo "type_enum.TypeEnum" = Val (PClass "type_enum.TypeEnum").
Proof. vm_compute. reflexivity. Qed.
Lemma te_bulletList : get_attr repo node_cls mark_cls (PClass "type_enum.TypeEnum") "bulletList" = Val (PEnum "bulletList").
Proof. vm_compute. reflexivity. Qed.
Lemma te_codeBlock : get_attr repo node_cls mark_cls (PClass "type_enum.TypeEnum") "codeBlock" = Val (PEnum "codeBlock").
Proof. vm_compute. reflexivity. Qed.
Lemma te_decisionItem : get_attr repo node_cls mark_cls (PClass "type_enum.TypeEnum") "decisionItem" = Val (PEnum "decisionItem").
Proof. vm_compute. reflexivity. Qed.
Lemma te_listItem : get_attr repo node_cls mark_cls (PClass "type_enum.TypeEnum") "listItem" = Val (PEnum "listItem").
Proof. vm_compute. reflexivity. Qed.
Lemma te_orderedList : get_attr repo node_cls mark_cls (PClass "type_enum.TypeEnum") "orderedList" = Val (PEnum "orderedList").
Proof. vm_compute. reflexivity. Qed.
Lemma te_tableHeader : get_attr repo node_cls mark_cls (PClass "type_enum.TypeEnum") "tableHeader" = Val (PEnum "tableHeader").
Proof. vm_compute. reflexivity. Qed.
Lemma te_taskItem : get_attr repo node_cls mark_cls (PClass "type_enum.TypeEnum") "taskItem" = Val (PEnum "taskItem").
Proof. vm_compute. reflexivity. Qed.
Lemma te_taskList : get_attr repo node_cls mark_cls (PClass "type_enum.TypeEnum") "taskList" = Val (PEnum "taskList").
Proof. vm_compute. reflexivity. Qed.
Lemma ga_indent : get_attr repo node_cls mark_cls (PBuiltin "textwrap") "indent" = Val (PBuiltin "textwrap.indent").
Proof. vm_compute. reflexivity. Qed.
Lemma ga_fromtimestamp : get_attr repo node_cls mark_cls (PBuiltin "datetime.datetime") "fromtimestamp" = Val (PBuiltin "datetime.datetime.fromtimestamp").
Proof. vm_compute. reflexivity. Qed.
Lemma ga_utc : get_attr repo node_cls mark_cls (PBuiltin "datetime.timezone") "utc" = Val (PBuiltin "datetime.timezone.utc").
Proof. vm_compute. reflexivity. Qed.
Lemma sm_join x : get_attr repo node_cls mark_cls (PV (VStr x)) "join" = Val (PMeth (PV (VStr x)) "join").
Proof. reflexivity. Qed.
Lemma sm_split x : get_attr repo node_cls mark_cls (PV (VStr x)) "split" = Val (PMeth (PV (VStr x)) "split").
Proof. reflexivity. Qed.
Lemma sm_strip x : get_attr repo node_cls mark_cls (PV (VStr x)) "strip" = Val (PMeth (PV (VStr x)) "strip").
Proof. reflexivity. Qed.
Lemma sm_rstrip x : get_attr repo node_cls mark_cls (PV (VStr x)) "rstrip" = Val (PMeth (PV (VStr x)) "rstrip").
Proof. reflexivity. Qed.
Lemma sm_lstrip x : get_attr repo node_cls mark_cls (PV (VStr x)) "lstrip" = Val (PMeth (PV (VStr x)) "lstrip").
Proof. reflexivity. Qed.
Lemma sm_replace x : get_attr repo node_cls mark_cls (PV (VStr x)) "replace" = Val (PMeth (PV (VStr x)) "replace").
Proof. reflexivity. Qed.
Lemma sm_upper x : get_attr repo node_cls mark_cls (PV (VStr x)) "upper" = Val (PMeth (PV (VStr x)) "upper").
Proof. reflexivity. Qed.
Lemma sm_format x : get_attr repo node_cls mark_cls (PV (VStr x)) "format" = Val (PMeth (PV (VStr x)) "format").
Proof. reflexivity. Qed.
Lemma sx_to_markdown x : get_attr repo node_cls mark_cls (PV (VStr x)) "to_markdown" = Exc AttributeError.
Proof. reflexivity. Qed.
Lemma sx_is_type_of x : get_attr repo node_cls mark_cls (PV (VStr x)) "is_type_of" = Exc AttributeError.
Proof. reflexivity. Qed.
Lemma nd_content n : get_attr repo node_cls mark_cls (PN n) "content" = slot_value PNs (n_content n).
Proof. reflexivity. Qed.
Lemma nd_marks n : get_attr repo node_cls mark_cls (PN n) "marks" = slot_value PMs (n_marks n).
Proof. reflexivity. Qed.
Lemma nd_attrs n : get_attr repo node_cls mark_cls (PN n) "attrs" = attrs_value repo node_cls mark_cls (PN n) (n_attrs n).
Proof. reflexivity. Qed.
Lemma md_attrs n : get_attr repo node_cls mark_cls (PM n) "attrs" = attrs_value repo node_cls mark_cls (PM n) (m_attrs n).
Proof. reflexivity. Qed.
Lemma nd_text n : get_attr repo node_cls mark_cls (PN n) "text" = match n_text n with Some v => Val (PV v) | None => Exc AttributeError end.
Proof. reflexivity. Qed.
Lemma dm_get d : get_attr repo node_cls mark_cls (PV (VDict d)) "get" = Val (PMeth (PV (VDict d)) "get").
Proof. reflexivity. Qed.
Lemma nd_type n : get_attr repo node_cls mark_cls (PN n) "type" = Val (PV (n_type n)).
Proof. reflexivity. Qed.
Lemma en_value x : get_attr repo node_cls mark_cls (PEnum x) "value" = Val (PV (VStr (s x))).
Proof. reflexivity. Qed.
Lemma nd_md n : get_attr repo node_cls mark_cls (PN n) "to_markdown" = Val (PBound (PN n) "to_markdown").
Proof. destruct n as [k]; destruct k; vm_compute; reflexivity. Qed.
Lemma nd_ty n : get_attr repo node_cls mark_cls (PN n) "is_type_of" = Val (PBound (PN n) "is_type_of").
Proof. destruct n as [k]; destruct k; vm_compute; reflexivity. Qed.
Lemma mk_md n : get_attr repo node_cls mark_cls (PM n) "to_markdown" = Val (PBound (PM n) "to_markdown").
Proof. destruct n as [k]; destruct k; vm_compute; reflexivity. Qed.
#[export] Hint Rewrite gl_NotImplementedError gl_TypeError gl_ValueError gl_int gl_isinstance gl_len gl_list gl_range gl_str gl_datetime gl_timezone gl_textwrap gl_OPT gl_MAP gl_add_style_to_markdown gl_content_to_markdown gl_doc_content_to_markdown gl_strip_double_empty_line gl_ctm gl_TypeEnum : gl.
#[export] Hint Rewrite dm_get te_bulletList te_codeBlock te_decisionItem te_listItem te_orderedList te_tableHeader te_taskItem te_taskList ga_indent ga_fromtimestamp ga_utc sm_join sm_split sm_strip sm_rstrip sm_lstrip sm_replace sm_upper sm_format sx_to_markdown sx_is_type_of nd_content nd_marks nd_attrs nd_text md_attrs nd_type en_value nd_md nd_ty mk_md : ga.
Lemma data_ga v f : String.prefix "__" f = false -> get_attr repo node_cls mark_cls (PV v) f = data_attr (PV v) v f.
Proof. intros H. unfold get_attr. now rewrite H. Qed.
Lemma attrs_ga c l f : String.prefix "__" f = false -> get_attr repo node_cls mark_cls (PA c l) f =
  match lookup (s f) l with Some v => Val (PV v) | None => method_or repo node_cls mark_cls (PA c l) f end.
Proof. intros H. unfold get_attr. now rewrite H. Qed.
#[global] Opaque glob get_attr exec_block exec.
Ltac globs :=
  try (lazymatch goal with |- context [glob repo _] => autorewrite with gl end);
  try (lazymatch goal with |- context [get_attr repo _ _ _ _] => autorewrite with ga end).
#[global] Arguments data_method E !o m !args : simpl nomatch.
#[global] Arguments builtin E cl q !args !kws : simpl nomatch.
#[global] Arguments arith o !a !b : simpl nomatch.
#[global] Arguments apply E cl !f args kws : simpl nomatch.
#[global] Arguments compare o !a !b : simpl nomatch.
#[global] Arguments elements !v : simpl nomatch.
#[global] Arguments truth !v : simpl nomatch.
#[global] Arguments isinstance !v c : simpl nomatch.
#[global] Arguments pv_eq !a !b : simpl nomatch.
#[global] Arguments py_eq !a !b : simpl nomatch.
#[global] Arguments is_same !a !b : simpl nomatch.
#[global] Arguments subscript !a !i : simpl nomatch.
#[global] Arguments slice_from !a !i : simpl nomatch.
#[global] Arguments str_of E !v : simpl nomatch.
#[global] Arguments py_in a !b : simpl nomatch.
#[global] Arguments list_stmt en x m !v : simpl nomatch.
#[global] Arguments freeze en it !v : simpl nomatch.
#[global] Arguments store en x !v : simpl nomatch.
#[global] Arguments borrow !v : simpl nomatch.
#[global] Arguments owned !v : simpl nomatch.
#[global] Arguments py_str E !v : simpl nomatch.
#[global] Arguments int_of !v : simpl nomatch.
Ltac step := progress (cbn [eval obind withv store set_var assoc String.eqb Ascii.eqb Bool.eqb owned borrow apply freeze elements is_list_var list_stmt
  truth compare pv_eq py_eq is_same map forallb fst snd String.prefix andb orb negb catches exc_eqb exception_class builtin isinstance
  data_method omap of_res rbind int_of arith subscript slice_from PySem.cat str_of py_str]; globs).
Ltac py := repeat (step || autorewrite with py).
(** Enter a function or method of the program. *)
Ltac enter f := unfold run_func, f;
  cbn [f_params f_body f_locals no_unknown forallb existsb fst snd String.eqb Ascii.eqb Bool.eqb andb orb bind_params assoc option_map map app].

(** The value of a content / marks field that exists. *)
Definition slotv {A} (mk : list A -> pv) (c : slot A) : pv :=
  match c with NoField => PUnbound | SOpt => PV VOpt | Items l => mk l | Raw v => PV v end.
Definition has_field {A} (c : slot A) : Prop := c <> NoField.
(** A raw field is not a list and not OPT (from_dict turns lists into objects). *)
Definition proper_slot {A} (c : slot A) : Prop := match c with Raw (VList _) | Raw VOpt => False | _ => True end.

(** One round of a loop whose body appends to a list. *)
Definition did {B J} (inv : list B -> J -> env) (r : res (list B)) (acc : list B) (o : option state) : Prop :=
  match r with
  | Ok xs => exists j', o = Some (inv (acc ++ xs) j', Next) \/ o = Some (inv (acc ++ xs) j', Cont)
  | Err e => exists en', o = Some (en', Rais e)
  end.
Definition round {B J} (inv : list B -> J -> env) (step : env -> pv -> option state) (r : res (list B)) (v : pv) : Prop :=
  forall acc j, did inv r acc (step (inv acc j) v).
Definition ran {B J} (inv : list B -> J -> env) (r : res (list B)) (acc : list B) (o : option state) : Prop :=
  match r with
  | Ok xs => exists j, o = Some (inv (acc ++ xs) j, Next)
  | Err e => exists en', o = Some (en', Rais e)
  end.
Lemma iterate_for {A B J} (mk : A -> pv) (inv : list B -> J -> env) step (f : A -> res (list B)) l :
  Forall (fun a => round inv step (f a) (mk a)) l -> forall acc j, ran inv (for_each f l) acc (iterate step (map mk l) (inv acc j)).
Proof.
  induction 1 as [|a l HA HL IH]; intros acc j.
  - cbn. exists j. now rewrite app_nil_r.
  - cbn [map]. cbn [for_each]. fold (for_each f). specialize (HA acc j). destruct (f a) as [xs|e]; cbn [rbind].
    + destruct HA as [j' HA]. assert (iterate step (mk a :: map mk l) (inv acc j) = iterate step (map mk l) (inv (acc ++ xs) j')) as ->.
      { cbn [iterate]. fold (iterate step). now destruct HA as [-> | ->]. }
      specialize (IH (acc ++ xs) j'). destruct (for_each f l) as [ys|e]; cbn [rbind]; [|exact IH]. cbn in IH. now rewrite <- app_assoc in IH.
    + destruct HA as [en' HA]. exists en'. cbn [iterate]. now rewrite HA.
Qed.
Lemma loop_run {B J} (c : slot node) (inv : list B -> J -> env) step f raw :
  has_field c -> proper_slot c ->
  (forall l, c = Items l -> Forall (fun n => round inv step (f n) (PN n)) l) ->
  (forall x, round inv step raw (PV (VStr x))) ->
  forall acc j, ran inv (loop c f raw) acc (withv (inv acc j) (elements (slotv PNs c)) (fun vs => iterate step vs (inv acc j))).
Proof.
  intros HF HP HI HR acc j. destruct c as [| |l|v]; [now contradiction HF| | |].
  - cbn. eauto.
  - cbn [slotv elements withv loop]. apply iterate_for. now apply HI.
  - destruct v; cbn in HP; try contradiction; cbn [slotv elements withv loop]; try (cbn; eauto).
    + apply (iterate_for (fun c => PV (VStr [c]))). rewrite Forall_forall. intros. apply HR.
    + apply (iterate_for (fun e : str * value => PV (VStr (fst e)))). rewrite Forall_forall. intros. apply HR.
Qed.
Lemma borrow_slot {A} (mk : list A -> pv) c : (forall l, borrow (mk l) = mk l) -> borrow (slotv mk c) = slotv mk c.
Proof. intros H. destruct c; try reflexivity. apply H. Qed.
Lemma freeze_slot c en it : freeze en it (slotv PNs c) = Some en.
Proof. destruct c; reflexivity. Qed.
Definition kw_ign (oi : option bool) : list (string * pv) := match oi with Some b => [("ignore_error", PV (VBool b))] | None => [] end.
Definition ign_of (oi : option bool) : bool := match oi with Some b => b | None => false end.
Definition rmap {A B} (f : A -> B) (r : res A) : res B := match r with Ok a => Ok (f a) | Err e => Err e end.
