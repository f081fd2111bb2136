(** Running the source text of the functions that read and write dictionaries: get_fields and Base.from_dict. *)
From Coq Require Import List NArith ZArith Bool String Lia.
From Verif Require Import PyStr Values Schema Parse Serialize Basics PySyntax PySem RepoCode RepoCode2 PySem2 ReadFacts.
Import ListNotations.
Open Scope string_scope.
Open Scope list_scope.

Section Run.
Variable W : bool.
Notation CL k := (rcall W repo2 k).
Notation EV := (reval W repo2).
Notation EX := (rexec W repo2).
Notation BL := (rblock W repo2).

Lemma block_cons cl st r en w : BL cl (st :: r) en w = match EX cl st en w with (w', Some (en', RNext)) => BL cl r en' w' | o => o end.
Proof. reflexivity. Qed.
Lemma block_nil cl en w : BL cl [] en w = (w, Some (en, RNext)).
Proof. reflexivity. Qed.
Lemma exec_for2 cl x y it b en w : EX cl (For2 x y it b) en w =
  rwith en (EV cl en it) (fun v => match v with RItems d => riterate2 (fun en e => BL cl b (rset y (snd e) (rset x (RV (VStr (fst e))) en))) d en | _ => rwrong end) w.
Proof. reflexivity. Qed.
Lemma exec_for cl x it b en w : EX cl (For x it b) en w =
  rwith en (EV cl en it) (fun v => rwith en (sout (relements v)) (fun vs =>
    match v with RList Lent _ | RList Own _ => rwrong | _ => riterate (fun en v => BL cl b (rset x v en)) vs en end)) w.
Proof. reflexivity. Qed.
Lemma exec_if cl c a b en w : EX cl (If c a b) en w =
  rwith en (EV cl en c) (fun v => rwith en (sout (rtruth v)) (fun t => if t then BL cl a en else BL cl b en)) w.
Proof. reflexivity. Qed.
Lemma exec_try1 cl b q x h en w : EX cl (Try b [(q, x, h)]) en w =
  match BL cl b en w with
  | (w1, Some (en1, RRais e)) =>
      match rcatches q e with
      | Some true =>
          match x with
          | None => BL cl h en1
          | Some y => fun w => match BL cl h (rset y (RExc e) en1) w with (w', Some (en2, sg)) => (w', Some (rset y RUnbound en2, sg)) | o => o end
          end
      | Some false => fun w => (w, Some (en1, RRais e))
      | None => rwrong
      end w1
  | o => o
  end.
Proof. reflexivity. Qed.
Lemma call_bound k q o m b f args : find repo2 8 q m = Some (b, f) -> CL (Datatypes.S k) (RBound q o m) args = rrun W repo2 (CL k) f (o :: args).
Proof. intros H. cbn [rcall]. now rewrite H. Qed.

Lemma fold_dput (l : list (str * rv)) : forall acc, distinct (map fst (acc ++ l)) = true ->
  fold_left (fun d e => dput (fst e) (snd e) d) l acc = acc ++ l.
Proof.
  induction l as [|[k v] l IH]; intros acc H; [now rewrite app_nil_r|]. cbn [fold_left fst snd].
  assert (HK : existsb (str_eqb k) (map fst acc) = false).
  { clear IH. induction acc as [|[k' v'] acc IH]; [reflexivity|]. cbn [map fst app distinct existsb] in *. apply andb_true_iff in H as [H1 H2].
    rewrite (IH H2), orb_false_r. apply negb_true_iff in H1. rewrite map_app, existsb_app in H1. apply orb_false_iff in H1 as [_ H1].
    cbn [map fst existsb] in H1. apply orb_false_iff in H1 as [H1 _]. now rewrite str_eqb_sym. }
  rewrite (dput_new _ _ _ HK). rewrite IH; rewrite <- app_assoc; [reflexivity|exact H].
Qed.
(** ---------------------------------------------------------------- names and attributes *)
Lemma g_cache : rglob repo2 "mark_or_node._CLASS_FIELD" = Val (RCache "mark_or_node._CLASS_FIELD").
Proof. vm_compute. reflexivity. Qed.
Lemma g_parse_node : rglob repo2 "nodes.parse_node.parse_node" = Val (RFun "nodes.parse_node.parse_node").
Proof. vm_compute. reflexivity. Qed.
Lemma g_parse_mark : rglob repo2 "marks.parse_mark.parse_mark" = Val (RFun "marks.parse_mark.parse_mark").
Proof. vm_compute. reflexivity. Qed.
Lemma g_nodes : rglob repo2 "nodes.parse_node.NODE_TYPE_TO_CLASS_MAPPING" = Val (RTable node_registry).
Proof. vm_compute. reflexivity. Qed.
Lemma g_marks : rglob repo2 "marks.parse_mark.MARK_TYPE_TO_CLASS_MAPPING" = Val (RTable mark_registry).
Proof. vm_compute. reflexivity. Qed.
Lemma g_opt : rglob repo2 "func_args.api.OPT" = Val (RV VOpt).
Proof. vm_compute. reflexivity. Qed.
Lemma g_remove : rglob repo2 "func_args.api.remove_optional" = Val (RBuiltin "func_args.api.remove_optional").
Proof. vm_compute. reflexivity. Qed.
Lemma g_dataclasses : rglob repo2 "dataclasses" = Val (RBuiltin "dataclasses").
Proof. vm_compute. reflexivity. Qed.
Lemma g_copy : rglob repo2 "copy" = Val (RBuiltin "copy").
Proof. vm_compute. reflexivity. Qed.
Lemma g_hasattr : rglob repo2 "builtins.hasattr" = Val (RBuiltin "builtins.hasattr").
Proof. vm_compute. reflexivity. Qed.
Lemma g_isinstance : rglob repo2 "builtins.isinstance" = Val (RBuiltin "builtins.isinstance").
Proof. vm_compute. reflexivity. Qed.
Lemma g_list : rglob repo2 "builtins.list" = Val (RBuiltin "builtins.list").
Proof. vm_compute. reflexivity. Qed.
Lemma g_str : rglob repo2 "builtins.str" = Val (RBuiltin "builtins.str").
Proof. vm_compute. reflexivity. Qed.
Lemma g_unimpl : rglob repo2 "exc.UnimplementedTypeError" = Val (RBuiltin "exc.UnimplementedTypeError").
Proof. vm_compute. reflexivity. Qed.
Lemma g_settings : rglob repo2 "settings" = Val (RBuiltin "settings").
Proof. vm_compute. reflexivity. Qed.
Lemma g_logger : rglob repo2 "logger.logger" = Val (RBuiltin "logger.logger").
Proof. vm_compute. reflexivity. Qed.
Lemma a_fields : rattr W repo2 (RBuiltin "dataclasses") "fields" = Val (RBuiltin "dataclasses.fields").
Proof. reflexivity. Qed.
Lemma a_asdict : rattr W repo2 (RBuiltin "dataclasses") "asdict" = Val (RBuiltin "dataclasses.asdict").
Proof. reflexivity. Qed.
Lemma a_deepcopy : rattr W repo2 (RBuiltin "copy") "deepcopy" = Val (RBuiltin "copy.deepcopy").
Proof. reflexivity. Qed.
Lemma a_warn : rattr W repo2 (RBuiltin "settings") "WARN_UNIMPLEMENTED_TYPE" = Val (RV (VBool W)).
Proof. reflexivity. Qed.
Lemma a_warning : rattr W repo2 (RBuiltin "logger.logger") "warning" = Val (RBuiltin "logger.logger.warning").
Proof. reflexivity. Qed.
Lemma a_items o d : rattr W repo2 (RDict o d) "items" = Val (RMeth (RDict o d) "items").
Proof. reflexivity. Qed.
Lemma a_name f t : rattr W repo2 (RField f t) "name" = Val (RV (VStr f)).
Proof. reflexivity. Qed.
Lemma a_type f c : rattr W repo2 (RField f (Some c)) "type" = Val (RClass c).
Proof. reflexivity. Qed.
Lemma a_class q m f : find repo2 8 q m = Some (true, f) -> String.prefix "__" m = false -> rattr W repo2 (RClass q) m = Val (RBound q (RClass q) m).
Proof. intros H HP. unfold rattr. rewrite HP. unfold method_of. now rewrite H. Qed.
Lemma c_cache : is_cache repo2 "mark_or_node._CLASS_FIELD" = true.
Proof. reflexivity. Qed.
End Run.
#[global] Opaque rattr rglob is_cache.
#[global] Hint Rewrite g_cache g_parse_node g_parse_mark g_nodes g_marks g_opt g_remove g_dataclasses g_copy g_hasattr g_isinstance g_list g_str g_unimpl g_settings g_logger
  a_fields a_asdict a_deepcopy a_warn a_warning a_items a_name a_type c_cache : rg.
#[global] Arguments sbind {A B} m f w / : assert.
#[global] Arguments sout {A} o w / : assert.
#[global] Arguments sval {A} a w / : assert.
#[global] Arguments rwith {A} en m f w / : assert.
#[global] Arguments rgo en w / : assert.
#[global] Arguments rwrong w / : assert.
#[global] Arguments rbuiltin W P q !args : simpl nomatch.
Ltac rstep := progress (cbn [reval rexec rwith rgo rwrong rstore rset assoc String.eqb Ascii.eqb Bool.eqb lend keep rapply sbind sout sval
  map fst snd rbuiltin rsubscript cache_get rcatches rkwcall rmethod rtruth truth rappend rsetitem give_up rcompare obind option_map relements]).
Ltac rs := repeat (rstep || autorewrite with rg).
Ltac renter f := unfold rrun, f; cbn [f_params f_body f_locals rbind option_map map app].

Section Run2.
Variable W : bool.
Notation CL k := (rcall W repo2 k).
Notation EV := (reval W repo2).
Notation EX := (rexec W repo2).
Notation BL := (rblock W repo2).
Lemma field_dict_data c : all_fields repo2 c <> [] -> settle (RDict Done (field_dict c)) = RDict Done (field_dict c).
Proof. intros H. unfold settle, field_dict. destruct (all_fields repo2 c) as [|f l]; [congruence|]. reflexivity. Qed.
Lemma fields_loop f (l : list (str * (default * option string))) w : (forall x t w, f (RField x t) w = (w, Val (x, RField x t))) ->
  smap f (map (fun f => RField (fst f) (snd (snd f))) l) w = (w, Val (map (fun f => (fst f, RField (fst f) (snd (snd f)))) l)).
Proof. intros H. induction l as [|x l IH]; [reflexivity|]. cbn [map smap]. unfold sbind. rewrite H. now rewrite IH. Qed.
Lemma get_fields_run k q c : find repo2 8 q "get_fields" = Some (true, m_Base_get_fields) -> distinct (map fst (all_fields repo2 c)) = true ->
  all_fields repo2 c <> [] -> does (CL (Datatypes.S k) (RBound q (RClass c) "get_fields") []) [] (Val (RDict Done (field_dict c))).
Proof.
  intros HQ HD HN w HG. rewrite (call_bound _ _ _ _ _ _ _ _ HQ). renter m_Base_get_fields. rewrite block_cons. rs.
  destruct (assoc c (w_cache w)) as [v|] eqn:A.
  - rewrite (HG _ _ A). rs. exists w. rewrite field_dict_data by exact HN. rewrite app_nil_r. auto.
  - rs. rewrite fields_loop by (intros; cbn; autorewrite with rg; reflexivity). rs. rewrite fold_dput by (cbn [app]; rewrite map_map; exact HD). rs.
    cbn [w_cache assoc]. rewrite String.eqb_refl. rs. cbn [app]. fold (field_dict c). exists {| w_log := w_log w; w_cache := (c, RDict Done (field_dict c)) :: w_cache w |}.
    rewrite field_dict_data by exact HN. split; [reflexivity|]. cbn [w_log]. rewrite app_nil_r. split; [|reflexivity].
    intros q' v' H. cbn [w_cache assoc] in H. destruct (String.eqb c q') eqn:D; [|exact (HG _ _ H)].
    apply String.eqb_eq in D. subst q'. now injection H as <-.
Qed.

(** ---------------------------------------------------------------- Base.from_dict *)
(** The entries of a dictionary under the names of the fields. *)
Definition picked (fs : list (str * (default * option string))) (d : list (str * rv)) : list (str * rv) :=
  flat_map (fun f => match lookup (fst f) d with Some v => [(fst f, v)] | None => [] end) fs.
Definition kept (v : rv) : Prop := keep v = Some v.
Lemma picked_app a b d : picked (a ++ b) d = picked a d ++ picked b d.
Proof. unfold picked. now rewrite flat_map_app. Qed.
Lemma picked_fresh fs d x : existsb (str_eqb x) (map fst fs) = false -> existsb (str_eqb x) (map fst (picked fs d)) = false.
Proof.
  induction fs as [|f fs IH]; [reflexivity|]. cbn [map existsb picked flat_map]. intros H. apply orb_false_iff in H as [H1 H2].
  rewrite map_app, existsb_app. apply orb_false_iff. split; [|exact (IH H2)]. destruct (lookup (fst f) d); [|reflexivity]. cbn. now rewrite H1.
Qed.
(** What [dct[name]] gives: [look] for a dictionary, TypeError otherwise. *)
Definition dict_like (dct : rv) (d : list (str * rv)) : Prop :=
  lend dct = dct /\ dct <> RUnbound /\ Forall (fun e => kept (snd e)) d /\
  forall x w, rsubscript dct (RV (VStr x)) w = (w, match lookup x d with Some v => Val v | None => Exc KeyError end).
Lemma base_loop k c dct d fs : dict_like dct d -> forall fs1 w jn jf, distinct (map fst (fs1 ++ fs)) = true ->
  exists jn' jf',
  riterate2 (fun en e => BL (CL k) [Try [SetItem "kwargs" (Name "field_name") (Subscript (Name "dct") (Name "field_name"))] [("builtins.KeyError", None, [Pass])]]
     (rset "field" (snd e) (rset "field_name" (RV (VStr (fst e))) en)))
    (map (fun f => (fst f, RField (fst f) (snd (snd f)))) fs)
    [("cls", RClass c); ("dct", dct); ("_fields", RDict Done (field_dict c)); ("kwargs", RDict Own (picked fs1 d)); ("field_name", jn); ("field", jf)] w =
  (w, Some ([("cls", RClass c); ("dct", dct); ("_fields", RDict Done (field_dict c)); ("kwargs", RDict Own (picked (fs1 ++ fs) d)); ("field_name", jn'); ("field", jf')], RNext)).
Proof.
  intros (HL & HU & HK & HS). induction fs as [|f fs IH]; intros fs1 w jn jf HD.
  - exists jn, jf. rewrite app_nil_r. reflexivity.
  - cbn [map riterate2]. rewrite block_cons. rs.
    assert (HX : match dct with RUnbound => Wrong | _ => Val (lend dct) end = Val dct) by (rewrite HL; now destruct dct).
    rewrite HX, HS.
    assert (HF : existsb (str_eqb (fst f)) (map fst fs1) = false).
    { clear - HD. induction fs1 as [|g fs1 IH]; [reflexivity|]. cbn [map fst app distinct existsb] in *. apply andb_true_iff in HD as [H1 H2].
      rewrite (IH H2), orb_false_r. apply negb_true_iff in H1. rewrite map_app, existsb_app in H1. apply orb_false_iff in H1 as [_ H1].
      cbn [map existsb] in H1. apply orb_false_iff in H1 as [H1 _]. now rewrite str_eqb_sym. }
    assert (HA : fs1 ++ f :: fs = (fs1 ++ [f]) ++ fs) by now rewrite <- app_assoc.
    rewrite HA in *. destruct (lookup (fst f) d) as [v|] eqn:L.
    + assert (HV : keep v = Some v) by (apply lookup_In in L; rewrite Forall_forall in HK; exact (HK _ L)). rs. rewrite HV. rs.
      rewrite dput_new by (now apply picked_fresh). 
      assert (HP : picked fs1 d ++ [(fst f, v)] = picked (fs1 ++ [f]) d) by (rewrite picked_app; cbn [picked flat_map]; rewrite L; reflexivity).
      rewrite HP. apply IH. exact HD.
    + rs. assert (HP : picked fs1 d = picked (fs1 ++ [f]) d) by (rewrite picked_app; cbn [picked flat_map]; rewrite L; cbn; now rewrite app_nil_r).
      rewrite HP. apply IH. exact HD.
Qed.
Lemma construct_inst q kw : match construct repo2 q kw with Val (RInst _ _) | Exc _ | Wrong => True | Val _ => False end.
Proof. unfold construct. repeat (match goal with |- context [if ?b then _ else _] => destruct b; [exact I|] end). now destruct (all_snd keep _). Qed.
(** Base.from_dict of class [c] (found in class [q] or a base) on something that can be looked up like the dictionary [d]. *)
Lemma base_from_dict k q c dct d : find repo2 8 q "from_dict" = Some (true, m_Base_from_dict) -> find repo2 8 c "get_fields" = Some (true, m_Base_get_fields) ->
  distinct (map fst (all_fields repo2 c)) = true -> all_fields repo2 c <> [] -> dict_like dct d ->
  does (CL (Datatypes.S (Datatypes.S k)) (RBound q (RClass c) "from_dict") [dct]) [] (construct repo2 c (picked (all_fields repo2 c) d)).
Proof.
  intros HQ HC HD HN HL w HG. rewrite (call_bound _ _ _ _ _ _ _ _ HQ). renter m_Base_from_dict. rewrite block_cons. rs.
  rewrite (a_class W c "get_fields" _ HC eq_refl). rs. destruct (get_fields_run k c c HC HD HN w HG) as (w1 & E1 & G1 & L1). rewrite E1. rs.
  rewrite block_cons. rs. rewrite block_cons, exec_for2. rs.
  destruct (base_loop (Datatypes.S k) c dct d (all_fields repo2 c) HL [] w1 RUnbound RUnbound HD) as (jn & jf & HB).
  unfold field_dict at 1. cbn [picked flat_map app] in HB. rewrite HB. rewrite block_cons. rs.
  exists w1. rewrite L1. rewrite app_nil_r. repeat split; [|exact G1].
  pose proof (construct_inst c (picked (all_fields repo2 c) d)) as HI. destruct (construct repo2 c _) as [[]| |]; try contradiction; reflexivity.
Qed.
(** ... on anything else. *)
Lemma base_from_dict_bad k q c v : find repo2 8 q "from_dict" = Some (true, m_Base_from_dict) -> find repo2 8 c "get_fields" = Some (true, m_Base_get_fields) ->
  distinct (map fst (all_fields repo2 c)) = true -> all_fields repo2 c <> [] -> match v with VDict _ => False | _ => True end ->
  does (CL (Datatypes.S (Datatypes.S k)) (RBound q (RClass c) "from_dict") [RV v]) [] (Exc TypeError).
Proof.
  intros HQ HC HD HN HV w HG. rewrite (call_bound _ _ _ _ _ _ _ _ HQ). renter m_Base_from_dict. rewrite block_cons. rs.
  rewrite (a_class W c "get_fields" _ HC eq_refl). rs. destruct (get_fields_run k c c HC HD HN w HG) as (w1 & E1 & G1 & L1). rewrite E1. rs.
  rewrite block_cons. rs. rewrite block_cons, exec_for2. rs.
  unfold field_dict at 1. destruct (all_fields repo2 c) as [|f fs] eqn:A; [congruence|]. cbn [map riterate2]. rewrite block_cons, exec_try1, block_cons. rs.
  exists w1. split; [|rewrite L1; auto]. destruct v; try contradiction; reflexivity.
Qed.
End Run2.
