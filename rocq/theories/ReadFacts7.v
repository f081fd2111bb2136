(** Running the source text of the functions that read dictionaries: BaseNode.from_dict and parse_node. *)
From Coq Require Import List NArith ZArith Bool String Lia.
From Verif Require Import PyStr Values Schema Parse Serialize Basics PySyntax PySem RepoCode RepoCode2 PySem2 ReadFacts ReadFacts2 ReadFacts3 ReadFacts4 ReadFacts5 ReadFacts6.
Import ListNotations.
Open Scope string_scope.
Open Scope list_scope.

(** ---------------------------------------------------------------- the constructor *)
Definition slot_rv {A} (rva : A -> rv) (o : option (slot A)) : option rv :=
  match o with
  | None => None
  | Some NoField => None
  | Some SOpt => Some (RV VOpt)
  | Some (Items l) => Some (RList Done (map rva l))
  | Some (Raw v) => Some (RV v)
  end.
Definition attrs_rvo (q : string) (o : option attrs) : option rv := match o with Some (AObj l) => Some (RInst (attrs_q q) (data_fields l)) | _ => None end.
(** The dictionary given to super().from_dict, against the arguments of Parse.construct. *)
Record final (k : nkind) (D : list (str * rv)) (d : list (str * value)) (oa : option attrs) (oc : option (slot node)) (om : option (slot mark)) : Prop := {
  f_kept : Forall (fun e => kept (snd e)) D;
  f_type : lookup (s "type") D = option_map RV (lookup (s "type") d);
  f_version : lookup (s "version") D = option_map RV (lookup (s "version") d);
  f_text : lookup (s "text") D = option_map RV (lookup (s "text") d);
  f_attrs : nc_attrs (nk_class k) <> None -> lookup (s "attrs") D = attrs_rvo (node_q k) oa;
  f_oa : match oa with Some (AObj _) | None => True | _ => False end;
  f_content : lookup (s "content") D = slot_rv rv_node oc;
  f_oc : oc <> Some NoField;
  f_marks : lookup (s "marks") D = slot_rv rv_mark om;
  f_om : om <> Some NoField }.
Lemma no_pos k : match nc_attrs (nk_class k) with Some (Pos, _) => False | _ => True end /\ nc_content (nk_class k) <> Some Pos /\ nc_marks (nk_class k) <> Some Pos.
Proof. destruct k; repeat split; discriminate. Qed.
Lemma absent_app p a b D : absent p (a ++ b) D = absent p a D || absent p b D.
Proof. apply existsb_app. Qed.
Lemma construct_node k D d oa oc om : final k D d oa oc om ->
  PySem2.construct repo2 (node_q k) (picked (all_fields repo2 (node_q k)) D) = out_of rv_node (Parse.construct k d oa oc om).
Proof.
  intros [HK HT HV HX HA HOA HC HOC HM HOM]. rewrite construct_picked by exact HK. rewrite node_fields_of. destruct (no_pos k) as (PA & PC & PM).
  assert (HN : absent is_none (node_fields k) D = false).
  { unfold node_fields. cbv zeta. change (?a :: ?l) with ([a] ++ l). rewrite !absent_app.
    revert PA PC PM. destruct (nc_version (nk_class k)), (nc_text (nk_class k)), (nc_attrs (nk_class k)) as [[[] ?]|], (nc_content (nk_class k)) as [[]|], (nc_marks (nk_class k)) as [[]|];
      intros; try contradiction; try congruence; reflexivity. }
  rewrite HN. unfold Parse.construct. cbv zeta.
  set (noT := nc_text (nk_class k) && match lookup (s "text") d with None => true | _ => false end).
  set (noA := match nc_attrs (nk_class k), oa with Some (Req, _), None => true | _, _ => false end).
  set (noC := match nc_content (nk_class k), oc with Some Req, None => true | _, _ => false end).
  set (noM := match nc_marks (nk_class k), om with Some Req, None => true | _, _ => false end).
  assert (HR : absent is_req (node_fields k) D = noT || noA || noC || noM).
  { unfold node_fields. cbv zeta. change (?a :: ?l) with ([a] ++ l). rewrite !absent_app.
    assert (R0 : absent is_req [(s "type", (DVal (VStr (nk_name k)), None))] D = false) by reflexivity. rewrite R0.
    assert (R1 : absent is_req (if nc_version (nk_class k) then [(s "version", (DVal (VInt 1), None))] else []) D = false) by (now destruct (nc_version (nk_class k))). rewrite R1.
    assert (R2 : absent is_req (if nc_text (nk_class k) then [(s "text", (DReq, None))] else []) D = noT).
    { unfold noT. destruct (nc_text (nk_class k)); [|reflexivity]. unfold absent. cbn [existsb fst snd is_req andb]. unfold has. rewrite HX. now destruct (lookup (s "text") d). }
    rewrite R2.
    assert (R3 : absent is_req (match nc_attrs (nk_class k) with Some (fk, _) => [(s "attrs", (decl fk, Some (attrs_q (node_q k))))] | None => [] end) D = noA).
    { unfold noA. destruct (nc_attrs (nk_class k)) as [[fk fs]|] eqn:NA; [|reflexivity]. unfold absent. cbn [existsb fst snd]. unfold has. rewrite HA by congruence.
      destruct fk; [|contradiction|reflexivity]. cbn [decl is_req andb]. destruct oa as [[]|]; try contradiction; reflexivity. }
    rewrite R3.
    assert (R4 : absent is_req (match nc_content (nk_class k) with Some fk => [(s "content", (decl fk, None))] | None => [] end) D = noC).
    { unfold noC. destruct (nc_content (nk_class k)) as [fk|] eqn:NC; [|reflexivity]. unfold absent. cbn [existsb fst snd]. unfold has. rewrite HC.
      destruct fk; [|congruence|reflexivity]. cbn [decl is_req andb]. destruct oc as [[]|]; try congruence; reflexivity. }
    rewrite R4.
    assert (R5 : absent is_req (match nc_marks (nk_class k) with Some fk => [(s "marks", (decl fk, None))] | None => [] end) D = noM).
    { unfold noM. destruct (nc_marks (nk_class k)) as [fk|] eqn:NM; [|reflexivity]. unfold absent. cbn [existsb fst snd]. unfold has. rewrite HM.
      destruct fk; [|congruence|reflexivity]. cbn [decl is_req andb]. destruct om as [[]|]; try congruence; reflexivity. }
    rewrite R5. cbn [orb]. now rewrite !orb_assoc. }
  rewrite HR. clear HN HR.
  (* text *)
  assert (ST : (if nc_text (nk_class k) then match lookup (s "text") d with Some t => Ok (Some t) | None => Err ParamError end else Ok None)
    = if noT then Err ParamError else Ok (if nc_text (nk_class k) then lookup (s "text") d else None)).
  { unfold noT. destruct (nc_text (nk_class k)); [|reflexivity]. now destruct (lookup (s "text") d). }
  rewrite ST. clear ST. destruct noT eqn:ET; [reflexivity|]. cbn [Values.rbind orb].
  assert (SA : attrs_field (nk_class k) oa = if noA then Err ParamError else Ok (match nc_attrs (nk_class k) with None => NoAttrs | Some _ => match oa with Some a => a | None => AOpt end end)).
  { unfold attrs_field, noA. destruct (nc_attrs (nk_class k)) as [[fk fs]|] eqn:NA; [|reflexivity]. destruct oa as [x|]; [now destruct fk|]. destruct fk; try reflexivity. contradiction. }
  rewrite SA. clear SA. destruct noA eqn:EA; [reflexivity|]. cbn [Values.rbind orb].
  assert (SC : slot_field (nc_content (nk_class k)) oc = if noC then Err ParamError else Ok (match nc_content (nk_class k) with None => NoField | Some _ => match oc with Some x => x | None => SOpt end end)).
  { unfold slot_field, noC. destruct (nc_content (nk_class k)) as [fk|] eqn:NC; [|reflexivity]. destruct oc as [x|]; [now destruct fk|]. destruct fk; try reflexivity. congruence. }
  rewrite SC. clear SC. destruct noC eqn:EC; [reflexivity|]. cbn [Values.rbind orb].
  assert (SM : slot_field (nc_marks (nk_class k)) om = if noM then Err ParamError else Ok (match nc_marks (nk_class k) with None => NoField | Some _ => match om with Some x => x | None => SOpt end end)).
  { unfold slot_field, noM. destruct (nc_marks (nk_class k)) as [fk|] eqn:NM; [|reflexivity]. destruct om as [x|]; [now destruct fk|]. destruct fk; try reflexivity. congruence. }
  rewrite SM. clear SM. destruct noM eqn:EM; [reflexivity|]. cbn [Values.rbind out_of].
  f_equal. cbn [rv_node]. f_equal. unfold node_fields. cbv zeta. cbn [map]. rewrite !map_app.
  f_equal; [unfold filled, type_field; cbn [fst snd]; rewrite HT; now destruct (lookup (s "type") d)|].
  f_equal; [destruct (nc_version (nk_class k)); [|reflexivity]; unfold filled; cbn [map fst snd rv_opt]; rewrite HV; now destruct (lookup (s "version") d)|].
  f_equal; [clear - ET HX; unfold noT in ET; destruct (nc_text (nk_class k)); [|reflexivity]; unfold filled; cbn [map fst snd]; rewrite HX; destruct (lookup (s "text") d); [reflexivity|discriminate]|].
  f_equal. 
  { destruct (nc_attrs (nk_class k)) as [[fk fs]|] eqn:NA; [|reflexivity]. unfold filled. cbn [map fst snd]. rewrite HA by congruence.
    destruct oa as [[]|]; try contradiction; [reflexivity|]. now destruct fk. }
  f_equal.
  { destruct (nc_content (nk_class k)) as [fk|] eqn:NC; [|reflexivity]. unfold filled. cbn [map fst snd]. rewrite HC. destruct oc as [[]|]; try congruence; try reflexivity. now destruct fk. }
  { destruct (nc_marks (nk_class k)) as [fk|] eqn:NM; [|reflexivity]. unfold filled. cbn [map fst snd]. rewrite HM. destruct om as [[]|]; try congruence; try reflexivity. now destruct fk. }
Qed.
