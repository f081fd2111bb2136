(** Running the source text (RepoCode.v): media. *)
From Coq Require Import List NArith ZArith Bool String Lia.
From Verif Require Import PyStr Values Schema Parse Date Markdown Basics StrFacts PySyntax PySem RepoCode CodeFacts CodeFacts2 CodeFacts3 CodeFacts4 CodeFacts5.
Import ListNotations.
Open Scope string_scope.
Open Scope list_scope.

Section Media.
Variable E : runtime.
Notation class_ok := (class_ok E).
Notation CL k := (call E repo node_cls mark_cls k).
Notation GA := (get_attr repo node_cls mark_cls).
Definition media_class := "nodes.node_media.NodeMediaAttrs".
Lemma lookup_fields {A} f (l : list (str * A)) : lookup f l = None -> ~ In f (map fst l).
Proof.
  induction l as [|[k v] l IH]; [intros _ []|]. cbn [lookup map fst In]. destruct (str_eqb k f) eqn:D; [discriminate|].
  intros H [->|HI]; [now rewrite str_eqb_refl in D|now apply IH].
Qed.
Lemma lookup_field {A} f (l : list (str * A)) : In f (map fst l) -> exists v, lookup f l = Some v.
Proof. intros HI. destruct (lookup f l) as [v|] eqn:D; [eauto|]. now apply lookup_fields in D. Qed.
Lemma lookup_other {A} f (l : list (str * A)) : existsb (str_eqb f) (map fst l) = false -> lookup f l = None.
Proof.
  induction l as [|[k v] l IH]; [reflexivity|]. cbn [lookup map fst existsb]. rewrite str_eqb_sym. destruct (str_eqb k f); [discriminate|]. exact IH.
Qed.
Definition media_fields := Eval vm_compute in match nc_attrs (nk_class Kmedia) with Some (_, l) => map fst l | None => [] end.
Lemma media_method l x f : map fst l = media_fields -> existsb (str_eqb (s x)) media_fields = false -> String.prefix "__" x = false ->
  find_method repo 8 media_class x = Some f -> GA (PA media_class l) x = Val (PBound (PA media_class l) x).
Proof.
  intros HL HX HU HM. rewrite attrs_ga by exact HU. rewrite (lookup_other _ l) by now rewrite HL. unfold method_or, method. cbn [class_of]. now rewrite HM.
Qed.
Lemma media_test k l t x y f : lookup (s "type") l = Some t -> find_method repo 8 media_class x = Some f ->
  f = Func [("self", None)] [] [Return (Cmp CEq (Attr (Name "self") "type") (Const (VStr (s y))))] ->
  CL (S k) (PBound (PA media_class l) x) [] [] = Val (PV (VBool (is_media t y))).
Proof.
  intros HT HM ->. rewrite (call_bound E k (PA media_class l) x _ _ _ HM). unfold run_func.
  cbn [f_params f_body f_locals no_unknown forallb existsb fst snd String.eqb Ascii.eqb Bool.eqb andb orb bind_params assoc option_map map app].
  py. rewrite attrs_ga by reflexivity. rewrite HT. py. destruct t; reflexivity.
Qed.
Lemma class_media ty ve tx a co ma : class_ok (Node Kmedia ty ve tx a co ma).
Proof.
  class_ E m_NodeMedia_to_markdown k HF HK HAC ign. pose proof (fits_fields _ HF) as HFF. cbn [n_kind n_attrs] in HFF.
  change (option_map snd (nc_attrs (nk_class Kmedia))) with (option_map snd (nc_attrs (nk_class Kmedia))) in HFF.
  cbn [n_attrs]. destruct a as [| |l].
  - vm_compute in HFF. contradiction.
  - cbn [attrs_value]. py. rewrite data_ga by reflexivity. reflexivity.
  - assert (HL : map fst l = media_fields) by exact HFF. clear HFF.
    assert (attrs_value repo node_cls mark_cls (PN (Node Kmedia ty ve tx (AObj l) co ma)) (AObj l) = Val (PA media_class l)) as HV by (vm_compute; reflexivity).
    rewrite HV. cbn [obind].
    destruct (lookup_field (s "type") l) as [t HT]; [rewrite HL; vm_compute; tauto|].
    destruct (lookup_field (s "url") l) as [u HU]; [rewrite HL; vm_compute; tauto|].
    destruct (lookup_field (s "alt") l) as [al HA]; [rewrite HL; vm_compute; tauto|].
    destruct (lookup_field (s "id") l) as [i HI]; [rewrite HL; vm_compute; tauto|].
    unfold media_md. cbn [attr]. rewrite HT, HU, HA, HI. cbn [rbind].
    assert (GA (PA media_class l) "url" = Val (PV u)) as G1 by (rewrite attrs_ga by reflexivity; now rewrite HU).
    assert (GA (PA media_class l) "alt" = Val (PV al)) as G2 by (rewrite attrs_ga by reflexivity; now rewrite HA).
    assert (GA (PA media_class l) "id" = Val (PV i)) as G3 by (rewrite attrs_ga by reflexivity; now rewrite HI).
    rewrite ?(media_method l "is_external_type" m_NodeMediaAttrs_is_external_type HL), ?(media_method l "is_file_type" m_NodeMediaAttrs_is_file_type HL),
      ?(media_method l "is_link_type" m_NodeMediaAttrs_is_link_type HL) by (vm_compute; reflexivity).
    rewrite ?G1, ?G2, ?G3. cbn [obind apply map].
    rewrite (media_test _ l t "is_external_type" "external" _ HT eq_refl eq_refl), (media_test _ l t "is_file_type" "file" _ HT eq_refl eq_refl), 
      (media_test _ l t "is_link_type" "link" _ HT eq_refl eq_refl). 
    assert (HS : forall v : value, (exists x, v = VStr x) \/ (isinstance (PV v) "builtins.str" = Val false /\
      forall A (f : str -> A) (d : A), match v with VStr x => f x | _ => d end = d)) by (intros v; destruct v; eauto).
    destruct (is_media t "external"); [destruct (HS u) as [[x ->]|[HI1 HI2]]|].
    + destruct (HS al) as [[y ->]|[HA1 HA2]].
      * py. rewrite ?HV. cbn [n_attrs obind]; rewrite ?HV; cbn [obind]; rewrite ?G1, ?G2. py. style_ E HF ma v. reflexivity.
      * py. rewrite HA1. rewrite HA2. py. rewrite ?HV. cbn [n_attrs obind]; rewrite ?HV; cbn [obind]; rewrite ?G1. py. style_ E HF ma v. reflexivity.
    + py. rewrite HI1, HI2. py. destruct (is_media t "file"); py.
      * destruct (HS al) as [[y ->]|[HA1 HA2]].
        -- py. rewrite ?HV. cbn [n_attrs obind]; rewrite ?HV; cbn [obind]; rewrite ?G2, ?HV. cbn [n_attrs obind]; rewrite ?HV; cbn [obind]; rewrite ?G3. py. style_ E HF ma v. reflexivity.
        -- rewrite HA1. rewrite HA2. py. rewrite ?HV. cbn [n_attrs obind]; rewrite ?HV; cbn [obind]; rewrite ?G3. py. style_ E HF ma v. reflexivity.
      * destruct (is_media t "link"); py; reflexivity.
    + py. destruct (is_media t "file"); py.
      * destruct (HS al) as [[y ->]|[HA1 HA2]].
        -- py. rewrite ?HV. cbn [n_attrs obind]; rewrite ?HV; cbn [obind]; rewrite ?G2, ?HV. cbn [n_attrs obind]; rewrite ?HV; cbn [obind]; rewrite ?G3. py. style_ E HF ma v. reflexivity.
        -- rewrite HA1. rewrite HA2. py. rewrite ?HV. cbn [n_attrs obind]; rewrite ?HV; cbn [obind]; rewrite ?G3. py. style_ E HF ma v. reflexivity.
      * destruct (is_media t "link"); py; reflexivity.
Qed.
End Media.
