(** Running the source text (RepoCode.v): node classes without loops of their own, with content. *)
From Coq Require Import List NArith ZArith Bool String Lia.
From Verif Require Import PyStr Values Schema Parse Date Markdown Basics StrFacts PySyntax PySem RepoCode CodeFacts CodeFacts2 CodeFacts3 CodeFacts4.
Import ListNotations.
Open Scope string_scope.
Open Scope list_scope.



(** [self.content] exists and holds what the class declares. *)
Ltac field_of HF co HCF HCP :=
  let H := fresh in assert (H : has_field co /\ proper_slot co) by (apply (fits_content _ HF); discriminate); destruct H as [HCF HCP];
  cbn [n_content n_marks n_attrs n_text]; rewrite ?(get_slot PNs co HCF); py; rewrite ?(borrow_slot PNs co (fun l => eq_refl)).
Ltac content_ E co ign HCF HCP HK x :=
  rewrite (content_run E _ co ign HCF HCP (kids_at E _ _ co HK (le_n _)));
  destruct (content_to_markdown (to_md E) co ign) as [x|?e]; cbn [rmap of_res obind withv rbind]; [|reflexivity]; py.
Ltac doc_ E co ign HCF HCP HK x :=
  rewrite (doc_run E _ co ign _ _ HCF HCP (kids_at E _ _ co HK (le_n _)) (or_introl (conj eq_refl eq_refl)));
  destruct (doc_content_to_markdown (to_md E) co ign) as [x|?e]; cbn [rmap of_res obind withv rbind]; [|reflexivity]; py.
Ltac style_ E HF ma v :=
  rewrite (add_style_run E _ _ _ _ _ HF (or_introl (conj eq_refl eq_refl))); cbn [n_marks];
  destruct (add_style E ma _) as [v|?e]; cbn [rmap of_res obind withv rbind]; [|reflexivity]; py.

Lemma attrs_class_field c l f : String.prefix "__" f = false -> find_method repo 8 c f = None ->
  get_attr repo node_cls mark_cls (PA c l) f = of_res (rmap PV (attr (AObj l) (s f))).
Proof.
  intros HU HN. rewrite attrs_ga by exact HU. cbn [attr]. destruct (lookup (s f) l); [reflexivity|].
  unfold method_or, method. cbn [class_of]. now rewrite HN.
Qed.

Lemma omap_val {A B} (f : A -> out B) (g : A -> B) l : (forall a, f a = Val (g a)) -> omap f l = Val (map g l).
Proof. intros H. induction l as [|a l IH]; [reflexivity|]. cbn. rewrite H. cbn [obind]. fold (omap f). now rewrite IH. Qed.

Section Content.
Variable E : runtime.
Notation class_ok := (class_ok E).
Notation CL k := (call E repo node_cls mark_cls k).
Lemma class_text ty ve tx a co ma : class_ok (Node Ktext ty ve tx a co ma).
Proof.
  class_ E m_NodeText_to_markdown k HF HK HAC ign. destruct (fits_text _ HF eq_refl) as [t HT]. cbn [n_text] in *. subst tx. py.
  rewrite (add_style_run E _ _ _ _ _ HF (or_intror (conj eq_refl eq_refl))). cbn [n_marks]. destruct (add_style E ma t); reflexivity.
Qed.
Lemma class_listItem ty ve tx a co ma : class_ok (Node KlistItem ty ve tx a co ma).
Proof. class_ E m_NodeListItem_to_markdown k HF HK HAC ign. field_of HF co HCF HCP. content_ E co ign HCF HCP HK x. reflexivity. Qed.
Lemma class_taskItem ty ve tx a co ma : class_ok (Node KtaskItem ty ve tx a co ma).
Proof. class_ E m_NodeTaskItem_to_markdown k HF HK HAC ign. field_of HF co HCF HCP. content_ E co ign HCF HCP HK x. reflexivity. Qed.
Lemma class_mediaSingle ty ve tx a co ma : class_ok (Node KmediaSingle ty ve tx a co ma).
Proof. class_ E m_NodeMediaSingle_to_markdown k HF HK HAC ign. field_of HF co HCF HCP. content_ E co ign HCF HCP HK x. reflexivity. Qed.
Lemma class_paragraph ty ve tx a co ma : class_ok (Node Kparagraph ty ve tx a co ma).
Proof.
  class_ E m_NodeParagraph_to_markdown k HF HK HAC ign. field_of HF co HCF HCP. content_ E co ign HCF HCP HK x. style_ E HF ma v.
  destruct v; reflexivity.
Qed.
Lemma class_heading ty ve tx a co ma : class_ok (Node Kheading ty ve tx a co ma).
Proof.
  class_ E m_NodeHeading_to_markdown k HF HK HAC ign. field_of HF co HCF HCP. take HAC a "level" l HL.
  assert (arith Mult (PV (VStr (s "#"))) (PV l) = of_res (do y <- times l (s "#"); Ok (PV (VStr y)))) as -> by now destruct l.
  destruct (times l (s "#")) as [h|e]; cbn [rmap of_res obind withv rbind]; [|reflexivity]. content_ E co ign HCF HCP HK x.
  assert (data_method E (PV (VStr (s "{} {}"))) "format" [PV (VStr h); PV (VStr x)] = Val (PV (VStr (h ++ s " " ++ x)))) as ->.
  { change (s "{} {}") with [123; 125; 32; 123; 125]%N. change (s " ") with [32%N]. cbn. now rewrite app_nil_r. }
  py. change (s " ") with [32%N]. unfold nl. change NL with 10%N. rewrite <- !app_assoc. reflexivity.
Qed.
Lemma class_codeBlock ty ve tx a co ma : class_ok (Node KcodeBlock ty ve tx a co ma).
Proof.
  class_ E m_NodeCodeBlock_to_markdown k HF HK HAC ign. field_of HF co HCF HCP. content_ E co ign HCF HCP HK x.
  cbn [n_attrs]. unfold code_lang. pose proof (fits_fields _ HF) as HFF. cbn in HFF.
  destruct a as [| |l]; [contradiction|py; reflexivity|]. 
  assert (attrs_value repo node_cls mark_cls (PN (Node KcodeBlock ty ve tx (AObj l) co ma)) (AObj l) = Val (PA "nodes.node_code_block.NodeCodeBlockAttrs" l))
    as -> by (vm_compute; reflexivity).
  py. rewrite (attrs_class_field _ l "language" eq_refl) by (vm_compute; reflexivity).
  destruct (attr (AObj l) (s "language")) as [v|e]; cbn [rmap of_res obind withv rbind]; [|reflexivity].
  destruct v; py; try reflexivity. cbn [lookup]. py. destruct (str_eqb x0 (s "none")); py; reflexivity.
Qed.
Lemma indent_run k x p : indent (CL (S k)) x p (PLam ["line"] (Const (VBool true))) = Val (indent_all p x).
Proof.
  unfold indent, indent_all. rewrite (omap_val _ (fun l => p ++ l)); [reflexivity|]. intros l. reflexivity.
Qed.
End Content.
