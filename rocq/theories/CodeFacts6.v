(** Running the source text (RepoCode.v): node classes without loops of their own, with content. *)
From Coq Require Import List NArith ZArith Bool String Lia.
From Verif Require Import PyStr Values Schema Parse Date Markdown Basics StrFacts PySyntax PySem RepoCode CodeFacts CodeFacts2 CodeFacts3 CodeFacts4 CodeFacts5.
Import ListNotations.
Open Scope string_scope.
Open Scope list_scope.



Section Content2.
Variable E : runtime.
Notation class_ok := (class_ok E).
Notation CL k := (call E repo node_cls mark_cls k).
Notation GA := (get_attr repo node_cls mark_cls).
Lemma class_blockquote ty ve tx a co ma : class_ok (Node Kblockquote ty ve tx a co ma).
Proof.
  class_ E m_NodeBlockquote_to_markdown k HF HK HAC ign. field_of HF co HCF HCP. doc_ E co ign HCF HCP HK x.
  rewrite strip_run. py. rewrite indent_run. py. reflexivity.
Qed.
Lemma class_expand ty ve tx a co ma : class_ok (Node Kexpand ty ve tx a co ma).
Proof.
  class_ E m_NodeExpand_to_markdown k HF HK HAC ign. field_of HF co HCF HCP. doc_ E co ign HCF HCP HK x. style_ E HF ma v. reflexivity.
Qed.
Lemma class_nestedExpand ty ve tx a co ma : class_ok (Node KnestedExpand ty ve tx a co ma).
Proof. class_ E m_NodeNestedExpand_to_markdown k HF HK HAC ign. field_of HF co HCF HCP. doc_ E co ign HCF HCP HK x. reflexivity. Qed.
Lemma class_doc ty ve tx a co ma : class_ok (Node Kdoc ty ve tx a co ma).
Proof.
  class_ E m_NodeDoc_to_markdown k HF HK HAC ign. field_of HF co HCF HCP.
  rewrite (doc_run E _ co ign _ _ HCF HCP (kids_at E _ _ co HK (le_n _)) (or_intror (conj eq_refl eq_refl))).
  destruct (doc_content_to_markdown (to_md E) co ign); reflexivity.
Qed.
Lemma class_panel ty ve tx a co ma : class_ok (Node Kpanel ty ve tx a co ma).
Proof.
  class_ E m_NodePanel_to_markdown k HF HK HAC ign. field_of HF co HCF HCP.
  take HAC a "panelType" t HT.
  destruct t; try (rewrite data_ga by reflexivity; cbn [data_attr known existsb String.eqb Ascii.eqb Bool.eqb int_methods list_methods dict_methods orb]; reflexivity).
  py. doc_ E co ign HCF HCP HK x0. change (as_strs [PV (VStr (s "**" ++ py_upper E x ++ s "**")); PV (VStr []); PV (VStr x0)]) with
    (Val [s "**" ++ py_upper E x ++ s "**"; []; x0]). py. rewrite strip_run. py. rewrite indent_run. py. reflexivity.
Qed.
End Content2.
