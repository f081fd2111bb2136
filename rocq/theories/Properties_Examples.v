(** Concrete cases that meet the hypotheses of theorems whose own file gives none. *)
From Coq Require Import List NArith ZArith Bool String Lia.
From Verif Require Import PyStr Values Schema Parse Serialize Markdown Basics SpecParse SpecMd StrFacts Collapse Download.
From Verif Require Properties_Parse Properties_Marks Properties_Nodes Properties_Layout Properties_Download.
Import ListNotations.
Open Scope string_scope.
Open Scope list_scope.
Open Scope nat_scope.
Import Properties_Parse.

(** C05_bad_attrs: both exceptions, and bad attrs before bad content. *)
Example C05_bad_attrs_example :
  (exists fk fs, nc_attrs (nk_class Kheading) = Some (fk, fs) /\ attrs_acceptable fs (VDict []) = false) /\
  snd (from_dict true Kheading (VDict [ty "heading"; (s "attrs", VDict []); (s "content", VList [VInt 1])])) = Err ParamError /\
  snd (from_dict true Kheading (VDict [ty "heading"; (s "attrs", VInt 1)])) = Err TypeError.
Proof. split; [do 2 eexists; split; [reflexivity|vm_compute; reflexivity]|]. split; vm_compute; reflexivity. Qed.
(** C12: a set title does not leak, an unset one does. *)
Definition ex_full_link : value := VDict [ty "link"; (s "attrs", VDict [(s "href", VStr (s "u")); (s "title", VStr (s "t")); (s "id", VStr (s "i"));
  (s "collection", VStr (s "c")); (s "occurrenceKey", VStr (s "o"))])].
Example C12_example : exists n d n' d', snd (parse_node true (ex_text "x" [ex_full_link])) = Ok n /\ node_to_dict n = Ok d /\ opt_free d = true /\
  snd (parse_node true (ex_text "x" [ex_full_link; ex_link])) = Ok n' /\ node_to_dict n' = Ok d' /\ opt_free d' = false /\ has_unset_mark n'.
Proof.
  do 4 eexists. split; [vm_compute; reflexivity|]. split; [vm_compute; reflexivity|]. split; [reflexivity|]. split; [vm_compute; reflexivity|].
  split; [vm_compute; reflexivity|]. split; [reflexivity|]. eapply unset_here; [right; left; reflexivity|reflexivity].
Qed.
(** C13, C14: a document with unknown elements goes round. *)
Example C13_example : exists n d n' d', snd (parse_node true ex_doc) = Ok n /\ opt_free ex_doc = true /\ listy n /\ node_to_dict n = Ok d /\ d <> ex_doc /\
  snd (parse_node false d) = Ok n' /\ node_to_dict n' = Ok d'.
Proof.
  destruct C10_example as (n & HP & HO & HL). destruct (C10_object_roundtrip _ _ _ HP HO HL) as (d & HD & HR).
  exists n, d, n, d. pose proof (C11_dictionary_normal_form _ _ _ HP HO HL) as HN. split; [exact HP|]. split; [exact HO|]. split; [exact HL|]. split; [exact HD|].
  split; [|split; [now rewrite HR|exact HD]]. intros ->. rewrite HD in HN. injection HN as HN. vm_compute in HN. discriminate HN.
Qed.
Example C14_example : exists n x, snd (parse_node true ex_doc) = Ok n /\ listy n /\ prune ex_doc <> ex_doc /\ to_markdown Properties_Marks.rt0 n false = Ok (VStr x) /\ x <> [].
Proof.
  destruct C10_example as (n & HP & HO & HL). exists n. eexists. split; [exact HP|]. split; [exact HL|]. split; [vm_compute; discriminate|].
  vm_compute in HP. injection HP as <-. split; [vm_compute; reflexivity|discriminate].
Qed.
(** C16: colour and underline around a strong text, below the root. *)
Definition ex_coloured (ms : list value) : value := VDict [ty "paragraph"; (s "content", VList [ex_text "x" ms])].
Definition ex_colour : value := VDict [ty "textColor"; (s "attrs", VDict [(s "color", VStr (s "#f00"))])].
Example C16_example : exists n1 n2, snd (parse_node true (ex_coloured [ex_colour; VDict [ty "strong"]; VDict [ty "underline"]])) = Ok n1 /\
  snd (parse_node true (ex_coloured [VDict [ty "strong"]])) = Ok n2 /\ n1 <> n2 /\ drop_marks n1 = drop_marks n2 /\
  to_markdown Properties_Marks.rt0 n1 false = Ok (VStr (s "**x**" ++ nl)).
Proof. do 2 eexists. split; [vm_compute; reflexivity|]. split; [vm_compute; reflexivity|]. split; [discriminate|]. split; vm_compute; reflexivity. Qed.
(** C18 *)
Example C18_example : exists m, parse_mark (VDict [ty "code"]) = Ok m /\ m_kind m = Mcode /\
  mark_to_markdown Properties_Marks.rt0 m (VStr (s "a`b")) = Ok (VStr (s "`` a`b ``")) /\ mark_to_markdown Properties_Marks.rt0 m (VStr (s "a" ++ nl)) = Err ValueError.
Proof. eexists. split; [vm_compute; reflexivity|]. split; [reflexivity|]. split; vm_compute; reflexivity. Qed.
(** C42: the exception is real. *)
Example C42_example : exists n, snd (parse_node true (VDict [ty "text"; (s "text", VInt 7)])) = Ok n /\ to_markdown Properties_Marks.rt0 n false = Ok (VInt 7).
Proof. eexists. split; [vm_compute; reflexivity|vm_compute; reflexivity]. Qed.
(** C47: a type with a quote in it. *)
Example C47_example : exists rest, Properties_Marks.warning_text Properties_Marks.rt0 (Warn CMark (VStr (s "it's"))) = s "Mark type 'it's'" ++ rest.
Proof. destruct (Properties_Marks.C47_message_identifies Properties_Marks.rt0 CMark (s "it's")) as [rest H]. exists rest. exact H. Qed.
(** C64: a download that is stored and then read by another process; and one cut off. *)
Example C64_example : exists w es w', steps Properties_Download.two false (eq Properties_Download.doc1) fresh [Silent; Request 0; Silent; Return 0 Properties_Download.doc1] w /\
  quiet w /\ file w = Some (dumps Properties_Download.two Properties_Download.doc1) /\
  steps Properties_Download.two false (eq Properties_Download.doc1) w es w' /\ es = [Return 1 Properties_Download.doc1].
Proof.
  destruct (Properties_Download.C64_download_is_stored Properties_Download.two false (eq Properties_Download.doc1) Properties_Download.doc1 eq_refl) as (w & HS & HF & HQ & HH).
  exists w. destruct (HQ 1) as [[f HP]|[v HP]]; do 2 eexists; (split; [exact HS|]); (split; [exact HQ|]); (split; [exact HF|]); (split; [|reflexivity]).
  - eapply steps_more; [eapply st_read; [exact HP|exact HF|apply Properties_Download.two_texts]|apply steps_none].
  - rewrite (HH 1 v HP) in HP. eapply steps_more; [apply st_again; exact HP|apply steps_none].
Qed.
