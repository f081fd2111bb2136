(** C71: the source text of the rendering code (RepoCode.v, generated from /repo), run by the interpreter of PySem.v, does what the
    other theorems say about [to_markdown]; it only reads the document; and it needs no deeper recursion than twice the document's. *)
From Coq Require Import List NArith ZArith Bool String Lia.
From Verif Require Import PyStr Values Schema Parse Date Markdown Basics StrFacts Samples SpecParse ParseFacts4 SpecSize SizeFacts2 PySyntax PySem RepoCode
  CodeFacts CodeFacts2 CodeFacts3 CodeFacts4 CodeFacts14.
From Verif Require Import Properties_Marks Properties_Nodes Properties_Layout Properties_Lists Properties_Errors Properties_Calls.
Import ListNotations.
Open Scope string_scope.
Open Scope list_scope.
Open Scope nat_scope.

(** The call of method [m] of [o] in the library, by position and by name, with at most [k] calls of the library's own functions inside each other. *)
Definition run (E : runtime) (k : nat) (o : pv) (m : string) (args : list pv) (kws : list (string * pv)) : out pv :=
  call E repo node_cls mark_cls k (PBound o m) args kws.
Definition run_function (E : runtime) (k : nat) (q : string) (args : list pv) : out pv := call E repo node_cls mark_cls k (PFun q) args [].
Definition outcome (r : res value) : out pv := match r with Ok v => Val (PV v) | Err e => Exc e end.

(** A document that parsing gave. *)
Definition parsed (n : node) : Prop :=
  (exists w v, snd (parse_node w v) = Ok n) \/ (exists w c v, snd (from_dict w c v) = Ok n).
Lemma parsed_fits n : parsed n -> fits n.
Proof. intros [(w & v & H)|(w & c & v & H)]; [exact (parse_fits v w n H)|exact (made_fits w c v n H)]. Qed.
Lemma outcome_of r : of_res (rmap PV r) = outcome r.
Proof. now destruct r. Qed.

(** n.to_markdown(ignore_error=...). *)
Theorem C71_source : forall E n ign k, parsed n -> 2 * depth n + 2 <= k ->
  run E k (PN n) "to_markdown" [] [("ignore_error", PV (VBool ign))] = outcome (to_markdown E n ign).
Proof.
  intros E n ign k HP HK. rewrite <- outcome_of. exact (fits_run E (depth n) n (le_n _) (parsed_fits n HP) k HK None (Some ign)).
Qed.
(** n.to_markdown(): errors are not ignored. *)
Theorem C71_default : forall E n k, parsed n -> 2 * depth n + 2 <= k ->
  run E k (PN n) "to_markdown" [] [] = outcome (to_markdown E n false).
Proof.
  intros E n k HP HK. rewrite <- outcome_of. exact (fits_run E (depth n) n (le_n _) (parsed_fits n HP) k HK None None).
Qed.
(** n.to_markdown(level=...), the parameter that only the three list classes declare: others raise TypeError. *)
Theorem C71_level : forall E n level k, parsed n -> 2 * depth n + 2 <= k ->
  run E k (PN n) "to_markdown" [] [("level", PV (VInt (Z.of_nat level)))] = outcome (to_md E n (Some level) false).
Proof.
  intros E n level k HP HK. rewrite <- outcome_of. exact (fits_run E (depth n) n (le_n _) (parsed_fits n HP) k HK (Some level) None).
Qed.
(** Rendering never does anything that [Wrong] stands for: it does not change the document, does not change a list known under two names,
    does not read a variable before assigning it, and comes to an end. *)
Theorem C71_only_reads : forall E n ign k, parsed n -> 2 * depth n + 2 <= k ->
  run E k (PN n) "to_markdown" [] [("ignore_error", PV (VBool ign))] <> Wrong.
Proof. intros E n ign k HP HK. rewrite C71_source by assumption. now destruct (to_markdown E n ign). Qed.

(** mark.to_markdown(text). *)
Theorem C71_mark : forall E v m text k, parse_mark v = Ok m -> 1 <= k ->
  run E k (PM m) "to_markdown" [PV text] [] = outcome (mark_to_markdown E m text).
Proof.
  intros E v m text [|k] HP HK; [lia|]. unfold run. rewrite (mark_run E k m text (mark_fits v m HP)). apply outcome_of.
Qed.

(** is_type_of, of nodes and of marks, with one type or a list of types. *)
Lemma omap_enum f l : (forall x, f (PEnum x) = Val (PV (VStr (s x)))) -> omap f (map PEnum l) = Val (map (fun x => PV (VStr x)) (map s l)).
Proof. intros H. induction l as [|x l IH]; [reflexivity|]. cbn [map omap]. rewrite H. cbn [obind]. rewrite IH. reflexivity. Qed.
Lemma owned_strs l : forallb owned (map (fun x => PV (VStr x)) l) = true.
Proof. induction l as [|x l IH]; [reflexivity|exact IH]. Qed.
Lemma check_list E k ty l : run_function E (S k) "type_enum.check_type_match" [PV ty; PL false (map PEnum l)] =
  Val (PV (VBool (check_type_match ty (map s l)))).
Proof.
  unfold run_function. rewrite (call_fun E k _ f_check_type_match) by reflexivity. enter f_check_type_match. py.
  rewrite omap_enum by (intros; reflexivity). cbn [obind]. rewrite owned_strs. py. cbn [py_in]. rewrite any_eq_type. reflexivity.
Qed.
Lemma mark_is_type_of_method m : method repo node_cls mark_cls (PM m) "is_type_of" = Some m_BaseMarkOrNode_is_type_of.
Proof. destruct m as [k]; destruct k; vm_compute; reflexivity. Qed.
Theorem C71_is_type_of : forall E n l k, 2 <= k ->
  run E k (PN n) "is_type_of" [PL false (map PEnum l)] [] = Val (PV (VBool (is_type_of n (map s l)))) /\
  (forall x, run E k (PN n) "is_type_of" [PEnum x] [] = Val (PV (VBool (is_type_of n [s x])))).
Proof.
  intros E n l [|[|k]] HK; try lia. split; [|intros x; exact (type1 E k n x)].
  unfold run. rewrite (call_bound E _ _ _ _ _ _ (node_is_type_of_method n)). enter m_BaseMarkOrNode_is_type_of. py.
  pose proof (check_list E k (n_type n) l) as H. unfold run_function in H. rewrite H. reflexivity.
Qed.
Theorem C71_mark_is_type_of : forall E m l k, 2 <= k ->
  run E k (PM m) "is_type_of" [PL false (map PEnum l)] [] = Val (PV (VBool (check_type_match (m_type m) (map s l)))) /\
  (forall x, run E k (PM m) "is_type_of" [PEnum x] [] = Val (PV (VBool (check_type_match (m_type m) [s x])))).
Proof.
  intros E m l [|[|k]] HK; try lia.
  assert (HT : get_attr repo node_cls mark_cls (PM m) "type" = Val (PV (m_type m))) by (with_strategy transparent [get_attr] reflexivity).
  split; [|intros x]; unfold run; rewrite (call_bound E _ _ _ _ _ _ (mark_is_type_of_method m)); enter m_BaseMarkOrNode_is_type_of; py.
  - rewrite HT. cbn [obind]. py. pose proof (check_list E k (m_type m) l) as H. unfold run_function in H. rewrite H. reflexivity.
  - rewrite HT. cbn [obind]. py. rewrite check1. reflexivity.
Qed.
(** The helper that removes runs of empty lines, on any text. *)
Theorem C71_strip : forall E x k, 1 <= k ->
  run_function E k "markdown_helpers.strip_double_empty_line" [PV (VStr x)] = Val (PV (VStr (strip_double_empty_line x))).
Proof. intros E x [|k] HK; [lia|]. exact (strip_run E k x). Qed.

(** The source text, run on a document with a list, a paragraph that fails, and one after it. *)
Example C71_example :
  parsed (get ex_calls) /\ depth (get ex_calls) = 5 /\
  run rt0 12 (PN (get ex_calls)) "to_markdown" [] [("ignore_error", PV (VBool true))] = outcome (to_markdown rt0 (get ex_calls) true) /\
  (exists x, to_markdown rt0 (get ex_calls) true = Ok (VStr x) /\ 10 < List.length x) /\
  run rt0 12 (PN (get ex_calls)) "to_markdown" [] [] = Exc NotImplementedErr.
Proof.
  split; [left; exists true, ex_calls; vm_compute; reflexivity|]. split; [vm_compute; reflexivity|]. split; [vm_compute; reflexivity|].
  split; [eexists; split; [vm_compute; reflexivity|]; cbn; lia|vm_compute; reflexivity].
Qed.
(** The interpreter is not indifferent: too little fuel is [Wrong], and so is a program that changes the document's own list. *)
Example C71_wrong :
  run rt0 3 (PN (get ex_calls)) "to_markdown" [] [] = Wrong /\
  run_func rt0 repo node_cls mark_cls (fun _ _ _ => Wrong)
    (Func [("self", None)] [] [Expr (Call (Attr (Attr (Name "self") "content") "append") [Const VNone] [])]) [PN (get ex_calls)] [] = Wrong.
Proof. split; vm_compute; reflexivity. Qed.
