(** C08 (and the history part of C07): the class-field cache and the settings flag over
    arbitrary histories of calls.  Model: Cache.v. *)
From Coq Require Import List NArith ZArith Bool String.
From Verif Require Import PyStr Values Schema Parse Serialize Basics SpecParse ParseFacts4 Cache CacheFacts
  Properties_Parse.
Import ListNotations.
Open Scope string_scope.
Open Scope list_scope.

(** What the same call answers in a process without any cache (Parse.v has none). *)
Definition uncached (o : op) : answer :=
  match o with
  | OpParse v => ANode (snd (parse_node true v))
  | OpFromDict k v => ANode (snd (from_dict true k v))
  | OpMark v => AMark (parse_mark v)
  | OpFields c => AFields (Ok (declared c))
  | OpFlag _ => ANone
  end.

(** ================================================================ C08 *)
(** After any history, every call answers what it answers without a cache. *)
Lemma step_uncached o : snd (step o fresh) = uncached o.
Proof.
  destruct o as [v|k v|v|c|b]; cbn [step uncached].
  - destruct (c_parse_node_refine v fresh fresh_valid) as (K & _).
    destruct (c_parse_node v fresh). cbn [fst snd] in *. cbn in K. now rewrite K.
  - destruct (c_from_dict_refine k v fresh fresh_valid) as (K & _).
    destruct (c_from_dict k v fresh). cbn [fst snd] in *. cbn in K. now rewrite K.
  - destruct (c_parse_mark_refine v fresh fresh_valid) as (K & _).
    destruct (c_parse_mark v fresh). cbn [fst snd] in *. cbn in K. now rewrite K.
  - destruct (get_fields_refine c fresh fresh_valid) as (K & _).
    destruct (get_fields c fresh). cbn [fst snd] in *. cbn in K. now rewrite K.
  - reflexivity.
Qed.
Theorem C08_cache_transparent : forall os o,
  snd (step o (fst (run os fresh))) = uncached o.
Proof.
  intros os o. destruct (run_spec os fresh fresh_valid) as (_ & HV & _ & _).
  destruct (step_spec o _ HV) as (H & _). rewrite H. apply step_uncached.
Qed.
Theorem C08_all_answers : forall os, snd (run os fresh) = map uncached os.
Proof.
  intros os. destruct (run_spec os fresh fresh_valid) as (H & _). rewrite H.
  apply map_ext. apply step_uncached.
Qed.
(** Every entry holds the class's own declared fields; no entry is ever lost or changed. *)
Theorem C08_entries_correct : forall os c f,
  cached c (w_cache (fst (run os fresh))) = Some f -> f = declared c.
Proof. intros os c f H. destruct (run_spec os fresh fresh_valid) as (_ & HV & _ & _). exact (HV c f H). Qed.
Theorem C08_entries_never_lost : forall os os' c f,
  cached c (w_cache (fst (run os fresh))) = Some f ->
  cached c (w_cache (fst (run os' (fst (run os fresh))))) = Some f.
Proof.
  intros os os' c f H. destruct (run_spec os fresh fresh_valid) as (_ & HV & _ & _).
  destruct (run_spec os' _ HV) as (_ & _ & HX & _). exact (HX c f H).
Qed.

(** ================================================================ C07, histories *)
(** The settings flag, set any number of times between calls, never changes an answer
    ([C08_all_answers]) and selects exactly which calls log. *)
Fixpoint expected_log (flag : bool) (os : list op) : list warning :=
  match os with
  | [] => []
  | OpFlag b :: r => expected_log b r
  | OpParse v :: r => (if flag then fst (parse_node true v) else []) ++ expected_log flag r
  | OpFromDict k v :: r => (if flag then fst (from_dict true k v) else []) ++ expected_log flag r
  | _ :: r => expected_log flag r
  end.
Theorem C07_history_log : forall os, w_log (fst (run os fresh)) = expected_log true os.
Proof.
  intros os. destruct (run_spec os fresh fresh_valid) as (_ & _ & _ & H). rewrite H. cbn [w_log w_flag fresh app].
  generalize true as b. clear H.
  induction os as [|o os IH]; intros b; [reflexivity|]. destruct o as [v|k v|v|c|b']; cbn [history_log op_log expected_log app].
  - rewrite IH. destruct b; [reflexivity|]. now rewrite parse_flag_off.
  - rewrite IH. destruct b; [reflexivity|]. now rewrite from_dict_flag_off.
  - apply IH.
  - apply IH.
  - apply IH.
Qed.

Definition ex_history : list op :=
  [OpParse ex_doc; OpFlag false; OpFromDict Kdoc ex_bad; OpParse ex_doc; OpFlag true;
   OpFields (MarkAttrsC Mlink); OpMark ex_link; OpFromDict Kdoc ex_bad].

Example C08_example :
  List.length (w_cache (fst (run ex_history fresh))) = 9%nat /\
  map (fun a => match a with ANode (Err e) => Some e | _ => None end) (snd (run ex_history fresh))
  = [None; None; Some ParamError; None; None; None; None; Some ParamError] /\
  w_log (fst (run ex_history fresh)) =
  [Warn CMark (VStr (s "sparkle")); Warn CNode (VStr (s "fancyInline")); Warn CNode (VStr (s "layoutSection"));
   Warn CNode (VStr (s "mystery"))].
Proof. vm_compute. repeat split. Qed.

Print Assumptions C08_cache_transparent.
Print Assumptions C08_all_answers.
Print Assumptions C08_entries_correct.
Print Assumptions C08_entries_never_lost.
Print Assumptions C07_history_log.
