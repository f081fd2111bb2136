(** C49: any number of threads may parse at the same time.  Model: Threads.v. *)
From Coq Require Import List NArith ZArith Bool String Lia.
From Verif Require Import PyStr Values Schema Parse Basics SpecParse ParseFacts ParseFacts2 ParseFacts4 Cache CacheFacts
  Threads ThreadFacts Properties_Parse Properties_Cache.
Import ListNotations.
Open Scope string_scope.
Open Scope list_scope.
Open Scope nat_scope.

(** What a call logs alone, with the flag on. *)
Definition warnings_of (o : op) : list warning :=
  match o with
  | OpParse v => fst (parse_node true v)
  | OpFromDict k v => fst (from_dict true k v)
  | _ => []
  end.
(** The part of the log that thread [i] wrote. *)
Definition log_of (i : nat) (lg : list (nat * warning)) : list warning :=
  flat_map (fun e => if Nat.eqb (fst e) i then [snd e] else []) lg.
(** [a] is [b] with some elements left out. *)
Inductive subsequence {A} : list A -> list A -> Prop :=
| sub_nil : subsequence [] []
| sub_keep x a b : subsequence a b -> subsequence (x :: a) (x :: b)
| sub_drop x a b : subsequence a b -> subsequence a (x :: b).
Definition sets_flag (b : bool) (oss : list (list op)) : Prop := exists os, In os oss /\ In (OpFlag b) os.
Definition is_done {A} (p : prog A) : Prop := exists r, p = Done r.

(** ---------------------------------------------------------------- one thread *)
Lemma p_step_ok (fl : bool -> Prop) kn o : (forall b, o = OpFlag b -> fl b) ->
  okp fl kn (p_step o) (Ok (uncached o)) (warnings_of o).
Proof.
  intros HF. destruct o as [v|k v|v|c|b]; cbn [p_step uncached warnings_of].
  - rewrite <- (app_nil_r (fst _)). apply (okp_try _ _ _ _ _ (p_parse_node_refine v fl kn)). intros kn' _. constructor.
  - rewrite <- (app_nil_r (fst _)). apply (okp_try _ _ _ _ _ (p_from_dict_refine k v fl kn)). intros kn' _. constructor.
  - change (@nil warning) with (@nil warning ++ []). apply (okp_try _ _ _ _ _ (p_parse_mark_refine v fl kn)). intros kn' _. constructor.
  - change (@nil warning) with (@nil warning ++ []). apply (okp_try _ _ _ _ _ (p_get_fields_refine c fl kn)). intros kn' _. constructor.
  - constructor; [now apply HF|constructor].
Qed.
Lemma p_run_ok (fl : bool -> Prop) os : (forall b, In (OpFlag b) os -> fl b) ->
  forall kn, okp fl kn (p_run os) (Ok (map uncached os)) (flat_map warnings_of os).
Proof.
  induction os as [|o os IH]; intros HF kn; cbn [p_run map flat_map]; [constructor|]. unfold pbind at 1.
  apply (okp_try _ _ _ _ _ (p_step_ok fl kn o ltac:(intros b ->; apply HF; now left))). intros kn' _. unfold pbind.
  rewrite <- (app_nil_r (flat_map _ _)). apply (okp_try _ _ _ _ _ (IH ltac:(intros b Hb; apply HF; now right) kn')).
  intros kn2 _. constructor.
Qed.

(** ---------------------------------------------------------------- the invariant *)
Section Invariant.
  Variable fl : bool -> Prop.
  (** What thread [p] with final answer [r] and warnings [ws] has left to do, [l] being what it logged. *)
  Definition thread_inv (m : list (cls * list str)) (p : prog (list answer)) (os : list op) (l : list warning) : Prop :=
    exists kn rest used,
      (forall c, In c kn -> cached c m <> None) /\ okp fl kn p (Ok (map uncached os)) rest /\
      flat_map warnings_of os = used ++ rest /\
      subsequence l used /\ (~ fl false -> l = used) /\ (~ fl true -> l = []).
  Definition inv (oss : list (list op)) (st : process) : Prop :=
    (forall c f, cached c (p_cache st) = Some f -> f = declared c) /\ fl (p_flag st) /\
    List.length (p_threads st) = List.length oss /\
    forall i p os, nth_error (p_threads st) i = Some p -> nth_error oss i = Some os ->
      thread_inv (p_cache st) p os (log_of i (p_log st)).
  Lemma log_of_app i a b : log_of i (a ++ b) = log_of i a ++ log_of i b.
  Proof. apply flat_map_app. Qed.
  Lemma log_of_own i ws : log_of i (map (pair i) ws) = ws.
  Proof. unfold log_of. induction ws as [|w ws IH]; [reflexivity|]. cbn. now rewrite Nat.eqb_refl, IH. Qed.
  Lemma log_of_other i j ws : i <> j -> log_of i (map (pair j) ws) = [].
  Proof.
    intros N. unfold log_of. induction ws as [|w ws IH]; [reflexivity|]. cbn. rewrite IH. destruct (Nat.eqb_spec j i); [congruence|reflexivity].
  Qed.
  Lemma subsequence_snoc {A} (a b : list A) x : subsequence a b -> subsequence (a ++ [x]) (b ++ [x]).
  Proof. induction 1; cbn; [apply sub_keep, sub_nil|now apply sub_keep|now apply sub_drop]. Qed.
  Lemma subsequence_skip {A} (a b : list A) x : subsequence a b -> subsequence a (b ++ [x]).
  Proof. induction 1; cbn; [apply sub_drop, sub_nil|now apply sub_keep|now apply sub_drop]. Qed.
  (** One access keeps the invariant of the thread that makes it. *)
  Lemma access_inv m b p m' b' ws p' os l : access m b p m' b' ws p' ->
    (forall c f, cached c m = Some f -> f = declared c) -> fl b -> thread_inv m p os l ->
    (forall c f, cached c m' = Some f -> f = declared c) /\ fl b' /\ thread_inv m' p' os (l ++ ws) /\
    (forall c, cached c m <> None -> cached c m' <> None).
  Proof.
    intros HA HV HB (kn & rest & used & HK & HO & HW & HS & H1 & H2).
    destruct HA as [m b c k|m b c f k|m b k|m b b' k|m b x k]; inversion HO as [|? ? ? ? ? O1 O2|? ? ? ? ? O1|? ? x' p ? ws' E1 E2 O1|? ? ? ? ? HF O1|? ? ? ? ? HF O1]; subst.
    - split; [exact HV|]. split; [exact HB|]. split; [|auto]. destruct (cached c m) as [f|] eqn:EC.
      + rewrite (HV c f EC). exists (c :: kn), rest, used. rewrite app_nil_r. split; [|auto 10].
        intros c' [<-|HI]; [congruence|now apply HK].
      + destruct O2 as [O2|O2]; [exfalso; now apply (HK c O2)|]. exists kn, rest, used. rewrite app_nil_r. auto 10.
    - assert (HV' : forall c' f, cached c' ((c, declared c) :: m) = Some f -> f = declared c').
      { intros c' f. cbn [cached]. destruct (cls_eq_dec c c') as [->|N]; [congruence|apply HV]. }
      assert (HC : forall c', cached c' m <> None -> cached c' ((c, declared c) :: m) <> None).
      { intros c' H. cbn [cached]. destruct (cls_eq_dec c c'); [discriminate|exact H]. }
      split; [exact HV'|]. split; [exact HB|]. split; [|exact HC].
      exists (c :: kn), rest, used. rewrite app_nil_r. split; [|auto 10].
      intros c' [<-|HI]; [cbn [cached]; destruct (cls_eq_dec c c); [discriminate|congruence]|]. now apply HC, HK.
    - split; [exact HV|]. split; [exact HB|]. split; [|auto]. rewrite app_nil_r. destruct b.
      + rewrite E1. exists kn, (x' :: ws'), used. split; [exact HK|]. split; [constructor; assumption|]. auto.
      + exists kn, ws', (used ++ [x']). split; [exact HK|]. split; [assumption|]. split; [now rewrite <- app_assoc|].
        split; [now apply subsequence_skip|]. split; [intros N; contradiction|exact H2].
    - split; [exact HV|]. split; [exact HF|]. split; [|auto]. rewrite app_nil_r. exists kn, rest, used. auto 10.
    - split; [exact HV|]. split; [exact HB|]. split; [|auto].
      match goal with H : okp fl kn k _ ?w |- _ => exists kn, w, (used ++ [x]) end. split; [exact HK|]. split; [assumption|].
      split; [now rewrite <- app_assoc|]. split; [now apply subsequence_snoc|].
      split; [intros N; now rewrite H1|intros N; contradiction].
  Qed.
  Lemma thread_inv_grow m m' p os l : (forall c, cached c m <> None -> cached c m' <> None) ->
    thread_inv m p os l -> thread_inv m' p os l.
  Proof. intros HG (kn & rest & used & HK & H). exists kn, rest, used. split; [|exact H]. intros c Hc. apply HG. now apply HK. Qed.
  Lemma pstep_inv oss st st' : pstep st st' -> inv oss st -> inv oss st'.
  Proof.
    intros HS. destruct HS as [m b lg before p after m' b' ws p' HA]. intros (HV & HB & HL & HT).
    cbn [p_cache p_flag p_log p_threads] in *. rewrite app_length in HL. cbn [List.length] in HL.
    assert (EP : nth_error (before ++ p :: after) (List.length before) = Some p).
    { rewrite nth_error_app2 by lia. now rewrite Nat.sub_diag. }
    destruct (nth_error oss (List.length before)) as [os|] eqn:EO; [|apply nth_error_None in EO; lia].
    destruct (access_inv _ _ _ _ _ _ _ os _ HA HV HB (HT _ _ _ EP EO)) as (HV' & HB' & HI & HG).
    split; [exact HV'|]. split; [exact HB'|]. cbn [p_threads p_cache p_log]. split; [rewrite app_length; cbn [List.length]; lia|].
    intros i q os' Hq Ho. rewrite log_of_app. destruct (Nat.eq_dec i (List.length before)) as [->|N].
    - rewrite nth_error_app2, Nat.sub_diag in Hq by lia. cbn in Hq. injection Hq as <-.
      assert (os' = os) as -> by congruence. now rewrite log_of_own.
    - rewrite log_of_other, app_nil_r by auto. apply (thread_inv_grow m m'); [exact HG|]. apply HT; [|exact Ho].
      destruct (Nat.lt_ge_cases i (List.length before)) as [L|L].
      + rewrite nth_error_app1 in * by lia. exact Hq.
      + rewrite nth_error_app2 in * by lia. destruct (i - List.length before) eqn:D; [lia|]. exact Hq.
  Qed.
  Lemma start_inv f0 oss : fl f0 -> (forall os b, In os oss -> In (OpFlag b) os -> fl b) -> inv oss (start f0 oss).
  Proof.
    intros HB HF. unfold start. split; [intros c f H; discriminate|]. split; [exact HB|]. cbn [p_threads p_cache p_log].
    split; [now rewrite map_length|]. intros i p os Hp Ho. rewrite nth_error_map, Ho in Hp. cbn in Hp. injection Hp as <-.
    exists [], (flat_map warnings_of os), []. split; [intros c []|]. split; [|repeat split; constructor].
    apply p_run_ok. intros b Hb. apply (HF os b); [now apply nth_error_In in Ho|exact Hb].
  Qed.
  Lemma reach_inv f0 oss st : fl f0 -> (forall os b, In os oss -> In (OpFlag b) os -> fl b) ->
    psteps (start f0 oss) st -> inv oss st.
  Proof.
    intros HB HF HS. remember (start f0 oss) as st0. induction HS as [st|st st1 st2 HS IH H1]; [subst; now apply start_inv|].
    apply (pstep_inv oss st1); auto.
  Qed.
End Invariant.
Lemma reach_any f0 oss st : psteps (start f0 oss) st -> inv (fun _ => True) oss st.
Proof. apply reach_inv; auto. Qed.

(** ================================================================ C49 *)
(** Whatever the threads do and however they are scheduled, a thread that has finished got for every call exactly the answer
    the same call gives alone in a process without a cache. *)
Theorem C49_every_answer_as_alone : forall f0 oss st i os r, psteps (start f0 oss) st ->
  nth_error oss i = Some os -> nth_error (p_threads st) i = Some (Done r) -> r = Ok (map uncached os).
Proof.
  intros f0 oss st i os r HS Ho Hp. apply reach_any in HS as (_ & _ & _ & HT).
  destruct (HT i _ os Hp Ho) as (kn & rest & used & _ & HO & _). now inversion HO.
Qed.
(** The shared cache is correct at every moment. *)
Theorem C49_cache_correct : forall f0 oss st c f, psteps (start f0 oss) st -> cached c (p_cache st) = Some f -> f = declared c.
Proof. intros f0 oss st c f HS. apply reach_any in HS as (HV & _). apply HV. Qed.
(** What a thread has logged is in order and only what its calls log alone; *)
Theorem C49_log_of_a_thread : forall f0 oss st i os, psteps (start f0 oss) st -> nth_error oss i = Some os ->
  exists done later, flat_map warnings_of os = done ++ later /\ subsequence (log_of i (p_log st)) done.
Proof.
  intros f0 oss st i os HS Ho. apply reach_any in HS as (_ & _ & HL & HT).
  destruct (nth_error (p_threads st) i) as [p|] eqn:Hp.
  - destruct (HT i p os Hp Ho) as (kn & rest & used & _ & _ & HW & HB & _). eauto.
  - apply nth_error_None in Hp. assert (nth_error oss i <> None) as N by congruence. apply nth_error_Some in N. lia.
Qed.
(** all of it, once the thread has finished, if no thread switches the warnings off; *)
Theorem C49_log_complete : forall oss st i os r, psteps (start true oss) st -> ~ sets_flag false oss ->
  nth_error oss i = Some os -> nth_error (p_threads st) i = Some (Done r) -> log_of i (p_log st) = flat_map warnings_of os.
Proof.
  intros oss st i os r HS HN Ho Hp. apply (reach_inv (eq true)) in HS; [|reflexivity|].
  - destruct HS as (_ & _ & _ & HT). destruct (HT i _ os Hp Ho) as (kn & rest & used & _ & HO & HW & _ & H1 & _).
    inversion HO; subst. rewrite HW, app_nil_r. apply H1. discriminate.
  - intros os' b HI HB. destruct b; [reflexivity|]. exfalso. apply HN. now exists os'.
Qed.
(** nothing, if no thread switches them on. *)
Theorem C49_log_silent : forall oss st, psteps (start false oss) st -> ~ sets_flag true oss -> forall i os,
  nth_error oss i = Some os -> log_of i (p_log st) = [].
Proof.
  intros oss st HS HN i os Ho. apply (reach_inv (eq false)) in HS; [|reflexivity|].
  - destruct HS as (_ & _ & HL & HT). destruct (nth_error (p_threads st) i) as [p|] eqn:Hp.
    + destruct (HT i p os Hp Ho) as (kn & rest & used & _ & _ & _ & _ & _ & H2). apply H2. discriminate.
    + apply nth_error_None in Hp. assert (nth_error oss i <> None) as N by congruence. apply nth_error_Some in N. lia.
  - intros os' b HI HB. destruct b; [|reflexivity]. exfalso. apply HN. now exists os'.
Qed.
(** No thread ever blocks: a thread that has not finished can make its next access at once. *)
Theorem C49_never_blocks : forall st before p after, p_threads st = before ++ p :: after -> ~ is_done p ->
  exists st' p', pstep st st' /\ p_threads st' = before ++ p' :: after.
Proof.
  intros [m b lg ts] before p after E ND. cbn [p_threads] in E. subst ts.
  assert (HA : exists m' b' ws p', access m b p m' b' ws p').
  { destruct p as [r|c k|c f k|k|b' k|x k]; [exfalso; apply ND; now exists r| | | | |]; do 4 eexists; constructor. }
  destruct HA as (m' & b' & ws & p' & HA). eexists. exists p'. split; [eapply pstep_intro; exact HA|reflexivity].
Qed.
(** There is no infinite run. *)
Definition next {A} (q p : prog A) : Prop := exists m b m' b' ws, access m b p m' b' ws q.
Lemma next_wf {A} (p : prog A) : Acc next p.
Proof.
  induction p as [r|c k IH|c f k IH|k IH|b k IH|x k IH]; constructor; intros q (m & b0 & m' & b' & ws & HA); inversion HA; subst; auto.
Qed.
Definition one_moves (ts' ts : list (prog (list answer))) : Prop :=
  exists before p after p', ts = before ++ p :: after /\ ts' = before ++ p' :: after /\ next p' p.
Lemma one_moves_wf ts : Acc one_moves ts.
Proof.
  induction ts as [|p ts IH].
  - constructor. intros ts' (before & p & after & p' & E & _). destruct before; discriminate.
  - revert ts IH. induction (next_wf p) as [p _ IHp]. intros ts IH. induction IH as [ts HA IHts].
    constructor. intros ts' (before & q & after & q' & E & -> & HN). destruct before as [|q0 before]; cbn in E.
    + injection E as -> ->. cbn. apply IHp; [exact HN|]. constructor. exact HA.
    + injection E as -> ->. cbn. apply IHts. exists before, q, after, q'. auto.
Qed.
Theorem C49_terminates : forall st, Acc (fun st2 st1 => pstep st1 st2) st.
Proof.
  intros st. remember (p_threads st) as ts eqn:E. revert st E. induction (one_moves_wf ts) as [ts _ IH]. intros st ->.
  constructor. intros st' HS. apply (IH (p_threads st')); [|reflexivity].
  destruct HS as [m b lg before p after m' b' ws p' HA]. cbn [p_threads]. exists before, p, after, p'.
  split; [reflexivity|]. split; [reflexivity|]. now exists m, b, m', b', ws.
Qed.
(** So from every state a run leads to one where all threads have finished, with the right answers. *)
Theorem C49_can_finish : forall f0 oss st, psteps (start f0 oss) st ->
  exists st', psteps st st' /\ p_threads st' = map (fun os => Done (Ok (map uncached os))) oss.
Proof.
  intros f0 oss st. induction (C49_terminates st) as [st _ IH]. intros HS.
  assert (D : Forall is_done (p_threads st) \/ exists before p after, p_threads st = before ++ p :: after /\ ~ is_done p).
  { clear. induction (p_threads st) as [|p ts [IH|(be & q & af & -> & H)]]; [left; constructor| |].
    - destruct p as [r|c k|c f k|k|b k|x k]; [left; constructor; [now exists r|exact IH]| | | | |];
        right; eexists [], _, ts; (split; [reflexivity|intros [r H]; discriminate]).
    - right. exists (p :: be), q, af. auto. }
  destruct D as [D|(before & p & after & E & ND)].
  - exists st. split; [constructor|]. pose proof (reach_any _ _ _ HS) as (_ & _ & HL & _).
    assert (HA := fun i os r => C49_every_answer_as_alone f0 oss st i os r HS). clear HS IH.
    revert oss HL HA. induction D as [|p ts [r ->] D IHD]; intros [|os oss] HL HA; try discriminate; [reflexivity|].
    cbn [map]. f_equal.
    + f_equal. exact (HA 0 os r eq_refl eq_refl).
    + apply IHD; [now injection HL|]. intros i. exact (HA (S i)).
  - destruct (C49_never_blocks st before p after E ND) as (st1 & p' & H1 & _).
    destruct (IH st1 H1 (ps_step _ _ _ HS H1)) as (st2 & H2 & E2). exists st2. split; [|exact E2].
    clear - H1 H2. induction H2 as [st1|st1 st2 st3 H2 IH H3]; [exact (ps_step _ _ _ (ps_refl _) H1)|].
    exact (ps_step _ _ _ (IH H1) H3).
Qed.

(** A race: both threads miss the cache before either has written it; both store the entry, both get it. *)
Definition ex_race : list (list op) := [[OpFields (MarkC Mlink)]; [OpFields (MarkC Mlink)]].
Example C49_race : exists st st', psteps (start true ex_race) st /\ psteps st st' /\
  p_cache st = [] /\ p_cache st' = [(MarkC Mlink, [s "type"; s "attrs"]); (MarkC Mlink, [s "type"; s "attrs"])] /\
  p_threads st' = [Done (Ok [AFields (Ok [s "type"; s "attrs"])]); Done (Ok [AFields (Ok [s "type"; s "attrs"])])].
Proof.
  Ltac go0 := eapply (pstep_intro _ _ _ []); constructor.
  Ltac go1 := eapply (pstep_intro _ _ _ [_]); constructor.
  eexists. eexists. split; [|split].
  - eapply ps_step; [eapply ps_step; [apply ps_refl|]|]; [go0|go1].
  - eapply ps_step; [eapply ps_step; [eapply ps_step; [eapply ps_step; [apply ps_refl|]|]|]|]; [go0|go1|go0|go1].
  - vm_compute. auto.
Qed.
Print Assumptions C49_every_answer_as_alone.
Print Assumptions C49_log_complete.
Print Assumptions C49_can_finish.
