(** C64, C65: downloaded test data (see properties.jsonl). *)
From Coq Require Import List NArith ZArith Bool String Arith Lia.
From Verif Require Import PyStr Values Basics StrFacts Download.
Import ListNotations.
Open Scope string_scope.
Open Scope list_scope.

Lemma set_same w p x : proc (set_proc w p x) p = x.
Proof. cbn. now rewrite Nat.eqb_refl. Qed.
Lemma set_other w p x q : q <> p -> proc (set_proc w p x) q = proc w q.
Proof. intros H. cbn. destruct (Nat.eqb_spec q p); [congruence|reflexivity]. Qed.

(** ---------------------------------------------------------------- C64 *)
(** A file that is there, with no process in the middle of storing one, is never changed and never downloaded again; every
    process gets what the file says, or the value it got before. *)
Theorem C64_present_file_is_used J memo server w es w' t : quiet w -> file w = Some t -> steps J memo server w es w' ->
  file w' = Some t /\ quiet w' /\ (forall p, ~ In (Request p) es) /\
  forall p v, In (Return p v) es -> loads J t = Some v \/ proc w p = Have v.
Proof.
  intros HQ HF HS. revert HQ HF. induction HS as [w|w e w1 es w2 H HS IH]; intros HQ HF; [split; [exact HF|]; split; [exact HQ|]; split; [intros p []|intros p v []]|].
  assert (HX : file w1 = Some t /\ quiet w1 /\ (forall p, e <> Request p) /\ (forall p v, e = Return p v -> loads J t = Some v \/ proc w p = Have v) /\
               (forall p v, proc w1 p = Have v -> loads J t = Some v \/ proc w p = Have v)).
  { assert (HI : forall q x, proc w q = x -> (exists f, x = Idle f) \/ exists v, x = Have v) by (intros q x <-; destruct (HQ q) as [[f HE]|[v HE]]; rewrite HE; eauto).
    assert (HU : forall p x, ((exists f, x = Idle f) \/ exists v, x = Have v) -> quiet (set_proc w p x)).
    { intros p x Hx q. cbn. destruct (Nat.eqb q p); [exact Hx|apply HQ]. }
    destruct H as [w p v HP|w p f t0 v HP HT HL|w p f t0 HP HT HL|w p f HP HT|w p v HP HV|w p HP|w p v HP|w p v HP|w p v HP|w p v HP|w p v x y HP HD|w p|w p v x y HP HD];
      try (exfalso; apply HI in HP; destruct HP as [[? HP]|[? HP]]; discriminate).
    - repeat split; auto; try discriminate. intros p0 v0 [= <- <-]. auto.
    - assert (t0 = t) by congruence. subst t0. split; [exact HF|]. split; [apply HU; eauto|]. split; [discriminate|]. split; [intros p0 v0 [= <- <-]; auto|].
      intros q v0 HV. destruct (Nat.eq_dec q p) as [->|HN]; [rewrite set_same in HV; injection HV as ->; auto|rewrite set_other in HV by exact HN; auto].
    - repeat split; auto; discriminate.
    - congruence.
    - split; [exact HF|]. split; [apply HU; eauto|]. split; [discriminate|]. split; [discriminate|].
      intros q v0 HV. destruct (Nat.eq_dec q p) as [->|HN]; [rewrite set_same in HV; discriminate|rewrite set_other in HV by exact HN; auto]. }
  destruct HX as (F1 & Q1 & R1 & V1 & P1). destruct (IH Q1 F1) as (F2 & Q2 & R2 & V2). split; [exact F2|]. split; [exact Q2|]. split.
  - intros p [HE|HI]; [now apply (R1 p)|now apply (R2 p)].
  - intros p v [HE|HI]; [now apply V1|]. destruct (V2 p v HI) as [HL|HP]; auto.
Qed.
(** The first complete download wins: what any process gets from then on is that body, whatever the server would answer now. *)
Theorem C64_first_download_wins J memo server w es w' v : quiet w -> file w = Some (dumps J v) -> json_text J v ->
  (forall p x, proc w p = Have x -> x = v) -> steps J memo server w es w' ->
  (forall p x, In (Return p x) es -> x = v) /\ (forall p, ~ In (Request p) es) /\ file w' = Some (dumps J v).
Proof.
  intros HQ HF [HJ _] HP HS. destruct (C64_present_file_is_used J memo server w es w' _ HQ HF HS) as (F & _ & R & V). split; [|split; assumption].
  intros p x HI. destruct (V p x HI) as [HL|HX]; [congruence|eauto].
Qed.
(** One process alone, on a fresh disk: whatever JSON body the server sends (of whatever status), it is returned and stored. *)
Theorem C64_download_is_stored J memo (server : value -> Prop) v : server v ->
  exists w, steps J memo server fresh [Silent; Request 0; Silent; Return 0 v] w /\ file w = Some (dumps J v) /\ quiet w /\ forall p x, proc w p = Have x -> x = v.
Proof.
  intros HV. eexists. split.
  - eapply steps_more; [apply (st_missing _ _ _ _ 0 None); reflexivity|]. eapply steps_more; [apply (st_request _ _ _ _ 0 v); [reflexivity|exact HV]|].
    eapply steps_more; [apply (st_open _ _ _ _ 0 v); reflexivity|]. eapply steps_more; [apply (st_write _ _ _ _ 0 v); reflexivity|]. apply steps_none.
  - cbn. split; [|split].
    + unfold overwrite. now rewrite skipn_nil, app_nil_r.
    + intros p. cbn. destruct (Nat.eqb p 0) eqn:K; [right; eauto|]. cbn. rewrite ?K. left. eauto.
    + intros p x. destruct (Nat.eqb p 0) eqn:K; cbn; rewrite ?K; congruence.
Qed.
(** A file that cannot be read stays: no call of any process (that has no value yet) ever succeeds, and nothing is downloaded. *)
Theorem C64_unreadable_file_stays J memo server w es w' t : quiet w -> file w = Some t -> loads J t = None -> steps J memo server w es w' ->
  file w' = Some t /\ (forall p, ~ In (Request p) es) /\ forall p v, In (Return p v) es -> proc w p = Have v.
Proof.
  intros HQ HF HL HS. destruct (C64_present_file_is_used J memo server w es w' t HQ HF HS) as (F & _ & R & V). split; [exact F|]. split; [exact R|].
  intros p v HI. destruct (V p v HI) as [HX|HX]; [congruence|exact HX].
Qed.
(** That is how a kill (or a full disk) during the first download leaves it: any proper beginning of the text. *)
Theorem C64_cut_download_never_repaired J memo (server : value -> Prop) v x y : server v -> json_text J v -> dumps J v = x ++ y -> y <> [] ->
  exists es w, steps J memo server fresh es w /\ file w = Some x /\
    forall es' w', steps J memo server w es' w' -> file w' = Some x /\ (forall p, ~ In (Request p) es') /\ forall p u, ~ In (Return p u) es'.
Proof.
  intros HV HJ HD HN. do 2 eexists. split; [|split].
  - eapply steps_more; [apply (st_missing _ _ _ _ 0 None); reflexivity|]. eapply steps_more; [apply (st_request _ _ _ _ 0 v); [reflexivity|exact HV]|].
    eapply steps_more; [apply (st_open _ _ _ _ 0 v); reflexivity|]. eapply steps_more; [apply (st_kill_write _ _ _ _ 0 v x y); [reflexivity|exact HD]|]. apply steps_none.
  - cbn. unfold overwrite. now rewrite skipn_nil, app_nil_r.
  - intros es' w' HS. eapply C64_unreadable_file_stays in HS; [| | |apply (proj2 HJ x y HD HN)].
    + destruct HS as (F & R & V). split; [exact F|]. split; [exact R|]. intros p u HI. apply V in HI. cbn in HI. destruct (Nat.eqb p 0) eqn:K; cbn in HI; rewrite ?K in HI; discriminate.
    + intros p. left. cbn. destruct (Nat.eqb p 0) eqn:K; cbn; rewrite ?K; eauto.
    + cbn. unfold overwrite. now rewrite skipn_nil, app_nil_r.
Qed.

(** ---------------------------------------------------------------- C65 *)
Lemma overwrite_prefix (d x t : str) : (exists y, d = x ++ y) -> (exists y, d = t ++ y) -> exists y, d = overwrite x (Some t) ++ y.
Proof.
  intros [y HY] [z HZ]. unfold overwrite. destruct (le_lt_dec (List.length t) (List.length x)) as [HL|HL].
  - rewrite (skipn_all2 _ HL), app_nil_r. eauto.
  - exists z. assert (HT : t = x ++ skipn (List.length x) t); [|now rewrite <- HT].
    assert (HF : x = firstn (List.length x) t).
    { assert (H1 : x = firstn (List.length x) d) by (rewrite HY, firstn_app, firstn_all, Nat.sub_diag; cbn; now rewrite app_nil_r). rewrite H1 at 1. rewrite HZ.
      rewrite firstn_app. replace (List.length x - List.length t)%nat with 0%nat by lia. cbn. now rewrite app_nil_r. }
    rewrite HF at 1. symmetry. apply firstn_skipn.
Qed.
Lemma overwrite_full (d t : str) : (exists y, d = t ++ y) -> overwrite d (Some t) = d.
Proof. intros [y HY]. unfold overwrite. rewrite skipn_all2; [apply app_nil_r|]. rewrite HY, app_length. lia. Qed.

Definition holds (v : value) (x : process) : Prop :=
  match x with Idle None | Missing None => True | Idle (Some u) | Missing (Some u) | Got u | Opened u | Have u => u = v end.
Definition sound (J : json) (v : value) (w : world) : Prop :=
  (forall p, holds v (proc w p)) /\ (forall p u, proc w p = Opened u -> file w <> None) /\ (forall t, file w = Some t -> exists y, dumps J v = t ++ y).
Lemma sound_step J memo v w e w' : json_text J v -> sound J v w -> step J memo (eq v) w e w' -> sound J v w' /\ forall p u, e = Return p u -> u = v.
Proof.
  intros [HJ1 HJ2] (HP & HO & HF) H.
  assert (HL : forall t u, file w = Some t -> loads J t = Some u -> u = v).
  { intros t u HT HU. destruct (HF t HT) as [y HY]. destruct y as [|c y]; [rewrite app_nil_r in HY; congruence|]. rewrite (HJ2 t (c :: y) HY) in HU; [discriminate|discriminate]. }
  assert (HS : forall p x, holds v x -> (forall u, x <> Opened u) -> sound J v (set_proc w p x)).
  { intros p x Hx HN. split; [|split; [|exact HF]].
    - intros q. cbn. destruct (Nat.eqb q p); [exact Hx|apply HP].
    - intros q u. cbn. destruct (Nat.eqb q p); [intros ->; destruct (HN u); reflexivity|apply HO]. }
  assert (HW : forall p x t, holds v x -> (exists y, dumps J v = t ++ y) -> sound J v (set_proc (set_file w t) p x)).
  { intros p x t Hx Ht. split; [|split].
    - intros q. cbn. destruct (Nat.eqb q p); [exact Hx|apply HP].
    - cbn. discriminate.
    - cbn. now intros t0 [= <-]. }
  assert (HM : forall u, u = v -> holds v (Idle (if memo then Some u else None))) by (intros u ->; destruct memo; cbn; auto).
  assert (HV : forall p x, proc w p = x -> holds v x) by (intros p x <-; apply HP).
  assert (HC : forall p u x y, proc w p = Opened u -> dumps J u = x ++ y -> exists z, dumps J v = overwrite x (file w) ++ z).
  { intros p u x y HE HD. pose proof (HV _ _ HE) as HU. cbn in HU. subst u. pose proof (HO p v HE) as HN. destruct (file w) as [t|] eqn:K; [|congruence].
    apply overwrite_prefix; eauto. }
  destruct H as [w p u HE|w p f t0 u HE HT HU|w p f t0 HE HT HU|w p f HE HT|w p u HE HU|w p HE|w p u HE|w p u HE|w p u HE|w p u HE|w p u x y HE HD|w p|w p u x y HE HD];
    try (pose proof (HV _ _ HE) as HH; cbn [holds] in HH).
  - split; [split; auto|]. now intros p0 u0 [= <- <-].
  - pose proof (HL t0 u HT HU) as ->. split; [apply HS; [reflexivity|discriminate]|]. now intros p0 u0 [= <- <-].
  - split; [split; auto|discriminate].
  - split; [apply HS; [destruct f; exact HH|discriminate]|discriminate].
  - subst u. split; [apply HS; [reflexivity|discriminate]|discriminate].
  - split; [apply HS; [exact I|discriminate]|discriminate].
  - split; [apply HS; [exact HH|discriminate]|discriminate].
  - split; [apply HW; [exact HH|exists (dumps J v); reflexivity]|discriminate].
  - split; [apply HS; [auto|destruct memo; discriminate]|discriminate].
  - split; [apply HW; [exact HH|apply (HC p u (dumps J u) []); [exact HE|now rewrite app_nil_r]]|]. now intros p0 u0 [= <- <-].
  - split; [apply HW; [auto|eapply HC; eauto]|discriminate].
  - split; [apply HS; [exact I|discriminate]|discriminate].
  - split; [apply HW; [exact I|eapply HC; eauto]|discriminate].
Qed.
Lemma sound_fresh J v : sound J v fresh.
Proof. split; [intros p; exact I|]. split; discriminate. Qed.
Lemma sound_steps J memo v w es w' : json_text J v -> sound J v w -> steps J memo (eq v) w es w' -> sound J v w' /\ forall p u, In (Return p u) es -> u = v.
Proof.
  intros HJ HS H. revert HS. induction H as [w|w e w1 es w2 H HH IH]; intros HS; [split; [exact HS|intros ? ? []]|].
  destruct (sound_step J memo v w e w1 HJ HS H) as [S1 R1]. destruct (IH S1) as [S2 R2]. split; [exact S2|]. intros p u [HE|HI]; eauto.
Qed.
(** Any number of processes at once, killed anywhere, on a server that always sends the same body: whatever the interleaving,
    every value returned is that body, and the file holds a beginning of its text. *)
Theorem C65_concurrent_processes J memo v es w : json_text J v -> steps J memo (eq v) fresh es w ->
  (forall p u, In (Return p u) es -> u = v) /\ forall t, file w = Some t -> exists y, dumps J v = t ++ y.
Proof. intros HJ HS. destruct (sound_steps J memo v fresh es w HJ (sound_fresh J v) HS) as [(_ & _ & HF) HR]. split; [exact HR|exact HF]. Qed.
(** If no process was killed and no write failed, the file is complete when all are done. *)
Definition covered (J : json) (v : value) (w : world) : Prop := forall t, file w = Some t -> t = dumps J v \/ exists p u, proc w p = Opened u.
Theorem C65_complete_in_the_end J memo v es w : json_text J v -> steps J memo (eq v) fresh es w -> ~ In Trouble es -> quiet w ->
  forall t, file w = Some t -> t = dumps J v.
Proof.
  intros HJ HS HT HQ t HF.
  assert (HC : covered J v w).
  { assert (HG : forall w0, sound J v w0 -> covered J v w0 -> steps J memo (eq v) w0 es w -> covered J v w).
    { clear HS HQ HF. intros w0 S0 C0 HS. revert S0 C0 HT. induction HS as [w0|w0 e w1 es w2 H HH IH]; intros S0 C0 HT; [exact C0|].
      destruct (sound_step J memo v w0 e w1 HJ S0 H) as [S1 _]. apply (IH S1); [|intros HI; apply HT; now right].
      assert (HN : e <> Trouble) by (intros ->; apply HT; now left). clear IH HH HT.
      assert (HK : forall p x, (forall u, proc w0 p <> Opened u) -> covered J v (set_proc w0 p x)).
      { intros p x Hx t0 HF. destruct (C0 t0 HF) as [HE|(q & u & HE)]; [now left|right]. exists q, u. rewrite set_other; [exact HE|]. intros ->. now apply (Hx u). }
      destruct H as [w p u HE|w p f t0 u HE HT' HU|w p f t0 HE HT' HU|w p f HE HT'|w p u HE HU|w p HE|w p u HE|w p u HE|w p u HE|w p u HE|w p u x y HE HD|w p|w p u x y HE HD];
        try congruence; try (apply HK; intros u'; rewrite HE; discriminate); auto.
      - intros t0 _. right. exists p, u. apply set_same.
      - intros t0. cbn. intros [= <-]. left. destruct S0 as (SP & SO & SF). pose proof (SP p) as HU. rewrite HE in HU. cbn in HU. subst u.
        pose proof (SO p v HE) as HX. destruct (file w) as [t1|] eqn:K; [|congruence]. apply overwrite_full. now apply SF. }
    apply (HG fresh); [apply sound_fresh|discriminate|exact HS]. }
  destruct (HC t HF) as [HE|(p & u & HE)]; [exact HE|]. destruct (HQ p) as [[f HP]|[x HP]]; congruence.
Qed.
(** On a server whose answers differ (a page edited in between) this fails: two processes can leave a text that is neither. *)
Definition doc1 : value := VDict [(s "a", VInt 11111)].
Definition doc2 : value := VDict [(s "b", VInt 2)].
Definition two : json := Json
  (fun t => if str_eqb t (s "{""a"": 11111}") then Some doc1 else if str_eqb t (s "{""b"": 2}") then Some doc2 else None)
  (fun v => match v with VDict [(_, VInt 2)] => s "{""b"": 2}" | _ => s "{""a"": 11111}" end).
Lemma proper_prefix (d x y : str) : d = x ++ y -> y <> [] -> (List.length x < List.length d)%nat.
Proof. intros -> HN. rewrite app_length. destruct y; [congruence|cbn; lia]. Qed.
Lemma two_texts : json_text two doc1 /\ json_text two doc2.
Proof.
  split; (split; [vm_compute; reflexivity|]); intros x y HD HN; cbn [loads two].
  - destruct (str_eqb x (s "{""a"": 11111}")) eqn:K1; [apply proper_prefix in HD; [|exact HN]; exfalso; apply str_eqb_eq in K1; subst x; vm_compute in HD; lia|].
    destruct (str_eqb x (s "{""b"": 2}")) eqn:K2; [|reflexivity]. exfalso. apply str_eqb_eq in K2. subst x. vm_compute in HD. congruence.
  - destruct (str_eqb x (s "{""a"": 11111}")) eqn:K1; [apply proper_prefix in HD; [|exact HN]; exfalso; apply str_eqb_eq in K1; subst x; vm_compute in HD; lia|].
    destruct (str_eqb x (s "{""b"": 2}")) eqn:K2; [|reflexivity]. exfalso. apply str_eqb_eq in K2. subst x. apply proper_prefix in HD; [|exact HN]. vm_compute in HD. lia.
Qed.
Theorem C65_different_answers_refuted : exists J v1 v2 es w t, json_text J v1 /\ json_text J v2 /\
  steps J false (fun v => v = v1 \/ v = v2) fresh es w /\ ~ In Trouble es /\ quiet w /\ file w = Some t /\ loads J t = None.
Proof.
  exists two, doc1, doc2. do 3 eexists. split; [apply two_texts|]. split; [apply two_texts|]. split; [|split].
  - eapply steps_more; [apply (st_missing _ _ _ _ 0 None); reflexivity|]. eapply steps_more; [apply (st_missing _ _ _ _ 1 None); reflexivity|].
    eapply steps_more; [apply (st_request _ _ _ _ 0 doc1); [reflexivity|now left]|]. eapply steps_more; [apply (st_request _ _ _ _ 1 doc2); [reflexivity|now right]|].
    eapply steps_more; [apply (st_open _ _ _ _ 0 doc1); reflexivity|]. eapply steps_more; [apply (st_open _ _ _ _ 1 doc2); reflexivity|].
    eapply steps_more; [apply (st_write _ _ _ _ 0 doc1); reflexivity|]. eapply steps_more; [apply (st_write _ _ _ _ 1 doc2); reflexivity|]. apply steps_none.
  - cbn [In]. intuition discriminate.
  - split; [|split; [vm_compute; reflexivity|vm_compute; reflexivity]].
    intros p. cbn. destruct (Nat.eqb p 1) eqn:K1; cbn; rewrite ?K1; [right; eauto|]. destruct (Nat.eqb p 0) eqn:K0; cbn; rewrite ?K0, ?K1, ?K0; [right; eauto|left; eauto].
Qed.
(** Two processes at once, one body: both return it and the file is complete. *)
Example C65_example : exists es w, steps two true (eq doc1) fresh es w /\ ~ In Trouble es /\ quiet w /\ In (Request 0) es /\ In (Request 1) es /\ In (Return 1 doc1) es /\
  file w = Some (dumps two doc1).
Proof.
  do 2 eexists. split; [|split].
  - eapply steps_more; [apply (st_missing _ _ _ _ 0 None); reflexivity|]. eapply steps_more; [apply (st_missing _ _ _ _ 1 None); reflexivity|].
    eapply steps_more; [apply (st_request _ _ _ _ 0 doc1); reflexivity|]. eapply steps_more; [apply (st_request _ _ _ _ 1 doc1); reflexivity|].
    eapply steps_more; [apply (st_open _ _ _ _ 0 doc1); reflexivity|]. eapply steps_more; [apply (st_write _ _ _ _ 0 doc1); reflexivity|].
    eapply steps_more; [apply (st_open _ _ _ _ 1 doc1); reflexivity|]. eapply steps_more; [apply (st_write _ _ _ _ 1 doc1); reflexivity|]. apply steps_none.
  - cbn [In]. intuition discriminate.
  - split; [|cbn [In]; repeat split; auto 10].
    intros p. cbn. destruct (Nat.eqb p 1) eqn:K1; cbn; rewrite ?K1; [right; eauto|]. destruct (Nat.eqb p 0) eqn:K0; cbn; rewrite ?K0, ?K1, ?K0; [right; eauto|left; eauto].
Qed.
