(** The inline reader on emphasis around a piece. *)
From Coq Require Import List Arith NArith Bool String Lia.
From Verif Require Import PyStr Basics StrFacts SpecReader SpecInline SpecLook InlineFacts1 InlineFacts2.
Import ListNotations.
Open Scope string_scope.
Open Scope list_scope.
Open Scope nat_scope.

(** ---------------------------------------------------------------- runs of delimiters, the outermost first *)
Definition runs := list (N * nat).
Definition open_str (R : runs) : str := List.concat (map (fun r => repeat (fst r) (snd r)) R).
Definition close_str (R : runs) : str := open_str (rev R).
Definition good_run (r : N * nat) : Prop := fst r = 42%N /\ 1 <= snd r <= 3 \/ fst r = 126%N /\ snd r = 2.
Definition wrap_run (r : N * nat) (X : list inl) : list inl :=
  if N.eqb (fst r) 126 then [IEmph Strike X]
  else match snd r with 1 => [IEmph Em X] | 2 => [IEmph Strong X] | _ => [IEmph Em [IEmph Strong X]] end.
Fixpoint wrap (R : runs) (X : list inl) : list inl := match R with [] => X | r :: R' => wrap_run r (wrap R' X) end.
Definition star (n : nat) : N * nat := (42%N, n).
Definition tilde : N * nat := (126%N, 2).
Definition shells : list runs :=
  [[star 1]; [star 2]; [star 3]; [tilde]; [tilde; star 1]; [tilde; star 2]; [tilde; star 3]; [star 1; tilde]; [star 2; tilde]; [star 3; tilde];
   [star 1; tilde; star 2]; [star 2; tilde; star 1]].
Definition op_tok (r : N * nat) (t : tok) : Prop := exists b, t = TRun (fst r) (snd r) true b.
Definition cl_tok (r : N * nat) (t : tok) : Prop := exists b, t = TRun (fst r) (snd r) b true.

Lemma emph_shell R O C T X : In R shells -> Forall2 op_tok R O -> Forall2 cl_tok (rev R) C ->
  (forall os b, fold_left emph_step T (os, b) = put (rev X) (os, b)) ->
  forall b, fold_left emph_step (O ++ T ++ C) ([], b) = ([], rev (wrap R X) ++ b).
Proof.
  intros HR HO HC HT b. rewrite !fold_left_app.
  assert (HF : forall c n l bo os b, fold_left emph_step T (Opener c n l bo [] :: os, b) = (Opener c n l bo (rev X) :: os, b)).
  { intros c n l bo os b'. rewrite HT. cbn [put o_char o_len o_left o_both o_in]. now rewrite app_nil_r. }
  clear HT. set (F := fold_left emph_step T) in *. clearbody F. rewrite <- (rev_involutive X) in *. generalize dependent (rev X). clear X. intros Y HF.
  rewrite rev_involutive in HF.
  unfold shells in HR. cbn [In] in HR.
  repeat (destruct HR as [<-|HR]; [
    repeat match goal with H : Forall2 op_tok (_ :: _) _ |- _ => inversion H; clear H; subst | H : Forall2 op_tok [] _ |- _ => inversion H; clear H; subst end;
    cbn [rev app] in HC;
    repeat match goal with H : Forall2 cl_tok (_ :: _) _ |- _ => inversion H; clear H; subst | H : Forall2 cl_tok [] _ |- _ => inversion H; clear H; subst end;
    repeat match goal with H : op_tok _ _ |- _ => destruct H as [? ->] | H : cl_tok _ _ |- _ => destruct H as [? ->] end;
    repeat match goal with x : bool |- _ => destruct x end;
    match goal with |- context [F ?st] => let st' := eval vm_compute in st in change (F st) with (F st') end;
    rewrite HF; vm_compute; reflexivity|]).
  contradiction.
Qed.

Section Facts.
Variable up : N -> bool.
Fixpoint opens (p : N) (R : runs) (f : N) : Prop :=
  match R with
  | [] => True
  | (c, n) :: R' => let nx := match R' with (d, _) :: _ => d | [] => f end in left_flanking up p nx = true /\ nx <> c /\ opens c R' f
  end.
Fixpoint shuts (p : N) (R : runs) (f : N) : Prop :=
  match R with
  | [] => True
  | (c, n) :: R' => let nx := match R' with (d, _) :: _ => d | [] => f end in right_flanking up p nx = true /\ nx <> c /\ shuts c R' f
  end.
Lemma good_delimiter r : good_run r -> delimiter (fst r) = true /\ exists n, snd r = S n.
Proof.
  unfold good_run. intros [[-> H]|[-> H]]; (split; [reflexivity|]); [destruct (snd r) as [|n]; [lia|now exists n]|rewrite H; now exists 1].
Qed.
Lemma next_run R rest : Forall good_run R -> hd NL (open_str R ++ rest) = match R with (d, _) :: _ => d | [] => hd NL rest end.
Proof.
  destruct 1 as [|[d k] R' H _]; [reflexivity|]. destruct (good_delimiter _ H) as [_ [n Hn]]. cbn in Hn. subst k. reflexivity.
Qed.
Lemma hd_hd_error {A} (l : list A) a c : hd a l <> c -> hd_error l <> Some c.
Proof. destruct l as [|x l]; [discriminate|]. cbn. congruence. Qed.
Lemma last_repeat (c : N) n p : last (repeat c (S n)) p = c.
Proof. revert p; induction n as [|n IH]; intros p; [reflexivity|]. change (repeat c (S (S n))) with (c :: repeat c (S n)). rewrite last_cons. apply IH. Qed.
Lemma adds_run (nb : bool) c n rest p : good_run (c, S n) -> hd NL rest <> c -> adds up nb p (repeat c (S n)) rest [norm (run_token up c (S n) p (hd NL rest))].
Proof.
  intros HG HN st _. exists (run_token up c (S n) p (hd NL rest) :: st).
  split.
  - rewrite scan_run; [|exact (proj1 (good_delimiter _ HG))|exact (hd_hd_error _ _ _ HN)]. now rewrite last_repeat.
  - split; [unfold no_bang, run_token; destruct (is_ch "_" c), (is_ch "~" c); discriminate|].
    destruct nb; [|reflexivity]. exists [run_token up c (S n) p (hd NL rest)]. split; [reflexivity|]. split; [|reflexivity].
    constructor; [|constructor]. unfold run_token. destruct (is_ch "_" c), (is_ch "~" c); exact I.
Qed.
Lemma run_open c n p f : good_run (c, n) -> left_flanking up p f = true -> op_tok (c, n) (norm (run_token up c n p f)).
Proof.
  intros [[HC HN]|[HC HN]] HL; cbn in HC, HN; subst; unfold run_token, op_tok; cbn [fst snd].
  - change (is_ch "_" 42) with false. change (is_ch "~" 42) with false. cbn iota. rewrite HL. eexists.
    destruct n as [|[|n]]; [lia|reflexivity|reflexivity].
  - change (is_ch "_" 126) with false. change (is_ch "~" 126) with true. cbn iota. rewrite HL. eexists. reflexivity.
Qed.
Lemma run_close c n p f : good_run (c, n) -> right_flanking up p f = true -> cl_tok (c, n) (norm (run_token up c n p f)).
Proof.
  intros [[HC HN]|[HC HN]] HL; cbn in HC, HN; subst; unfold run_token, cl_tok; cbn [fst snd].
  - change (is_ch "_" 42) with false. change (is_ch "~" 42) with false. cbn iota. rewrite HL. exists (left_flanking up p f).
    destruct n as [|[|n]]; [lia| |reflexivity]. destruct (left_flanking up p f); reflexivity.
  - change (is_ch "_" 126) with false. change (is_ch "~" 126) with true. cbn iota. rewrite HL. eexists. reflexivity.
Qed.
Lemma adds_open (nb : bool) R rest : forall p, Forall good_run R -> opens p R (hd NL rest) -> exists O, adds up nb p (open_str R) rest O /\ Forall2 op_tok R O.
Proof.
  induction R as [|[c k] R IH]; intros p HG HO.
  - exists []. split; [apply adds_nil|constructor].
  - apply Forall_cons_iff in HG as [G1 G2]. cbn [opens] in HO. destruct HO as (H1 & H2 & H3).
    destruct (good_delimiter _ G1) as [_ [n Hn]]. cbn in Hn. subst k.
    destruct (IH c G2 H3) as (O & HA & HF).
    exists (norm (run_token up c (S n) p (hd NL (open_str R ++ rest))) :: O). split.
    + change (open_str ((c, S n) :: R)) with (repeat c (S n) ++ open_str R).
      change (norm (run_token up c (S n) p (hd NL (open_str R ++ rest))) :: O) with ([norm (run_token up c (S n) p (hd NL (open_str R ++ rest)))] ++ O).
      apply adds_app; [|now rewrite last_repeat]. apply adds_run; [exact G1|]. now rewrite next_run.
    + constructor; [|exact HF]. apply run_open; [exact G1|]. now rewrite next_run.
Qed.
Lemma adds_close (nb : bool) R rest : forall p, Forall good_run R -> shuts p R (hd NL rest) -> exists O, adds up nb p (open_str R) rest O /\ Forall2 cl_tok R O.
Proof.
  induction R as [|[c k] R IH]; intros p HG HO.
  - exists []. split; [apply adds_nil|constructor].
  - apply Forall_cons_iff in HG as [G1 G2]. cbn [shuts] in HO. destruct HO as (H1 & H2 & H3).
    destruct (good_delimiter _ G1) as [_ [n Hn]]. cbn in Hn. subst k.
    destruct (IH c G2 H3) as (O & HA & HF).
    exists (norm (run_token up c (S n) p (hd NL (open_str R ++ rest))) :: O). split.
    + change (open_str ((c, S n) :: R)) with (repeat c (S n) ++ open_str R).
      change (norm (run_token up c (S n) p (hd NL (open_str R ++ rest))) :: O) with ([norm (run_token up c (S n) p (hd NL (open_str R ++ rest)))] ++ O).
      apply adds_app; [|now rewrite last_repeat]. apply adds_run; [exact G1|]. now rewrite next_run.
    + constructor; [|exact HF]. apply run_close; [exact G1|]. now rewrite next_run.
Qed.

(** ---------------------------------------------------------------- pieces and what they are read as *)
Definition reads (nb : bool) (p : N) (w rest : str) (X : list inl) : Prop :=
  exists T, adds up nb p w rest T /\ forall b, fold_left emph_step T ([], b) = ([], rev X ++ b).
(** The same inside emphasis. *)
Definition core (nb : bool) (p : N) (w rest : str) (X : list inl) : Prop :=
  exists T, adds up nb p w rest T /\ forall os b, fold_left emph_step T (os, b) = put (rev X) (os, b).
Lemma core_reads nb p w rest X : core nb p w rest X -> reads nb p w rest X.
Proof. intros (T & HA & HT). exists T. split; [exact HA|]. intros b. exact (HT [] b). Qed.
Lemma reads_weak nb p w rest X : reads nb p w rest X -> reads false p w rest X.
Proof. intros (T & HA & HT). exists T. split; [exact (adds_weak up nb p w rest T HA)|exact HT]. Qed.
Lemma reads_nil nb p rest : reads nb p [] rest [].
Proof. exists []. split; [apply adds_nil|reflexivity]. Qed.
Lemma reads_app nb p w1 w2 rest X1 X2 : reads nb p w1 (w2 ++ rest) X1 -> reads nb (last w1 p) w2 rest X2 -> reads nb p (w1 ++ w2) rest (X1 ++ X2).
Proof.
  intros (T1 & A1 & H1) (T2 & A2 & H2). exists (T1 ++ T2). split; [now apply adds_app|].
  intros b. rewrite fold_left_app, H1, H2, rev_app_distr. now rewrite app_assoc.
Qed.
Lemma core_items (nb : bool) p w rest X : adds up nb p w rest (map TIn X) -> core nb p w rest X.
Proof.
  intros HA. exists (map TIn X). split; [exact HA|]. clear HA. induction X as [|x X IH]; intros os b.
  - destruct os as [|[c1 c2 c3 c4 c5] os]; reflexivity.
  - cbn [map fold_left emph_step]. destruct os as [|o os]; cbn [put]; rewrite IH; cbn [put o_in o_char o_len o_left o_both rev]; now rewrite <- app_assoc.
Qed.
Lemma core_text (nb : bool) p t rest : ordinary up p t rest = true -> (nb = true -> no_brackets t = true) -> core nb p t rest (map IChar t).
Proof. intros H HB. apply core_items. now apply adds_text. Qed.
Lemma core_code (nb : bool) p t rest : plain_code t = true -> hd_error rest <> Some 96%N -> core nb p (s "`` " ++ t ++ s " ``") rest [ICode t].
Proof.
  intros H HR. apply core_items. destruct nb; [|apply adds_weaken]; apply adds_code; assumption.
Qed.
Lemma reads_shell nb p R w rest X : In R shells -> Forall good_run R -> w <> [] ->
  core nb (last (open_str R) p) w (close_str R ++ rest) X -> opens p R (hd NL w) -> shuts (last w NL) (rev R) (hd NL rest) ->
  reads nb p (open_str R ++ w ++ close_str R) rest (wrap R X).
Proof.
  intros HR HG HW (T & HA & HT) HO HC.
  destruct (adds_open nb R (w ++ close_str R ++ rest) p HG) as (O & A1 & F1).
  { destruct w; [contradiction|exact HO]. }
  destruct (adds_close nb (rev R) rest (last w (last (open_str R) p)) (Forall_rev HG)) as (C & A2 & F2).
  { destruct w as [|c w]; [contradiction|]. rewrite !last_cons in *. exact HC. }
  exists (O ++ T ++ C). split; [|now apply emph_shell].
  apply adds_app; [now rewrite <- app_assoc|]. apply adds_app; [exact HA|exact A2].
Qed.
Lemma core_link p w h rest X : plain_href h = true -> reads true 91 w (s "](" ++ h ++ s ")" ++ rest) X ->
  core false p (s "[" ++ w ++ s "](" ++ h ++ s ")") rest [ILink h X].
Proof.
  intros HH (T & HA & HT). apply core_items. replace X with (emphasis T).
  2:{ unfold emphasis, finish. rewrite HT. cbn. now rewrite app_nil_r, rev_involutive. }
  exact (adds_link up p w h rest T HH HA).
Qed.
Lemma reads_break p rest : leading SP rest = 0 -> reads false p (s "  " ++ nl) rest [IBreak].
Proof.
  intros H. apply core_reads, core_items. intros st _. exists (TIn IBreak :: st). split; [|split; [discriminate|reflexivity]].
  change ((s "  " ++ nl) ++ rest) with (SP :: SP :: NL :: rest). cbn [scan].
  change (is_ch "\" SP) with false. change (is_ch "`" SP) with false. change (delimiter SP) with false. change (is_ch "!" SP) with false.
  change (is_ch "[" SP) with false. change (is_ch "]" SP) with false. change (is_ch "<" SP) with false. change (is_ch "&" SP) with false.
  change (N.eqb SP SP) with true. cbn [andb orb]. cbn iota zeta.
  change (leading SP (SP :: SP :: NL :: rest)) with 2. cbn [skipn]. change (N.eqb NL NL) with true. cbn iota. rewrite H. reflexivity.
Qed.
Lemma reads_all w X : reads false NL w [] X -> read_inline up w = X.
Proof.
  intros (T & HA & HT). destruct (HA [] ltac:(discriminate)) as (st' & HS & _ & HN). rewrite app_nil_r in HS. unfold read_inline. rewrite HS.
  cbn [scan]. assert (HE : emphasis (rev st') = emphasis T).
  { unfold emphasis. rewrite <- fold_norm. rewrite map_rev, HN. cbn [map]. rewrite app_nil_r, rev_involutive. reflexivity. }
  rewrite HE. unfold emphasis, finish. rewrite HT. cbn. now rewrite app_nil_r, rev_involutive.
Qed.
End Facts.
