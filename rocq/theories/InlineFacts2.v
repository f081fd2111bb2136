(** The inline reader on text, code and links. *)
From Coq Require Import List Arith NArith Bool String Lia.
From Verif Require Import PyStr Basics StrFacts SpecReader SpecInline SpecLook InlineFacts1.
Import ListNotations.
Open Scope string_scope.
Open Scope list_scope.
Open Scope nat_scope.

Lemma no_br r : angle r = false -> begins (s "br>") r = false.
Proof.
  destruct r as [|c r]; [reflexivity|]. intros H. change (s "br>") with [98; 114; 62]%N. cbn [begins].
  destruct (N.eqb_spec 98 c) as [<-|]; [discriminate H|reflexivity].
Qed.
Lemma no_nbsp r : reference r = false -> begins (s "nbsp;") r = false.
Proof.
  change (s "nbsp;") with [110; 98; 115; 112; 59]%N. intros H. destruct (begins _ r) eqn:E; [|reflexivity]. exfalso. revert H.
  do 5 (destruct r as [|? r]; [discriminate E|]; cbn [begins] in E; apply andb_prop in E as [E' E]; apply N.eqb_eq in E'; subst). discriminate.
Qed.

Section Facts.
Variable up : N -> bool.
Notation scan := (scan up).
Lemma word_class c : word up c = true -> uni_ws c = false /\ punct up c = false.
Proof. unfold word. destruct (uni_ws c), (punct up c); cbn; intuition discriminate. Qed.
Lemma isch x c d : s x = [d] -> is_ch x c = N.eqb c d.
Proof. intros H. unfold is_ch. now rewrite H. Qed.

(** One literal character. *)
Lemma scan_literal p c r st : literal up p c r = true ->
  exists st', scan 0 p (c :: r) st = scan 0 c r st' /\ map norm st' = TIn (IChar c) :: map norm st /\
              (is_ch "[" c || is_ch "]" c = false -> exists t, st' = t :: st /\ no_bracket t) /\ no_bang st'.
Proof.
  unfold literal. intros H. cbn [SpecInline.scan].
  destruct (is_ch "\" c) eqn:E1.
  { destruct r as [|d r']; [cbn in H; discriminate|]. cbn [hd] in H. apply andb_prop in H as [H1 H2].
    apply negb_true_iff in H1, H2. rewrite H1, H2. eexists. split; [reflexivity|]. split; [reflexivity|]. split; [intros _; eexists; split; reflexivity|discriminate]. }
  destruct (is_ch "`" c) eqn:E2; [discriminate|].
  destruct (delimiter c) eqn:E3.
  { cbv zeta.
    assert (HN : hd_error r <> Some c).
    { destruct r as [|d r']; [discriminate|]. cbn [hd hd_error] in *. intros X. injection X as ->.
      destruct (delimiter_is c E3) as [->|[->| ->]]; cbn in H; rewrite ?andb_false_r in H; cbn in H; discriminate. }
    assert (HL : leading c (c :: r) = 1) by (exact (leading_repeat c 1 r HN)).
    rewrite HL. cbn [skipn Nat.sub].
    assert (HT : norm (run_token up c 1 p (hd NL r)) = TIn (IChar c) /\ no_bracket (run_token up c 1 p (hd NL r))).
    { unfold run_token, left_flanking, right_flanking.
      destruct (delimiter_is c E3) as [->|[->| ->]].
      - change (is_ch "*" 42 || is_ch "~" 42) with true in H. cbn iota in H. apply andb_prop in H as [H1 H2].
        change (is_ch "_" 42) with false. change (is_ch "~" 42) with false. cbn iota. rewrite H1, H2. split; reflexivity.
      - change (is_ch "*" 95 || is_ch "~" 95) with false in H. change (is_ch "_" 95) with true in *. cbn iota in *.
        apply orb_prop in H as [H|H]; apply andb_prop in H as [H1 H2].
        + rewrite H1, H2. split; reflexivity.
        + apply word_class in H1 as [W1 P1]. apply word_class in H2 as [W2 P2]. rewrite W1, P1, W2, P2. split; reflexivity.
      - change (is_ch "*" 126 || is_ch "~" 126) with true in H. cbn iota in H. apply andb_prop in H as [H1 H2].
        change (is_ch "_" 126) with false. change (is_ch "~" 126) with true. cbn iota. rewrite H1, H2. split; reflexivity. }
    destruct HT as [HT HB]. eexists. split; [reflexivity|]. split; [cbn [map]; now rewrite HT|].
    split; [intros _; eexists; split; [reflexivity|exact HB]|]. intros X. injection X as X. rewrite X in HB. exact HB. }
  assert (E3' : (is_ch "*" c || is_ch "~" c = false) /\ is_ch "_" c = false).
  { unfold delimiter in E3. destruct (is_ch "*" c), (is_ch "_" c), (is_ch "~" c); cbn in *; split; congruence. }
  destruct E3' as [E4 E5]. rewrite E4, E5 in H. clear E3 E4 E5.
  destruct (is_ch "!" c) eqn:E6.
  { assert (X : (match r with [] => false | d :: _ => is_ch "[" d end) = false).
    { destruct r as [|d r']; [reflexivity|]. cbn [hd] in H. now apply negb_true_iff in H. }
    rewrite X. cbn [andb].
    rewrite (isch "!" c 33 eq_refl) in E6. apply N.eqb_eq in E6. subst c.
    change (is_ch "[" 33) with false. change (is_ch "]" 33) with false. change (is_ch "<" 33) with false. change (is_ch "&" 33) with false.
    change (N.eqb 33 SP) with false. change (N.eqb 33 NL) with false. cbn [andb orb].
    eexists. split; [reflexivity|]. split; [reflexivity|]. split; [intros _; eexists; split; reflexivity|discriminate]. }
  cbn [andb].
  destruct (is_ch "[" c) eqn:E7.
  { eexists. split; [reflexivity|]. rewrite (isch "[" c 91 eq_refl) in E7. apply N.eqb_eq in E7. subst c. split; [reflexivity|]. split; [intros X; discriminate|discriminate]. }
  destruct (is_ch "]" c) eqn:E8.
  { destruct (bracket st) as [[[inner live] before]|] eqn:B.
    - apply bracket_split in B. subst st.
      exists (TIn (IChar c) :: inner ++ TIn (IChar 91) :: before).
      split; [|split; [cbn [map norm]; f_equal; rewrite !map_app; reflexivity|split; [intros X; cbn in X; discriminate|discriminate]]].
      destruct r as [|d q]; [reflexivity|]. cbn [hd] in H. apply negb_true_iff in H. rewrite H. now rewrite andb_false_r.
    - eexists. split; [reflexivity|]. split; [reflexivity|]. split; [intros X; cbn in X; discriminate|discriminate]. }
  destruct (is_ch "<" c) eqn:E9.
  { apply negb_true_iff in H. rewrite H, (no_br r H). cbn [andb orb].
    rewrite (isch "<" c 60 eq_refl) in E9. apply N.eqb_eq in E9. subst c.
    change (is_ch "&" 60) with false. change (N.eqb 60 SP) with false. change (N.eqb 60 NL) with false. cbn [andb orb].
    eexists. split; [reflexivity|]. split; [reflexivity|]. split; [intros _; eexists; split; reflexivity|discriminate]. }
  cbn [andb orb].
  destruct (is_ch "&" c) eqn:E10.
  { apply negb_true_iff in H. rewrite H, (no_nbsp r H). cbn [andb orb].
    rewrite (isch "&" c 38 eq_refl) in E10. apply N.eqb_eq in E10. subst c.
    change (N.eqb 38 SP) with false. change (N.eqb 38 NL) with false. cbn [andb orb].
    eexists. split; [reflexivity|]. split; [reflexivity|]. split; [intros _; eexists; split; reflexivity|discriminate]. }
  cbn [andb].
  destruct (N.eqb c SP) eqn:E11.
  { apply N.eqb_eq in E11. subst c. cbv zeta. change (leading SP (SP :: r)) with (S (leading SP r)). cbn [skipn].
    destruct (skipn (leading SP r) r) as [|d q]; [discriminate|]. apply negb_true_iff in H. rewrite H.
    eexists. split; [reflexivity|]. split; [reflexivity|]. split; [intros _; eexists; split; reflexivity|discriminate]. }
  apply negb_true_iff in H. rewrite H.
  eexists. split; [reflexivity|]. split; [reflexivity|]. split; [intros _; eexists; split; reflexivity|discriminate].
Qed.

(** ---------------------------------------------------------------- pieces *)
(** After the piece w the tokens are those before and T (reversed).  With nb, no brackets were opened or closed. *)
Definition adds (nb : bool) (p : N) (w rest : str) (T : list tok) : Prop :=
  forall st, no_bang st -> exists st', scan 0 p (w ++ rest) st = scan 0 (last w p) rest st' /\ no_bang st' /\
    if nb then exists l, st' = l ++ st /\ Forall no_bracket l /\ map norm l = rev T else map norm st' = rev T ++ map norm st.
Lemma adds_weaken p w rest T : adds true p w rest T -> adds false p w rest T.
Proof.
  intros H st HB. destruct (H st HB) as (st' & HS & HB' & l & -> & _ & HL). exists (l ++ st). split; [exact HS|]. split; [exact HB'|]. rewrite map_app. now rewrite HL.
Qed.
Lemma adds_weak nb p w rest T : adds nb p w rest T -> adds false p w rest T.
Proof. destruct nb; [apply adds_weaken|exact (fun H => H)]. Qed.
Lemma adds_nil nb p rest : adds nb p [] rest [].
Proof. intros st HB. exists st. split; [reflexivity|]. split; [exact HB|]. destruct nb; [exists []; repeat split; constructor|reflexivity]. Qed.
Lemma adds_app nb p w1 w2 rest T1 T2 : adds nb p w1 (w2 ++ rest) T1 -> adds nb (last w1 p) w2 rest T2 -> adds nb p (w1 ++ w2) rest (T1 ++ T2).
Proof.
  intros H1 H2 st HB. destruct (H1 st HB) as (st1 & S1 & B1 & R1). destruct (H2 st1 B1) as (st2 & S2 & B2 & R2).
  exists st2. rewrite <- app_assoc. rewrite last_app. split; [now rewrite S1|]. split; [exact B2|].
  destruct nb.
  - destruct R1 as (l1 & -> & N1 & M1), R2 as (l2 & -> & N2 & M2). exists (l2 ++ l1). split; [apply app_assoc|]. split; [now apply Forall_app|].
    rewrite map_app, rev_app_distr. now rewrite M1, M2.
  - rewrite R2, R1. rewrite rev_app_distr. now rewrite app_assoc.
Qed.
Lemma adds_text nb t rest : forall p, ordinary up p t rest = true -> (nb = true -> no_brackets t = true) -> adds nb p t rest (map TIn (map IChar t)).
Proof.
  induction t as [|c t IH]; intros p H HB; [apply adds_nil|].
  cbn [ordinary] in H. apply andb_prop in H as [H1 H2].
  change (c :: t) with ([c] ++ t). rewrite !map_app. apply adds_app.
  - intros st _. destruct (scan_literal p c (t ++ rest) st H1) as (st' & HS & HN & HT & HG). exists st'. split; [exact HS|]. split; [exact HG|].
    destruct nb; [|exact HN].
    assert (X : is_ch "[" c || is_ch "]" c = false).
    { specialize (HB eq_refl). cbn [no_brackets forallb] in HB. apply andb_prop in HB as [HB _]. now apply negb_true_iff in HB. }
    destruct (HT X) as (t' & -> & Hb). exists [t']. split; [reflexivity|]. split; [constructor; [exact Hb|constructor]|].
    cbn [map] in HN. injection HN as HN. cbn. now rewrite HN.
  - apply IH; [exact H2|]. intros X. specialize (HB X). cbn [no_brackets forallb] in HB. now apply andb_prop in HB as [_ HB].
Qed.

(** ---------------------------------------------------------------- code *)
Lemma closing_text t r : forall run, closing 2 run (t ++ [SP]) = None -> closing 2 run (t ++ SP :: r) = option_map (app (t ++ [SP])) (closing 2 0 r).
Proof.
  induction t as [|c t IH]; intros run H.
  - cbn [app closing] in *. change (is_ch "`" SP) with false in *. cbn iota in *.
    destruct (Nat.eqb run 2); [discriminate|]. destruct (closing 2 0 r); reflexivity.
  - cbn [app closing] in *. destruct (is_ch "`" c).
    + destruct (closing 2 (S run) (t ++ [SP])) eqn:X; [discriminate|]. rewrite (IH _ X). destruct (closing 2 0 r); reflexivity.
    + destruct (Nat.eqb run 2); [discriminate|].
      destruct (closing 2 0 (t ++ [SP])) eqn:X; [discriminate|]. rewrite (IH _ X). destruct (closing 2 0 r); reflexivity.
Qed.
Lemma closing_end r : hd_error r <> Some 96%N -> closing 2 0 (s "``" ++ r) = Some (s "``").
Proof.
  intros H. change (s "``") with [96%N; 96%N]. cbn [app closing]. change (is_ch "`" 96) with true. cbn iota.
  destruct r as [|d r]; [reflexivity|]. cbn [closing].
  assert (X : is_ch "`" d = false).
  { rewrite (isch "`" d 96 eq_refl). apply N.eqb_neq. intros ->. now contradiction H. }
  rewrite X. reflexivity.
Qed.
Lemma code_text_inner t : forallb (N.eqb SP) t = false -> existsb (N.eqb NL) t = false -> code_text (SP :: t ++ [SP]) = t.
Proof.
  intros H HN. unfold code_text.
  assert (HM : map (fun c => if N.eqb c NL then SP else c) (SP :: t ++ [SP]) = SP :: t ++ [SP]).
  { cbn [map]. change (N.eqb SP NL) with false. cbn iota. f_equal. rewrite map_app. cbn [map]. change (N.eqb SP NL) with false. cbn iota. f_equal.
    induction t as [|c t IH]; [reflexivity|]. cbn [existsb map] in *. apply orb_false_elim in HN as [N1 N2].
    rewrite N.eqb_sym in N1. rewrite N1. f_equal.
    clear - N2. induction t as [|c t IH]; [reflexivity|]. cbn [existsb map] in *. apply orb_false_elim in N2 as [N1 N2]. rewrite N.eqb_sym in N1. rewrite N1. f_equal. now apply IH. }
  rewrite HM. cbv zeta. change (rev (SP :: t ++ [SP])) with (rev (t ++ [SP]) ++ [SP]). rewrite rev_app_distr. cbn [rev app].
  change (N.eqb SP SP) with true. cbn [andb forallb]. change (N.eqb SP SP) with true. cbn [andb].
  rewrite forallb_app, H. cbn [andb negb tl]. apply removelast_last.
Qed.
Lemma adds_code p t rest : plain_code t = true -> hd_error rest <> Some 96%N ->
  adds true p (s "`` " ++ t ++ s " ``") rest [TIn (ICode t)].
Proof.
  intros H HR st _. unfold plain_code in H. apply andb_prop in H as [H H3]. apply andb_prop in H as [H1 H2]. apply negb_true_iff in H2, H3.
  assert (HC : closing 2 0 (SP :: t ++ s " ``" ++ rest) = Some (SP :: t ++ SP :: s "``")).
  { change (s " ``") with (SP :: s "``"). cbn [closing]. change (is_ch "`" SP) with false. cbn iota. change (Nat.eqb 0 2) with false. cbn iota.
    change (t ++ (SP :: s "``") ++ rest) with (t ++ SP :: (s "``" ++ rest)).
    rewrite closing_text; [|destruct (closing 2 0 (t ++ [SP])); [discriminate|reflexivity]]. rewrite closing_end; [|exact HR].
    cbn [option_map]. now rewrite <- app_assoc. }
  exists (TIn (ICode t) :: st). split.
  2:{ split; [discriminate|]. exists [TIn (ICode t)]. split; [reflexivity|]. split; [repeat constructor|reflexivity]. }
  assert (HW : s "`` " ++ t ++ s " ``" = 96%N :: (96%N :: SP :: t ++ s " ``")) by reflexivity.
  rewrite HW. rewrite last_cons.
  transitivity (scan (List.length (96%N :: SP :: t ++ s " ``")) 96 ((96%N :: SP :: t ++ s " ``") ++ rest) (TIn (ICode t) :: st)).
  2:{ now rewrite scan_skip. }
  set (l := (96%N :: SP :: t ++ s " ``") ++ rest). change ((96%N :: 96%N :: SP :: t ++ s " ``") ++ rest) with (96%N :: l).
  cbn [SpecInline.scan]. change (is_ch "\" 96) with false. change (is_ch "`" 96) with true. cbn iota zeta.
  assert (HL : leading 96 (96%N :: l) = 2) by reflexivity. rewrite HL.
  assert (HK : skipn 2 (96%N :: l) = SP :: t ++ s " ``" ++ rest).
  { subst l. cbn [app skipn]. now rewrite <- app_assoc. }
  rewrite HK, HC.
  assert (HF : firstn (List.length (SP :: t ++ SP :: s "``") - 2) (SP :: t ++ SP :: s "``") = SP :: t ++ [SP]).
  { replace (SP :: t ++ SP :: s "``") with ((SP :: t ++ [SP]) ++ s "``") by (cbn [app]; now rewrite <- app_assoc).
    rewrite app_length. change (List.length (s "``")) with 2. rewrite Nat.add_sub. apply firstn_exact. }
  rewrite HF. rewrite code_text_inner by assumption.
  f_equal. cbn [List.length]. rewrite !app_length. change (List.length (s " ``")) with 3. cbn. lia.
Qed.

(** ---------------------------------------------------------------- links *)
Lemma reference_stop a b : reference (a ++ 41%N :: b) = reference (a ++ [41%N]).
Proof. induction a as [|c a IH]; [reflexivity|]. cbn [app reference]. now rewrite IH. Qed.
Lemma destination_stop h rest : forall d, destination d (h ++ s ")") = Some h -> destination d (h ++ 41%N :: rest) = Some h.
Proof.
  change (s ")") with [41%N]. induction h as [|c h IH]; intros d H.
  - cbn [app destination] in *. change (is_ch ")" 41) with true in *. cbn iota in *. destruct d; [reflexivity|]. discriminate.
  - cbn [app destination] in *. destruct (is_ch ")" c).
    + destruct d; [discriminate|]. destruct (destination d (h ++ [41%N])) eqn:X; [|discriminate]. cbn in H. injection H as ->. rewrite (IH _ X). reflexivity.
    + destruct (is_ch "(" c).
      * destruct (destination (S d) (h ++ [41%N])) eqn:X; [|discriminate]. cbn in H. injection H as ->. rewrite (IH _ X). reflexivity.
      * rewrite reference_stop.
        match type of H with (if ?b then _ else _) = _ => destruct b; [discriminate|] end.
        destruct (destination d (h ++ [41%N])) eqn:X; [|discriminate]. cbn in H. injection H as ->. rewrite (IH _ X). reflexivity.
Qed.
Lemma scan_link p l st q h : no_bang st -> Forall no_bracket l -> destination 0 q = Some h ->
  scan 0 p (93%N :: 40%N :: q) (l ++ TBracket true :: st) = scan (2 + List.length h) 93 (40%N :: q) (TIn (ILink h (emphasis (rev l))) :: map deaden st).
Proof.
  intros HG HN HD. cbn [SpecInline.scan]. change (is_ch "\" 93) with false. change (is_ch "`" 93) with false. change (delimiter 93) with false.
  change (is_ch "!" 93) with false. change (is_ch "[" 93) with false. change (is_ch "]" 93) with true. cbn [andb]. cbn iota.
  rewrite bracket_join by exact HN. change (is_ch "(" 40) with true. cbn [andb]. cbn iota. rewrite HD.
  destruct st as [|[]]; try reflexivity. now contradiction HG.
Qed.
Lemma adds_link p w h rest T : plain_href h = true -> adds true 91 w (s "](" ++ h ++ s ")" ++ rest) T ->
  adds false p (s "[" ++ w ++ s "](" ++ h ++ s ")") rest [TIn (ILink h (emphasis T))].
Proof.
  intros HH HW st HG. destruct (HW (TBracket true :: st)) as (st' & HS & _ & l & -> & HN & HM); [discriminate|].
  exists (TIn (ILink h (emphasis T)) :: map deaden st). split; [|split; [discriminate|cbn [map rev app norm]; now rewrite map_norm_deaden]].
  assert (HE : emphasis (rev l) = emphasis T).
  { unfold emphasis. rewrite <- fold_norm. rewrite map_rev. rewrite HM. rewrite rev_involutive. reflexivity. }
  replace ((s "[" ++ w ++ s "](" ++ h ++ s ")") ++ rest) with (91%N :: (w ++ s "](" ++ h ++ s ")" ++ rest)).
  2:{ rewrite <- !app_assoc. reflexivity. }
  cbn [SpecInline.scan]. change (is_ch "\" 91) with false. change (is_ch "`" 91) with false. change (delimiter 91) with false.
  change (is_ch "!" 91) with false. change (is_ch "[" 91) with true. cbn [andb]. cbn iota.
  rewrite HS. change (s "](" ++ h ++ s ")" ++ rest) with (93%N :: (40%N :: h ++ 41%N :: rest)).
  unfold plain_href in HH. destruct (destination 0 (h ++ s ")")) as [x|] eqn:X; [|discriminate]. apply str_eqb_eq in HH. subst x.
  rewrite (scan_link _ l st _ h HG HN (destination_stop h rest 0 X)).
  replace (40%N :: h ++ 41%N :: rest) with (((40%N :: h) ++ [41%N]) ++ rest) by (rewrite <- app_assoc; reflexivity).
  rewrite (scan_skip' up _ ((40%N :: h) ++ [41%N])); [|rewrite app_length; cbn; lia].
  rewrite HE. f_equal. rewrite last_snoc.
  rewrite !last_app. reflexivity.
Qed.
End Facts.
