(** Lists as the Markdown reader sees them (C75): an indentation of four spaces per level. *)
From Coq Require Import List NArith ZArith Bool String Lia.
From Verif Require Import PyStr Markdown StrFacts Collapse SpecReader ReaderFacts ReaderFacts2 ReaderFacts3.
Import ListNotations.
Open Scope string_scope.
Open Scope list_scope.
Open Scope nat_scope.

Definition width (c : container) : nat := match c with CItem w => w | CQuote => 0 end.
Fixpoint total (cs : list container) : nat := match cs with [] => 0 | c :: r => width c + total r end.
Lemma total_app a b : total (a ++ b) = total a + total b. Proof. induction a as [|c a IH]; cbn [app total]; [reflexivity|]. rewrite IH. lia. Qed.
Definition spaces (k : nat) : str := repeat SP k.
Lemma leading_spaces k r : visible r -> leading SP (spaces k ++ r) = k.
Proof. intros H. induction k as [|k IH]; [exact (proj1 (visible_lead r H))|]. change (leading SP (spaces (S k) ++ r)) with (S (leading SP (spaces k ++ r))). now rewrite IH. Qed.
Lemma after_spaces k r : visible r -> after SP (spaces k ++ r) = r.
Proof. intros H. unfold after. rewrite (leading_spaces k r H). unfold spaces. rewrite skipn_app, repeat_length, skipn_all2 by (rewrite repeat_length; lia). now rewrite Nat.sub_diag. Qed.
Lemma blank_spaces k r : visible r -> blank (spaces k ++ r) = false.
Proof. intros H. induction k as [|k IH]; [exact (proj2 (visible_lead r H))|exact IH]. Qed.
Lemma skip_spaces w k r : w <= k -> skipn w (spaces k ++ r) = spaces (k - w) ++ r.
Proof. revert k. induction w as [|w IH]; intros k H; [now rewrite Nat.sub_0_r|]. destruct k as [|k]; [lia|]. cbn [Nat.sub]. rewrite <- IH by lia. reflexivity. Qed.
(** [n] items are continued by a line that is indented enough for them but not for the next one. *)
Lemma continued_spaces anc : items anc -> forall deeper k r, visible r -> total anc <= k ->
  match deeper with [] => True | c :: _ => k - total anc < width c end -> items deeper ->
  continued (anc ++ deeper) (spaces k ++ r) = (List.length anc, spaces (k - total anc) ++ r).
Proof.
  induction 1 as [|c anc [w ->] HA IH]; intros deeper k r HV HT HD HI.
  - cbn [app List.length total] in *. rewrite Nat.sub_0_r in *. destruct HI as [|c deeper [w ->] HI]; [reflexivity|]. cbn [continued]. rewrite (blank_spaces k r HV), (leading_spaces k r HV). cbn [width] in HD.
    destruct (S w <=? k) eqn:E; [apply Nat.leb_le in E; lia|reflexivity].
  - change (total (CItem (S w) :: anc)) with (S w + total anc) in *. change ((CItem (S w) :: anc) ++ deeper) with (CItem (S w) :: (anc ++ deeper)). cbn [continued]. rewrite (blank_spaces k r HV), (leading_spaces k r HV).
    assert (E : (S w <=? k) = true) by (apply Nat.leb_le; lia). rewrite E, skip_spaces by lia. rewrite IH; [|exact HV|lia| |exact HI].
    + cbn [List.length]. f_equal. do 2 f_equal. lia.
    + destruct deeper as [|c deeper]; [exact I|]. rewrite <- Nat.sub_add_distr. exact HD.
Qed.

(** ---------------------------------------------------------------- markers *)
Inductive mark := Bullet | Number (digits : str).
Definition print_mark (m : mark) : str := match m with Bullet => s "- " | Number d => d ++ s ". " end.
Definition mark_event (m : mark) : event := match m with Bullet => EBullet | Number d => ENumber d end.
Definition mark_width (m : mark) : nat := match m with Bullet => 2 | Number d => List.length d + 2 end.
Definition mark_ok (m : mark) : Prop := match m with Bullet => True | Number d => 1 <= List.length d <= 9 /\ Forall (fun c => digit c = true) d end.
Lemma digits_all d r : Forall (fun c => digit c = true) d -> (match r with c :: _ => digit c = false | [] => True end) -> digits (d ++ r) = List.length d.
Proof. induction 1 as [|c d HC HD IH]; intros HR; cbn [app digits List.length]; [destruct r as [|c r]; [reflexivity|]; cbn [digits]; now rewrite HR|]. rewrite HC. now rewrite IH. Qed.
Lemma digit_not c x : digit c = true -> match s x with [d] => digit d = false | _ => True end -> is_ch x c = false.
Proof.
  intros HC HX. unfold is_ch. destruct (s x) as [|d [|e y]]; try reflexivity. destruct (N.eqb c d) eqn:E; [|reflexivity]. apply N.eqb_eq in E. subst. rewrite HC in HX. discriminate HX.
Qed.
Lemma marker_mark m t : mark_ok m -> marker (print_mark m ++ t) = Some (match m with Bullet => false | _ => true end, match m with Bullet => s "-" | Number d => d end, SP :: t).
Proof.
  destruct m as [|d]; [reflexivity|]. intros [HL HD]. cbn [print_mark]. rewrite <- app_assoc. change (s ". " ++ t) with (46%N :: SP :: t). destruct d as [|c d]; [cbn in HL; lia|].
  unfold marker. cbn [app]. inversion HD as [|? ? HC HD']; subst. rewrite !digit_not by (exact HC || reflexivity). cbn [orb]. cbv zeta.
  change (c :: d ++ 46%N :: SP :: t) with ((c :: d) ++ 46%N :: SP :: t). rewrite digits_all by (exact HD || reflexivity).
  assert (E1 : (1 <=? List.length (c :: d)) = true) by (apply Nat.leb_le; lia). assert (E2 : (List.length (c :: d) <=? 9) = true) by (apply Nat.leb_le; lia). rewrite E1, E2. cbn [andb].
  assert (E3 : skipn (List.length (c :: d)) ((c :: d) ++ 46%N :: SP :: t) = 46%N :: SP :: t) by (rewrite skipn_app, skipn_all, Nat.sub_diag; reflexivity).
  assert (E4 : firstn (List.length (c :: d)) ((c :: d) ++ 46%N :: SP :: t) = c :: d) by (rewrite firstn_app, firstn_all, Nat.sub_diag; cbn [firstn]; now rewrite app_nil_r).
  rewrite E3, E4. reflexivity.
Qed.
Lemma mark_visible m t : mark_ok m -> visible (print_mark m ++ t).
Proof.
  destruct m as [|d]; intros H; [exists 45%N, (SP :: t); split; reflexivity|]. destruct H as [HL HD]. destruct d as [|c d]; [cbn in HL; lia|]. exists c. eexists. split; [reflexivity|].
  inversion HD as [|? ? HC _]; subst. unfold digit in HC. unfold blank_ch, SP. apply andb_true_iff in HC as [HC _]. apply N.leb_le in HC. apply orb_false_iff. split; apply N.eqb_neq; lia.
Qed.
Lemma thematic_in l c : In c l -> c <> 45%N -> c <> 42%N -> c <> 95%N -> blank_ch c = false -> thematic l = false.
Proof.
  intros HI H1 H2 H3 HB. unfold thematic. cbn [existsb]. assert (HF : forall d, c <> d -> forallb (fun e => N.eqb e d || blank_ch e) l = false).
  { intros d Hd. destruct (forallb _ l) eqn:E; [|reflexivity]. rewrite forallb_forall in E. specialize (E c HI). rewrite HB, orb_false_r in E. apply N.eqb_eq in E. contradiction. }
  now rewrite !HF.
Qed.
(** A line of text is not a row of dashes, also behind a bullet. *)
Lemma text_no_dashes l : text_line l -> thematic (s "- " ++ l) = false.
Proof.
  intros HL. pose proof (text_visible l HL) as HV. destruct HL as (HC & HS & _). destruct (thematic (s "- " ++ l)) eqn:ET; [|reflexivity]. exfalso.
  unfold thematic in ET. change (s "- " ++ l) with (45%N :: SP :: l) in ET. cbn [existsb] in ET.
  assert (HA : forallb (fun d => N.eqb d 45 || blank_ch d) l = true).
  { rewrite !orb_true_iff in ET. destruct ET as [ET|[ET|[ET|ET]]]; try discriminate ET. apply andb_true_iff in ET as [ET _]. exact ET. }
  clear ET. destruct (visible_lead l HV) as [H0 HB]. destruct HV as (c & r & -> & HC0). assert (c = 45%N).
  { cbn [forallb] in HA. apply andb_true_iff in HA as [HA _]. rewrite HC0, orb_false_r in HA. now apply N.eqb_eq. }
  subst c. unfold classify in HC. destruct (existsb (N.eqb CR) _); [discriminate HC|]. rewrite HB in HC. cbv zeta in HC. rewrite H0 in HC. cbn [Nat.leb] in HC.
  assert (HAF : after SP (45%N :: r) = 45%N :: r) by reflexivity. rewrite HAF in HC. change (N.eqb 45 9) with false in HC. change (is_ch "#" 45) with false in HC. change (is_ch "`" 45) with false in HC.
  change (is_ch "~" 45) with false in HC. change (is_ch "<" 45) with false in HC. change (is_ch "[" 45) with false in HC. cbn [andb] in HC. cbn iota in HC.
  destruct (forallb _ (45%N :: r)) eqn:E1 in HC; [discriminate HC|]. destruct (thematic (45%N :: r)); [discriminate HC|].
  assert (HD : delimiter_row (45%N :: r) = true).
  { unfold delimiter_row. apply andb_true_iff. split; [|reflexivity]. clear -HA. induction (45%N :: r) as [|c l IH]; [reflexivity|]. cbn [forallb] in *. apply andb_true_iff in HA as [H1 H2]. rewrite IH by exact H2.
    apply orb_true_iff in H1 as [H1|H1]; [apply N.eqb_eq in H1; subst; reflexivity|]. rewrite H1, orb_true_r. reflexivity. }
  rewrite HD in HC. discriminate HC.
Qed.
Lemma mark_not_thematic m t : mark_ok m -> text_line t -> thematic (print_mark m ++ t) = false.
Proof.
  destruct m as [|d]; intros HM HT; [now apply text_no_dashes|]. destruct HM as [HL HD]. destruct d as [|c d]; [cbn in HL; lia|]. inversion HD as [|? ? HC _]; subst.
  unfold digit in HC. apply andb_true_iff in HC as [H1 H2]. apply N.leb_le in H1, H2. apply (thematic_in _ c); [now left| | | |unfold blank_ch, SP; apply orb_false_iff; split; apply N.eqb_neq; lia]; lia.
Qed.
Lemma mark_not_quote m t c r : mark_ok m -> print_mark m ++ t = c :: r -> is_ch ">" c = false.
Proof.
  destruct m as [|d]; intros HM HE; [injection HE as <- _; reflexivity|]. destruct HM as [HL HD]. destruct d as [|c0 d]; [cbn in HL; lia|]. injection HE as <- _. inversion HD as [|? ? HC _]; subst. now apply digit_not.
Qed.
(** An item line opens one item and starts its paragraph; inside a paragraph only if it may interrupt it. *)
Lemma opened_mark fuel para k m t : List.length (spaces k ++ print_mark m ++ t) < fuel -> k <= 3 -> mark_ok m -> text_line t ->
  (para = true -> m = Bullet \/ m = Number (s "1")) ->
  opened fuel para (spaces k ++ print_mark m ++ t) = ([(CItem (k + mark_width m), mark_event m)], t).
Proof.
  intros HF HK HM HT HP. destruct fuel as [|fuel]; [lia|]. pose proof (mark_visible m t HM) as HV. cbn [opened]. cbv zeta. rewrite (leading_spaces k _ HV), (after_spaces k _ HV).
  assert (E : (4 <=? k) = false) by (apply Nat.leb_gt; lia). rewrite E. pose proof (mark_not_thematic m t HM HT) as HTH. pose proof (marker_mark m t HM) as HMK.
  destruct (print_mark m ++ t) as [|c r] eqn:EP; [destruct HV as (? & ? & HV & _); discriminate HV|]. rewrite (mark_not_quote m t c r HM EP), HTH, HMK. cbn iota.
  pose proof (text_visible t HT) as HTV. destruct (visible_lead t HTV) as [HL0 HB].
  assert (HBL : blank (SP :: t) = false) by exact HB. assert (HLD : leading SP (SP :: t) = 1) by (change (leading SP (SP :: t)) with (S (leading SP t)); now rewrite HL0). rewrite HBL, HLD. cbn [orb].
  assert (HI : (para && ((match m with Bullet => false | _ => true end) && negb (str_eqb (match m with Bullet => s "-" | Number d => d end) (s "1")))) = false).
  { destruct para; [|reflexivity]. destruct (HP eq_refl) as [H1|H1]; rewrite H1; reflexivity. }
  rewrite HI. change (1 <=? 4) with true. cbn iota. cbn [skipn]. destruct HT as (_ & HS & _). rewrite opened_none by exact HS.
  match goal with |- ([(CItem ?a, _)], _) = ([(CItem ?b, _)], _) => assert (HE : a = b) by (destruct m as [|d]; cbn [mark_width]; [change (List.length (s "-")) with 1; lia|lia]); rewrite HE; destruct m; reflexivity end.
Qed.
Definition mark_line (d : nat) (m : mark) (t : str) : str := spaces (4 * d) ++ print_mark m ++ t.
(** Where an item at depth [d] may stand: inside d items that together are indented by at most 4d and at least 4d-3. *)
Definition place (d : nat) (anc : list container) : Prop := List.length anc = d /\ items anc /\ total anc <= 4 * d <= total anc + 3.
Definition hang (d : nat) (anc deeper : list container) : Prop := items deeper /\ match deeper with [] => True | c :: _ => 4 * d - total anc < width c end.
Lemma step_mark d anc deeper o m t : place d anc -> hang d anc deeper -> mark_ok m -> text_line t -> is_code o = false ->
  (deeper = [] -> is_para o = true -> m = Bullet \/ m = Number (s "1")) ->
  step (anc ++ deeper, o) (mark_line d m t) =
  (close_leaf o ++ repeat EEnd (List.length deeper) ++ [mark_event m], (anc ++ [CItem (4 * d - total anc + mark_width m)], OPara [t])).
Proof.
  intros (HD & HA & HT1) (HI & HH) HM HT HO HP. unfold step, mark_line. pose proof (mark_visible m t HM) as HV.
  rewrite (continued_spaces anc HA deeper (4 * d) _ HV) by (try exact HI; try exact HH; lia). rewrite app_length.
  set (all := Nat.eqb (List.length anc) (List.length anc + List.length deeper)). set (k := 4 * d - total anc).
  assert (HALL : all && is_para o = true -> m = Bullet \/ m = Number (s "1")).
  { intros H. apply andb_true_iff in H as [H1 H2]. apply Nat.eqb_eq in H1. apply HP; [destruct deeper; [reflexivity|cbn in H1; lia]|exact H2]. }
  rewrite (opened_mark _ (all && is_para o) k m t) by (try assumption; try exact HALL; unfold k; try lia).
  assert (HL : leaf_step ONone t = ([], OPara [t])) by (destruct HT as (HC & _); cbn [leaf_step]; now rewrite HC). rewrite HL. cbn [map fst snd].
  replace (List.length anc + List.length deeper - List.length anc) with (List.length deeper) by lia. rewrite firstn_app, firstn_all, Nat.sub_diag. cbn [firstn]. rewrite !app_nil_r.
  destruct all; destruct o; try discriminate HO; reflexivity.
Qed.
Lemma step_lazy cs ls l : items cs -> cs <> [] -> text_line l -> step (cs, OPara ls) l = ([], (cs, OPara (ls ++ [l]))).
Proof.
  intros HI HN HL. pose proof (text_visible l HL) as HV. destruct HL as (HC & HS & _). unfold step. rewrite (continued_visible cs l HI HV). destruct cs as [|c cs]; [now destruct HN|]. cbn [List.length Nat.eqb andb].
  rewrite opened_none by exact HS. unfold lazy_line. rewrite HC. reflexivity.
Qed.
Lemma run_lazy cs more : items cs -> cs <> [] -> Forall text_line more -> forall ls, run (cs, OPara ls) more = ([], (cs, OPara (ls ++ more))).
Proof.
  intros HI HN. induction 1 as [|l more HL _ IH]; intros ls; cbn [run]; [now rewrite app_nil_r|]. rewrite step_lazy by assumption. rewrite IH. now rewrite <- app_assoc.
Qed.
