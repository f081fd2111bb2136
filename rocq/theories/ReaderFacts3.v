(** Quoted blocks as the Markdown reader sees them (C75): whatever stands inside is read as it would be on its own. *)
From Coq Require Import List NArith ZArith Bool String Lia.
From Verif Require Import PyStr Markdown StrFacts Collapse SpecReader ReaderFacts ReaderFacts2.
Import ListNotations.
Open Scope string_scope.
Open Scope list_scope.
Open Scope nat_scope.

Lemma after_length c l : List.length (after c l) <= List.length l.
Proof. unfold after. rewrite skipn_length. lia. Qed.
Lemma marker_shorter r o m rest : marker r = Some (o, m, rest) -> List.length rest < List.length r.
Proof.
  destruct r as [|c r]; [discriminate|]. unfold marker. destruct (is_ch "-" c || is_ch "+" c || is_ch "*" c).
  - destruct r as [|d r]; [intros [= _ _ <-]; cbn; lia|]. destruct (blank_ch d); [|discriminate]. intros [= _ _ <-]. cbn. lia.
  - cbv zeta. set (n := digits (c :: r)). destruct ((1 <=? n) && (n <=? 9)) eqn:E; [|discriminate].
    destruct (skipn n (c :: r)) as [|d q] eqn:ES; [discriminate|]. assert (HL : List.length (d :: q) <= List.length (c :: r)) by (rewrite <- ES, skipn_length; lia). cbn [List.length] in HL.
    destruct (is_ch "." d || is_ch ")" d); [|discriminate]. destruct q as [|e q]; [intros [= _ _ <-]; cbn; lia|]. destruct (blank_ch e); [|discriminate]. intros [= _ _ <-]. cbn [List.length] in *. lia.
Qed.
Lemma opened_fuel f1 : forall f2 para l, List.length l < f1 -> List.length l < f2 -> opened f1 para l = opened f2 para l.
Proof.
  induction f1 as [|f1 IH]; intros f2 para l H1 H2; [lia|]. destruct f2 as [|f2]; [lia|]. cbn [opened]. cbv zeta. destruct (4 <=? leading SP l); [reflexivity|].
  pose proof (after_length SP l) as HA. destruct (after SP l) as [|c q] eqn:EA; [reflexivity|]. cbn [List.length] in HA. destruct (is_ch ">" c).
  - rewrite (IH f2); [reflexivity| |]; (destruct q as [|d q']; [cbn; lia|destruct (N.eqb d SP); cbn [List.length] in *; lia]).
  - destruct (thematic (c :: q)); [reflexivity|]. destruct (marker (c :: q)) as [[[o m] rest]|] eqn:EM; [|reflexivity]. pose proof (marker_shorter _ _ _ _ EM) as HM. cbn [List.length] in HM.
    destruct (para && _); [reflexivity|]. destruct (blank rest); [reflexivity|]. rewrite (IH f2); [reflexivity| |]; rewrite skipn_length; lia.
Qed.
Lemma continued_quote cs l : continued (CQuote :: cs) (s "> " ++ l) = let (n, x) := continued cs l in (S n, x).
Proof. reflexivity. Qed.
Definition in_quote (r : list event * state) : list event * state := (fst r, (CQuote :: fst (snd r), snd (snd r))).
Lemma step_quote cs o l : step (CQuote :: cs, o) (s "> " ++ l) = in_quote (step (cs, o) l).
Proof.
  unfold step. rewrite continued_quote. destruct (continued cs l) as [n x]. cbn [List.length Nat.eqb]. destruct (Nat.eqb n (List.length cs)) eqn:E.
  - destruct o; cbn [andb negb is_para]; try (destruct (opened _ _ x) as [[|a new] inner]; destruct (leaf_step _ _); reflexivity). destruct (leaf_step _ _); reflexivity.
  - destruct (opened _ _ x) as [[|a new] inner].
    + destruct (negb false && is_para o && lazy_line x); [destruct o; reflexivity|]. destruct (leaf_step ONone x); destruct o; reflexivity.
    + destruct (leaf_step ONone inner); destruct o; reflexivity.
Qed.
Lemma step_quote_first l : step ([], ONone) (s "> " ++ l) = (EQuote :: fst (step ([], ONone) l), snd (in_quote (step ([], ONone) l))).
Proof.
  unfold step. cbn [continued List.length Nat.eqb is_para andb negb].
  assert (HO : opened (S (List.length (s "> " ++ l))) false (s "> " ++ l) = (let (cs, x) := opened (S (List.length l)) false l in ((CQuote, EQuote) :: cs, x))).
  { rewrite (opened_fuel (S (List.length l)) (S (List.length l) + 1) false l) by lia.
    rewrite (opened_fuel (S (List.length (s "> " ++ l))) (S (S (List.length l) + 1)) false) by (rewrite app_length; change (List.length (s "> ")) with 2; lia). reflexivity. }
  rewrite HO. destruct (opened (S (List.length l)) false l) as [new inner] eqn:EO. destruct new as [|a new].
  - assert (inner = l).
    { clear HO. revert EO. generalize (S (List.length l)). intros f. destruct f as [|f]; [intros [= <-]; reflexivity|]. cbn [opened]. cbv zeta. destruct (4 <=? leading SP l); [intros [= <-]; reflexivity|].
      destruct (after SP l) as [|c q]; [intros [= <-]; reflexivity|]. destruct (is_ch ">" c); [destruct (opened f false _); discriminate|]. destruct (thematic (c :: q)); [intros [= <-]; reflexivity|].
      destruct (marker (c :: q)) as [[[o m] rest]|]; [|intros [= <-]; reflexivity]. cbn [andb]. destruct (blank rest); [discriminate|]. destruct (opened f false _); discriminate. }
    subst inner. destruct (leaf_step ONone l). reflexivity.
  - destruct (leaf_step ONone inner). reflexivity.
Qed.
Lemma run_quote ls : forall cs o, run (CQuote :: cs, o) (map (fun l => s "> " ++ l) ls) = in_quote (run (cs, o) ls).
Proof.
  induction ls as [|l ls IH]; intros cs o; [reflexivity|]. cbn [map run]. rewrite step_quote. destruct (step (cs, o) l) as [es [cs1 o1]]. unfold in_quote at 1. cbn [fst snd]. rewrite IH.
  destruct (run (cs1, o1) ls) as [fs [cs2 o2]]. reflexivity.
Qed.
Definition quote_lines (ls : list str) : list str := map (fun l => s "> " ++ l) ls.
Lemma lines_free x : Forall (fun l => ~ In NL l) (text_lines x).
Proof.
  unfold text_lines. pose proof (split_on_free NL x) as H. induction H as [|l ls HL _ IH]; [constructor|]. cbn [drop_last_empty]. destruct l as [|c l]; [destruct ls as [|h ls]; [constructor|]|]; constructor; assumption.
Qed.
Lemma text_lines_nil x : text_lines x = [] -> x = [].
Proof.
  unfold text_lines. destruct x as [|c x]; [reflexivity|]. cbn [split_on]. destruct (N.eqb c NL).
  - destruct (split_on NL x) eqn:E; [now destruct (split_on_nonnil NL x)|discriminate].
  - destruct (split_on NL x) as [|h t] eqn:E; [now destruct (split_on_nonnil NL x)|discriminate].
Qed.
Lemma split_lines ls : Forall (fun l => ~ In NL l) ls -> ls <> [] -> split_on NL (join nl ls) = ls.
Proof.
  induction 1 as [|l ls HL HF IH]; intros HN; [now destruct HN|]. destruct ls as [|m ls]; [now apply split_on_notin|]. rewrite join_cons by discriminate.
  change (nl ++ join nl (m :: ls)) with (NL :: join nl (m :: ls)). rewrite split_nl, split_on_notin by exact HL. rewrite IH by discriminate. reflexivity.
Qed.
Theorem reading_quote x : x <> [] ->
  block_reading (join nl (quote_lines (text_lines x))) (EQuote :: read x ++ [EEnd]) /\ solid (join nl (quote_lines (text_lines x))).
Proof.
  intros HX. assert (HS : split_on NL (join nl (quote_lines (text_lines x))) = quote_lines (text_lines x)).
  { apply split_lines; [|unfold quote_lines; intros H; apply map_eq_nil in H; now apply text_lines_nil in H]. pose proof (lines_free x) as HF. unfold quote_lines.
    induction HF as [|l ls HL _ IH]; [constructor|]. cbn [map]. constructor; [|exact IH]. intros [H|[H|H]]; [discriminate H|discriminate H|contradiction]. }
  split.
  - unfold read. destruct (text_lines x) as [|l ls] eqn:EL; [apply text_lines_nil in EL; now destruct HX|].
    destruct (run ([], ONone) (l :: ls)) as [es [cs o]] eqn:ER.
    assert (HR : run ([], ONone) (quote_lines (l :: ls)) = (EQuote :: es, (CQuote :: cs, o))).
    { cbn [quote_lines map run] in *. rewrite step_quote_first. destruct (step ([], ONone) l) as [e1 [c1 o1]]. unfold in_quote at 1. cbn [fst snd]. rewrite run_quote. destruct (run (c1, o1) ls) as [e2 [c2 o2]]. injection ER as <- <- <-. reflexivity. }
    exists (EQuote :: es), (CQuote :: cs), o, (close_leaf o ++ repeat EEnd (S (List.length cs))), []. rewrite HS. split; [exact HR|]. cbn [fst snd].
    assert (HE : forall k, repeat EEnd (S k) = repeat EEnd k ++ [EEnd]) by (induction k as [|k IH]; [reflexivity|]; cbn [repeat app] in *; now rewrite <- IH).
    split; [cbn [List.length app]; rewrite HE, <- !app_assoc; reflexivity|]. split.
    + unfold step. cbn [continued leading after skipn]. cbn [Nat.leb List.length Nat.eqb andb negb]. change (opened 1 false []) with (@nil (container * event), @nil N). cbn iota. change (lazy_line []) with false. rewrite andb_false_r.
      change (leaf_step ONone []) with (@nil event, ONone). destruct o; cbn [firstn Nat.sub]; now rewrite app_nil_r.
    + split; [constructor|]. rewrite HE. cbn [List.length repeat app]. rewrite <- !app_assoc. cbn [app]. reflexivity.
  - apply solid_lines.
    + destruct (text_lines x) as [|l ls] eqn:EL; [apply text_lines_nil in EL; now destruct HX|]. exists 62%N. change (quote_lines (l :: ls)) with ((62%N :: SP :: l) :: quote_lines ls).
      destruct (quote_lines ls) as [|m ms]; [exists (SP :: l); split; reflexivity|]. rewrite join_cons by discriminate. exists ((SP :: l) ++ nl ++ join nl (m :: ms)). split; reflexivity.
    + rewrite HS. unfold quote_lines. apply Forall_map. apply Forall_forall. discriminate.
Qed.
