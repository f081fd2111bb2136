(** Blocks with their margins (C75). *)
From Coq Require Import List NArith ZArith Bool String Lia.
From Verif Require Import PyStr Values Schema Parse Date Markdown Basics StrFacts Collapse MdFacts SpecMd MdFacts2 LeafFacts LayoutFacts SpecList ListFacts ListFacts2
  SpecTable TableFacts SpecReader SpecSeen ReaderFacts ReaderFacts2 ReaderFacts3.
Import ListNotations.
Open Scope string_scope.
Open Scope list_scope.
Open Scope nat_scope.

(** ---------------------------------------------------------------- several blocks with exact margins *)
Inductive form : list str -> nat -> nat -> str -> Prop :=
| form_one c a b : solid c -> form [c] a b (nls a ++ c ++ nls b)
| form_cons c cs a g b x : solid c -> 2 <= g -> form cs g b x -> form (c :: cs) a b (nls a ++ c ++ x).
Lemma nls_app a b : nls (a + b) = nls a ++ nls b. Proof. apply repeat_app. Qed.
Lemma form_prefix cs a b x k : form cs a b x -> form cs (k + a) b (nls k ++ x).
Proof. intros H. destruct H; rewrite app_assoc, <- nls_app; [now constructor|now apply form_cons with g]. Qed.
Lemma form_suffix cs a b x k : form cs a b x -> form cs a (b + k) (x ++ nls k).
Proof. induction 1 as [c a b HS|c cs a g b x HS HG _ IH]; rewrite <- !app_assoc; [rewrite <- nls_app; now constructor|now apply form_cons with g]. Qed.
Lemma form_app cs1 a b x1 cs2 g b2 x2 : form cs1 a b x1 -> form cs2 g b2 x2 -> 2 <= b + g -> form (cs1 ++ cs2) a b2 (x1 ++ x2).
Proof.
  intros H1 H2. induction H1 as [c a b HS|c cs a g1 b x HS HG _ IH]; intros HB; rewrite <- !app_assoc; cbn [app].
  - apply form_cons with (b + g); [exact HS|exact HB|]. now apply form_prefix.
  - apply form_cons with g1; [exact HS|exact HG|]. now apply IH.
Qed.
Lemma form_layout cs a b x : form cs a b x -> layout cs a x.
Proof. induction 1 as [c a b HS|c cs a g b x HS HG _ IH]; [apply lay_cons with b; [exact HS|congruence|constructor]|apply lay_cons with g; auto]. Qed.
Lemma solid_ends c : solid c -> ends_clean c. Proof. intros (_ & H & _). exact H. Qed.
Lemma form_body cs a b x : form cs a b x -> exists y, x = nls a ++ y /\ starts_clean y /\ form cs 0 b y.
Proof.
  intros [c a0 b0 HS|c cs0 a0 g b0 x0 HS HG HF].
  - exists (c ++ nls b0). split; [reflexivity|]. split; [destruct HS as [(d & r & -> & _ & H) _]; exact H|exact (form_one c 0 b0 HS)].
  - exists (c ++ x0). split; [reflexivity|]. split; [destruct HS as [(d & r & -> & _ & H) _]; exact H|exact (form_cons c cs0 0 g b0 x0 HS HG HF)].
Qed.
Lemma squeeze_ge k m : m <= 2 -> m <= k -> m <= squeeze k.
Proof. intros H1 H2. pose proof (squeeze_mono m k H2) as H. now rewrite (squeeze_small m) in H by lia. Qed.
Lemma strip_form cs a b x : form cs a b x -> form cs (squeeze a) (squeeze b) (strip_double_empty_line x).
Proof.
  induction 1 as [c a b HS|c cs a g b x HS HG HF IH].
  - rewrite strip_run by (destruct HS as [(d & r & -> & _ & H) _]; exact H). rewrite <- (app_nil_r (nls b)). rewrite strip_context by (exact (solid_ends c HS) || exact I).
    rewrite (proj2 (proj2 HS)). change (strip_double_empty_line []) with (@nil N). rewrite app_nil_r. now constructor.
  - rewrite strip_run by (destruct HS as [(d & r & -> & _ & H) _]; exact H). destruct (form_body _ _ _ _ HF) as (y & -> & HY & _). rewrite strip_context by (exact (solid_ends c HS) || exact HY).
    rewrite (proj2 (proj2 HS)). rewrite strip_run in IH by exact HY. apply form_cons with (squeeze g); [exact HS|apply squeeze_ge; lia|exact IH].
Qed.
(** ---------------------------------------------------------------- what a text presents *)
Definition presents (y : str) (a : nat) (es : list event) (b : nat) : Prop :=
  (exists cs ess a' b', form cs a' b' y /\ Forall2 block_reading cs ess /\ List.concat ess = es /\ a <= a' /\ b <= b' /\ a <= 2 /\ b <= 2) \/
  (exists k, y = nls k /\ es = [] /\ a <= 1 /\ b <= 1).
Lemma presents_read y a es b : presents y a es b -> read y = es.
Proof.
  intros [(cs & ess & a' & b' & HF & HB & HE & _)|(k & -> & -> & _)]; [rewrite <- HE; exact (read_blocks cs a' y ess (form_layout _ _ _ _ HF) HB)|].
  exact (read_blocks [] k (nls k) [] (lay_nil k) (Forall2_nil _)).
Qed.
Lemma presents_strip y a es b : presents y a es b -> presents (strip_double_empty_line y) a es b.
Proof.
  intros [(cs & ess & a' & b' & HF & HB & HE & H1 & H2 & H3 & H4)|(k & -> & -> & H)].
  - left. exists cs, ess, (squeeze a'), (squeeze b'). split; [now apply strip_form|]. split; [exact HB|]. split; [exact HE|]. split; [now apply squeeze_ge|]. split; [now apply squeeze_ge|]. split; assumption.
  - right. exists (squeeze k). split; [|split; [reflexivity|exact H]]. rewrite <- (app_nil_r (nls k)), strip_run by exact I. apply app_nil_r.
Qed.
Lemma Forall2_app2 {A B} (R : A -> B -> Prop) l1 m1 l2 m2 : Forall2 R l1 m1 -> Forall2 R l2 m2 -> Forall2 R (l1 ++ l2) (m1 ++ m2).
Proof. induction 1; cbn [app]; [auto|constructor; auto]. Qed.
Lemma presents_join y1 a1 e1 b1 y2 a2 e2 b2 : presents y1 a1 e1 b1 -> presents y2 a2 e2 b2 -> 1 <= b1 + a2 -> presents (y1 ++ nl ++ y2) a1 (e1 ++ e2) b2.
Proof.
  intros H1 H2 HB. change nl with (nls 1). destruct H1 as [(c1 & s1 & a1' & b1' & F1 & R1 & <- & L1 & L2 & L3 & L4)|(k1 & -> & -> & K1 & K2)]; destruct H2 as [(c2 & s2 & a2' & b2' & F2 & R2 & <- & M1 & M2 & M3 & M4)|(k2 & -> & -> & K3 & K4)].
  - left. exists (c1 ++ c2), (s1 ++ s2), a1', b2'. split; [apply form_app with (b := b1') (g := 1 + a2'); [exact F1|now apply form_prefix|lia]|]. split; [now apply Forall2_app2|]. split; [apply concat_app|]. repeat split; lia.
  - left. exists c1, s1, a1', (b1' + (1 + k2)). split; [rewrite <- nls_app; now apply form_suffix|]. split; [exact R1|]. split; [now rewrite app_nil_r|]. repeat split; lia.
  - left. exists c2, s2, (k1 + (1 + a2')), b2'. split; [apply form_prefix, form_prefix; exact F2|]. split; [exact R2|]. split; [reflexivity|]. repeat split; lia.
  - right. exists (k1 + (1 + k2)). rewrite !nls_app. repeat split; lia.
Qed.
Lemma presents_one c es a b a' b' : block_reading c es -> solid c -> a <= a' -> b <= b' -> a <= 2 -> b <= 2 -> presents (nls a' ++ c ++ nls b') a es b.
Proof.
  intros HB HS H1 H2 H3 H4. left. exists [c], [es], a', b'. split; [now constructor|]. split; [repeat constructor; exact HB|]. cbn [List.concat]. rewrite app_nil_r. auto.
Qed.
(** ---------------------------------------------------------------- quoted text *)
Fixpoint keep (ls : list str) : list str := match ls with [] => [] | l :: r => match r with [] => match l with [] => [] | _ => [l] end | _ => (l ++ nl) :: keep r end end.
Lemma keep_lines ls : Forall (fun l => forall c, In c l -> is_lb c = false) ls -> ls <> [] -> line_list (join nl ls) (keep ls).
Proof.
  assert (HB : forall l, (forall c, In c l -> is_lb c = false) -> forallb (fun x => negb (is_lb x)) l = true) by (intros l H; apply forallb_forall; intros c HC; now rewrite (H c HC)).
  induction 1 as [|l ls HL HF IH]; intros HN; [now destruct HN|]. destruct ls as [|m ls].
  - cbn [join keep]. destruct l as [|c l]; [constructor|]. apply ll_last; [discriminate|now apply HB].
  - rewrite join_cons by discriminate. change (keep (l :: m :: ls)) with ((l ++ nl) :: keep (m :: ls)). apply ll_line; [now apply HB|constructor; reflexivity|discriminate|]. apply IH. discriminate.
Qed.
Lemma keep_quote ls : ls <> [] -> exists j, j <= 1 /\ List.concat (map (fun l => s "> " ++ l) (keep ls)) = join nl (quote_lines (drop_last_empty ls)) ++ nls j.
Proof.
  induction ls as [|l ls IH]; intros HN; [now destruct HN|]. destruct ls as [|m ls].
  - exists 0. split; [lia|]. destruct l as [|c l]; [reflexivity|]. cbn [keep map List.concat drop_last_empty quote_lines join]. reflexivity.
  - destruct IH as (j & HJ & IH); [discriminate|]. change (keep (l :: m :: ls)) with ((l ++ nl) :: keep (m :: ls)). cbn [map List.concat]. rewrite IH.
    assert (HD : drop_last_empty (l :: m :: ls) = l :: drop_last_empty (m :: ls)) by (cbn [drop_last_empty]; destruct l; reflexivity). rewrite HD.
    change (quote_lines (l :: drop_last_empty (m :: ls))) with ((s "> " ++ l) :: quote_lines (drop_last_empty (m :: ls))).
    destruct (drop_last_empty (m :: ls)) as [|d ds] eqn:ED.
    + assert (j = 0). { cbn [keep] in IH. destruct m as [|c m]; [destruct ls; [|discriminate ED]|destruct ls; discriminate ED]. cbn in IH. destruct j as [|[|j]]; [reflexivity|discriminate IH|lia]. }
      subst j. exists 1. split; [lia|]. cbn [quote_lines map join nls repeat app]. rewrite !app_nil_r. now rewrite <- app_assoc.
    + exists j. split; [exact HJ|]. rewrite join_cons by discriminate. rewrite <- !app_assoc. reflexivity.
Qed.
Theorem quoted_text x : plain_breaks x -> exists j, j <= 1 /\ indent_all (s "> ") x = join nl (quote_lines (text_lines x)) ++ nls j.
Proof.
  intros HP. assert (HF : Forall (fun l => forall c, In c l -> is_lb c = false) (split_on NL x)).
  { pose proof (split_on_free NL x) as HF. apply Forall_forall. intros l HL c HC. destruct (is_lb c) eqn:EL; [|reflexivity]. exfalso.
    assert (HX : In c x). { rewrite <- (join_split NL x). clear -HL HC. change [NL] with nl. induction (split_on NL x) as [|m ls IH]; [contradiction|]. destruct ls as [|k ls]; [destruct HL as [->|[]]; exact HC|].
      rewrite join_cons by discriminate. apply in_or_app. destruct HL as [->|HL]; [now left|right]. right. now apply IH. }
    rewrite Forall_forall in HF. apply (HF l HL). now rewrite <- (HP c HX EL). }
  assert (HL : splitlines_keep x = keep (split_on NL x)).
  { symmetry. apply line_list_unique. pose proof (keep_lines (split_on NL x) HF (split_on_nonnil NL x)) as HK. change nl with [NL] in HK. rewrite (join_split NL x) in HK. exact HK. }
  unfold indent_all. rewrite HL. exact (keep_quote (split_on NL x) (split_on_nonnil NL x)).
Qed.
