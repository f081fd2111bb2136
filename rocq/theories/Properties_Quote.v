(** C35: decision items and decision lists.  Vocabulary: SpecQuote.v ([stretches]: the non-blank lines, each with the
    number of blank lines before it; [quoted_from]). *)
From Coq Require Import List NArith ZArith Bool String Lia.
From Verif Require Import PyStr Values Schema Parse Date Markdown Basics StrFacts MarkFacts SpecParse ParseFacts4
  MdFacts SpecMd MdFacts2 LeafFacts Collapse LayoutFacts SpecErr ErrFacts SpecQuote QuoteFacts
  Properties_Marks Properties_Nodes Properties_Layout.
Import ListNotations.
Open Scope string_scope.
Open Scope list_scope.
Open Scope nat_scope.

(** The Markdown of a decision item's content. *)
Definition item_text (E : runtime) (n : node) (x : str) : Prop :=
  n_kind n = KdecisionItem /\
  ((n_content n = SOpt /\ x = []) \/
   exists cs xs, n_content n = Items cs /\ Forall2 (renders E) cs xs /\ x = List.concat xs).

Lemma decision_renders E n x ign : item_text E n x ->
  to_markdown E n ign = Ok (VStr (join nl (quote_lines 0 false (split_on NL (rstrip x))))).
Proof.
  intros (HK & HC). destruct n as [k ty ve tx a co ma]. cbn [n_kind n_content] in *. subst k.
  unfold to_markdown. cbn [to_md]. unfold decision_item_md.
  destruct HC as [[-> ->]|(cs & xs & -> & HF & ->)]; [reflexivity|].
  rewrite (content_renders E cs xs) by exact HF. reflexivity.
Qed.
(** Exactly what a decision item renders to. *)
Theorem C35_decision_item : forall E n x t ign, item_text E n x -> trimmed t x -> t <> [] ->
  exists es, stretches (split_on NL t) es /\ to_markdown E n ign = Ok (VStr (join nl (quoted_from 0 es))).
Proof.
  intros E n x t ign HI HT HN. rewrite (decision_renders E n x ign HI). apply trimmed_rstrip in HT. subst t.
  destruct (stretches_exists (split_on NL (rstrip x))) as [es HS]; [right; now apply last_line_rstrip|].
  exists es. split; [exact HS|]. rewrite (stretches_quote _ _ HS). destruct es as [|[k t] es]; reflexivity.
Qed.
Theorem C35_blank_item : forall E n x ign, item_text E n x -> blank x -> to_markdown E n ign = Ok (VStr []).
Proof.
  intros E n x ign HI HB. rewrite (decision_renders E n x ign HI). apply blank_rstrip in HB. rewrite HB. reflexivity.
Qed.
(** The description is unambiguous. *)
Theorem C35_stretches_unique : forall ls es es', stretches ls es -> stretches ls es' -> es = es'.
Proof. exact stretches_fun. Qed.

(** ---------------------------------------------------------------- the promises of the docstring *)
Lemma stretches_entries ls es : stretches ls es -> Forall (fun l => ~ In NL l) ls ->
  Forall (fun e => snd e <> [] /\ ~ In NL (snd e) /\ rstrip (snd e) = snd e) es.
Proof.
  induction 1 as [|bs l t rest es HB HN HT HS IH]; intros HF; constructor.
  - cbn [snd]. apply Forall_app in HF as [_ HF]. inversion HF; subst. pose proof HT as HT'. apply trimmed_rstrip in HT'.
    split; [|split].
    + intros ->. apply HN. now apply blank_rstrip.
    + intros HI. destruct HT as (w & -> & _). match goal with K : ~ In NL (t ++ w) |- _ => apply K end. apply in_or_app. now left.
    + rewrite <- HT'. apply rstrip_idem.
  - apply IH. apply Forall_app in HF as [_ HF]. now inversion HF.
Qed.
Definition quote_blank : str := s ">".
Lemma quoted_line_cases i es l : In l (quoted_from i es) -> l = quote_blank \/ exists e, In e es /\ l = s "> " ++ snd e.
Proof.
  revert i. induction es as [|[k t] es IH]; intros i; [intros []|]. cbn [quoted_from]. intros H. apply in_app_or in H as [H|H].
  - destruct (Nat.leb 2 i && Nat.ltb 0 k); [|destruct H]. destruct H as [<-|[]]. now left.
  - destruct H as [<-|H]; [right; exists (k, t); split; [now left|reflexivity]|].
    destruct (IH _ H) as [->|(e & He & ->)]; [now left|]. right. exists e. split; [now right|reflexivity].
Qed.
Lemma quoted_nonnil i es : es <> [] -> quoted_from i es <> [].
Proof. destruct es as [|[k t] es]; [congruence|]. intros _. cbn [quoted_from]. destruct (Nat.leb 2 i && Nat.ltb 0 k); cbn [app]; discriminate. Qed.
Lemma quote_ne t : s "> " ++ t <> s ">".
Proof.
  intros H. apply (f_equal (@List.length N)) in H. rewrite app_length in H.
  change (List.length (s "> ")) with 2 in H. change (List.length (s ">")) with 1 in H. lia.
Qed.

(** [decision_lines E n ls]: ls are the output lines of the non-blank decision item n. *)
Definition decision_lines (E : runtime) (n : node) (ls : list str) : Prop :=
  exists x out, item_text E n x /\ ~ blank x /\ to_markdown E n false = Ok (VStr out) /\ split_on NL out = ls.
Lemma decision_lines_inv E n ls : decision_lines E n ls ->
  exists x es, item_text E n x /\ stretches (split_on NL (rstrip x)) es /\ ls = quoted_from 0 es /\ es <> [] /\
    Forall (fun e => snd e <> [] /\ ~ In NL (snd e) /\ rstrip (snd e) = snd e) es.
Proof.
  intros (x & out & HI & HB & HO & HS). exists x.
  assert (HN : rstrip x <> []) by (intros K; apply HB; now apply blank_rstrip).
  destruct (C35_decision_item E n x (rstrip x) false HI) as (es & HE & HM); [now apply trimmed_rstrip|exact HN|].
  exists es. rewrite HM in HO. apply okstr_inj in HO. subst out.
  pose proof (stretches_entries _ _ HE (split_on_free NL _)) as HF.
  assert (HNE : es <> []).
  { intros ->. inversion HE as [K|]. now apply (split_on_nonnil NL (rstrip x)). }
  split; [exact HI|]. split; [exact HE|]. split; [|split; [exact HNE|exact HF]].
  rewrite <- HS. apply split_join_free; [now apply quoted_nonnil|]. rewrite Forall_forall in *. intros l Hl.
  apply quoted_line_cases in Hl as [->|(e & He & ->)].
  - vm_compute. intuition congruence.
  - specialize (HF e He) as (_ & HF & _). intros K. apply in_app_or in K as [K|K]; [vm_compute in K; intuition congruence|auto].
Qed.
Theorem C35_every_line_quoted : forall E n ls, decision_lines E n ls -> Forall (fun l => exists r, l = s ">" ++ r) ls.
Proof.
  intros E n ls H. apply decision_lines_inv in H as (x & es & _ & _ & -> & _ & _). apply Forall_forall. intros l Hl.
  apply quoted_line_cases in Hl as [->|(e & _ & ->)]; [now exists []|]. exists (s " " ++ snd e). reflexivity.
Qed.
(** No blank quote line among the first two lines (the title and the line after it). *)
Theorem C35_no_blank_before_second : forall E n ls l1 l2 rest, decision_lines E n ls -> ls = l1 :: l2 :: rest ->
  l1 <> s ">" /\ l2 <> s ">".
Proof.
  intros E n ls l1 l2 rest H HE. apply decision_lines_inv in H as (x & es & _ & _ & -> & HN & _).
  destruct es as [|[k1 t1] [|[k2 t2] es]]; [congruence|discriminate|]. cbn [quoted_from Nat.leb andb app] in HE.
  split; intros K; pose proof quote_ne as HX.
  - apply (HX t1). congruence.
  - apply (HX t2). congruence.
Qed.
Theorem C35_no_adjacent_blank : forall E n ls a b, decision_lines E n ls -> ls <> a ++ [s ">"; s ">"] ++ b.
Proof.
  intros E n ls a b H. apply decision_lines_inv in H as (x & es & _ & _ & -> & _ & _).
  pose proof quote_ne as HX.
  assert (HH : forall i es r, quoted_from i es = s ">" :: r -> exists k t es', es = (k, t) :: es' /\ r = (s "> " ++ t) :: quoted_from (S i) es').
  { intros i [|[k t] es']; [discriminate|]. intros r K. exists k, t, es'. split; [reflexivity|]. cbn [quoted_from] in K.
    destruct (Nat.leb 2 i && Nat.ltb 0 k); cbn [app] in K; [congruence|]. exfalso. apply (HX t). congruence. }
  cut (forall i a, quoted_from i es <> a ++ [s ">"; s ">"] ++ b); [intros K; apply K|]. clear a.
  induction es as [|[k t] es IH]; intros i a K.
  - destruct a; discriminate.
  - destruct a as [|l a].
    + apply HH in K as (k' & t' & es' & _ & K). cbn [app] in K. apply (HX t'). congruence.
    + cbn [quoted_from] in K. destruct (Nat.leb 2 i && Nat.ltb 0 k); cbn [app] in K.
      * destruct a as [|l' a]; cbn [app] in K; [apply (HX t); congruence|]. apply (IH (S i) a). cbn [app]. congruence.
      * apply (IH (S i) a). cbn [app]. congruence.
Qed.
Theorem C35_no_trailing_space : forall E n ls l, decision_lines E n ls -> In l ls -> trimmed l l.
Proof.
  intros E n ls l H Hl. apply decision_lines_inv in H as (x & es & _ & _ & -> & _ & HF). apply trimmed_rstrip.
  apply quoted_line_cases in Hl as [->|(e & He & ->)]; [reflexivity|]. rewrite Forall_forall in HF.
  destruct (HF e He) as (H1 & _ & H3). clear HF He. destruct e as [k t]. cbn [snd] in *.
  unfold rstrip in *. rewrite <- (app_nil_r (s "> " ++ t)) at 1. apply rstrip_by_unique; [|reflexivity].
  pose proof (rstrip_by_last is_ws t) as HL. rewrite H3 in HL. rewrite rev_app_distr. destruct (rev t) as [|c r] eqn:ER; [|exact HL].
  assert (t = []) by (rewrite <- (rev_involutive t), ER; reflexivity). congruence.
Qed.
(** The item never ends in a blank quote line. *)
Theorem C35_last_line : forall E n ls a, decision_lines E n ls -> ls <> a ++ [s ">"].
Proof.
  intros E n ls a H. apply decision_lines_inv in H as (x & es & _ & _ & -> & HN & _).
  pose proof quote_ne as HX.
  revert a HN. generalize 0. induction es as [|[k t] es IH]; intros i a HN K; [congruence|]. cbn [quoted_from] in K.
  destruct es as [|e es].
  - cbn [quoted_from] in K. apply app_inj_tail in K as [_ K]. exact (HX t K).
  - assert (HQ : quoted_from (S i) (e :: es) <> []) by (apply quoted_nonnil; discriminate).
    assert (HC : forall p, p ++ (s "> " ++ t) :: quoted_from (S i) (e :: es) = a ++ [s ">"] ->
                 exists a', quoted_from (S i) (e :: es) = a' ++ [s ">"]).
    { intros p. destruct (exists_last HQ) as (q & z & EQ). rewrite EQ. intros K'. exists q. f_equal.
      change (p ++ (s "> " ++ t) :: q ++ [z]) with (p ++ ((s "> " ++ t) :: q) ++ [z]) in K'. rewrite app_assoc in K'.
      apply app_inj_tail in K' as [_ K']. congruence. }
    destruct (HC _ K) as [a' K']. now apply (IH (S i) a') in K'.
Qed.
(** A line with at least one character that is not white space. *)
Definition inked (l : str) : bool := negb (forallb is_ws l).
(** The non-blank content lines are kept, in order and only trimmed at the right. *)
Theorem C35_content_kept : forall E n ls x, decision_lines E n ls -> item_text E n x ->
  filter (fun l => negb (str_eqb l (s ">"))) ls =
  map (fun l => s "> " ++ rstrip l) (filter inked (split_on NL x)).
Proof.
  intros E n ls x H HI. apply decision_lines_inv in H as (x' & es & HI' & HS & -> & HN & HF).
  assert (x' = x).
  { destruct HI as (_ & [[H1 ->]|(cs & xs & H1 & H2 & ->)]), HI' as (_ & [[H1' ->]|(cs' & xs' & H1' & H2' & ->)]); try congruence.
    assert (cs' = cs) by congruence. subst cs'. f_equal. clear - H2 H2'. revert xs' H2'.
    induction H2 as [|c y cs xs HR _ IH]; intros xs' H2'; inversion H2' as [|? y' ? ys' HR' HF']; subst; [reflexivity|].
    unfold renders in *. f_equal; [apply okstr_inj; congruence|auto]. }
  subst x'.
  assert (HQ : forall i, filter (fun l => negb (str_eqb l (s ">"))) (quoted_from i es) = map (fun e => s "> " ++ snd e) es).
  { clear. induction es as [|[k t] es IH]; intros i; [reflexivity|]. cbn [quoted_from map snd]. rewrite filter_app.
    assert (filter (fun l => negb (str_eqb l (s ">"))) (if Nat.leb 2 i && Nat.ltb 0 k then [s ">"] else []) = []) as ->
      by (destruct (Nat.leb 2 i && Nat.ltb 0 k); reflexivity).
    cbn [app filter]. rewrite (proj2 (str_eqb_neq (s "> " ++ t) (s ">")) (quote_ne t)). cbn [negb]. now rewrite IH. }
  rewrite HQ.
  assert (HM : map snd es = map rstrip (filter inked (split_on NL (rstrip x)))).
  { clear - HS. induction HS as [|bs l t rest es HB HN HT HS IH]; [reflexivity|]. cbn [map snd]. rewrite filter_app.
    assert (filter inked bs = []) as ->.
    { clear - HB. induction HB as [|b bs H HB IH]; [reflexivity|]. cbn [filter]. unfold inked at 1.
      rewrite (proj2 (forallb_forall _ _) H). exact IH. }
    cbn [app filter]. unfold inked at 1. destruct (forallb is_ws l) eqn:EB; [exfalso; apply HN; exact (proj1 (forallb_forall _ _) EB)|].
    cbn [negb map]. apply trimmed_rstrip in HT. now rewrite HT, IH. }
  transitivity (map (fun t => s "> " ++ t) (map snd es)); [now rewrite map_map|]. rewrite HM, map_map.
  (* trailing white space of the whole text only removes blank lines and trims the last kept line *)
  clear. destruct (rstrip_by_app is_ws x) as (w & HX & HW). fold (rstrip x) in HX.
  pose proof (rstrip_by_last is_ws x) as HL. fold (rstrip x) in HL. set (y := rstrip x) in *. clearbody y. subst x.
  assert (HB : forall w, forallb is_ws w = true -> filter inked (split_on NL w) = []).
  { clear. intros w HW. assert (HF : Forall (fun l => forallb is_ws l = true) (split_on NL w)).
    { induction w as [|c w IH]; [repeat constructor|]. cbn [forallb] in HW. apply andb_true_iff in HW as [H1 H2].
      specialize (IH H2). cbn [split_on]. destruct (N.eqb c NL); [constructor; auto|].
      destruct (split_on NL w) as [|l ls]; [repeat constructor; cbn; now rewrite H1|].
      inversion IH; subst. constructor; [cbn; now rewrite H1|assumption]. }
    induction HF as [|l ls H HF IH]; [reflexivity|]. cbn [filter]. unfold inked at 1. rewrite H. exact IH. }
  assert (HT : forall u l, forallb is_ws u = true -> forallb is_ws (l ++ u) = forallb is_ws l).
  { intros u l Hu. rewrite forallb_app, Hu. apply andb_true_r. }
  assert (HR : forall u l, forallb is_ws u = true -> rstrip (l ++ u) = rstrip l).
  { intros u l Hu. symmetry. destruct (rstrip_by_app is_ws l) as (v & E1 & E2). unfold rstrip.
    rewrite E1 at 2. rewrite <- app_assoc. rewrite rstrip_by_unique; [reflexivity|apply rstrip_by_last|]. now rewrite forallb_app, E2, Hu. }
  clear HL. revert w HW. induction y as [|c y IH]; intros w HW.
  - cbn [app]. rewrite (HB w HW). reflexivity.
  - cbn [app split_on]. destruct (N.eqb c NL) eqn:EC; [exact (IH w HW)|].
    specialize (IH w HW). pose proof (split_on_nonnil NL y) as N1. pose proof (split_on_nonnil NL (y ++ w)) as N2.
    assert (HE : exists u, hd [] (split_on NL (y ++ w)) = hd [] (split_on NL y) ++ u /\ forallb is_ws u = true /\
               filter inked (tl (split_on NL (y ++ w))) = filter inked (tl (split_on NL (y ++ w)))).
    { clear - HW. induction y as [|a y IH].
      - cbn [app split_on hd]. exists (hd [] (split_on NL w)). split; [reflexivity|]. split; [|reflexivity].
        clear - HW. induction w as [|c w IH]; [reflexivity|]. cbn [forallb] in HW. apply andb_true_iff in HW as [H1 H2].
        cbn [split_on]. destruct (N.eqb c NL); [reflexivity|]. specialize (IH H2). destruct (split_on NL w); cbn in *; now rewrite ?H1, ?IH.
      - cbn [app split_on]. destruct (N.eqb a NL); [exists []; repeat split; reflexivity|].
        destruct IH as (u & H1 & H2 & _). exists u. destruct (split_on NL (y ++ w)), (split_on NL y); cbn in *; repeat split; try congruence. }
    destruct HE as (u & H1 & H2 & _).
    destruct (split_on NL y) as [|l ls]; [congruence|]. destruct (split_on NL (y ++ w)) as [|l' ls']; [congruence|].
    cbn [hd] in H1. subst l'. cbn [filter] in IH |- *. change (c :: l ++ u) with ((c :: l) ++ u).
    assert (HK : forall k, inked (k ++ u) = inked k) by (intros k; unfold inked; now rewrite HT).
    rewrite !HK in IH. rewrite !HK.
    destruct (inked l) eqn:EL.
    + assert (inked (c :: l) = true) as ->.
      { unfold inked in *. cbn [forallb]. apply negb_true_iff in EL. rewrite EL. now rewrite andb_false_r. }
      cbn [map] in IH |- *. rewrite HR by exact H2. f_equal. pose proof (f_equal (@tl str) IH) as K. exact K.
    + destruct (inked (c :: l)); cbn [map]; [rewrite HR by exact H2; now rewrite IH|exact IH].
Qed.

(** ---------------------------------------------------------------- decision lists *)
Theorem C35_decision_list : forall E w v n cs xs ign, snd (parse_node w v) = Ok n -> n_kind n = KdecisionList ->
  n_content n = Items cs ->
  Forall2 (renders E) (filter (fun c => if nk_eq_dec (n_kind c) KdecisionItem then true else false) cs) xs ->
  to_markdown E n ign = Ok (VStr (join (nl ++ nl) xs)).
Proof.
  intros E w v n cs xs ign HP HK HI HF. apply parse_consistent in HP. pose proof (consistent_items _ _ HP HI) as HC.
  destruct n as [k ty ve tx a co ma]. cbn [n_kind n_content] in *. subst k co. clear HP.
  unfold to_markdown. cbn [to_md]. unfold decision_list_md, loop.
  assert (HE : for_each (fun item => if is_type_of item [s "decisionItem"] then try_ ign (to_md E item None ign) else Ok []) cs = Ok (map VStr xs)).
  { revert xs HF. induction HC as [|c cs H HC IH]; intros xs HF; cbn [filter] in HF; [inversion HF; reflexivity|].
    cbn. fold (for_each (fun item => if is_type_of item [s "decisionItem"] then try_ ign (to_md E item None ign) else Ok [])).
    rewrite (type_is c "decisionItem" KdecisionItem) by (assumption || reflexivity).
    destruct (nk_eq_dec (n_kind c) KdecisionItem); [|cbn [rbind]; rewrite (IH xs HF); reflexivity].
    inversion HF as [|? x ? ys HR HF']; subst.
    assert (HM : to_md E c None ign = Ok (VStr x)) by (destruct ign; [apply ignore_conservative|]; exact HR).
    rewrite HM. cbn [try_ rbind]. rewrite (IH _ HF'). reflexivity. }
  rewrite HE. cbn [rbind]. rewrite join_values_str. reflexivity.
Qed.

Definition ex_decision (t : list value) : value :=
  VDict [tyv "decisionItem"; (s "attrs", VDict [(s "localId", VStr (s "i")); (s "state", VStr (s "DECIDED"))]); (s "content", VList t)].
Definition txt (x : str) : value := VDict [tyv "text"; (s "text", VStr x)].
Definition ex_dec_text : str := join nl [s "Title  "; s ""; s "one"; s ""; s " "; s "two"; s ""; s ""].
Definition ex_item : node := get (ex_decision [txt ex_dec_text]).
Example C35_example : item_text rt0 ex_item ex_dec_text /\ ~ blank ex_dec_text /\
  decision_lines rt0 ex_item [s "> Title"; s "> one"; s ">"; s "> two"] /\
  stretches (split_on NL (rstrip ex_dec_text)) [(0, s "Title"); (1, s "one"); (2, s "two")].
Proof.
  assert (HI : item_text rt0 ex_item ex_dec_text).
  { split; [vm_compute; reflexivity|]. right. exists (blocks_of ex_item), [ex_dec_text].
    split; [vm_compute; reflexivity|]. split; [all_render|vm_compute; reflexivity]. }
  assert (HB : ~ blank ex_dec_text) by (intros K; apply blank_rstrip in K; vm_compute in K; discriminate).
  split; [exact HI|]. split; [exact HB|]. split.
  - exists ex_dec_text. eexists. split; [exact HI|]. split; [exact HB|]. split; vm_compute; reflexivity.
  - change (split_on NL (rstrip ex_dec_text)) with ([] ++ s "Title  " :: [s ""] ++ s "one" :: [s ""; s " "] ++ s "two" :: []).
    repeat match goal with
    | |- stretches [] [] => constructor
    | |- stretches _ ((0, ?t) :: ?e) => apply (st_cons [] _ t _ e)
    | |- stretches _ ((1, ?t) :: ?e) => apply (st_cons [_] _ t _ e)
    | |- stretches _ ((2, ?t) :: ?e) => apply (st_cons [_; _] _ t _ e)
    | |- Forall blank _ => repeat constructor; apply blank_rstrip; vm_compute; reflexivity
    | |- ~ blank _ => intros K; apply blank_rstrip in K; vm_compute in K; discriminate
    | |- trimmed _ _ => apply trimmed_rstrip; vm_compute; reflexivity
    end.
Qed.
