(** Block layout: doc_content_to_markdown on children that render, and textwrap.indent. *)
From Coq Require Import List NArith ZArith Bool String Lia Arith.
From Verif Require Import PyStr Values Schema Parse Date Markdown Basics StrFacts MarkFacts SpecParse ParseFacts4
  MdFacts SpecMd MdFacts2 LeafFacts Collapse.
Import ListNotations.
Open Scope string_scope.
Open Scope list_scope.

Fixpoint zip_with {A B C} (f : A -> B -> C) (l : list A) (m : list B) : list C :=
  match l, m with a :: l', b :: m' => f a b :: zip_with f l' m' | _, _ => [] end.

(** The blocks that get an empty line on both sides. *)
Definition pads (k : nkind) : bool := match k with KbulletList | KorderedList | KcodeBlock => true | _ => false end.
Definition laid_out (n : node) (x : str) : str := if pads (n_kind n) then nl ++ x ++ nl else x.

Lemma is_padded n : n_type n = VStr (nk_name (n_kind n)) -> is_type_of n padded = pads (n_kind n).
Proof. intros H. rewrite (is_type_of_name n (n_kind n)) by exact H. destruct (n_kind n); vm_compute; reflexivity. Qed.

Lemma doc_renders E l xs ign : Forall consistent l -> Forall2 (renders E) l xs ->
  doc_content_to_markdown (to_md E) (Items l) ign = Ok (strip_double_empty_line (join nl (zip_with laid_out l xs))).
Proof.
  intros HC HF. unfold doc_content_to_markdown, loop.
  rewrite (for_each_single _ l (map VStr (zip_with laid_out l xs))).
  - cbn [rbind]. now rewrite join_values_str.
  - revert HC. induction HF as [|n x l xs H HF IH]; intros HC; [constructor|]. inversion HC; subst. constructor; [|auto].
    unfold renders, to_markdown in H. unfold block_md. rewrite is_padded by (now apply consistent_type).
    unfold laid_out. rewrite H. destruct (pads (n_kind n)); reflexivity.
Qed.

Lemma visible_join_nl l : visible_chars (join nl l) = List.concat (map visible_chars l).
Proof.
  induction l as [|x l IH]; [reflexivity|]. destruct l as [|y l]; [cbn; now rewrite app_nil_r|].
  rewrite join_cons by discriminate. rewrite !visible_app, IH. reflexivity.
Qed.
Lemma visible_laid_out n x : visible_chars (laid_out n x) = visible_chars x.
Proof.
  unfold laid_out. destruct (pads (n_kind n)); [|reflexivity]. rewrite !visible_app. cbn. apply app_nil_r.
Qed.
Lemma zip_visible l xs : List.length l = List.length xs ->
  map visible_chars (zip_with laid_out l xs) = map visible_chars xs.
Proof.
  revert xs. induction l as [|n l IH]; intros [|x xs] H; try discriminate; [reflexivity|].
  cbn. rewrite visible_laid_out. f_equal. apply IH. now injection H.
Qed.
Lemma full_lines_app a b : full_lines (a ++ NL :: b) = full_lines a ++ full_lines b.
Proof. unfold full_lines. now rewrite split_on_app_sep, filter_app. Qed.
Lemma full_lines_join l : full_lines (join nl l) = List.concat (map full_lines l).
Proof.
  induction l as [|x l IH]; [reflexivity|]. destruct l as [|y l]; [cbn [map List.concat join]; now rewrite app_nil_r|].
  rewrite join_cons by discriminate. cbn [nl app]. rewrite full_lines_app, IH. reflexivity.
Qed.
Lemma full_lines_laid_out n x : full_lines (laid_out n x) = full_lines x.
Proof.
  unfold laid_out. destruct (pads (n_kind n)); [|reflexivity]. change (nl ++ x ++ nl) with (NL :: (x ++ NL :: [])). rewrite full_lines_nl.
  rewrite full_lines_app. cbn. apply app_nil_r.
Qed.
Lemma zip_full_lines l xs : List.length l = List.length xs ->
  map full_lines (zip_with laid_out l xs) = map full_lines xs.
Proof.
  revert xs. induction l as [|n l IH]; intros [|x xs] H; try discriminate; [reflexivity|].
  cbn [zip_with map]. rewrite full_lines_laid_out. f_equal. apply IH. now injection H.
Qed.

(** ---------------------------------------------------------------- splitlines *)
(** A line terminator of str.splitlines. *)
Inductive terminator : str -> Prop :=
| term_crlf : terminator [CR; NL]
| term_one c : is_lb c = true -> terminator [c].
(** [line_list x ls]: ls are the lines of x with their terminators; "\r\n" counts as one. *)
Inductive line_list : str -> list str -> Prop :=
| ll_nil : line_list [] []
| ll_last c : c <> [] -> forallb (fun x => negb (is_lb x)) c = true -> line_list c [c]
| ll_line c t x ls : forallb (fun x => negb (is_lb x)) c = true -> terminator t ->
    (t = [CR] -> match x with d :: _ => d <> NL | [] => True end) ->
    line_list x ls -> line_list (c ++ t ++ x) ((c ++ t) :: ls).

Lemma splitlines_nil x : splitlines_keep x = [] -> x = [].
Proof.
  destruct x as [|c x]; [reflexivity|]. cbn. destruct (_ && _); [discriminate|].
  destruct (splitlines_keep x); discriminate.
Qed.
Lemma splitlines_concat x : List.concat (splitlines_keep x) = x.
Proof.
  induction x as [|c x IH]; [reflexivity|]. cbn. destruct (_ && _); [cbn; now rewrite IH|].
  destruct (splitlines_keep x) as [|l ls] eqn:E; [apply splitlines_nil in E; now subst|]. cbn in *. now rewrite IH.
Qed.
Lemma splitlines_spec x : line_list x (splitlines_keep x).
Proof.
  induction x as [|c x IH]; [constructor|]. cbn.
  destruct (is_lb c) eqn:L.
  - destruct ((c =? CR)%N && match x with d :: _ => (d =? NL)%N | [] => false end) eqn:B; cbn.
    + apply andb_true_iff in B as [B1 B2]. apply N.eqb_eq in B1. subst c. destruct x as [|d x]; [discriminate|].
      apply N.eqb_eq in B2. subst d. clear L. assert (E : splitlines_keep (NL :: x) = [NL] :: splitlines_keep x) by reflexivity.
      rewrite E in *. inversion IH as [|c0 H0 H1 H2|c0 t0 x0 ls0 H0 HT H1 HL EX EL].
      * subst. discriminate H1.
      * destruct c0 as [|z c0].
        -- cbn [app] in EX, EL. subst. change (CR :: NL :: x) with ([] ++ [CR; NL] ++ x).
           assert (x0 = x) as -> by (injection EX; auto). apply (ll_line [] [CR; NL] x); auto using terminator. discriminate.
        -- exfalso. destruct c0; cbn in EL; inversion HT; subst; cbn in EL; congruence.
    + change (c :: x) with ([] ++ [c] ++ x). apply (ll_line [] [c]); auto using terminator.
      intros E. injection E as ->. cbn in B. destruct x as [|d x]; [exact I|]. intros ->. discriminate B.
  - cbn. destruct (splitlines_keep x) as [|l ls] eqn:E.
    + apply splitlines_nil in E. subst. apply ll_last; [discriminate|]. cbn. now rewrite L.
    + inversion IH as [|c0 H0 H1 H2|c0 t0 x0 ls0 H0 HT H1 HL EX EL]; subst.
      * apply ll_last; [discriminate|]. cbn. now rewrite L.
      * change (c :: c0 ++ t0 ++ x0) with ((c :: c0) ++ t0 ++ x0).
        change (c :: c0 ++ t0) with ((c :: c0) ++ t0). apply ll_line; auto. cbn. now rewrite L.
Qed.
Lemma splitlines_clean_app p x : forallb (fun c => negb (is_lb c)) p = true -> p <> [] ->
  splitlines_keep (p ++ x) = match splitlines_keep x with [] => [p] | l :: ls => (p ++ l) :: ls end.
Proof.
  intros HP HN. induction p as [|c p IH]; [congruence|]. cbn in HP. apply andb_true_iff in HP as [H1 H2].
  cbn [app splitlines_keep]. rewrite negb_true_iff in H1. rewrite H1. cbn [andb].
  destruct p as [|d p].
  - cbn [app]. destruct (splitlines_keep x); reflexivity.
  - rewrite IH by (auto || discriminate). destruct (splitlines_keep x); reflexivity.
Qed.
(** The decomposition into lines is unique. *)
Lemma splitlines_line c t x : forallb (fun x => negb (is_lb x)) c = true -> terminator t ->
  (t = [CR] -> match x with d :: _ => d <> NL | [] => True end) ->
  splitlines_keep (c ++ t ++ x) = (c ++ t) :: splitlines_keep x.
Proof.
  intros HC HT HX.
  assert (E : splitlines_keep (t ++ x) = t :: splitlines_keep x).
  { destruct HT as [|d Hd]; [reflexivity|]. cbn. rewrite Hd. cbn [andb].
    destruct ((d =? CR)%N) eqn:ED; cbn [andb negb]; [|reflexivity]. apply N.eqb_eq in ED. subst d.
    destruct x as [|e x]; [reflexivity|]. specialize (HX eq_refl). cbn in HX.
    destruct (N.eqb_spec e NL); [congruence|reflexivity]. }
  destruct c as [|z c]; [exact E|].
  rewrite splitlines_clean_app by (auto || discriminate). now rewrite E.
Qed.
Lemma line_list_unique x ls : line_list x ls -> ls = splitlines_keep x.
Proof.
  induction 1 as [|c HN HC|c t x ls HC HT HX HL IH]; [reflexivity| |].
  - rewrite <- (app_nil_r c) at 2. rewrite splitlines_clean_app; auto.
  - rewrite splitlines_line by auto. now rewrite IH.
Qed.
(** Prefixed lines are the lines of the prefixed text. *)
Lemma splitlines_indent p x : forallb (fun c => negb (is_lb c)) p = true -> p <> [] ->
  splitlines_keep (indent_all p x) = map (app p) (splitlines_keep x).
Proof.
  intros HP HN. unfold indent_all. pose proof (splitlines_spec x) as HL.
  symmetry. apply line_list_unique.
  assert (HG : forall x ls, line_list x ls -> line_list (List.concat (map (app p) ls)) (map (app p) ls)).
  { clear x HL. intros x ls HL. induction HL as [|c HC HF|c t x ls HF HT HX HL IH].
    - constructor.
    - cbn. rewrite app_nil_r. apply ll_last; [now destruct p|]. now rewrite forallb_app, HP, HF.
    - cbn [map List.concat]. rewrite <- app_assoc. rewrite !app_assoc. rewrite <- (app_assoc (p ++ c)).
      apply ll_line; auto; [now rewrite forallb_app, HP, HF|].
      intros E. destruct ls as [|l ls]; [exact I|]. cbn. destruct p as [|z p]; [congruence|]. cbn. intros ->.
      cbn in HP. discriminate HP. }
  exact (HG x _ HL).
Qed.
Lemma indent_recover p x : forallb (fun c => negb (is_lb c)) p = true -> p <> [] ->
  List.concat (map (skipn (List.length p)) (splitlines_keep (indent_all p x))) = x.
Proof.
  intros HP HN. rewrite splitlines_indent by auto. rewrite map_map.
  erewrite map_ext; [|intros l; rewrite skipn_app, skipn_all, Nat.sub_diag; reflexivity].
  rewrite map_id. apply splitlines_concat.
Qed.
