(** Strings occurring in order: how every string transformation of the renderers treats them. *)
From Coq Require Import List NArith ZArith Bool String Lia.
From Verif Require Import PyStr Values Schema Parse Date Markdown Basics StrFacts MarkFacts Collapse LayoutFacts SpecParse SpecMd
  SpecTable TableFacts SpecText.
Import ListNotations.
Open Scope string_scope.
Open Scope list_scope.

Definition solid (t : str) : Prop :=
  (forall c, In c t -> is_lb c = false) /\ (exists c r, t = c :: r /\ is_ws c = false) /\
  (exists r c, t = r ++ [c] /\ is_ws c = false).

(** ---------------------------------------------------------------- in_order *)
Lemma io_pre g ts x : in_order ts x -> in_order ts (g ++ x).
Proof. destruct 1 as [x|h t ts x H]; [constructor|]. rewrite app_assoc. now constructor. Qed.
Lemma io_app a b x y : in_order a x -> in_order b y -> in_order (a ++ b) (x ++ y).
Proof.
  induction 1 as [x|g t ts x H IH]; intros HB; cbn [app]; [now apply io_pre|].
  rewrite <- !app_assoc. constructor. auto.
Qed.
Lemma io_suf g ts x : in_order ts x -> in_order ts (x ++ g).
Proof. intros H. rewrite <- (app_nil_r ts). apply io_app; [exact H|constructor]. Qed.
Lemma io_mid g h ts x : in_order ts x -> in_order ts (g ++ x ++ h).
Proof. intros H. now apply io_pre, io_suf. Qed.
Lemma io_contains ts x y : in_order ts x -> contains x y -> in_order ts y.
Proof. intros H (a & b & ->). now apply io_mid. Qed.
Lemma io_self t : in_order [t] t.
Proof. rewrite <- (app_nil_r t) at 2. apply (io_cons [] t []). constructor. Qed.
Lemma io_map f : (forall a b, f (a ++ b) = f a ++ f b) -> forall ts x, in_order ts x -> in_order (map f ts) (f x).
Proof. intros HF. induction 1; cbn [map]; [constructor|]. rewrite !HF. now constructor. Qed.
Lemma io_nil_inv ts : Forall solid ts -> in_order ts [] -> ts = [].
Proof.
  intros HS H. remember (@nil N) as x eqn:E. destruct H as [|g t ts x H]; [reflexivity|].
  apply Forall_cons_iff in HS as [(_ & (c & r & -> & _) & _) _]. destruct g; discriminate.
Qed.

(** ---------------------------------------------------------------- several strings *)
Definition holds (ts : list str) (xs : list str) : Prop :=
  exists tss, List.concat tss = ts /\ Forall2 in_order tss xs.
Lemma holds_nil : holds [] [].
Proof. exists []. split; [reflexivity|constructor]. Qed.
Lemma holds_one ts x : in_order ts x -> holds ts [x].
Proof. intros H. exists [ts]. split; [apply app_nil_r|]. now repeat constructor. Qed.
Lemma holds_app a b xs ys : holds a xs -> holds b ys -> holds (a ++ b) (xs ++ ys).
Proof.
  intros (p & <- & HP) (q & <- & HQ). exists (p ++ q). split; [apply concat_app|now apply Forall2_app].
Qed.
Lemma holds_cons a b x ys : in_order a x -> holds b ys -> holds (a ++ b) (x :: ys).
Proof. intros H1 H2. apply (holds_app a b [x] ys); [now apply holds_one|exact H2]. Qed.
Lemma holds_join sep ts xs : holds ts xs -> in_order ts (join sep xs).
Proof.
  intros (tss & <- & H). induction H as [|a x tss xs HA H IH]; [constructor|]. cbn [List.concat].
  destruct xs as [|y xs].
  - inversion H; subst. cbn. rewrite app_nil_r. exact HA.
  - rewrite join_cons by discriminate. apply io_app; [exact HA|]. now apply io_pre.
Qed.
Lemma holds_concat ts xs : holds ts xs -> in_order ts (List.concat xs).
Proof.
  intros (tss & <- & H). induction H as [|a x tss xs HA H IH]; [constructor|]. cbn [List.concat]. now apply io_app.
Qed.
Lemma solid_concat tss : Forall solid (List.concat tss) <-> Forall (Forall solid) tss.
Proof.
  induction tss as [|a tss IH]; cbn [List.concat]; [split; constructor|]. rewrite Forall_app, Forall_cons_iff, IH. tauto.
Qed.
Lemma holds_map f ts xs : (forall a x, Forall solid a -> in_order a x -> in_order a (f x)) -> Forall solid ts ->
  holds ts xs -> holds ts (map f xs).
Proof.
  intros HF HS (tss & <- & H). exists tss. split; [reflexivity|]. apply solid_concat in HS.
  induction H as [|a x tss xs HA H IH]; [constructor|]. apply Forall_cons_iff in HS as [H1 H2]. constructor; auto.
Qed.

(** Cutting into lines. *)
Lemma split_on_clean t l ls c x : (forall a, In a t -> a <> c) -> split_on c x = l :: ls -> split_on c (t ++ x) = (t ++ l) :: ls.
Proof.
  intros HT HX. induction t as [|a t IH]; [exact HX|]. cbn [app split_on]. rewrite IH by (intros b Hb; apply HT; now right).
  destruct (N.eqb_spec a c) as [->|_]; [exfalso; now apply (HT c (or_introl eq_refl))|reflexivity].
Qed.
Lemma lb_not_nl t : (forall c, In c t -> is_lb c = false) -> forall a, In a t -> a <> NL.
Proof. intros H a HA ->. specialize (H _ HA). discriminate. Qed.
Lemma holds_split_pre g ts x : holds ts (split_on NL x) -> holds ts (split_on NL (g ++ x)).
Proof.
  intros H. induction g as [|c g IH]; [exact H|]. cbn [app split_on]. destruct (N.eqb c NL).
  - apply (holds_cons [] ts); [constructor|exact IH].
  - destruct (split_on NL (g ++ x)) as [|l ls] eqn:E; [now apply split_on_nonnil in E|].
    destruct IH as (tss & <- & IH). inversion IH as [|a ? tss' ? HA HB]; subst.
    exists (a :: tss'). split; [reflexivity|]. constructor; [now apply (io_pre [c])|exact HB].
Qed.
Lemma holds_split ts x : Forall solid ts -> in_order ts x -> holds ts (split_on NL x).
Proof.
  intros HS H. induction H as [x|g t ts x H IH].
  - exists (map (fun _ => []) (split_on NL x)). split.
    + induction (split_on NL x); auto.
    + induction (split_on NL x); constructor; auto; constructor.
  - apply Forall_cons_iff in HS as [HT HS]. specialize (IH HS). apply holds_split_pre.
    destruct (split_on NL x) as [|l ls] eqn:E; [now apply split_on_nonnil in E|].
    rewrite (split_on_clean t l ls) by (auto; apply lb_not_nl; apply HT).
    destruct IH as (tss & <- & IH). inversion IH as [|a ? tss' ? HA HB]; subst.
    exists ((t :: a) :: tss'). split; [reflexivity|]. constructor; [|exact HB]. now apply (io_cons [] t).
Qed.
Lemma holds_lines_pre g ts x : holds ts (splitlines_keep x) -> holds ts (splitlines_keep (g ++ x)).
Proof.
  intros H. induction g as [|c g IH]; [exact H|]. cbn [app splitlines_keep]. destruct (_ && _).
  - apply (holds_cons [] ts); [constructor|exact IH].
  - destruct (splitlines_keep (g ++ x)) as [|l ls] eqn:E.
    + destruct IH as (tss & <- & IH). inversion IH; subst. apply holds_one. constructor.
    + destruct IH as (tss & <- & IH). inversion IH as [|a ? tss' ? HA HB]; subst.
      exists (a :: tss'). split; [reflexivity|]. constructor; [now apply (io_pre [c])|exact HB].
Qed.
Lemma holds_lines ts x : Forall solid ts -> in_order ts x -> holds ts (splitlines_keep x).
Proof.
  intros HS H. induction H as [x|g t ts x H IH].
  - exists (map (fun _ => []) (splitlines_keep x)). split.
    + induction (splitlines_keep x); auto.
    + induction (splitlines_keep x); constructor; auto; constructor.
  - apply Forall_cons_iff in HS as [HT HS]. specialize (IH HS). apply holds_lines_pre.
    destruct HT as (HL & (c & r & HE & _) & _).
    rewrite splitlines_clean_app.
    + destruct (splitlines_keep x) as [|l ls] eqn:E.
      * destruct IH as (tss & <- & IH). inversion IH; subst. apply holds_one, io_self.
      * destruct IH as (tss & <- & IH). inversion IH as [|a ? tss' ? HA HB]; subst.
        exists (((c :: r) :: a) :: tss'). split; [reflexivity|]. constructor; [|exact HB]. now apply (io_cons [] (c :: r)).
    + apply forallb_forall. intros a Ha. now rewrite (HL a Ha).
    + subst t. discriminate.
Qed.

(** ---------------------------------------------------------------- the transformations *)
Lemma io_indent p ts x : Forall solid ts -> in_order ts x -> in_order ts (indent_all p x).
Proof.
  intros HS H. unfold indent_all. apply holds_concat. apply holds_map; [|exact HS|now apply holds_lines].
  intros a l _. apply io_pre.
Qed.

Lemma rstrip_nonws c x : is_ws c = false -> rstrip (c :: x) = c :: rstrip x.
Proof. intros H. unfold rstrip. cbn [rstrip_by]. destruct (rstrip_by is_ws x); [now rewrite H|reflexivity]. Qed.
Lemma rstrip_grow g z : rstrip z <> [] -> rstrip (g ++ z) = g ++ rstrip z.
Proof.
  intros H. induction g as [|c g IH]; [reflexivity|]. cbn [app]. unfold rstrip in *. cbn [rstrip_by]. rewrite IH.
  destruct (g ++ rstrip_by is_ws z) as [|a l] eqn:E; [|reflexivity]. apply app_eq_nil in E as [_ E]. congruence.
Qed.
Lemma io_rstrip ts x : Forall solid ts -> in_order ts x -> in_order ts (rstrip x).
Proof.
  intros HS H. induction H as [x|g t ts x H IH]; [constructor|].
  apply Forall_cons_iff in HS as [(_ & _ & (r & c & -> & HC)) HS].
  assert (E : rstrip (g ++ (r ++ [c]) ++ x) = g ++ (r ++ [c]) ++ rstrip x).
  { replace (g ++ (r ++ [c]) ++ x) with ((g ++ r) ++ c :: x) by (now rewrite <- !app_assoc).
    rewrite rstrip_grow; rewrite (rstrip_nonws c x HC); [|discriminate]. now rewrite <- !app_assoc. }
  rewrite E. constructor. auto.
Qed.
Lemma io_lstrip_sp ts x : Forall solid ts -> in_order ts x -> in_order ts (lstrip_sp x).
Proof.
  intros HS H. destruct H as [x|g t ts x H]; [constructor|].
  apply Forall_cons_iff in HS as [(_ & (c & r & -> & HC) & _) HS].
  unfold lstrip_sp. induction g as [|b g IH].
  - cbn [app lstrip_by]. destruct (N.eqb_spec SP c) as [<-|_]; [discriminate|]. now apply (io_cons [] (c :: r)).
  - cbn [app lstrip_by]. destruct (N.eqb SP b); [exact IH|]. apply (io_cons (b :: g) (c :: r)). exact H.
Qed.
Lemma io_cell_line ts x : Forall solid ts -> in_order ts x -> in_order ts (cell_line x).
Proof.
  intros HS H. unfold cell_line. destruct (Nat.ltb _ _); [|exact H]. apply io_pre. now apply io_lstrip_sp.
Qed.

Lemma escape_app a b : escape (a ++ b) = escape a ++ escape b.
Proof. induction a as [|c a IH]; [reflexivity|]. cbn [app escape]. rewrite IH. destruct (N.eqb c PIPE); reflexivity. Qed.
Lemma solid_escape t : solid t -> solid (escape t).
Proof.
  intros (HL & (c & r & HE & HC) & (r' & c' & HE' & HC')). split; [|split].
  - intros a HA. apply escape_in in HA as [HA| ->]; [auto|reflexivity].
  - rewrite HE. cbn [escape]. destruct (N.eqb c PIPE); eexists _, _; split; eauto.
  - rewrite HE', escape_app. cbn [escape]. destruct (N.eqb c' PIPE) eqn:EP.
    + exists (escape r' ++ [BACKSLASH]), PIPE. split; [now rewrite <- app_assoc|reflexivity].
    + exists (escape r'), c'. auto.
Qed.
Lemma io_cell_text ts x : Forall solid ts -> in_order ts x -> in_order (map escape ts) (cell_text x).
Proof.
  intros HS H. unfold cell_text. rewrite escape_replace. apply holds_join.
  assert (HS' : Forall solid (map escape ts)).
  { apply Forall_map. eapply Forall_impl; [|exact HS]. apply solid_escape. }
  apply holds_map; [exact io_cell_line|exact HS'|]. apply holds_split; [exact HS'|]. apply io_map; [exact escape_app|exact H].
Qed.

(** Blank-line collapsing keeps the non-empty lines. *)
Lemma holds_full ts ls : Forall solid ts -> holds ts ls ->
  holds ts (filter (fun l : str => match l with [] => false | _ => true end) ls).
Proof.
  intros HS (tss & <- & H). apply solid_concat in HS. induction H as [|a x tss ls HA H IH]; [apply holds_nil|].
  apply Forall_cons_iff in HS as [H1 H2]. cbn [filter List.concat]. destruct x as [|c x].
  - rewrite (io_nil_inv a H1 HA). cbn [app]. auto.
  - apply holds_cons; auto.
Qed.
Lemma holds_unfull ls : forall ts, holds ts (filter (fun l : str => match l with [] => false | _ => true end) ls) -> holds ts ls.
Proof.
  induction ls as [|l ls IH]; intros ts H; [exact H|]. cbn [filter] in H. destruct l as [|c l].
  - apply (holds_cons [] ts); [constructor|auto].
  - destruct H as (tss & <- & H). inversion H as [|a ? tss' ? HA HB]; subst. cbn [List.concat].
    apply holds_cons; [exact HA|]. apply IH. exists tss'. auto.
Qed.
Lemma io_collapse ts x : Forall solid ts -> in_order ts x -> in_order ts (strip_double_empty_line x).
Proof.
  intros HS H. apply (holds_split ts x HS) in H. apply (holds_full ts _ HS) in H.
  change (holds ts (full_lines x)) in H. rewrite <- strip_full_lines in H. apply holds_unfull in H.
  apply (holds_join [NL]) in H. now rewrite join_split in H.
Qed.

Lemma holds_quote ls : forall ts n b, Forall solid ts -> holds ts ls -> holds ts (quote_lines n b ls).
Proof.
  induction ls as [|l ls IH]; intros ts n b HS H; [exact H|].
  destruct H as (tss & <- & H). inversion H as [|a ? tss' ? HA HB]; subst. cbn [List.concat] in *.
  apply Forall_app in HS as [H1 H2]. pose proof (io_rstrip _ _ H1 HA) as HR. cbn [quote_lines].
  assert (HT : holds (List.concat tss') ls) by (now exists tss').
  destruct (rstrip l) as [|c r].
  - rewrite (io_nil_inv a H1 HR). cbn [app]. destruct (_ || _); [auto|]. apply (holds_cons []); [constructor|auto].
  - apply holds_cons; [now apply io_pre|auto].
Qed.

(** Marks. *)
Lemma replaces_keeps m : replaces_text m = negb (keeps_text m).
Proof.
  unfold replaces_text, keeps_text, indents, titled. destruct (m_kind m); try reflexivity. cbn [negb andb].
  destruct (m_attrs m); try reflexivity. now rewrite negb_involutive.
Qed.
Lemma mark_string E m t : match mark_to_markdown E m (VStr t) with Ok v => exists y, v = VStr y | Err _ => True end.
Proof.
  unfold mark_to_markdown. destruct (m_kind m); cbn [wrap_mark code_mark]; try (eexists; reflexivity).
  - destruct (existsb _ t); [exact I|eexists; reflexivity].
  - unfold link_mark. destruct (attr (m_attrs m) (s "title")); [|exact I]. cbn [rbind].
    destruct (attr (m_attrs m) (s "href")); [|exact I]. eexists; reflexivity.
  - destruct (attr (m_attrs m) (s "level")); [|exact I]. cbn [rbind]. destruct (times a [9%N]); [|exact I]. eexists; reflexivity.
Qed.
Lemma apply_contains E ms : forall t y, existsb replaces_text ms = false ->
  apply_marks E ms (VStr t) = Ok (VStr y) -> contains t y.
Proof.
  induction ms as [|m ms IH]; intros t y HK; cbn [apply_marks].
  - intros H. apply okstr_inj in H. subst. apply contains_refl.
  - cbn [existsb] in HK. apply orb_false_iff in HK as [H1 H2]. pose proof (mark_string E m t) as H.
    destruct (mark_to_markdown E m (VStr t)) as [x|e] eqn:EM.
    + destruct H as [x' ->]. intros HA. eapply contains_trans; [eapply mark_keeps; [|exact EM]|eapply IH; eauto].
      rewrite replaces_keeps in H1. now apply negb_false_iff in H1.
    + destruct e; try discriminate. intros HA. apply okstr_inj in HA. subst. apply contains_refl.
Qed.
Lemma io_style E ma ts t y : in_order ts t -> add_style E ma (VStr t) = Ok (VStr y) -> in_order (kept_by ma ts) y.
Proof.
  intros H. unfold add_style, kept_by. destruct ma as [| |ms|]; try (intros HA; apply okstr_inj in HA; now subst).
  destruct (existsb replaces_text ms) eqn:EK; [constructor|]. intros HA. eapply io_contains; [exact H|]. eapply apply_contains; eauto.
Qed.
Lemma solid_kept ma ts : Forall solid ts -> Forall solid (kept_by ma ts).
Proof. intros H. destruct ma; cbn; auto. destruct (existsb _ _); auto. Qed.

(** Pieces. *)
Lemma lb_is_ws c : is_lb c = true -> is_ws c = true.
Proof.
  unfold is_lb, is_ws. rewrite !orb_true_iff, !andb_true_iff, !N.eqb_eq, !N.leb_le. lia.
Qed.
Lemma segments_nonnil x : segments x <> [].
Proof. destruct x as [|c x]; [discriminate|]. cbn. destruct (is_lb c); [discriminate|]. destruct (segments x); discriminate. Qed.
Lemma segments_clean x : Forall (fun l => forall c, In c l -> is_lb c = false) (segments x).
Proof.
  induction x as [|c x IH]; cbn; [repeat constructor; intros ? []|]. destruct (is_lb c) eqn:L; [constructor; [intros ? []|exact IH]|].
  destruct (segments x) as [|l ls]; [repeat constructor; now intros ? [<-|[]]|].
  apply Forall_cons_iff in IH as [H1 H2]. constructor; [|exact H2]. intros a [<-|HA]; auto.
Qed.
Lemma strip_contains x : contains (strip x) x.
Proof.
  unfold strip. destruct (rstrip_by_app is_ws x) as (b & E & _).
  assert (HL : forall y, exists a, y = a ++ lstrip_by is_ws y).
  { induction y as [|c y [a IH]]; [now exists []|]. cbn. destruct (is_ws c); [|now exists []]. exists (c :: a). cbn. congruence. }
  destruct (HL (rstrip_by is_ws x)) as [a HA]. exists a, b. rewrite E at 1. rewrite HA at 1. now rewrite <- app_assoc.
Qed.
Lemma holds_segments x : holds (pieces x) (segments x).
Proof.
  unfold pieces. induction (segments x) as [|l ls IH]; [apply holds_nil|]. cbn [map filter].
  assert (H : in_order (if nonempty (strip l) then [strip l] else []) l).
  { destruct (nonempty (strip l)); [|constructor]. eapply io_contains; [apply io_self|apply strip_contains]. }
  destruct (nonempty (strip l)); exact (holds_cons _ _ _ _ H IH).
Qed.
Lemma segments_keep x : exists zs, List.concat zs = x /\ Forall2 (fun l z => exists b, z = l ++ b) (segments x) zs.
Proof.
  induction x as [|c x (zs & <- & IH)].
  - exists [[]]. split; [reflexivity|]. repeat constructor. now exists [].
  - cbn [segments]. destruct (is_lb c).
    + exists ([c] :: zs). split; [reflexivity|]. constructor; [now exists [c]|exact IH].
    + destruct (segments (List.concat zs)) as [|l ls]; inversion IH as [|? z ? zs' (b & HB) HC]; subst.
      * exists [[c]]. split; [reflexivity|]. repeat constructor. now exists [].
      * exists ((c :: l ++ b) :: zs'). split; [reflexivity|]. constructor; [now exists b|exact HC].
Qed.
Lemma io_pieces x : in_order (pieces x) x.
Proof.
  destruct (segments_keep x) as (zs & HX & HZ). rewrite <- HX at 2. apply holds_concat.
  destruct (holds_segments x) as (tss & <- & H). exists tss. split; [reflexivity|].
  set (ls := segments x) in *. clearbody ls. clear HX x.
  revert tss H. induction HZ as [|l z ls zs (b & ->) HZ IH]; intros tss H; inversion H; subst; constructor; [now apply io_suf|auto].
Qed.
Lemma strip_solid l : (forall c, In c l -> is_lb c = false) -> nonempty (strip l) = true -> solid (strip l).
Proof.
  intros HL HN. split; [|split].
  - intros c HC. apply HL. destruct (strip_contains l) as (a & b & E). rewrite E. apply in_or_app. right. apply in_or_app. now left.
  - unfold strip in *. set (y := rstrip_by is_ws l) in *. clearbody y. clear HL.
    induction y as [|c y IH]; [discriminate|]. cbn [lstrip_by] in *. destruct (is_ws c) eqn:W; [auto|]. exists c, y. auto.
  - unfold strip in *. pose proof (rstrip_by_last is_ws l) as HR. set (y := rstrip_by is_ws l) in *. clearbody y. clear HL.
    induction y as [|c y IH]; [discriminate|]. cbn [lstrip_by] in *. destruct (is_ws c) eqn:W.
    + apply IH; [exact HN|]. cbn [rev] in HR. destruct (rev y) as [|d r]; [exact I|exact HR].
    + destruct (rev (c :: y)) as [|d r] eqn:ER; [cbn [rev] in ER; apply app_eq_nil in ER as [_ ER]; discriminate|].
      exists (rev r), d. split; [|exact HR]. rewrite <- (rev_involutive (c :: y)), ER. reflexivity.
Qed.
Lemma pieces_solid x : Forall solid (pieces x).
Proof.
  unfold pieces. apply Forall_forall. intros t HT. apply filter_In in HT as [HT HN]. apply in_map_iff in HT as (l & <- & HL).
  apply strip_solid; [|exact HN]. pose proof (segments_clean x) as H. rewrite Forall_forall in H. now apply H.
Qed.
Lemma pieces_of_solid v : Forall solid (pieces_of v).
Proof. destruct v; cbn; auto using pieces_solid. Qed.
(** A one-line text without surrounding whitespace is its only piece. *)
Lemma solid_pieces t : solid t -> pieces t = [t].
Proof.
  intros (HL & (c & r & HE & HC) & (r' & c' & HE' & HC')). unfold pieces.
  assert (HS : segments t = [t]).
  { clear -HL. induction t as [|a t IH]; [reflexivity|]. cbn. rewrite (HL a (or_introl eq_refl)), IH; [reflexivity|]. intros b Hb. apply HL. now right. }
  rewrite HS. cbn [map].
  assert (HR : rstrip_by is_ws t = t).
  { rewrite <- (app_nil_r t) at 1. apply rstrip_by_unique; [|reflexivity]. rewrite HE', rev_app_distr. exact HC'. }
  assert (HT : strip t = t). { unfold strip. rewrite HR, HE. cbn [lstrip_by]. now rewrite HC. }
  rewrite HT. cbn [filter]. now rewrite HE.
Qed.
Lemma segments_escape x : segments (escape x) = map escape (segments x).
Proof.
  induction x as [|c x IH]; [reflexivity|]. cbn [escape segments].
  destruct (N.eqb_spec c PIPE) as [->|NP].
  - cbn [segments]. change (is_lb BACKSLASH) with false. change (is_lb PIPE) with false. cbn iota. rewrite IH.
    destruct (segments x) as [|l ls]; [reflexivity|]. cbn [map escape]. reflexivity.
  - cbn [segments]. rewrite IH. destruct (is_lb c); [reflexivity|]. destruct (segments x) as [|l ls]; cbn [map escape];
      (destruct (N.eqb_spec c PIPE); [contradiction|reflexivity]).
Qed.
Lemma forallb_escape x : forallb is_ws x = true -> escape x = x.
Proof.
  induction x as [|c x IH]; [reflexivity|]. cbn [forallb escape]. intros H. apply andb_true_iff in H as [H1 H2].
  destruct (N.eqb_spec c PIPE) as [->|]; [discriminate|]. now rewrite IH.
Qed.
Lemma strip_decompose x : exists a b, x = a ++ strip x ++ b /\ forallb is_ws a = true /\ forallb is_ws b = true.
Proof.
  unfold strip. destruct (rstrip_by_app is_ws x) as (b & E & HB). set (y := rstrip_by is_ws x) in *. clearbody y. subst x.
  induction y as [|c y (a & b' & E & HA & HB')]; [exists [], b; auto|]. cbn [lstrip_by]. destruct (is_ws c) eqn:W.
  - exists (c :: a), b'. cbn [app forallb]. rewrite E at 1. rewrite W, HA. auto.
  - exists [], b. auto.
Qed.
Lemma lstrip_by_ws a y : forallb is_ws a = true -> lstrip_by is_ws (a ++ y) = lstrip_by is_ws y.
Proof. induction a as [|c a IH]; [reflexivity|]. cbn. destruct (is_ws c); [auto|discriminate]. Qed.
Lemma strip_surround a t b : forallb is_ws a = true -> forallb is_ws b = true -> t = [] \/ solid t ->
  strip (a ++ t ++ b) = t.
Proof.
  intros HA HB [->|HS].
  - apply strip_nil. cbn [app]. now rewrite forallb_app, HA, HB.
  - unfold strip. destruct HS as (_ & (c & r & HE & HC) & (r' & c' & HE' & HC')).
    rewrite app_assoc, rstrip_by_unique; [|rewrite HE', app_assoc, rev_app_distr; exact HC'|exact HB].
    rewrite lstrip_by_ws by exact HA. rewrite HE. cbn [lstrip_by]. now rewrite HC.
Qed.
Lemma strip_escape l : (forall c, In c l -> is_lb c = false) -> strip (escape l) = escape (strip l).
Proof.
  intros HL. destruct (strip_decompose l) as (a & b & E & HA & HB). rewrite E at 1. rewrite !escape_app.
  rewrite (forallb_escape a HA), (forallb_escape b HB). apply strip_surround; auto.
  destruct (nonempty (strip l)) eqn:N; [right; apply solid_escape; now apply strip_solid|left; destruct (strip l); [reflexivity|discriminate]].
Qed.
Lemma nonempty_escape x : nonempty (escape x) = nonempty x.
Proof. destruct x as [|c x]; [reflexivity|]. cbn [escape]. destruct (N.eqb c PIPE); reflexivity. Qed.
Lemma pieces_escape x : pieces (escape x) = map escape (pieces x).
Proof.
  unfold pieces. rewrite segments_escape, map_map. pose proof (segments_clean x) as H.
  induction H as [|l ls HL _ IH]; [reflexivity|]. cbn [map filter]. rewrite strip_escape by exact HL. rewrite nonempty_escape.
  destruct (nonempty (strip l)); cbn [map]; now rewrite IH.
Qed.
