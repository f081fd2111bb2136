(** The elements that find_all gives, and the first of them (C84). *)
From Coq Require Import List NArith Bool String Arith Sorted Lia.
From Verif Require Import PyStr Values Basics StrFacts Crawl SpecCrawl.
Import ListNotations.
Open Scope string_scope.
Open Scope list_scope.
Open Scope nat_scope.

Section Ind.
  Variable P : html -> Prop.
  Hypothesis HT : forall t, P (Text t).
  Hypothesis HG : forall n cs l ks, Forall P ks -> P (Tag n cs l ks).
  Fixpoint html_induction (h : html) : P h :=
    match h with
    | Text t => HT t
    | Tag n cs l ks => HG n cs l ks ((fix go l := match l return Forall P l with [] => Forall_nil _ | k :: r => Forall_cons _ (html_induction k) (go r) end) ks)
    end.
End Ind.
(** The positions of [below], in its order. *)
Definition under (i : nat) (ps : list (list nat)) : list (list nat) := [i] :: map (cons i) ps.
Fixpoint positions (h : html) : list (list nat) :=
  match h with
  | Tag _ _ _ ks => (fix go i l := match l with [] => [] | k :: r => under i (positions k) ++ go (S i) r end) 0 ks
  | Text _ => []
  end.
Fixpoint positions_from (i : nat) (l : list html) : list (list nat) := match l with [] => [] | k :: r => under i (positions k) ++ positions_from (S i) r end.
Lemma positions_eq n cs l ks : positions (Tag n cs l ks) = positions_from 0 ks. Proof. reflexivity. Qed.
Definition located (h : html) : Prop :=
  Forall2 (fun p e => p <> [] /\ at_path h p = Some e) (positions h) (below h) /\ StronglySorted earlier (positions h) /\
  forall q e, q <> [] -> at_path h q = Some e -> In q (positions h).
Lemma sorted_app {A} (R : A -> A -> Prop) l1 l2 : StronglySorted R l1 -> StronglySorted R l2 -> (forall a b, In a l1 -> In b l2 -> R a b) -> StronglySorted R (l1 ++ l2).
Proof.
  intros H1 H2 HR. induction H1 as [|a l1 H1 IH HF]; [exact H2|]. cbn [app]. constructor; [apply IH; intros x y HX HY; apply HR; [now right|exact HY]|].
  apply Forall_app. split; [exact HF|]. apply Forall_forall. intros b HB. apply HR; [now left|exact HB].
Qed.
Lemma sorted_under i ps : StronglySorted earlier ps -> (forall p, In p ps -> p <> []) -> StronglySorted earlier (under i ps).
Proof.
  intros HS HN. constructor.
  - clear HN. induction HS as [|p ps HS IH HF]; [constructor|]. cbn [map]. constructor; [exact IH|]. apply Forall_map. eapply Forall_impl; [|exact HF]. intros q Hq. now constructor.
  - apply Forall_map, Forall_forall. intros p HP. apply e_same. specialize (HN p HP). destruct p; [now destruct HN|constructor].
Qed.
Lemma from_heads ks : forall i p, In p (positions_from i ks) -> exists j q, p = j :: q /\ i <= j.
Proof.
  induction ks as [|k ks IH]; intros i p H; [destruct H|]. cbn [positions_from] in H. apply in_app_or in H as [[<-|H]|H]; [eauto| |].
  - apply in_map_iff in H as (q & <- & _). eauto.
  - apply IH in H as (j & q & -> & HJ). exists j, q. split; [reflexivity|lia].
Qed.
Lemma all_located h : located h.
Proof.
  induction h as [t|n cs l ks HF] using html_induction.
  - split; [constructor|]. split; [constructor|]. intros [|i q] e HN HA; [now destruct HN|]. cbn in HA. destruct i; discriminate HA.
  - unfold located. rewrite positions_eq. cbn [below]. assert (G : forall ks' i0, Forall located ks' -> 
      Forall2 (fun p e => exists j q, p = (i0 + j) :: q /\ match nth_error ks' j with Some k => at_path k q | None => None end = Some e) (positions_from i0 ks') (List.concat (map (fun k => k :: below k) ks')) /\
      StronglySorted earlier (positions_from i0 ks') /\
      forall j q e, match nth_error ks' j with Some k => at_path k q | None => None end = Some e -> In ((i0 + j) :: q) (positions_from i0 ks')).
    { clear. induction ks' as [|k ks' IH]; intros i0 HL; [split; [constructor|split; [constructor|intros [|j] q e H; discriminate H]]|].
      inversion HL as [|? ? (H1 & H2 & H3) HL']; subst. destruct (IH (S i0) HL') as (G1 & G2 & G3). cbn [positions_from map List.concat]. split; [|split].
      - apply Forall2_app.
        + constructor; [exists 0, []; split; [f_equal; lia|reflexivity]|]. clear -H1. induction H1 as [|p e ps es [HN HA] _ IH]; [constructor|]. cbn [map]. constructor; [|exact IH]. exists 0, p. split; [f_equal; lia|exact HA].
        + clear -G1. induction G1 as [|p e ps es (j & q & -> & HA) _ IH]; constructor; [|exact IH]. exists (S j), q. split; [f_equal; lia|exact HA].
      - apply sorted_app; [apply sorted_under; [exact H2|]|exact G2|].
        + clear -H1. induction H1 as [|p e ps es [HN _] _ IH]; intros q [].
          * now subst.
          * now apply IH.
        + intros a b HA HB. apply from_heads in HB as (j & q & -> & HJ). destruct HA as [<-|HA]; [apply e_before; lia|]. apply in_map_iff in HA as (p & <- & _). apply e_before. lia.
      - intros [|j] q e HA; cbn [nth_error] in HA.
        + apply in_or_app. left. rewrite Nat.add_0_r. destruct q as [|x q]; [now left|]. right. apply in_map. eapply H3; [discriminate|exact HA].
        + apply in_or_app. right. replace (i0 + S j) with (S i0 + j) by lia. eapply G3. exact HA. }
    destruct (G ks 0 HF) as (G1 & G2 & G3). split; [|split; [exact G2|]].
    + clear -G1. induction G1 as [|p e ps es (j & q & -> & HA) _ IH]; constructor; [|exact IH]. split; [discriminate|exact HA].
    + intros [|j q] e HN HA; [now destruct HN|]. exact (G3 j q e HA).
Qed.
(** Filters of [below]. *)
Lemma earlier_not_same p : ~ earlier p p.
Proof. induction p as [|i p IH]; intros H; inversion H; subst; [lia|]. now apply IH. Qed.
Lemma earlier_asym p q : earlier p q -> ~ earlier q p.
Proof. induction 1 as [i r|i j p q H|i p q _ IH]; intros G; inversion G; subst; try lia. now apply IH. Qed.
Lemma filter_elements (P : html -> Prop) f h : (forall e, f e = true <-> P e) -> all_elements P h (filter f (below h)).
Proof.
  intros HP. destruct (all_located h) as (H1 & H2 & H3). 
  assert (G : forall ps es, Forall2 (fun p e => p <> [] /\ at_path h p = Some e) ps es -> StronglySorted earlier ps ->
    exists ps', Forall2 (fun p e => p <> [] /\ at_path h p = Some e /\ P e) ps' (filter f es) /\ StronglySorted earlier ps' /\ (forall p, In p ps' -> In p ps) /\
      forall q e, In q ps -> at_path h q = Some e -> P e -> In q ps').
  { clear -HP. induction 1 as [|p e ps es [HN HA] _ IH]; intros HS; [exists []; split; [constructor|split; [constructor|split; [intros p []|intros q e []]]]|].
    inversion HS as [|? ? HS' HF]; subst. destruct (IH HS') as (ps' & F1 & F2 & F3 & F4). cbn [filter]. destruct (f e) eqn:HE.
    - apply HP in HE. exists (p :: ps'). split; [constructor; auto|]. split; [constructor; [exact F2|]; apply Forall_forall; intros q Hq; rewrite Forall_forall in HF; apply HF; now apply F3|].
      split; [intros q [<-|Hq]; [now left|right; now apply F3]|]. intros q e' [<-|Hq] HA' HP'; [now left|]. right. eapply F4; eassumption.
    - exists ps'. split; [exact F1|]. split; [exact F2|]. split; [intros q Hq; right; now apply F3|]. intros q e' [<-|Hq] HA' HP'; [|eapply F4; eassumption].
      rewrite HA in HA'. injection HA' as <-. apply HP in HP'. congruence. }
  destruct (G _ _ H1 H2) as (ps' & F1 & F2 & _ & F4). exists ps'. split; [exact F1|]. split; [exact F2|]. intros q e HN HA HPe. eapply F4; [|exact HA|exact HPe]. now apply H3 with e.
Qed.
Lemma elements_first P h es : all_elements P h es -> match es with [] => forall d, ~ first_element P h d | d :: _ => first_element P h d end.
Proof.
  intros (ps & HF & HS & HC). destruct HF as [|p d ps es (HN & HA & HP) _].
  - intros d (p & HN & HA & HP & _). exact (HC p d HN HA HP).
  - exists p. split; [exact HN|]. split; [exact HA|]. split; [exact HP|]. intros q e HNq HAq HPq. destruct (HC q e HNq HAq HPq) as [<-|HI]; [now left|]. right.
    inversion HS as [|? ? _ HFo]; subst. rewrite Forall_forall in HFo. now apply HFo.
Qed.
Lemma first_unique P h d d' : first_element P h d -> first_element P h d' -> d = d'.
Proof.
  intros (p & HN & HA & HP & H) (q & HN' & HA' & HP' & H'). destruct (H q d' HN' HA' HP') as [->|E1]; [congruence|]. destruct (H' p d HN HA HP) as [->|E2]; [congruence|].
  now apply earlier_asym in E1.
Qed.
Lemma sorted_unique (ps qs : list (list nat)) : StronglySorted earlier ps -> StronglySorted earlier qs -> (forall p, In p ps <-> In p qs) -> ps = qs.
Proof.
  intros HS. revert qs. induction HS as [|p ps HS IH HF]; intros qs HQ HI.
  - destruct qs as [|q qs]; [reflexivity|]. exfalso. apply (HI q). now left.
  - destruct HQ as [|q qs HQ HFq]; [exfalso; apply (HI p); now left|]. rewrite Forall_forall in HF, HFq.
    assert (p = q). { destruct (proj1 (HI p)) as [E|E]; [now left|now symmetry|]. destruct (proj2 (HI q)) as [E'|E']; [now left|exact E'|]. exfalso. apply (earlier_asym p q); auto. }
    subst q. f_equal. apply IH; [exact HQ|]. intros x. split; intros HX.
    + destruct (proj1 (HI x)) as [<-|E]; [now right| |exact E]. exfalso. exact (earlier_not_same _ (HF _ HX)).
    + destruct (proj2 (HI x)) as [<-|E]; [now right| |exact E]. exfalso. exact (earlier_not_same _ (HFq _ HX)).
Qed.
Lemma elements_unique P h es es' : all_elements P h es -> all_elements P h es' -> es = es'.
Proof.
  intros (ps & HF & HS & HC) (qs & HF' & HS' & HC').
  assert (HE : forall p, In p ps <-> In p qs).
  { assert (X : forall ps es, Forall2 (fun p e => p <> [] /\ at_path h p = Some e /\ P e) ps es -> forall p, In p ps -> exists e, p <> [] /\ at_path h p = Some e /\ P e).
    { clear. induction 1 as [|p e ps es H _ IH]; intros q []; [subst; eauto|auto]. }
    intros p. split; intros HI; [destruct (X _ _ HF p HI) as (e & H1 & H2 & H3); exact (HC' p e H1 H2 H3)|destruct (X _ _ HF' p HI) as (e & H1 & H2 & H3); exact (HC p e H1 H2 H3)]. }
  pose proof (sorted_unique _ _ HS HS' HE) as <-. clear -HF HF'. revert es' HF'. induction HF as [|p e ps es (_ & HA & _) _ IH]; intros es' HF'; inversion HF' as [|? e' ? ? (_ & HA' & _)]; subst; [reflexivity|]. f_equal; [congruence|auto].
Qed.
(** The tests of the code. *)
Lemma named_iff x h : named x h = true <-> is_tag x h.
Proof.
  destruct h as [t|n cs l ks]; cbn [named]; [split; [discriminate|intros (? & ? & ? & H); discriminate H]|]. split; [intros H; apply str_eqb_eq in H as ->; unfold is_tag; eauto|intros (? & ? & ? & H); injection H as -> _ _ _; apply str_eqb_refl].
Qed.
Lemma h1_iff h : existsb (named "h1") (kids_of h) = true <-> exists k, In k (kids_of h) /\ is_tag "h1" k.
Proof. rewrite existsb_exists. split; intros (k & HI & HK); exists k; split; auto; now apply named_iff. Qed.
Lemma main_div_find soup : extract_the_main_div soup = match filter (fun h => named "div" h && existsb (named "h1") (kids_of h)) (below soup) with [] => None | d :: _ => Some d end.
Proof.
  unfold extract_the_main_div, find_all. induction (below soup) as [|h l IH]; [reflexivity|]. cbn [filter]. destruct (named "div" h); cbn [andb]; [|exact IH]. cbn [first_with_h1]. destruct (existsb _ (kids_of h)); [reflexivity|exact IH].
Qed.
Lemma main_div_iff soup d : extract_the_main_div soup = Some d <-> first_element article soup d.
Proof.
  rewrite main_div_find. assert (HE : all_elements article soup (filter (fun h => named "div" h && existsb (named "h1") (kids_of h)) (below soup))).
  { apply filter_elements. intros e. unfold article. rewrite andb_true_iff, named_iff, h1_iff. reflexivity. }
  apply elements_first in HE. destruct (filter _ (below soup)) as [|e es]; split; try discriminate; intros H.
  - now destruct (HE d).
  - injection H as <-. exact HE.
  - f_equal. exact (first_unique _ _ _ _ HE H).
Qed.
Lemma class_iff h : has_class (s "sideNavLinksScrollable") h && named "div" h = true <-> menu h.
Proof.
  rewrite andb_true_iff, named_iff. unfold menu. destruct h as [t|n cs l ks]; cbn [has_class].
  - split; [intros [X _]; discriminate X|intros (? & ? & ? & H & _); discriminate H].
  - rewrite existsb_exists. split.
    + intros [(x & HI & HX) (? & ? & ? & HE)]. injection HE as -> -> -> ->. apply str_eqb_eq in HX as <-. eauto 10.
    + intros (cs' & l' & ks' & HE & HI). injection HE as -> -> -> ->. split; [exists (s "sideNavLinksScrollable"); split; [exact HI|apply str_eqb_refl]|unfold is_tag; eauto].
Qed.
Lemma navigation_iff soup d : navigation soup = Some d <-> first_element menu soup d.
Proof.
  assert (HF : navigation soup = match filter (fun h => has_class (s "sideNavLinksScrollable") h && named "div" h) (below soup) with [] => None | d :: _ => Some d end).
  { unfold navigation, find_all. induction (below soup) as [|h l IH]; [reflexivity|]. cbn [filter]. destruct (named "div" h); cbn [find]; destruct (has_class _ h); cbn [andb]; try exact IH. reflexivity. }
  rewrite HF. assert (HE : all_elements menu soup (filter (fun h => has_class (s "sideNavLinksScrollable") h && named "div" h) (below soup))) by (apply filter_elements, class_iff).
  apply elements_first in HE. destruct (filter _ (below soup)) as [|e es]; split; try discriminate; intros H.
  - now destruct (HE d).
  - injection H as <-. exact HE.
  - f_equal. exact (first_unique _ _ _ _ HE H).
Qed.
Lemma find_all_elements x h : all_elements (is_tag x) h (find_all x h).
Proof. apply filter_elements, named_iff. Qed.
