(** Runs of the crawler and of the downloader (C83, C85). *)
From Coq Require Import List NArith Bool String Arith Sorted Lia.
From Verif Require Import PyStr Values Basics StrFacts Crawl SpecCrawl CrawlFacts1.
Import ListNotations.
Open Scope string_scope.
Open Scope list_scope.
Open Scope nat_scope.

Lemma lookup_put n t l m : lookup m (put n t l) = if str_eqb n m then Some t else lookup m l.
Proof.
  unfold put. cbn [lookup]. destruct (str_eqb n m) eqn:E; [reflexivity|]. induction l as [|[k v] l IH]; [reflexivity|]. cbn [filter fst lookup].
  destruct (str_eqb k n) eqn:EK; cbn [negb].
  - apply str_eqb_eq in EK as ->. rewrite E. exact IH.
  - cbn [lookup]. now rewrite IH.
Qed.
Lemma lookup_app {A} n (l1 l2 : list (str * A)) : lookup n (l1 ++ l2) = match lookup n l1 with Some t => Some t | None => lookup n l2 end.
Proof. induction l1 as [|[k v] l1 IH]; [reflexivity|]. cbn [app lookup]. destruct (str_eqb k n); [reflexivity|exact IH]. Qed.

(** ---------------------------------------------------------------- requests and the cache *)
Definition quiet (a : action) : Prop := match a with Request _ | Store _ _ => False | _ => True end.
Inductive trace (site : str -> option str) : list (str * str) -> list action -> list (str * str) -> bool -> Prop :=
| t_nil c : trace site c [] c false
| t_quiet a l c c' b : quiet a -> trace site c l c' b -> trace site c (a :: l) c' b
| t_get u h l c c' b : lookup u c = None -> site u = Some h -> trace site (put u h c) l c' b -> trace site c (Request u :: Store u h :: l) c' b
| t_fail u c : lookup u c = None -> site u = None -> trace site c [Request u] c true.
Definition traced {A} (site : str -> option str) (m : prog A) : Prop :=
  forall c l c' o, m c = (l, c', o) -> exists b, trace site c l c' b /\ (o <> None -> b = false).
Lemma trace_app site c l c1 l' c2 b : trace site c l c1 false -> trace site c1 l' c2 b -> trace site c (l ++ l') c2 b.
Proof.
  intros H. remember false as f eqn:HF. induction H as [c|a l c c' f HQ H IH|u h l c c' f HL HS H IH|u c HL HS]; intros H2; cbn [app]; [exact H2| | |discriminate HF].
  - apply t_quiet; auto.
  - apply t_get; auto.
Qed.
Lemma traced_bind {A B} site (m : prog A) (f : A -> prog B) : traced site m -> (forall a, traced site (f a)) -> traced site (bind m f).
Proof.
  intros HM HF c l c' o H. unfold bind in H. destruct (m c) as [[l1 c1] [a|]] eqn:E.
  - destruct (f a c1) as [[l2 c2] o2] eqn:E2. injection H as <- <- <-. destruct (HM _ _ _ _ E) as (b & HT & HB). rewrite (HB ltac:(discriminate)) in HT. destruct (HF a _ _ _ _ E2) as (b2 & HT2 & HB2).
    exists b2. split; [exact (trace_app _ _ _ _ _ _ _ HT HT2)|exact HB2].
  - injection H as <- <- <-. destruct (HM _ _ _ _ E) as (b & HT & _). exists b. split; [exact HT|intros X; now destruct X].
Qed.
Lemma traced_ret {A} site (a : A) : traced site (ret a). Proof. intros c l c' o H. injection H as <- <- <-. exists false. split; [constructor|reflexivity]. Qed.
Lemma traced_fail {A} site : traced site (@fail A). Proof. intros c l c' o H. injection H as <- <- <-. exists false. split; [constructor|reflexivity]. Qed.
Lemma traced_raise {A} site (o : option A) : traced site (or_raise o). Proof. destruct o; [apply traced_ret|apply traced_fail]. Qed.
Lemma traced_act site a : quiet a -> traced site (act a).
Proof. intros HQ c l c' o H. destruct a; try (now destruct HQ); injection H as <- <- <-; exists false; (split; [now repeat constructor|reflexivity]). Qed.
Lemma traced_get site u : traced site (get_html site u).
Proof.
  intros c l c' o H. unfold get_html in H. destruct (lookup u c) eqn:E; [injection H as <- <- <-; exists false; split; [constructor|reflexivity]|].
  unfold bind, act, or_raise in H. destruct (site u) as [h|] eqn:ES; cbn in H; injection H as <- <- <-.
  - exists false. split; [now apply t_get; [exact E|exact ES|constructor]|reflexivity].
  - exists true. split; [now apply t_fail|intros X; now destruct X].
Qed.
Section Crawler.
Variable E : env.
Lemma traced_write site n t : traced site (write_file E n t).
Proof. unfold write_file. destruct (place_of E n); [now apply traced_act|now apply traced_act|apply traced_fail]. Qed.
Lemma traced_crawl site u t : traced site (crawl E site u t).
Proof.
  unfold crawl. apply traced_bind; [apply traced_get|]. intros h. cbv zeta. apply traced_bind; [apply traced_raise|]. intros d. apply traced_bind; [apply traced_write|]. intros []. apply traced_ret.
Qed.
Lemma traced_links site ls : traced site (crawl_links E site ls).
Proof.
  induction ls as [|a ls IH]; [apply traced_ret|]. cbn [crawl_links]. apply traced_bind; [apply traced_raise|]. intros h. apply traced_bind; [apply traced_crawl|]. intros _. exact IH.
Qed.
Lemma traced_reset site : traced site reset_dir_tmp.
Proof. unfold reset_dir_tmp. apply traced_bind; [now apply traced_act|]. intros _. now apply traced_act. Qed.
Lemma traced_main site : traced site (main E site).
Proof.
  unfold main. apply traced_bind; [apply traced_reset|]. intros _. apply traced_bind; [apply traced_crawl|]. intros soup. apply traced_bind; [apply traced_raise|]. intros d. apply traced_links.
Qed.
Lemma traced_download site api ids : traced site (download E api ids).
Proof.
  unfold download. apply traced_bind; [apply traced_reset|]. intros _. induction ids as [|i ids IH]; [apply traced_ret|]. cbn [save_pages]. apply traced_bind; [apply traced_raise|]. intros p.
  apply traced_bind; [apply traced_write|]. intros _. exact IH.
Qed.
(** Every part of a run. *)
Definition knows (site : str -> option str) (c c' : list (str * str)) : Prop :=
  (forall u h, lookup u c = Some h -> lookup u c' = Some h) /\ forall u, sees c' site u = sees c site u.
Lemma knows_refl site c : knows site c c. Proof. split; auto. Qed.
Lemma knows_put site u h c : lookup u c = None -> site u = Some h -> knows site c (put u h c).
Proof.
  intros HL HS. split.
  - intros v x HV. rewrite lookup_put. destruct (str_eqb u v) eqn:EV; [|exact HV]. apply str_eqb_eq in EV as ->. congruence.
  - intros v. unfold sees. rewrite lookup_put. destruct (str_eqb u v) eqn:EV; [|reflexivity]. apply str_eqb_eq in EV as ->. now rewrite HL.
Qed.
Lemma knows_trans site c1 c2 c3 : knows site c1 c2 -> knows site c2 c3 -> knows site c1 c3.
Proof. intros [H1 H2] [H3 H4]. split; [auto|]. intros u. now rewrite H4. Qed.
Lemma performs_cons d a l : performs d (a :: l) = performs (perform d a) l. Proof. reflexivity. Qed.
Lemma trace_cache site c l c' b : trace site c l c' b -> forall d, cache d = c -> cache (performs d l) = c'.
Proof.
  induction 1 as [c|a l c c' b HQ H IH|u h l c c' b HL HS H IH|u c HL HS]; intros d HD; [exact HD| | |exact HD]; rewrite performs_cons.
  - apply IH. destruct a; try (now destruct HQ); exact HD.
  - rewrite performs_cons. apply IH. cbn. now rewrite HD.
Qed.
Lemma performs_app d l l' : performs d (l ++ l') = performs (performs d l) l'. Proof. apply fold_left_app. Qed.
Lemma trace_part site c l c' b : trace site c l c' b -> forall l1 l2, l = l1 ++ l2 ->
  (NoDup (requests l1) /\ forall u, In u (requests l1) -> lookup u c = None) /\ forall d, cache d = c -> knows site c (cache (performs d l1)).
Proof.
  induction 1 as [c|a l c c' b HQ H IH|u h l c c' b HL HS H IH|u c HL HS]; intros l1 l2 HE.
  - symmetry in HE. apply app_eq_nil in HE as [-> ->]. split; [split; [constructor|intros u []]|]. intros d <-. apply knows_refl.
  - destruct l1 as [|a' l1]; [split; [split; [constructor|intros u []]|]; intros d <-; apply knows_refl|]. injection HE as <- HE. destruct (IH l1 l2 HE) as [HR HK].
    assert (HRE : requests (a :: l1) = requests l1) by (destruct a; (reflexivity || now destruct HQ)). rewrite HRE. split; [exact HR|]. intros d HD.
    rewrite performs_cons. apply HK. destruct a; try (now destruct HQ); exact HD.
  - destruct l1 as [|a1 l1]; [split; [split; [constructor|intros v []]|]; intros d <-; apply knows_refl|]. injection HE as <- HE.
    destruct l1 as [|a2 l1]; [split; [split; [repeat constructor; intros []|intros v [<-|[]]; exact HL]|]; intros d <-; apply knows_refl|]. injection HE as <- HE. destruct (IH l1 l2 HE) as [[HN HR] HK].
    change (requests (Request u :: Store u h :: l1)) with (u :: requests l1). split; [split|].
    + constructor; [|exact HN]. intros HI. apply HR in HI. rewrite lookup_put, str_eqb_refl in HI. discriminate HI.
    + intros v [<-|HI]; [exact HL|]. apply HR in HI. rewrite lookup_put in HI. destruct (str_eqb u v); [discriminate HI|exact HI].
    + intros d HD. rewrite !performs_cons. eapply knows_trans; [apply knows_put; eassumption|]. apply HK. cbn. now rewrite HD.
  - destruct l1 as [|a1 l1]; [split; [split; [constructor|intros v []]|]; intros d <-; apply knows_refl|]. injection HE as <- HE. symmetry in HE. apply app_eq_nil in HE as [-> ->].
    split; [split; [repeat constructor; intros []|intros v [<-|[]]; exact HL]|]. intros d <-. apply knows_refl.
Qed.
Lemma torn_cache d a d' : torn d a d' -> cache d' = cache d.
Proof. intros H. now inversion H. Qed.
Lemma run_cache p site d reqs e d' : traced site p -> run p d reqs e d' ->
  NoDup reqs /\ (forall u, In u reqs -> lookup u (cache d) = None) /\ knows site (cache d) (cache d').
Proof.
  intros HT HR. assert (G : forall l1 l2 c o, p (cache d) = (l1 ++ l2, c, o) -> NoDup (requests l1) /\ (forall u, In u (requests l1) -> lookup u (cache d) = None) /\ knows site (cache d) (cache (performs d l1))).
  { intros l1 l2 c o HE. destruct (HT _ _ _ _ HE) as (b & HTR & _). destruct (trace_part _ _ _ _ _ HTR l1 l2 eq_refl) as [[H1 H2] H3]. split; [exact H1|]. split; [exact H2|]. now apply H3. }
  inversion HR as [l c HE|l c HE|l1 l2 c o HE|l1 a l2 c o d1 HE HTo]; subst.
  - apply (G l [] c (Some tt)). now rewrite app_nil_r.
  - apply (G l [] c None). now rewrite app_nil_r.
  - exact (G _ _ _ _ HE).
  - rewrite (torn_cache _ _ _ HTo). exact (G _ _ _ _ HE).
Qed.

(** ---------------------------------------------------------------- files *)
Definition written (l : list action) : list (str * str) := List.concat (map (fun a => match a with Write n t => [(n, t)] | _ => [] end) l).
Definition no_reset (l : list action) : Prop := Forall (fun a => match a with Remove_tmp | Make_tmp => False | _ => True end) l.
Lemma written_app l l' : written (l ++ l') = written l ++ written l'. Proof. unfold written. now rewrite map_app, concat_app. Qed.
Lemma performs_files l : no_reset l -> forall d files, tmp d = Some files -> exists files', tmp (performs d l) = Some files' /\
  forall n, lookup n files' = match lookup n (rev (written l)) with Some t => Some t | None => lookup n files end.
Proof.
  induction 1 as [|a l HA _ IH]; intros d files HD; [exists files; split; [exact HD|reflexivity]|]. rewrite performs_cons.
  destruct a as [| |u|u h|n t|n t]; try (now destruct HA); try (apply IH; exact HD).
  destruct (IH (perform d (Write n t)) (put n t files)) as (f' & H1 & H2); [cbn; now rewrite HD|]. exists f'. split; [exact H1|]. intros m. rewrite H2.
  change (written (Write n t :: l)) with ([(n, t)] ++ written l). rewrite rev_app_distr, lookup_app, lookup_put. cbn [rev app lookup]. destruct (lookup m (rev (written l))); [reflexivity|]. now destruct (str_eqb n m).
Qed.
Definition kept (fs : list (str * str)) : list (str * str) := filter (fun f => match place_of E (fst f) with Inside => true | _ => false end) fs.
Lemma kept_directory fs files : (forall n, lookup n files = lookup n (rev (kept fs))) -> directory E fs files.
Proof.
  intros H n. rewrite H. clear H. unfold kept. rewrite <- (rev_involutive fs). set (g := rev fs). rewrite rev_involutive. clearbody g.
  replace (rev (filter _ (rev g))) with (filter (fun f => match place_of E (fst f) with Inside => true | _ => false end) g).
  - induction g as [|[k v] g IH]; [now destruct (place_of E n)|]. cbn [filter fst]. destruct (place_of E k) eqn:EK; cbn [lookup].
    + destruct (str_eqb k n) eqn:EN; [apply str_eqb_eq in EN as ->; now rewrite EK|exact IH].
    + rewrite IH. destruct (str_eqb k n) eqn:EN; [apply str_eqb_eq in EN as ->; now rewrite EK|reflexivity].
    + rewrite IH. destruct (str_eqb k n) eqn:EN; [apply str_eqb_eq in EN as ->; now rewrite EK|reflexivity].
  - induction g as [|x g IH]; [reflexivity|]. cbn [filter rev]. rewrite filter_app, rev_app_distr, <- IH. cbn [filter]. now destruct (place_of E (fst x)).
Qed.
(** One page. *)
Definition outcome_of (view : str -> option str) (p : str * str) (l : list action) (o : option html) : Prop :=
  no_reset l /\ match o with
  | Some soup => exists f x, file_of E view p f /\ view (fst p) = Some x /\ soup = parse E x /\ place_of E (fst f) <> Refused /\ written l = kept [f]
  | None => written l = [] /\ ~ exists f, file_of E view p f /\ place_of E (fst f) <> Refused
  end.
Lemma get_sees site u c l c' o : get_html site u c = (l, c', o) -> o = sees c site u /\ no_reset l /\ written l = [].
Proof.
  unfold get_html, sees. destruct (lookup u c) eqn:EL; [intros H; injection H as <- <- <-; repeat split; constructor|]. unfold bind, act, or_raise. destruct (site u); cbn; intros H; injection H as <- <- <-; repeat split; repeat constructor.
Qed.
Lemma write_out n t c l c' o : write_file E n t c = (l, c', o) -> no_reset l /\ match o with Some _ => place_of E n <> Refused /\ written l = kept [(n, t)] | None => place_of E n = Refused /\ written l = [] end.
Proof.
  unfold write_file, kept. cbn [filter fst]. destruct (place_of E n) eqn:EP; intros H; injection H as <- <- <-; (split; [repeat constructor|]); split; try discriminate; reflexivity.
Qed.
Lemma crawl_out site u t c l c' o : crawl E site u t c = (l, c', o) -> outcome_of (sees c site) (u, t) l o.
Proof.
  unfold crawl, bind. destruct (get_html site u c) as [[l1 c1] o1] eqn:E1. destruct (get_sees _ _ _ _ _ _ E1) as (HO & HN1 & HW1). destruct o1 as [h|].
  2:{ intros H. injection H as <- <- <-. split; [exact HN1|]. split; [exact HW1|]. intros (f & HF & _). inversion HF as [? ? x d HV]; subst. rewrite <- HO in HV. discriminate HV. }
  unfold or_raise. destruct (extract_the_main_div (parse E h)) as [d|] eqn:ED; cbn [ret fail].
  2:{ intros H. injection H as <- <- <-. rewrite app_nil_r. split; [exact HN1|]. split; [exact HW1|]. intros (f & HF & _). inversion HF as [? ? x d HV HD]; subst. rewrite <- HO in HV. injection HV as <-.
      apply main_div_iff in HD. rewrite ED in HD. discriminate HD. }
  apply main_div_iff in ED. unfold write_webpage. destruct (write_file E (t ++ s ".html") (prettify E d) c1) as [[l2 c2] o2] eqn:E2. destruct (write_out _ _ _ _ _ _ E2) as (HN2 & HO2).
  assert (HF : file_of E (sees c site) (u, t) (t ++ s ".html", prettify E d)) by (apply file_of_ with h; [now symmetry|exact ED]).
  destruct o2 as [[]|]; intros H; injection H as <- <- <-; cbn [app]; rewrite ?app_nil_r.
  - split; [apply Forall_app; auto|]. destruct HO2 as [HP HW2]. exists (t ++ s ".html", prettify E d), h. split; [exact HF|]. split; [now symmetry|]. split; [reflexivity|]. split; [exact HP|]. now rewrite written_app, HW1.
  - split; [apply Forall_app; auto|]. destruct HO2 as [HP HW2]. split; [now rewrite written_app, HW1|]. intros (f & HF' & HP'). inversion HF' as [? ? x d' HV HD]; subst. now apply HP'.
Qed.
Lemma file_view v v' p f : (forall u, v u = v' u) -> file_of E v p f -> file_of E v' p f.
Proof. intros H HF. inversion HF as [u t x d HV HD]; subst. apply file_of_ with x; [now rewrite <- H|exact HD]. Qed.
Lemma files_view v v' ps fs : (forall u, v u = v' u) -> Forall2 (file_of E v) ps fs -> Forall2 (file_of E v') ps fs.
Proof. intros H HF. induction HF; constructor; [now apply file_view with v|assumption]. Qed.
Lemma traced_sees {A} site (m : prog A) c l c' o : traced site m -> m c = (l, c', o) -> forall u, sees c' site u = sees c site u.
Proof.
  intros HT HM. destruct (HT _ _ _ _ HM) as (b & HTR & _). destruct (trace_part _ _ _ _ _ HTR l [] (eq_sym (app_nil_r l))) as [_ HK]. specialize (HK (Disk c None) eq_refl).
  rewrite (trace_cache _ _ _ _ _ HTR (Disk c None) eq_refl) in HK. exact (proj2 HK).
Qed.
Lemma file_unique v p f f' : file_of E v p f -> file_of E v p f' -> f = f'.
Proof. intros H H'. inversion H as [u t x d HV HD]; subst. inversion H' as [u' t' x' d' HV' HD']; subst. rewrite HV in HV'. injection HV' as <-. now rewrite (first_unique _ _ _ _ HD HD'). Qed.
Lemma link_unique a l l' : link_to a l -> link_to a l' -> l = l'.
Proof. intros H H'. inversion H as [n cs at_ ks h HL]; subst. inversion H' as [? ? ? ? h' HL']; subst. rewrite HL in HL'. injection HL' as <-. reflexivity. Qed.
(** The links of the menu: the pages up to the first that fails. *)
Lemma links_out site links : forall c l c' o, crawl_links E site links c = (l, c', o) -> no_reset l /\ exists k ls fs,
  Forall2 link_to (firstn k links) ls /\ Forall2 (file_of E (sees c site)) ls fs /\ accepted E fs /\ written l = kept fs /\
  match o with Some _ => k = List.length links
  | None => exists a, nth_error links k = Some a /\ ~ exists p f, link_to a p /\ file_of E (sees c site) p f /\ place_of E (fst f) <> Refused end.
Proof.
  induction links as [|a links IH]; intros c l c' o H.
  - injection H as <- <- <-. split; [constructor|]. exists 0, [], []. repeat split; constructor.
  - cbn [crawl_links] in H. unfold bind, or_raise in H. destruct (href a) as [h|] eqn:EH; cbn [ret fail] in H.
    2:{ injection H as <- <- <-. split; [constructor|]. exists 0, [], []. split; [constructor|]. split; [constructor|]. split; [constructor|]. split; [reflexivity|]. exists a. split; [reflexivity|].
        intros (p & f & HL & _). inversion HL as [n cs at_ ks h HH]; subst. cbn [href] in EH. congruence. }
    assert (HLK : link_to a (base_url ++ h, text_of a)) by (destruct a as [t|n cs at_ ks]; [discriminate EH|now constructor]).
    destruct (crawl E site (base_url ++ h) (text_of a) c) as [[l1 c1] o1] eqn:E1. pose proof (crawl_out _ _ _ _ _ _ _ E1) as [HN1 HO1]. destruct o1 as [soup|].
    + destruct (crawl_links E site links c1) as [[l2 c2] o2] eqn:E2. injection H as <- <- <-. cbn [app]. destruct (IH _ _ _ _ E2) as (HN2 & k & ls & fs & F1 & F2 & F3 & F4 & F5).
      pose proof (traced_sees site _ _ _ _ _ (traced_crawl site _ _) E1) as HV. destruct HO1 as (f & x & HF & _ & _ & HP & HW). split; [apply Forall_app; auto|].
      exists (S k), ((base_url ++ h, text_of a) :: ls), (f :: fs). split; [now constructor|]. split; [constructor; [exact HF|exact (files_view _ _ _ _ HV F2)]|]. split; [now constructor|].
      split; [rewrite written_app, HW, F4; change (f :: fs) with ([f] ++ fs); unfold kept; now rewrite filter_app|].
      destruct o2; [cbn [List.length]; now f_equal|]. destruct F5 as (a' & HA & HB). exists a'. split; [exact HA|]. intros (p & g & G1 & G2 & G3). apply HB. exists p, g. split; [exact G1|]. split; [|exact G3].
      apply file_view with (sees c site); [intros u; now rewrite HV|exact G2].
    + injection H as <- <- <-. rewrite ?app_nil_r. split; [exact HN1|]. destruct HO1 as [HW HB]. exists 0, [], []. split; [constructor|]. split; [constructor|]. split; [constructor|]. split; [exact HW|]. exists a. split; [reflexivity|].
      intros (p & g & G1 & G2 & G3). pose proof (link_unique _ _ _ HLK G1) as <-. apply HB. eauto.
Qed.
End Crawler.
