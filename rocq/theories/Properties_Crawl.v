(** C83-C85: the crawler of the ADF reference and the downloader of test pages.  Vocabulary: SpecCrawl.v. *)
From Coq Require Import List NArith Bool String Arith Sorted Lia.
From Verif Require Import PyStr Values Basics StrFacts Crawl SpecCrawl CrawlFacts1 CrawlFacts2.
Import ListNotations.
Open Scope string_scope.
Open Scope list_scope.
Open Scope nat_scope.

(** ================================================================ C84: which part of a page is taken *)
(** The article is the first div, in document order, that has a heading of level 1 as its child. *)
Theorem C84_article : forall soup d, extract_the_main_div soup = Some d <-> first_element article soup d.
Proof. exact main_div_iff. Qed.
(** There is an exception exactly if there is none. *)
Theorem C84_no_article : forall soup, extract_the_main_div soup = None <-> forall p d, p <> [] -> at_path soup p = Some d -> ~ article d.
Proof.
  intros soup. split.
  - intros H p d HN HA HD. rewrite main_div_find in H. assert (HE : all_elements article soup (filter (fun h => named "div" h && existsb (named "h1") (kids_of h)) (below soup))).
    { apply filter_elements. intros e. unfold article. rewrite andb_true_iff, named_iff, h1_iff. reflexivity. }
    destruct (filter _ (below soup)); [|discriminate H]. destruct HE as (ps & HF & _ & HC). specialize (HC p d HN HA HD). inversion HF; subst. destruct HC.
  - intros H. destruct (extract_the_main_div soup) as [d|] eqn:HE; [|reflexivity]. apply main_div_iff in HE as (p & HN & HA & HD & _). now destruct (H p d HN HA).
Qed.
(** The menu is the first div of its class, and its links are all the links in it, each once, in document order. *)
Theorem C84_menu : forall soup d, navigation soup = Some d <-> first_element menu soup d.
Proof. exact navigation_iff. Qed.
Theorem C84_links : forall nav links, find_all "a" nav = links <-> all_elements (is_tag "a") nav links.
Proof. intros nav links. split; [intros <-; apply find_all_elements|]. intros H. exact (elements_unique _ _ _ _ (find_all_elements "a" nav) H). Qed.

(** ================================================================ C83: the crawler *)
Lemma reset_out c : reset_dir_tmp c = ([Remove_tmp; Make_tmp], c, Some tt). Proof. reflexivity. Qed.
Lemma main_out E site c l c' o : main E site c = (l, c', o) -> exists l' ps fs, l = Remove_tmp :: Make_tmp :: l' /\ no_reset l' /\
  Forall2 (file_of E (sees c site)) ps fs /\ accepted E fs /\ written l' = kept E fs /\
  match o with Some _ => pages E (sees c site) ps | None => first_pages E (sees c site) ps /\ ~ possible E (sees c site) end.
Proof.
  unfold main. unfold bind at 1. rewrite reset_out. set (rest := bind (crawl E site start_url (s "Atlassian Document Format")) _).
  destruct (rest c) as [[l' c''] o'] eqn:HR. intros H. injection H as <- <- <-. cbn [app]. exists l'. revert HR. unfold rest, bind. clear rest.
  destruct (crawl E site start_url (s "Atlassian Document Format") c) as [[l1 c1] o1] eqn:E1. pose proof (crawl_out E _ _ _ _ _ _ _ E1) as [HN1 HO1]. destruct o1 as [soup|].
  2:{ intros H. injection H as <- <- <-. destruct HO1 as [HW HB]. exists [], []. split; [reflexivity|]. split; [exact HN1|]. split; [constructor|]. split; [constructor|]. split; [exact HW|]. split; [now left|].
      intros (ps & fs & (x & nav & links & ls & _ & _ & _ & _ & ->) & HF & HA). inversion HF as [|? f ? ? HF1 _]; subst. inversion HA as [|? ? HA1 _]; subst. apply HB. eauto. }
  destruct HO1 as (f & x & HF & HX & -> & HP & HW). pose proof (traced_sees site _ _ _ _ _ (traced_crawl E site _ _) E1) as HV. unfold or_raise. cbn [fst] in HX.
  destruct (navigation (parse E x)) as [nav|] eqn:EN; cbn [ret fail].
  2:{ intros H. injection H as <- <- <-. rewrite ?app_nil_r. exists [(start_url, s "Atlassian Document Format")], [f]. split; [reflexivity|]. split; [exact HN1|]. split; [repeat constructor; exact HF|]. split; [repeat constructor; exact HP|].
      split; [exact HW|]. split; [right; exists x, []; auto|]. intros (ps & fs & (x' & nav & links & ls & HX' & HNa & _) & _). assert (HXE : Some x' = Some x) by (rewrite <- HX', <- HX; reflexivity). injection HXE as ->.
      apply navigation_iff in HNa. rewrite EN in HNa. discriminate HNa. }
  apply navigation_iff in EN. destruct (crawl_links E site (find_all "a" nav) c1) as [[l2 c2] o2] eqn:E2. destruct (links_out E _ _ _ _ _ _ E2) as (HN2 & k & ls & fs & F1 & F2 & F3 & F4 & F5).
  intros H. injection H as <- <- <-. exists ((start_url, s "Atlassian Document Format") :: ls), (f :: fs). split; [reflexivity|]. split; [apply Forall_app; auto|].
  split; [constructor; [exact HF|exact (files_view _ _ _ _ _ HV F2)]|]. split; [now constructor|]. split; [cbn [app]; rewrite written_app, HW, F4; change (f :: fs) with ([f] ++ fs); unfold kept; now rewrite filter_app|].
  pose proof (find_all_elements "a" nav) as HL. destruct o2.
  - exists x, nav, (find_all "a" nav), ls. split; [exact HX|]. split; [exact EN|]. split; [exact HL|]. split; [|reflexivity]. subst k. now rewrite firstn_all in F1.
  - split; [right; exists x, ls; split; [exact HX|]; split; [reflexivity|]; right; exists nav, (find_all "a" nav), k; auto|]. destruct F5 as (a & HA & HB). intros (ps & fs' & (x' & nav' & links & ls' & HX' & HNa & HLi & HLk & ->) & HFs & HAc).
    assert (HXE : Some x' = Some x) by (rewrite <- HX', <- HX; reflexivity). injection HXE as ->. rewrite (first_unique _ _ _ _ HNa EN) in HLi. rewrite (elements_unique _ _ _ _ HLi HL) in HLk. clear HLi HNa.
    inversion HFs as [|? f0 ? fs0 _ HFs']; subst. inversion HAc as [|? ? _ HAc']; subst. clear HFs HAc F1. revert k HA ls' HLk fs0 HFs' HAc'. generalize (find_all "a" nav). intros lks.
    induction lks as [|b lks IH]; intros [|k] HA ls' HLk fs0 HFs' HAc'; try discriminate HA; inversion HLk as [|? p ? ls0 HL1 HL2]; subst; inversion HFs' as [|? g ? gs HG1 HG2]; subst; inversion HAc' as [|? ? HA1 HA2]; subst.
    + injection HA as <-. apply HB. exists p, g. split; [exact HL1|]. split; [|exact HA1]. apply file_view with (sees c site); [intros u; now rewrite HV|exact HG1].
    + exact (IH k HA ls0 HL2 gs HG2 HA2).
Qed.
Lemma main_files E site d l c o : main E site (cache d) = (l, c, o) -> exists ps fs files, tmp (performs d l) = Some files /\ directory E fs files /\
  Forall2 (file_of E (sees (cache d) site)) ps fs /\ accepted E fs /\ match o with Some _ => pages E (sees (cache d) site) ps | None => first_pages E (sees (cache d) site) ps /\ ~ possible E (sees (cache d) site) end.
Proof.
  intros H. destruct (main_out _ _ _ _ _ _ H) as (l' & ps & fs & -> & HN & HF & HA & HW & HO). rewrite !performs_cons.
  destruct (performs_files l' HN (perform (perform d Remove_tmp) Make_tmp) [] eq_refl) as (files & HT & HL). exists ps, fs, files. split; [exact HT|]. split; [|auto].
  apply kept_directory. intros n. rewrite HL, HW. now destruct (lookup n (rev (kept E fs))).
Qed.
(** After a complete run, on whatever disk: the directory holds the pages of the menu as the crawler sees them, and nothing else. *)
Theorem C83_complete : forall E site d reqs d', run (main E site) d reqs (Some Done) d' -> exists ps fs files,
  pages E (sees (cache d) site) ps /\ Forall2 (file_of E (sees (cache d) site)) ps fs /\ accepted E fs /\ tmp d' = Some files /\ directory E fs files.
Proof.
  intros E site d reqs d' H. inversion H as [l c HE| | |]; subst. destruct (main_files _ _ _ _ _ _ HE) as (ps & fs & files & H1 & H2 & H3 & H4 & H5). exists ps, fs, files. auto.
Qed.
(** A run is complete exactly if that is possible; otherwise it ends with an exception, and the directory holds the first of the pages. *)
Theorem C83_possible : forall E site d, possible E (sees (cache d) site) ->
  (exists reqs d', run (main E site) d reqs (Some Done) d') /\ forall reqs d', ~ run (main E site) d reqs (Some Raised) d'.
Proof.
  intros E site d HP. destruct (main E site (cache d)) as [[l c] [[]|]] eqn:HE.
  - split; [exists (requests l), (performs d l); now apply run_done with c|]. intros reqs d' H. inversion H as [|l' c' HE'| |]; subst. rewrite HE in HE'. discriminate HE'.
  - destruct (main_files _ _ _ _ _ _ HE) as (ps & fs & files & _ & _ & _ & _ & _ & HN). now destruct HN.
Qed.
Theorem C83_raised : forall E site d reqs d', run (main E site) d reqs (Some Raised) d' -> ~ possible E (sees (cache d) site) /\ exists ps fs files,
  first_pages E (sees (cache d) site) ps /\ Forall2 (file_of E (sees (cache d) site)) ps fs /\ tmp d' = Some files /\ directory E fs files.
Proof.
  intros E site d reqs d' H. inversion H as [|l c HE| |]; subst. destruct (main_files _ _ _ _ _ _ HE) as (ps & fs & files & H1 & H2 & H3 & H4 & H5 & H6). split; [exact H6|]. exists ps, fs, files. auto.
Qed.
(** Complete, ended by an exception or killed anywhere: a run asks for a page at most once, and for no page that is stored. *)
Theorem C83_requests : forall E site d reqs e d', run (main E site) d reqs e d' -> NoDup reqs /\ forall u, In u reqs -> lookup u (cache d) = None.
Proof. intros E site d reqs e d' H. destruct (run_cache _ site _ _ _ _ (traced_main E site) H) as (H1 & H2 & _). auto. Qed.
(** A stored page is stored for ever, and is never asked for again, whatever the later runs and whatever the server says then. *)
Theorem C83_never_again : forall E servers d rs d', runs E servers d rs d' -> forall u h, lookup u (cache d) = Some h ->
  lookup u (cache d') = Some h /\ Forall (fun reqs => ~ In u reqs) rs.
Proof.
  intros E servers d rs d' H. induction H as [d|d site reqs e d1 rs d2 _ HR _ IH]; intros u h HL; [auto|]. destruct (run_cache _ site _ _ _ _ (traced_main E site) HR) as (_ & H2 & H3 & _).
  destruct (IH u h (H3 u h HL)) as [IH1 IH2]. split; [exact IH1|]. constructor; [|exact IH2]. intros HI. specialize (H2 u HI). congruence.
Qed.
(** A page is asked for again only if no run before had its answer stored: after any history, what is stored are answers of the servers. *)
Theorem C83_stored_answers : forall E servers d rs d', runs E servers d rs d' -> forall u h, lookup u (cache d') = Some h ->
  lookup u (cache d) = Some h \/ exists site, servers site /\ site u = Some h.
Proof.
  intros E servers d rs d' H. induction H as [d|d site reqs e d1 rs d2 HS HR _ IH]; intros u h HL; [auto|]. destruct (IH u h HL) as [HL1|HX]; [|auto].
  destruct (run_cache _ site _ _ _ _ (traced_main E site) HR) as (_ & _ & _ & HV). specialize (HV u). unfold sees in HV. rewrite HL1 in HV. destruct (lookup u (cache d)) eqn:EL; [left; congruence|right; exists site; split; [exact HS|now symmetry]].
Qed.
(** Restarting: after any runs, killed anywhere, with a server that answered the same or failed, a complete run leaves what a first run would have left. *)
Definition fails_or_says (site : str -> option str) (site' : str -> option str) : Prop := forall u h, site' u = Some h -> site u = Some h.
Lemma sees_same E site t rs d : runs E (fails_or_says site) (Disk [] t) rs d -> forall u, sees (cache d) site u = sees [] site u.
Proof.
  intros H u. unfold sees. destruct (lookup u (cache d)) as [h|] eqn:EL; [|reflexivity]. destruct (C83_stored_answers _ _ _ _ _ H u h EL) as [X|(site' & HS & HX)]; [discriminate X|]. symmetry. exact (HS u h HX).
Qed.
Lemma pages_view E v v' ps : (forall u, v u = v' u) -> pages E v ps -> pages E v' ps.
Proof. intros HV (x & nav & links & ls & HX & H). exists x, nav, links, ls. split; [now rewrite <- HV|exact H]. Qed.
Lemma pages_unique E v ps ps' : pages E v ps -> pages E v ps' -> ps = ps'.
Proof.
  intros (x & nav & links & ls & HX & HN & HA & HL & ->) (x' & nav' & links' & ls' & HX' & HN' & HA' & HL' & ->). rewrite HX in HX'. injection HX' as <-. rewrite <- (first_unique _ _ _ _ HN HN') in HA'.
  rewrite <- (elements_unique _ _ _ _ HA HA') in HL'. f_equal. clear -HL HL'. revert ls' HL'. induction HL as [|a l links ls H _ IH]; intros ls' HL'; inversion HL'; subst; [reflexivity|]. f_equal; [eapply link_unique; eassumption|auto].
Qed.
Lemma files_unique E v ps fs fs' : Forall2 (file_of E v) ps fs -> Forall2 (file_of E v) ps fs' -> fs = fs'.
Proof. intros H. revert fs'. induction H as [|p f ps fs H _ IH]; intros fs' H'; inversion H'; subst; [reflexivity|]. f_equal; [eapply file_unique; eassumption|auto]. Qed.
Theorem C83_restart : forall E site t rs d reqs d' t0 reqs0 d0, runs E (fails_or_says site) (Disk [] t) rs d -> run (main E site) d reqs (Some Done) d' ->
  run (main E site) (Disk [] t0) reqs0 (Some Done) d0 -> exists files files0, tmp d' = Some files /\ tmp d0 = Some files0 /\ forall n, lookup n files = lookup n files0.
Proof.
  intros E site t rs d reqs d' t0 reqs0 d0 HH HR HR0. pose proof (sees_same _ _ _ _ _ HH) as HV. destruct (C83_complete _ _ _ _ _ HR) as (ps & fs & files & H1 & H2 & _ & H4 & H5).
  destruct (C83_complete _ _ _ _ _ HR0) as (ps0 & fs0 & files0 & G1 & G2 & _ & G4 & G5). cbn [cache] in *. exists files, files0. split; [exact H4|]. split; [exact G4|]. intros n. rewrite H5, G5.
  apply (pages_view _ _ _ _ HV) in H1. rewrite (pages_unique _ _ _ _ H1 G1) in H2. apply (files_view _ _ _ _ _ HV) in H2. now rewrite (files_unique _ _ _ _ _ H2 G2).
Qed.
(** ... and it is complete if a first run would be. *)
Theorem C83_resumes : forall E site t rs d, runs E (fails_or_says site) (Disk [] t) rs d -> possible E site -> possible E (sees (cache d) site).
Proof.
  intros E site t rs d HH (ps & fs & HP & HF & HA). pose proof (sees_same _ _ _ _ _ HH) as HV. assert (HV' : forall u, site u = sees (cache d) site u) by (intros u; rewrite HV; reflexivity).
  exists ps, fs. split; [exact (pages_view _ _ _ _ HV' HP)|]. split; [exact (files_view _ _ _ _ _ HV' HF)|exact HA].
Qed.
(** The output of earlier runs is gone before the first request: if that fails, the directory is empty. *)
Theorem C83_output_lost : forall E site d reqs e d', let start := s "https://developer.atlassian.com/cloud/jira/platform/apis/document/structure/" in
  lookup start (cache d) = None -> site start = None -> run (main E site) d reqs (Some e) d' -> e = Raised /\ tmp d' = Some [].
Proof.
  intros E site d reqs e d' start HL HS HR. assert (HM : main E site (cache d) = ([Remove_tmp; Make_tmp; Request start], cache d, None)).
  { unfold main, bind. rewrite reset_out. unfold crawl, bind, get_html. change start_url with start. rewrite HL. unfold bind, act, or_raise. rewrite HS. reflexivity. }
  inversion HR as [l c HE|l c HE| |]; subst; rewrite HM in HE; [discriminate HE|]. injection HE as <- <-. split; reflexivity.
Qed.
(** Of two pages with the same title only the later one is there. *)
Lemma lookup_last n v (l1 l2 : list (str * str)) : (forall f, In f l2 -> fst f <> n) -> lookup n (rev (l1 ++ (n, v) :: l2)) = Some v.
Proof.
  intros H. rewrite rev_app_distr. cbn [rev]. rewrite <- app_assoc, lookup_app. assert (HN : lookup n (rev l2) = None).
  { assert (H' : forall f, In f (rev l2) -> fst f <> n) by (intros f HI; apply H; now apply in_rev). clear H. induction (rev l2) as [|[k x] l IH]; [reflexivity|]. cbn [lookup].
    destruct (str_eqb k n) eqn:EK; [apply str_eqb_eq in EK as ->; now destruct (H' (n, x) (or_introl eq_refl))|]. apply IH. intros f HI. apply H'. now right. }
  rewrite HN. cbn [app lookup]. now rewrite str_eqb_refl.
Qed.
Theorem C83_same_title : forall E site d reqs d' l1 u t l2, run (main E site) d reqs (Some Done) d' -> pages E (sees (cache d) site) (l1 ++ (u, t) :: l2) ->
  (forall p, In p l2 -> snd p <> t) -> place_of E (t ++ s ".html") = Inside ->
  exists x files, file_of E (sees (cache d) site) (u, t) (t ++ s ".html", x) /\ tmp d' = Some files /\ lookup (t ++ s ".html") files = Some x.
Proof.
  intros E site d reqs d' l1 u t l2 HR HP HT HI. destruct (C83_complete _ _ _ _ _ HR) as (ps & fs & files & H1 & H2 & _ & H4 & H5). rewrite (pages_unique _ _ _ _ H1 HP) in H2.
  apply Forall2_app_inv_l in H2 as (fs1 & fs2 & _ & HF & ->). inversion HF as [|? f ? fs3 HF1 HF2]; subst. inversion HF1 as [? ? x dv HV HD]; subst. exists (prettify E dv), files. split; [exact HF1|]. split; [exact H4|].
  rewrite H5, HI. apply lookup_last. intros f HIn HE. clear -HF2 HT HIn HE. induction HF2 as [|p g l2 fs3 HG _ IH]; [destruct HIn|]. destruct HIn as [<-|HIn]; [|apply IH; [intros q Hq; apply HT; now right|exact HIn]].
  inversion HG as [u' t' x' d' HV HD]; subst. cbn [fst] in HE. apply app_inv_tail in HE as ->. exact (HT (u', t) (or_introl eq_refl) eq_refl).
Qed.

(** ================================================================ C85: the downloader *)
Lemma save_out E api ids : forall c l c' o, save_pages E api ids c = (l, c', o) -> c' = c /\ no_reset l /\ exists k ps, Forall2 (fun i p => api i = Some p) (firstn k ids) ps /\
  accepted E (map (json_file E) ps) /\ written l = kept E (map (json_file E) ps) /\
  match o with Some _ => k = List.length ids | None => exists i, nth_error ids k = Some i /\ forall p, api i = Some p -> place_of E (fst p ++ s ".json") = Refused end.
Proof.
  induction ids as [|i ids IH]; intros c l c' o H; [injection H as <- <- <-; split; [reflexivity|]; split; [constructor|]; exists 0, []; repeat split; constructor|].
  cbn [save_pages] in H. unfold bind, or_raise in H. destruct (api i) as [p|] eqn:EA; cbn [ret fail] in H.
  2:{ injection H as <- <- <-. split; [reflexivity|]. split; [constructor|]. exists 0, []. split; [constructor|]. split; [constructor|]. split; [reflexivity|]. exists i. split; [reflexivity|]. intros p HP. congruence. }
  destruct (write_file E (fst p ++ s ".json") (json_dumps E (snd p)) c) as [[l1 c1] o1] eqn:E1. destruct (write_out E _ _ _ _ _ _ E1) as [HN1 HO1].
  assert (HC1 : c1 = c) by (unfold write_file in E1; destruct (place_of E _); injection E1 as _ <- _; reflexivity). subst c1. destruct o1 as [[]|].
  - destruct (save_pages E api ids c) as [[l2 c2] o2] eqn:E2. injection H as <- <- <-. destruct (IH _ _ _ _ E2) as (-> & HN2 & k & ps & F1 & F2 & F3 & F4). destruct HO1 as [HP HW]. split; [reflexivity|]. split; [apply Forall_app; auto|].
    exists (S k), (p :: ps). split; [now constructor|]. split; [now constructor|]. split; [cbn [app map]; rewrite written_app, HW, F3; unfold kept; cbn [filter json_file fst]; now destruct (place_of E _)|].
    destruct o2; [cbn [List.length]; now f_equal|]. exact F4.
  - injection H as <- <- <-. rewrite ?app_nil_r. destruct HO1 as [HP HW]. split; [reflexivity|]. split; [exact HN1|]. exists 0, []. split; [constructor|]. split; [constructor|]. split; [exact HW|]. exists i. split; [reflexivity|].
    intros q HQ. assert (q = p) by congruence. now subst.
Qed.
Lemma download_files E api ids d l c o : download E api ids (cache d) = (l, c, o) -> cache (performs d l) = cache d /\ exists k ps files, tmp (performs d l) = Some files /\
  directory E (map (json_file E) ps) files /\ Forall2 (fun i p => api i = Some p) (firstn k ids) ps /\ accepted E (map (json_file E) ps) /\
  match o with Some _ => k = List.length ids | None => exists i, nth_error ids k = Some i /\ forall p, api i = Some p -> place_of E (fst p ++ s ".json") = Refused end.
Proof.
  unfold download, bind at 1. rewrite reset_out. destruct (save_pages E api ids (cache d)) as [[l' c'] o'] eqn:HS. intros H. injection H as <- <- <-. destruct (save_out _ _ _ _ _ _ _ HS) as (-> & HN & k & ps & F1 & F2 & F3 & F4).
  split.
  { destruct (traced_download E (fun _ => None) api ids (cache d) (Remove_tmp :: Make_tmp :: l') (cache d) o') as (b & HTR & _); [unfold download, bind at 1; rewrite reset_out, HS; reflexivity|]. exact (trace_cache _ _ _ _ _ HTR d eq_refl). }
  change (([Remove_tmp; Make_tmp] ++ l')) with (Remove_tmp :: Make_tmp :: l'). rewrite !performs_cons. destruct (performs_files l' HN (perform (perform d Remove_tmp) Make_tmp) [] eq_refl) as (files & HT & HL).
  exists k, ps, files. split; [exact HT|]. split; [|auto]. apply kept_directory. intros n. rewrite HL, F3. now destruct (lookup n (rev (kept E (map (json_file E) ps)))).
Qed.
(** After a complete run the directory holds a file for every page, and nothing else; of two pages with the same title the later one. *)
Theorem C85_complete : forall E api ids d reqs d', run (download E api ids) d reqs (Some Done) d' -> exists ps files,
  Forall2 (fun i p => api i = Some p) ids ps /\ accepted E (map (json_file E) ps) /\ tmp d' = Some files /\ directory E (map (json_file E) ps) files.
Proof.
  intros E api ids d reqs d' H. inversion H as [l c HE| | |]; subst. destruct (download_files _ _ _ _ _ _ _ HE) as (_ & k & ps & files & H1 & H2 & H3 & H4 & H5). subst k. rewrite firstn_all in H3. exists ps, files. auto.
Qed.
(** An exception: the first page that cannot be had or whose name cannot be opened; the pages before it are there, and nothing else. *)
Theorem C85_raised : forall E api ids d reqs d', run (download E api ids) d reqs (Some Raised) d' -> exists before i after ps files,
  ids = before ++ i :: after /\ (forall p, api i = Some p -> place_of E (fst p ++ s ".json") = Refused) /\ Forall2 (fun i p => api i = Some p) before ps /\ tmp d' = Some files /\ directory E (map (json_file E) ps) files.
Proof.
  intros E api ids d reqs d' H. inversion H as [|l c HE| |]; subst. destruct (download_files _ _ _ _ _ _ _ HE) as (_ & k & ps & files & H1 & H2 & H3 & H4 & i & HI & HB).
  exists (firstn k ids), i, (skipn (S k) ids), ps, files. split; [|auto]. clear -HI. revert ids HI. induction k as [|k IH]; intros [|j ids] HI; try discriminate HI; [injection HI as ->; reflexivity|]. cbn [firstn skipn app]. f_equal. now apply IH.
Qed.
(** A run that is possible is complete unless it is killed. *)
Theorem C85_possible : forall E api ids ps d, Forall2 (fun i p => api i = Some p) ids ps -> accepted E (map (json_file E) ps) ->
  (exists reqs d', run (download E api ids) d reqs (Some Done) d') /\ forall reqs d', ~ run (download E api ids) d reqs (Some Raised) d'.
Proof.
  intros E api ids ps d HF HA. assert (HN : forall reqs d', ~ run (download E api ids) d reqs (Some Raised) d').
  { intros reqs d' H. destruct (C85_raised _ _ _ _ _ _ H) as (before & i & after & _ & _ & -> & HB & _). apply Forall2_app_inv_l in HF as (ps1 & ps2 & _ & HF & ->). inversion HF as [|? p ? ps3 HP _]; subst.
    unfold accepted in HA. rewrite map_app in HA. apply Forall_app in HA as [_ HA]. inversion HA as [|? ? HA1 _]; subst. apply HA1. exact (HB p HP). }
  split; [|exact HN]. destruct (download E api ids (cache d)) as [[l c] [[]|]] eqn:HE; [exists (requests l), (performs d l); now apply run_done with c|]. exfalso. apply (HN (requests l) (performs d l)). now apply run_raised with c.
Qed.
(** Whatever the directory held before is gone, also if the first page fails. *)
Theorem C85_output_lost : forall E api i ids d reqs e d', (forall p, api i = Some p -> place_of E (fst p ++ s ".json") = Refused) -> run (download E api (i :: ids)) d reqs (Some e) d' -> e = Raised /\ tmp d' = Some [].
Proof.
  intros E api i ids d reqs e d' HB HR. assert (HM : download E api (i :: ids) (cache d) = ([Remove_tmp; Make_tmp], cache d, None)).
  { unfold download, bind at 1. rewrite reset_out. cbn [save_pages]. unfold bind, or_raise. destruct (api i) as [p|] eqn:EA; [|reflexivity]. cbn [ret]. pose proof (HB p eq_refl) as HP. unfold write_file. match goal with |- context [place_of E ?n] => change (place_of E n = Refused) in HP; rewrite HP end. reflexivity. }
  inversion HR as [l c HE|l c HE| |]; subst; rewrite HM in HE; [discriminate HE|]. injection HE as <- <-. split; reflexivity.
Qed.

(** ================================================================ examples *)
Definition ex_a (h t : string) : html := Tag (s "a") [] [(s "href", s h)] [Text (s t)].
Definition ex_head (t : string) : html := Tag (s "h1") [] [] [Text (s t)].
(** The start page: a menu with two links, one of them in a list, and the article, a div in a div. *)
Definition ex_article (h t : string) : html := Tag (s "div") [s "main"] [] [Tag (s "nav") [] [] []; ex_head h; Tag (s "p") [] [] [Text (s t)]].
Definition ex_menu : html := Tag (s "div") [s "x"; s "sideNavLinksScrollable"] [] [ex_a "/a" "Alpha"; Tag (s "ul") [] [] [Tag (s "li") [] [] [Tag (s "a") [] [(s "class", s "c"); (s "href", s "/b")] [Text (s "Be"); Tag (s "b") [] [] [Text (s "ta")]]]]].
Definition ex_start : html := Tag (s "html") [] [] [Tag (s "div") [] [] [ex_menu]; Tag (s "div") [] [] [Tag (s "span") [] [] [ex_head "no"]; ex_article "ADF" "start"; ex_article "second" "x"]].
Definition ex_page (h t : string) : html := Tag (s "html") [] [] [ex_article h t].
Definition ex_parse (x : str) : html :=
  if str_eqb x (s "S") then ex_start else if str_eqb x (s "A") then ex_page "a" "lpha" else if str_eqb x (s "B") then ex_page "b" "eta" else if str_eqb x (s "A2") then ex_page "a" "new" else Text x.
Definition ex_env : env := Env ex_parse text_of (fun n => if existsb (N.eqb 47) n then Elsewhere else if (Nat.leb 40 (List.length n)) then Refused else Inside) (fun v => match v with VStr x => x | _ => s "{}" end).
Definition ex_url : str := s "https://developer.atlassian.com/cloud/jira/platform/apis/document/structure/".
Definition ex_host (p : string) : str := s "https://developer.atlassian.com" ++ s p.
Definition ex_site (l : list (str * str)) (u : str) : option str := lookup u l.
Definition ex_all := ex_site [(ex_url, s "S"); (ex_host "/a", s "A"); (ex_host "/b", s "B")].
(** A server on which the second link fails, and one that has nothing. *)
Definition ex_half := ex_site [(ex_url, s "S"); (ex_host "/a", s "A")].
Definition ex_down := ex_site [].
Ltac a_run c := match goal with |- run ?p ?d ?r ?e ?d' => let l := eval vm_compute in (fst (fst (p (cache d)))) in change (run p d (requests l) e (performs d l)); eapply c; vm_compute; reflexivity end.

Example C84_article_example : extract_the_main_div ex_start = Some (ex_article "ADF" "start") /\ first_element article ex_start (ex_article "ADF" "start").
Proof. assert (H : extract_the_main_div ex_start = Some (ex_article "ADF" "start")) by (vm_compute; reflexivity). split; [exact H|]. now apply C84_article. Qed.
Example C84_no_article_example : extract_the_main_div (Tag (s "html") [] [] [Tag (s "div") [] [] [Tag (s "span") [] [] [ex_head "T"]]; ex_head "T"]) = None.
Proof. vm_compute. reflexivity. Qed.
Example C84_menu_example : navigation ex_start = Some ex_menu. Proof. vm_compute. reflexivity. Qed.
Example C84_links_example : map text_of (find_all "a" ex_menu) = [s "Alpha"; s "Beta"] /\ map href (find_all "a" ex_menu) = [Some (s "/a"); Some (s "/b")].
Proof. vm_compute. auto. Qed.

Definition ex_old : disk := Disk [] (Some [(s "old.html", s "x")]).
Definition ex_files : list (str * str) := [(s "Beta.html", s "beta"); (s "Alpha.html", s "alpha"); (s "Atlassian Document Format.html", s "ADFstart")].
Definition ex_cache : list (str * str) := [(ex_host "/b", s "B"); (ex_host "/a", s "A"); (ex_url, s "S")].
Example C83_complete_example : run (main ex_env ex_all) ex_old [ex_url; ex_host "/a"; ex_host "/b"] (Some Done) (Disk ex_cache (Some ex_files)).
Proof. a_run run_done. Qed.
(** A stored page is taken instead of the server's. *)
Example C83_stored_example : run (main ex_env ex_all) (Disk [(ex_host "/a", s "A2"); (ex_url, s "S")] None) [ex_host "/b"] (Some Done)
  (Disk [(ex_host "/b", s "B"); (ex_host "/a", s "A2"); (ex_url, s "S")] (Some [(s "Beta.html", s "beta"); (s "Alpha.html", s "anew"); (s "Atlassian Document Format.html", s "ADFstart")])).
Proof. a_run run_done. Qed.
Definition ex_links : list (str * str) := [(ex_url, s "Atlassian Document Format"); (ex_host "/a", s "Alpha"); (ex_host "/b", s "Beta")].
Example C83_pages_example : pages ex_env ex_all ex_links.
Proof.
  exists (s "S"), ex_menu, (find_all "a" ex_menu), (tl ex_links). split; [reflexivity|]. split; [apply C84_menu; vm_compute; reflexivity|]. split; [now apply C84_links|]. split; [|reflexivity].
  constructor; [exact (link_to_ (s "a") [] [(s "href", s "/a")] [Text (s "Alpha")] _ eq_refl)|].
  constructor; [exact (link_to_ (s "a") [] [(s "class", s "c"); (s "href", s "/b")] [Text (s "Be"); Tag (s "b") [] [] [Text (s "ta")]] _ eq_refl)|constructor].
Qed.
Example C83_possible_example : possible ex_env ex_all.
Proof.
  exists ex_links, (rev ex_files). split; [exact C83_pages_example|]. split.
  - assert (HF : forall u t x d, ex_all u = Some x -> extract_the_main_div (ex_parse x) = Some d -> file_of ex_env ex_all (u, t) (t ++ s ".html", text_of d)).
    { intros u t x d H1 H2. apply (file_of_ ex_env ex_all u t x d H1). now apply C84_article. }
    constructor; [exact (HF ex_url (s "Atlassian Document Format") (s "S") _ eq_refl eq_refl)|]. constructor; [exact (HF (ex_host "/a") (s "Alpha") (s "A") _ eq_refl eq_refl)|].
    constructor; [exact (HF (ex_host "/b") (s "Beta") (s "B") _ eq_refl eq_refl)|constructor].
  - repeat constructor; vm_compute; discriminate.
Qed.
(** The second link fails: an exception, with two files there and two pages stored; what was there before is gone. *)
Example C83_raised_example : run (main ex_env ex_half) ex_old [ex_url; ex_host "/a"; ex_host "/b"] (Some Raised) (Disk (tl ex_cache) (Some (tl ex_files))).
Proof. a_run run_raised. Qed.
Lemma ex_half_subset : fails_or_says ex_all ex_half.
Proof.
  intros u h. unfold ex_half, ex_all, ex_site. cbn [lookup]. destruct (str_eqb ex_url u) eqn:E1; [now intros H|]. destruct (str_eqb (ex_host "/a") u) eqn:E2; [now intros H|]. intros H; discriminate H.
Qed.
(** Killed while it writes the second file, then the server failed; the next run asks for the last page only. *)
Example C83_killed_example : run (main ex_env ex_half) ex_old [ex_url; ex_host "/a"] None
  (Disk (tl ex_cache) (Some [(s "Alpha.html", s "al"); (s "Atlassian Document Format.html", s "ADFstart")])).
Proof.
  match goal with |- run ?p ?d _ _ _ => let l := eval vm_compute in (fst (fst (p (cache d)))) in let l1 := eval vm_compute in (firstn 7 l) in let l2 := eval vm_compute in (skipn 8 l) in
    change (run p d (requests l1) None (perform (performs d l1) (Write (s "Alpha.html") (s "al")))); apply (run_torn p d l1 (Write (s "Alpha.html") (s "al" ++ s "pha")) l2 (tl ex_cache) None) end; [vm_compute; reflexivity|apply torn_write].
Qed.
Example C83_restart_example : exists d, runs ex_env (fails_or_says ex_all) (Disk [] (Some [(s "old.html", s "x")])) [[ex_url; ex_host "/a"]; [ex_host "/b"]] d /\
  run (main ex_env ex_all) d [ex_host "/b"] (Some Done) (Disk ex_cache (Some ex_files)).
Proof.
  exists (Disk (tl ex_cache) (Some (tl ex_files))). split.
  - eapply (runs_more _ _ ex_old ex_half); [exact ex_half_subset|exact C83_killed_example|]. eapply (runs_more _ _ _ ex_half); [exact ex_half_subset| |apply runs_none]. a_run run_raised.
  - a_run run_done.
Qed.
Example C83_output_lost_example : run (main ex_env ex_down) ex_old [ex_url] (Some Raised) (Disk [] (Some [])).
Proof. a_run run_raised. Qed.
(** A link with the title of the start page replaces its file. *)
Definition ex_twice : html := Tag (s "html") [] [] [Tag (s "div") [s "sideNavLinksScrollable"] [] [ex_a "/a" "Atlassian Document Format"]; ex_article "ADF" "start"].
Definition ex_env2 : env := Env (fun x => if str_eqb x (s "S") then ex_twice else ex_parse x) text_of (place_of ex_env) (json_dumps ex_env).
Example C83_same_title_example : run (main ex_env2 ex_all) (Disk [] None) [ex_url; ex_host "/a"] (Some Done)
  (Disk [(ex_host "/a", s "A"); (ex_url, s "S")] (Some [(s "Atlassian Document Format.html", s "alpha")])).
Proof. a_run run_done. Qed.

Definition ex_api (i : N) : option (str * value) := if N.eqb i 1 then Some (s "One", VStr (s "1")) else if N.eqb i 2 then Some (s "One", VStr (s "2")) else if N.eqb i 3 then Some (s "a/b", VStr (s "3")) else None.
Example C85_complete_example : run (download ex_env ex_api [1; 3; 2]%N) ex_old [] (Some Done) (Disk [] (Some [(s "One.json", s "2")])).
Proof. a_run run_done. Qed.
Example C85_raised_example : run (download ex_env ex_api [1; 4; 2]%N) ex_old [] (Some Raised) (Disk [] (Some [(s "One.json", s "1")])).
Proof. a_run run_raised. Qed.
Example C85_possible_example : Forall2 (fun i p => ex_api i = Some p) [1; 3; 2]%N [(s "One", VStr (s "1")); (s "a/b", VStr (s "3")); (s "One", VStr (s "2"))] /\
  accepted ex_env (map (json_file ex_env) [(s "One", VStr (s "1")); (s "a/b", VStr (s "3")); (s "One", VStr (s "2"))]).
Proof. split; repeat constructor; vm_compute; discriminate. Qed.
Example C85_output_lost_example : run (download ex_env ex_api [4; 1]%N) ex_old [] (Some Raised) (Disk [] (Some [])).
Proof. a_run run_raised. Qed.
