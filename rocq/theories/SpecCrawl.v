(** What a run of the crawler or of the downloader should leave behind (C83-C85); independent of how the programs work.
    Elements of a page are named by their position: the numbers of the children on the way to them. *)
From Coq Require Import List NArith Bool String Arith Sorted.
From Verif Require Import PyStr Values Crawl.
Import ListNotations.
Open Scope string_scope.
Open Scope list_scope.
Open Scope nat_scope.

(** ---------------------------------------------------------------- positions in a page *)
Fixpoint at_path (h : html) (p : list nat) : option html :=
  match p with [] => Some h | i :: r => match nth_error (kids_of h) i with Some k => at_path k r | None => None end end.
(** p begins before q in the document. *)
Inductive earlier : list nat -> list nat -> Prop :=
| e_inside i r : earlier [] (i :: r)
| e_before i j p q : i < j -> earlier (i :: p) (j :: q)
| e_same i p q : earlier p q -> earlier (i :: p) (i :: q).
(** d is the first element inside the page with this property. *)
Definition first_element (P : html -> Prop) (page d : html) : Prop :=
  exists p, p <> [] /\ at_path page p = Some d /\ P d /\ forall q e, q <> [] -> at_path page q = Some e -> P e -> q = p \/ earlier p q.
(** All elements inside with this property, in document order. *)
Definition all_elements (P : html -> Prop) (page : html) (es : list html) : Prop :=
  exists ps, Forall2 (fun p e => p <> [] /\ at_path page p = Some e /\ P e) ps es /\ StronglySorted earlier ps /\
    forall q e, q <> [] -> at_path page q = Some e -> P e -> In q ps.
Definition is_tag (x : string) (h : html) : Prop := exists cs l ks, h = Tag (s x) cs l ks.
(** The element that holds the article: a div with a heading of level 1 as its child. *)
Definition article (h : html) : Prop := is_tag "div" h /\ exists k, In k (kids_of h) /\ is_tag "h1" k.
Definition menu (h : html) : Prop := exists cs l ks, h = Tag (s "div") cs l ks /\ In (s "sideNavLinksScrollable") cs.

(** ---------------------------------------------------------------- what is downloaded *)
(** A page as the crawler sees it: the stored one, or what the server answers. *)
Definition sees (stored : list (str * str)) (site : str -> option str) (u : str) : option str :=
  match lookup u stored with Some h => Some h | None => site u end.
(** The link a in the menu points to this URL and has this title. *)
Inductive link_to : html -> str * str -> Prop :=
| link_to_ n cs l ks h : lookup (s "href") l = Some h -> link_to (Tag n cs l ks) (s "https://developer.atlassian.com" ++ h, text_of (Tag n cs l ks)).
(** The pages: the start page, and those its menu links to. *)
Definition pages (E : env) (view : str -> option str) (ps : list (str * str)) : Prop :=
  exists x nav links ls, view (s "https://developer.atlassian.com/cloud/jira/platform/apis/document/structure/") = Some x /\
    first_element menu (parse E x) nav /\ all_elements (is_tag "a") nav links /\ Forall2 link_to links ls /\
    ps = (s "https://developer.atlassian.com/cloud/jira/platform/apis/document/structure/", s "Atlassian Document Format") :: ls.
(** The file for a page. *)
Inductive file_of (E : env) (view : str -> option str) : str * str -> str * str -> Prop :=
| file_of_ u t x d : view u = Some x -> first_element article (parse E x) d -> file_of E view (u, t) (t ++ s ".html", prettify E d).
(** The first of these pages. *)
Definition first_pages (E : env) (view : str -> option str) (ps : list (str * str)) : Prop :=
  ps = [] \/ exists x ls, view (s "https://developer.atlassian.com/cloud/jira/platform/apis/document/structure/") = Some x /\
    ps = (s "https://developer.atlassian.com/cloud/jira/platform/apis/document/structure/", s "Atlassian Document Format") :: ls /\
    (ls = [] \/ exists nav links k, first_element menu (parse E x) nav /\ all_elements (is_tag "a") nav links /\ Forall2 link_to (firstn k links) ls).
(** The directory holds these files, written in this order: of two with the same name the later one. *)
Definition directory (E : env) (fs files : list (str * str)) : Prop :=
  forall n, lookup n files = match place_of E n with Inside => lookup n (rev fs) | _ => None end.
Definition accepted (E : env) (fs : list (str * str)) : Prop := Forall (fun f => place_of E (fst f) <> Refused) fs.
(** The whole download is possible: every page can be seen, has an article, and gives a name that can be opened. *)
Definition possible (E : env) (view : str -> option str) : Prop := exists ps fs, pages E view ps /\ Forall2 (file_of E view) ps fs /\ accepted E fs.
(** The file for a page of the wiki. *)
Definition json_file (E : env) (p : str * value) : str * str := (fst p ++ s ".json", json_dumps E (snd p)).
