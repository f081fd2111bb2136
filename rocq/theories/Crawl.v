(** The crawler of the ADF reference, scripts/crawl_atlas_doc_reference/step1_crawl_document.py, and the downloader of test pages,
    scripts/s02-download-unit-test-data/step1_download.py: programs that ask a server and change a directory.  A run is the list of
    its actions and an outcome; it may be killed between two actions or inside one.
    Oracles: BeautifulSoup's parser and prettify, json.dumps, and what the file system does with a file name.  The server is a function for
    each run: a run asks for a page at most once (C83_requests), so it cannot notice a change in between.
    Simplified: the text of a link is all the text below it (no comments); a bs4 class attribute is a list of words; printing, time.sleep
    and the credentials are left out; diskcache stores an entry in one step (it is a database transaction) and never evicts; two names of
    the same file (./x.html, case-insensitive file systems) are two files here. *)
From Coq Require Import List NArith Bool String.
From Verif Require Import PyStr Values.
Import ListNotations.
Open Scope string_scope.
Open Scope list_scope.

(** ---------------------------------------------------------------- documents *)
Inductive html := Text (t : str) | Tag (name : str) (classes : list str) (attrs : list (str * str)) (kids : list html).
Definition kids_of (h : html) : list html := match h with Tag _ _ _ ks => ks | Text _ => [] end.
(** [tag.name == x]; the name of a text is None. *)
Definition named (x : string) (h : html) : bool := match h with Tag n _ _ _ => str_eqb n (s x) | Text _ => false end.
(** The descendants in the order of [find_all]. *)
Fixpoint below (h : html) : list html :=
  match h with Tag _ _ _ ks => List.concat (map (fun k => k :: below k) ks) | Text _ => [] end.
Definition find_all (x : string) (h : html) : list html := filter (named x) (below h).
(** [tag.text] *)
Fixpoint text_of (h : html) : str := match h with Text t => t | Tag _ _ _ ks => List.concat (map text_of ks) end.
(** step1_crawl_document.py:51-64 extract_the_main_div: both loops end at the first hit. *)
Fixpoint first_with_h1 (divs : list html) : option html :=
  match divs with
  | [] => None
  | div :: r => if existsb (named "h1") (kids_of div) then Some div else first_with_h1 r
  end.
Definition extract_the_main_div (soup : html) : option html := first_with_h1 (find_all "div" soup).
(** step1_crawl_document.py:84 soup.find("div", class_="sideNavLinksScrollable"). *)
Definition has_class (c : str) (h : html) : bool := match h with Tag _ cs _ _ => existsb (str_eqb c) cs | Text _ => false end.
Definition navigation (soup : html) : option html := find (has_class (s "sideNavLinksScrollable")) (find_all "div" soup).
(** [a["href"]] *)
Definition href (a : html) : option str := match a with Tag _ _ l _ => lookup (s "href") l | Text _ => None end.

(** ---------------------------------------------------------------- the world *)
(** What opening tmp/<name> for writing does: a file in tmp; a file elsewhere (the name has a slash); an exception. *)
Inductive place := Inside | Elsewhere | Refused.
Record env := Env { parse : str -> html; prettify : html -> str; place_of : str -> place; json_dumps : value -> str }.
(** The disk: the page cache and the files of the directory tmp, if it exists. *)
Record disk := Disk { cache : list (str * str); tmp : option (list (str * str)) }.
Inductive action := Remove_tmp | Make_tmp | Request (url : str) | Store (url html : str) | Write (name text : str) | Write_elsewhere (name text : str).
Inductive ending := Done | Raised.

Definition put (name text : str) (files : list (str * str)) : list (str * str) := (name, text) :: filter (fun e => negb (str_eqb (fst e) name)) files.
Definition perform (d : disk) (a : action) : disk :=
  match a with
  | Remove_tmp => Disk (cache d) None
  | Make_tmp => Disk (cache d) (Some [])
  | Request _ | Write_elsewhere _ _ => d
  | Store u h => Disk (put u h (cache d)) (tmp d)
  | Write n t => Disk (cache d) (match tmp d with Some l => Some (put n t l) | None => None end)
  end.
Definition performs (d : disk) (l : list action) : disk := fold_left perform l d.
(** Killed inside an action: some files of tmp are gone; the file holds a beginning of its text. *)
Inductive torn (d : disk) : action -> disk -> Prop :=
| torn_remove l l' : tmp d = Some l -> (forall n, lookup n l' = None \/ lookup n l' = lookup n l) -> torn d Remove_tmp (Disk (cache d) (Some l'))
| torn_write n x y : torn d (Write n (x ++ y)) (perform d (Write n x)).

(** ---------------------------------------------------------------- the crawler *)
Section Crawler.
Variable E : env.
(** A step of the program: actions, the cache behind them, and a value unless there was an exception. *)
Definition prog (A : Type) := list (str * str) -> list action * list (str * str) * option A.
Definition ret {A} (a : A) : prog A := fun c => ([], c, Some a).
Definition fail {A} : prog A := fun c => ([], c, None).
Definition act (a : action) : prog unit := fun c => ([a], match a with Store u h => put u h c | _ => c end, Some tt).
Definition bind {A B} (m : prog A) (f : A -> prog B) : prog B :=
  fun c => let '(l, c1, o) := m c in match o with Some a => let '(l', c2, o') := f a c1 in (l ++ l', c2, o') | None => (l, c1, None) end.
Definition or_raise {A} (o : option A) : prog A := match o with Some a => ret a | None => fail end.
(** step1_crawl_document.py:33-48 get_html_by_url_with_cache (use_cache is always True): [site u] is None when the request or raise_for_status raises. *)
Definition get_html (site : str -> option str) (u : str) : prog str :=
  fun c => match lookup u c with
           | Some h => ret h c
           | None => bind (act (Request u)) (fun _ => bind (or_raise (site u)) (fun h => bind (act (Store u h)) (fun _ => ret h))) c
           end.
(** step1_crawl_document.py:67-70 write_webpage. *)
Definition write_file (name text : str) : prog unit :=
  match place_of E name with Inside => act (Write name text) | Elsewhere => act (Write_elsewhere name text) | Refused => fail end.
Definition write_webpage (div : html) (title : str) : prog unit := write_file (title ++ s ".html") (prettify E div).
(** step1_crawl_document.py:76-81 and 89-92: one page. *)
Definition crawl (site : str -> option str) (url title : str) : prog html :=
  bind (get_html site url) (fun h =>
  let soup := parse E h in
  bind (or_raise (extract_the_main_div soup)) (fun div =>
  bind (write_webpage div title) (fun _ => ret soup))).
Definition start_url : str := s "https://developer.atlassian.com/cloud/jira/platform/apis/document/structure/".
Definition base_url : str := s "https://developer.atlassian.com".
(** step1_crawl_document.py:85-92. *)
Fixpoint crawl_links (site : str -> option str) (links : list html) : prog unit :=
  match links with
  | [] => ret tt
  | a :: r => bind (or_raise (href a)) (fun h => bind (crawl site (base_url ++ h) (text_of a)) (fun _ => crawl_links site r))
  end.
(** step1_crawl_document.py:20-23 reset_dir_tmp (rmtree only if the directory exists: on the disk, Remove_tmp does nothing otherwise). *)
Definition reset_dir_tmp : prog unit := bind (act Remove_tmp) (fun _ => act Make_tmp).
(** step1_crawl_document.py:73-92 main. *)
Definition main (site : str -> option str) : prog unit :=
  bind reset_dir_tmp (fun _ =>
  bind (crawl site start_url (s "Atlassian Document Format")) (fun soup =>
  bind (or_raise (navigation soup)) (fun div => crawl_links site (find_all "a" div)))).

(** ---------------------------------------------------------------- the downloader *)
(** step1_download.py:25-44 get_page_by_id: the title and the body as JSON, None for an exception; step1_download.py:47-58 main. *)
Fixpoint save_pages (api : N -> option (str * value)) (ids : list N) : prog unit :=
  match ids with
  | [] => ret tt
  | i :: r => bind (or_raise (api i)) (fun p => bind (write_file (fst p ++ s ".json") (json_dumps E (snd p))) (fun _ => save_pages api r))
  end.
Definition download (api : N -> option (str * value)) (ids : list N) : prog unit := bind reset_dir_tmp (fun _ => save_pages api ids).

(** ---------------------------------------------------------------- runs *)
Definition requests (l : list action) : list str := List.concat (map (fun a => match a with Request u => [u] | _ => [] end) l).
(** A run of a program on a disk: complete or ended by an exception, or killed. [reqs]: what it asked the server for. *)
Inductive run (p : prog unit) (d : disk) : list str -> option ending -> disk -> Prop :=
| run_done l c : p (cache d) = (l, c, Some tt) -> run p d (requests l) (Some Done) (performs d l)
| run_raised l c : p (cache d) = (l, c, None) -> run p d (requests l) (Some Raised) (performs d l)
| run_killed l1 l2 c o : p (cache d) = (l1 ++ l2, c, o) -> run p d (requests l1) None (performs d l1)
| run_torn l1 a l2 c o d' : p (cache d) = (l1 ++ a :: l2, c, o) -> torn (performs d l1) a d' -> run p d (requests l1) None d'.
(** Runs of the crawler one after the other, each with a server of this kind. *)
Inductive runs (servers : (str -> option str) -> Prop) : disk -> list (list str) -> disk -> Prop :=
| runs_none d : runs servers d [] d
| runs_more d site reqs e d1 rs d2 : servers site -> run (main site) d reqs e d1 -> runs servers d1 rs d2 -> runs servers d (reqs :: rs) d2.
End Crawler.
