(** markdown_helpers.py and every [to_markdown]. *)
From Coq Require Import List NArith ZArith Bool String.
From Verif Require Import PyStr Values Schema Parse Date.
Import ListNotations.
Open Scope string_scope.
Open Scope list_scope.

(** The parts of the Python runtime that are not modelled, as an arbitrary oracle: [str()] of floats, lists,
    dicts and OPT inside f-strings; [str.upper] on non-ASCII strings; the value of
    non-ASCII decimal digits.  Theorems quantify over every runtime. *)
Record runtime := Runtime {
  rt_repr : value -> str;
  rt_upper : str -> str;
  rt_digit : N -> option Z }.

(** [f"{v}"]. *)
Definition py_str (E : runtime) (v : value) : str :=
  match v with
  | VStr x => x
  | VInt z => dec z
  | VBool true => s "True"
  | VBool false => s "False"
  | VNone => s "None"
  | _ => rt_repr E v
  end.

(** [x.upper()]. *)
Definition py_upper (E : runtime) (x : str) : str :=
  if forallb is_ascii x then map upper_ascii x else rt_upper E x.

(** [n * x] / [x * n] with x a str: n must be an int (bool included). *)
Definition times (v : value) (x : str) : res str :=
  match v with
  | VInt z => Ok (repeat_str x z)
  | VBool b => Ok (if b then x else [])
  | _ => Err TypeError
  end.

(** [self.attrs.f]: AttributeError when attrs is OPT (or the class has none). *)
Definition attr (a : attrs) (f : str) : res value :=
  match a with
  | AObj l => match lookup f l with Some v => Ok v | None => Err AttributeError end
  | _ => Err AttributeError
  end.

(** type_enum.py:159-188 check_type_match through mark_or_node.py:105-125 is_type_of,
    with a list of members (a single member is a one-element list). *)
Definition check_type_match (ty : value) (expected : list str) : bool :=
  match ty with VStr x => existsb (fun e => str_eqb x e) expected | _ => false end.
Definition is_type_of (n : node) (expected : list str) : bool := check_type_match (n_type n) expected.
(** The argument as passed: one TypeEnum member or a list (type_enum.py:185-188). *)
Inductive expected := One (t : str) | Many (ts : list str).
Definition expected_list (e : expected) : list str := match e with One t => [t] | Many ts => ts end.
Definition node_is_type_of (n : node) (e : expected) : bool := check_type_match (n_type n) (expected_list e).
Definition mark_is_type_of (m : mark) (e : expected) : bool := check_type_match (m_type m) (expected_list e).

(** ================================================================ marks *)
(** [text.strip()] as a truth value. *)
Definition nonblank (x : str) : bool := match strip x with [] => false | _ => true end.

(** strong / em / strike: mark_strong.py:19-26, mark_em.py:19-26, mark_strike.py:19-26.
    Non-strings have no [strip]: AttributeError. *)
Definition wrap_mark (delim : str) (text : value) : res value :=
  match text with
  | VStr t => Ok (VStr (if nonblank t then delim ++ t ++ delim else t))
  | _ => Err AttributeError
  end.

(** mark_code.py:22-33.  ["\n" in text] is membership for lists and dicts, a TypeError for
    the other non-strings. *)
Definition code_mark (text : value) : res value :=
  match text with
  | VStr t =>
      if existsb (N.eqb NL) t then Err ValueError
      else Ok (VStr (if nonblank t then s "`` " ++ t ++ s " ``" else t))
  | VList l => if existsb (fun v => match v with VStr x => str_eqb x nl | _ => false end) l
               then Err ValueError else Err AttributeError
  | VDict d => if existsb (fun e => str_eqb (fst e) nl) d then Err ValueError else Err AttributeError
  | _ => Err TypeError
  end.

(** mark_link.py:44-52. *)
Definition link_mark (E : runtime) (a : attrs) (text : value) : res value :=
  do title <- attr a (s "title");
  do href <- attr a (s "href");
  Ok (VStr (s "[" ++ py_str E (match title with VStr _ => title | _ => text end)
            ++ s "](" ++ py_str E href ++ s ")")).

(** [mark.to_markdown(text)].  The default is mark_or_node.py:170-196 (text unchanged). *)
Definition mark_to_markdown (E : runtime) (m : mark) (text : value) : res value :=
  match m_kind m with
  | Mstrong => wrap_mark (s "**") text
  | Mem => wrap_mark (s "*") text
  | Mstrike => wrap_mark (s "~~") text
  | Mcode => code_mark text
  | Mlink => link_mark E (m_attrs m) text
  | Mindentation =>                                   (* mark_indentation.py:35-39 *)
      do level <- attr (m_attrs m) (s "level");
      do x <- times level [9%N]; Ok (VStr x)
  | MbackgroundColor | Msubsup | MtextColor | Munderline | Mannotation | Mborder
  | Malignment | Mbreakout | MdataConsumer | Mfragment => Ok text
  end.

(** markdown_helpers.py:194-200: the loop over the marks; an AttributeError ends it and
    keeps the text obtained so far, any other exception propagates. *)
Fixpoint apply_marks (E : runtime) (ms : list mark) (md : value) : res value :=
  match ms with
  | [] => Ok md
  | m :: r =>
      match mark_to_markdown E m md with
      | Ok md' => apply_marks E r md'
      | Err AttributeError => Ok md
      | Err e => Err e
      end
  end.

(** markdown_helpers.py:166-200 add_style_to_markdown (class without marks field: AttributeError, caught). *)
Definition add_style (E : runtime) (ma : slot mark) (md : value) : res value :=
  match ma with
  | Items ms => apply_marks E ms md
  | _ => Ok md
  end.

(** ================================================================ helpers *)
(** markdown_helpers.py:28-55 with n = 3. *)
Definition collapse1 (x : str) : str := replace [NL; NL; NL] [NL; NL] x.
Definition strip_double_empty_line (x : str) : str := collapse1 (collapse1 (collapse1 x)).

(** try: lst.append(r) except Exception as e: if ignore_error: pass else: raise e *)
Definition try_ {A} (ign : bool) (r : res A) : res (list A) :=
  match r with
  | Ok a => Ok [a]
  | Err e => if ign then Ok [] else Err e
  end.

(** A for loop whose body appends a list of results. *)
Definition for_each {A B} (f : A -> res (list B)) : list A -> res (list B) :=
  fix go (l : list A) : res (list B) :=
  match l with
  | [] => Ok []
  | a :: r => do x <- f a; do y <- go r; Ok (x ++ y)
  end.

(** [for node in content: body]; [raw] is the outcome of the body on an element that is
    not an ADF object (a character or key of a raw str/dict content).  OPT and the other
    raw values are not iterable. *)
Definition loop {B} (c : slot node) (f : node -> res (list B)) (raw : res (list B)) : res (list B) :=
  match c with
  | Items l => for_each f l
  | SOpt => Err TypeError
  | NoField => Err AttributeError
  | Raw (VStr x) => for_each (fun _ => raw) x
  | Raw (VDict d) => for_each (fun _ => raw) d
  | Raw _ => Err TypeError
  end.

(** [sep.join(lst)]: TypeError on a non-str item. *)
Definition as_str (v : value) : res str := match v with VStr x => Ok x | _ => Err TypeError end.
Definition join_values (sep : str) (vs : list value) : res str :=
  do xs <- mapM as_str vs; Ok (join sep xs).

(** In the following, [md] is dynamic dispatch: [md n level ign] is
    [n.to_markdown(level=..., ignore_error=ign)], [level = None] when not passed. *)
Definition dispatch := node -> option nat -> bool -> res value.

(** markdown_helpers.py:58-101 (child.to_markdown() is called without the flag, line 94). *)
Definition content_to_markdown (md : dispatch) (c : slot node) (ign : bool) : res str :=
  match c with
  | SOpt => Ok []
  | _ =>
      do lst <- loop c (fun n => try_ ign (md n None false)) (try_ ign (Err AttributeError));
      join_values [] lst
  end.

(** markdown_helpers.py:142-152: padding for lists and code blocks. *)
Definition padded : list str := [s "bulletList"; s "orderedList"; s "codeBlock"].
Definition block_md (md : dispatch) (n : node) : res value :=
  if is_type_of n padded
  then do v <- md n None false; do x <- as_str v; Ok (VStr (nl ++ x ++ nl))
  else md n None false.

(** markdown_helpers.py:104-163. *)
Definition doc_content_to_markdown (md : dispatch) (c : slot node) (ign : bool) : res str :=
  match c with
  | SOpt => Ok []
  | _ =>
      do lst <- loop c (fun n => try_ ign (block_md md n)) (try_ ign (Err AttributeError));
      do x <- join_values nl lst;
      Ok (strip_double_empty_line x)
  end.

(** ================================================================ node classes *)
Definition indent_of (level : nat) : str := repeat_nat (s "    ") level.

(** [md.rstrip()] on a child's Markdown (non-str: AttributeError). *)
Definition rstrip_value (v : value) : res value :=
  match v with VStr x => Ok (VStr (rstrip x)) | _ => Err AttributeError end.

(** The loop shared (textually duplicated) by node_bullet_list.py:71-106 and
    node_ordered_list.py:93-128: for each listItem, the lines of its content;
    [own] is the list's own type, children of that type are rendered one level deeper
    (and, note, without the flag). *)
Definition item_lines (md : dispatch) (own : str) (level : nat) (ign : bool) (item : node) : res (list str) :=
  do content_lines <-
     loop (n_content item)
          (fun nd =>
             if is_type_of nd [own]
             then try_ ign (md nd (Some (S level)) false)
             else try_ ign (do v <- md nd None false; rstrip_value v))
          (Err AttributeError);
  do item_content <- join_values nl content_lines;
  Ok (split_on NL item_content).

Definition list_items (md : dispatch) (own : str) (c : slot node) (level : nat) (ign : bool)
  : res (list (list str)) :=
  loop c (fun item =>
            if is_type_of item [s "listItem"]
            then do ls <- item_lines md own level ign item; Ok [ls]
            else Ok [])
       (Err AttributeError).

(** node_bullet_list.py:29-110. *)
Definition bullet_item (level : nat) (ls : list str) : list str :=
  (indent_of level ++ s "- " ++ hd [] ls) :: tl ls.
Definition bullet_list_md (md : dispatch) (c : slot node) (level : nat) (ign : bool) : res value :=
  do items <- list_items md (s "bulletList") c level ign;
  Ok (VStr (join nl (List.concat (map (bullet_item level) items)))).

(** node_ordered_list.py:87-91,124,132: the number printed for the i-th item; [start] may be
    a bool (an int subclass), printed as True/False and incremented as 1/0. *)
Definition ol_number (start : value) (i : nat) : str :=
  match start with
  | VBool b => match i with
               | O => if b then s "True" else s "False"
               | _ => dec ((if b then 1 else 0) + Z.of_nat i)
               end
  | VInt z => dec (z + Z.of_nat i)
  | _ => dec (1 + Z.of_nat i)
  end.
Definition ordered_item (level : nat) (start : value) (i : nat) (ls : list str) : list str :=
  (indent_of level ++ ol_number start i ++ s ". " ++ hd [] ls) :: tl ls.
Fixpoint ordered_items (level : nat) (start : value) (i : nat) (items : list (list str)) : list str :=
  match items with
  | [] => []
  | ls :: r => ordered_item level start i ls ++ ordered_items level start (S i) r
  end.
(** node_ordered_list.py:45-134. *)
Definition ordered_list_md (md : dispatch) (a : attrs) (c : slot node) (level : nat) (ign : bool) : res value :=
  do start <- (match level with
               | O => do o <- attr a (s "order");
                      Ok (match o with VInt _ | VBool _ => o | _ => VInt 1 end)
               | _ => Ok (VInt 1)
               end);
  do items <- list_items md (s "orderedList") c level ign;
  Ok (VStr (join nl (ordered_items level start 0 items))).

(** node_task_list.py:47-124. *)
Definition task_item_line (md : dispatch) (level : nat) (ign : bool) (item : node) : res value :=
  do parts <- loop (n_content item) (fun nd => try_ ign (md nd None false)) (try_ ign (Err AttributeError));
  do item_content <- join_values [] parts;
  do state <- attr (n_attrs item) (s "state");
  let checkbox := match state with
                  | VStr x => if str_eqb x (s "DONE") then s "[x]" else s "[ ]"
                  | _ => s "[ ]"
                  end in
  Ok (VStr (indent_of level ++ s "- " ++ checkbox ++ s " " ++ rstrip item_content)).
Definition task_list_md (md : dispatch) (c : slot node) (level : nat) (ign : bool) : res value :=
  do lines <- loop c (fun item =>
                        if is_type_of item [s "taskItem"]
                        then do l <- task_item_line md level ign item; Ok [l]
                        else if is_type_of item [s "taskList"]
                        then try_ ign (md item (Some (S level)) ign)
                        else Ok [])
                   (Err AttributeError);
  do x <- join_values nl lines;
  Ok (VStr x).

(** node_decision_item.py:89-107: the line loop with its two state variables. *)
Fixpoint quote_lines (line_count : nat) (prev_was_empty : bool) (raw_lines : list str) : list str :=
  match raw_lines with
  | [] => []
  | l :: r =>
      match rstrip l with
      | [] => if (Nat.leb line_count 1 || prev_was_empty)%bool
              then quote_lines line_count prev_was_empty r
              else s ">" :: quote_lines line_count true r
      | line => (s "> " ++ line) :: quote_lines (S line_count) false r
      end
  end.
(** node_decision_item.py:64-109. *)
Definition decision_item_md (md : dispatch) (c : slot node) (ign : bool) : res value :=
  do x <- content_to_markdown md c ign;
  Ok (VStr (join nl (quote_lines 0 false (split_on NL (rstrip x))))).

(** node_decision_list.py:39-63. *)
Definition decision_list_md (md : dispatch) (c : slot node) (ign : bool) : res value :=
  do blocks <- loop c (fun item =>
                         if is_type_of item [s "decisionItem"]
                         then try_ ign (md item None ign)
                         else Ok [])
                    (Err AttributeError);
  do x <- join_values (nl ++ nl) blocks;
  Ok (VStr x).

(** node_table_cell.py:85-104 and node_table_header.py:84-103 (identical bodies). *)
Definition cell_line (l : str) : str :=
  let stripped := lstrip_sp l in
  let leading := (List.length l - List.length stripped)%nat in
  if Nat.ltb 0 leading then repeat_nat (s "&nbsp;") leading ++ stripped else l.
Definition cell_text (x : str) : str :=
  join (s "<br>") (map cell_line (split_on NL (replace (s "|") (s "\|") x))).
Definition table_cell_md (md : dispatch) (c : slot node) (ign : bool) : res value :=
  do x <- content_to_markdown md c ign; Ok (VStr (cell_text x)).

(** node_table_row.py:50-58: the flag is passed down, nothing is caught. *)
Definition table_row_md (md : dispatch) (c : slot node) (ign : bool) : res value :=
  do cells <- loop c (fun cell => do v <- md cell None ign; Ok [v]) (Err AttributeError);
  do x <- join_values (s " | ") cells;
  Ok (VStr (s "| " ++ x ++ s " |")).

(** node_table.py:81-82: [row.content[0].is_type_of(tableHeader)], and the row's length. *)
Definition header_width (row : node) : res (option nat) :=
  match n_content row with
  | Items [] => Err IndexError
  | Items (c :: l) => Ok (if is_type_of c [s "tableHeader"] then Some (S (List.length l)) else None)
  | NoField => Err AttributeError
  | SOpt => Err TypeError
  | Raw (VStr []) => Err IndexError
  | Raw (VStr _) => Err AttributeError
  | Raw (VDict _) => Err KeyError
  | Raw _ => Err TypeError
  end.
Definition delimiter (n : nat) : str := s "| " ++ join (s " | ") (repeat (s "---") n) ++ s " |".
(** node_table.py:78-87: the row's line is appended before the header test can raise. *)
Definition table_row_lines (md : dispatch) (ign : bool) (row : node) : res (list value) :=
  match md row None false with
  | Err e => if ign then Ok [] else Err e
  | Ok v =>
      match header_width row with
      | Err e => if ign then Ok [v] else Err e
      | Ok None => Ok [v]
      | Ok (Some n) => Ok [v; VStr (delimiter n)]
      end
  end.
Definition table_md (md : dispatch) (c : slot node) (ign : bool) : res value :=
  do lines <- loop c (table_row_lines md ign) (try_ ign (Err AttributeError));
  do x <- join_values nl lines;
  Ok (VStr x).

(** node_media.py:91-108. *)
Definition is_media (t : value) (x : string) : bool :=
  match t with VStr y => str_eqb y (s x) | _ => false end.
Definition media_md (E : runtime) (a : attrs) (ma : slot mark) : res value :=
  do t <- attr a (s "type");
  do url <- attr a (s "url");
  do alt <- attr a (s "alt");
  do id <- attr a (s "id");
  let alt' := match alt with VStr x => x | _ => s "media" end in
  match (if is_media t "external" then match url with VStr u => Some u | _ => None end else None) with
  | Some u => add_style E ma (VStr (s "![" ++ alt' ++ s "](" ++ u ++ s ")"))
  | None =>
      if is_media t "file"
      then add_style E ma (VStr (s "![" ++ alt' ++ s "](media:" ++ py_str E id ++ s ")"))
      else if is_media t "link" then Ok (VStr (s "[media]"))
      else Err TypeError
  end.

(** node_code_block.py:54-71 (the language mapping of markdown_helpers.py:203 is empty). *)
Definition code_lang (a : attrs) : res str :=
  match a with
  | AOpt => Ok []
  | _ => do v <- attr a (s "language");
         Ok (match v with VStr x => if str_eqb x (s "none") then [] else x | _ => [] end)
  end.

(** [n.to_markdown(...)]: one branch per class. *)
Fixpoint to_md (E : runtime) (n : node) (lv : option nat) (ign : bool) {struct n} : res value :=
  match n with
  | Node k ty ve tx a co ma =>
      let md := to_md E in
      let level := match lv with Some l => l | None => O end in
      match k with
      | KbulletList => bullet_list_md md co level ign
      | KorderedList => ordered_list_md md a co level ign
      | KtaskList => task_list_md md co level ign
      | _ =>
          match lv with
          | Some _ => Err TypeError    (* unexpected keyword argument 'level' *)
          | None =>
              match k with
              | Kdoc => do x <- doc_content_to_markdown md co ign; Ok (VStr x)   (* node_doc.py:81-91 *)
              | Ktext => match tx with                                          (* node_text.py:52-58 *)
                         | Some t => add_style E ma t
                         | None => Err AttributeError
                         end
              | Krule => Ok (VStr (nl ++ nl ++ s "---" ++ nl ++ nl))             (* node_rule.py:38-42 *)
              | KhardBreak => Ok (VStr (s "  " ++ nl))                          (* node_hard_break.py:39-43 *)
              | KlistItem                                                       (* node_list_item.py:57-61 *)
              | KtaskItem                                                       (* node_task_item.py:65-69 *)
              | KmediaSingle =>                                                 (* node_media_single.py:83-87 *)
                  do x <- content_to_markdown md co ign; Ok (VStr x)
              | Kparagraph =>                                                   (* node_paragraph.py:72-81 *)
                  do x <- content_to_markdown md co ign;
                  do v <- add_style E ma (VStr x);
                  do y <- as_str v; Ok (VStr (y ++ nl))
              | Kheading =>                                                     (* node_heading.py:77-89 *)
                  do l <- attr a (s "level");
                  do hashes <- times l (s "#");
                  do x <- content_to_markdown md co ign;
                  Ok (VStr (nl ++ nl ++ hashes ++ s " " ++ x ++ nl ++ nl))
              | KcodeBlock =>
                  do code <- content_to_markdown md co ign;
                  do lang <- code_lang a;
                  Ok (VStr (s "```" ++ lang ++ nl ++ code ++ nl ++ s "```"))
              | Kblockquote =>                                                  (* node_blockquote.py:60-76 *)
                  do x <- doc_content_to_markdown md co ign;
                  Ok (VStr (indent_all (s "> ") (strip_double_empty_line x) ++ nl))
              | Kpanel =>                                                       (* node_panel.py:99-121 *)
                  do t <- attr a (s "panelType");
                  do pt <- match t with VStr p => Ok p | _ => Err AttributeError end;
                  do x <- doc_content_to_markdown md co ign;
                  Ok (VStr (indent_all (s "> ")
                              (strip_double_empty_line
                                 (join nl [s "**" ++ py_upper E pt ++ s "**"; []; x])) ++ nl))
              | Kexpand =>                                                      (* node_expand.py:83-95 *)
                  do x <- doc_content_to_markdown md co ign; add_style E ma (VStr x)
              | KnestedExpand =>                                                (* node_nested_expand.py:80-90 *)
                  do x <- doc_content_to_markdown md co ign; Ok (VStr x)
              | KdecisionItem => decision_item_md md co ign
              | KdecisionList => decision_list_md md co ign
              | KtableCell | KtableHeader => table_cell_md md co ign
              | KtableRow => table_row_md md co ign
              | Ktable => table_md md co ign
              | KmediaGroup                                                     (* node_media_group.py:31-35 *)
              | Kcaption                                                        (* node_caption.py:58-62 *)
              | KmediaInline => Ok (VStr [])                                    (* node_media_inline.py:65-69 *)
              | Kmedia => media_md E a ma
              | Kemoji =>                                                       (* node_emoji.py:50-60 *)
                  do t <- attr a (s "text");
                  match t with
                  | VStr _ => Ok t
                  | _ => do sn <- attr a (s "shortName");
                         match sn with VStr _ => Ok sn | _ => Err NotImplementedErr end
                  end
              | Kmention =>                                                     (* node_mention.py:50-58 *)
                  do t <- attr a (s "text");
                  Ok (match t with VStr _ => t | _ => VStr (s "@Unknown") end)
              | Kstatus =>                                                      (* node_status.py:47-51 *)
                  do t <- attr a (s "text"); Ok (VStr (s "`" ++ py_str E t ++ s "`"))
              | KinlineCard =>                                                  (* node_inline_card.py:48-55 *)
                  do u <- attr a (s "url");
                  match u with
                  | VStr x => Ok (VStr (s "[" ++ x ++ s "](" ++ x ++ s ")"))
                  | _ => Err NotImplementedErr
                  end
              | KblockCard =>                                                   (* node_block_card.py:95-102 *)
                  do u <- attr a (s "url");
                  match u with
                  | VStr x => Ok (VStr (nl ++ s "[" ++ x ++ s "](" ++ x ++ s ")" ++ nl))
                  | _ => Err NotImplementedErr
                  end
              | KembedCard =>                                                   (* node_embed_card.py:59-63 *)
                  do u <- attr a (s "url");
                  Ok (VStr (nl ++ s "[" ++ py_str E u ++ s "](" ++ py_str E u ++ s ")" ++ nl))
              | Kextension =>                                                   (* node_extension.py:62-72 *)
                  do key <- attr a (s "extensionKey");
                  do et <- attr a (s "extensionType");
                  do t <- attr a (s "text");
                  Ok (VStr (match t with
                            | VStr (c :: r) => s "[Extension: " ++ py_str E key ++ s "] " ++ (c :: r)
                            | _ => s "[Extension: " ++ py_str E et ++ s "/" ++ py_str E key ++ s "]"
                            end))
              | Kdate =>
                  do t <- attr a (s "timestamp");
                  do x <- date_to_markdown (rt_digit E) t; Ok (VStr x)
              | KbulletList | KorderedList | KtaskList => Err TypeError          (* handled above *)
              end
          end
      end
  end.

(** The public call [n.to_markdown(ignore_error=ign)]. *)
Definition to_markdown (E : runtime) (n : node) (ign : bool) : res value := to_md E n None ign.
