(** The renderer once more, recording which objects' to_markdown is called, in order, each with the number of
    to_markdown calls it is nested in (the call stack).  The code is that of Markdown.v; CallsFacts.v proves that the
    results are the same. *)
From Coq Require Import List NArith ZArith Bool String.
From Verif Require Import PyStr Values Schema Parse Date Markdown.
Import ListNotations.
Open Scope string_scope.
Open Scope list_scope.
Open Scope nat_scope.

Definition call := (nat * node)%type.
Definition T (A : Type) : Type := (list call * res A)%type.
Definition tret {A} (a : A) : T A := ([], Ok a).
Definition tlift {A} (r : res A) : T A := ([], r).
Definition tbind {A B} (m : T A) (f : A -> T B) : T B :=
  match snd m with Ok a => (fst m ++ fst (f a), snd (f a)) | Err e => (fst m, Err e) end.
(** One more call on the stack. *)
Definition deeper (l : list call) : list call := map (fun c => (S (fst c), snd c)) l.

(** try: lst.append(...) except Exception: the calls made before the exception stay. *)
Definition ttry {A} (ign : bool) (m : T A) : T (list A) := (fst m, try_ ign (snd m)).
Definition tfor_each {A B} (f : A -> T (list B)) : list A -> T (list B) :=
  fix go (l : list A) : T (list B) :=
  match l with
  | [] => tret []
  | a :: r => tbind (f a) (fun x => tbind (go r) (fun y => tret (x ++ y)))
  end.
Definition tloop {B} (c : slot node) (f : node -> T (list B)) (raw : res (list B)) : T (list B) :=
  match c with
  | Items l => tfor_each f l
  | _ => tlift (loop c (fun _ => Err TypeError) raw)
  end.
Definition tdispatch := node -> option nat -> bool -> T value.

(** markdown_helpers.py:58-101. *)
Definition tcontent (md : tdispatch) (c : slot node) (ign : bool) : T str :=
  match c with
  | SOpt => tret []
  | _ => tbind (tloop c (fun n => ttry ign (md n None false)) (try_ ign (Err AttributeError))) (fun lst => tlift (join_values [] lst))
  end.
(** markdown_helpers.py:142-152. *)
Definition tblock (md : tdispatch) (n : node) : T value :=
  if is_type_of n padded
  then tbind (md n None false) (fun v => tlift (do x <- as_str v; Ok (VStr (nl ++ x ++ nl))))
  else md n None false.
(** markdown_helpers.py:104-163. *)
Definition tdoc (md : tdispatch) (c : slot node) (ign : bool) : T str :=
  match c with
  | SOpt => tret []
  | _ => tbind (tloop c (fun n => ttry ign (tblock md n)) (try_ ign (Err AttributeError)))
               (fun lst => tlift (do x <- join_values nl lst; Ok (strip_double_empty_line x)))
  end.
(** node_bullet_list.py:71-106, node_ordered_list.py:93-128. *)
Definition titem_lines (md : tdispatch) (own : str) (level : nat) (ign : bool) (item : node) : T (list str) :=
  tbind (tloop (n_content item)
           (fun nd => if is_type_of nd [own]
                      then ttry ign (md nd (Some (S level)) false)
                      else ttry ign (tbind (md nd None false) (fun v => tlift (rstrip_value v))))
           (Err AttributeError))
        (fun ls => tlift (do x <- join_values nl ls; Ok (split_on NL x))).
Definition tlist_items (md : tdispatch) (own : str) (c : slot node) (level : nat) (ign : bool) : T (list (list str)) :=
  tloop c (fun item => if is_type_of item [s "listItem"]
                       then tbind (titem_lines md own level ign item) (fun ls => tret [ls])
                       else tret [])
        (Err AttributeError).
Definition tbullet (md : tdispatch) (c : slot node) (level : nat) (ign : bool) : T value :=
  tbind (tlist_items md (s "bulletList") c level ign)
        (fun items => tret (VStr (join nl (List.concat (map (bullet_item level) items))))).
(** node_ordered_list.py:45-134. *)
Definition tordered (md : tdispatch) (a : attrs) (c : slot node) (level : nat) (ign : bool) : T value :=
  tbind (tlift (match level with
                | O => do o <- attr a (s "order"); Ok (match o with VInt _ | VBool _ => o | _ => VInt 1 end)
                | _ => Ok (VInt 1)
                end))
        (fun start => tbind (tlist_items md (s "orderedList") c level ign)
                            (fun items => tret (VStr (join nl (ordered_items level start 0 items))))).
(** node_task_list.py:47-124. *)
Definition ttask_item (md : tdispatch) (level : nat) (ign : bool) (item : node) : T value :=
  tbind (tloop (n_content item) (fun nd => ttry ign (md nd None false)) (try_ ign (Err AttributeError)))
        (fun parts => tlift (
           do item_content <- join_values [] parts;
           do state <- attr (n_attrs item) (s "state");
           let checkbox := match state with
                           | VStr x => if str_eqb x (s "DONE") then s "[x]" else s "[ ]"
                           | _ => s "[ ]"
                           end in
           Ok (VStr (indent_of level ++ s "- " ++ checkbox ++ s " " ++ rstrip item_content)))).
Definition ttask_list (md : tdispatch) (c : slot node) (level : nat) (ign : bool) : T value :=
  tbind (tloop c (fun item => if is_type_of item [s "taskItem"]
                              then tbind (ttask_item md level ign item) (fun l => tret [l])
                              else if is_type_of item [s "taskList"]
                              then ttry ign (md item (Some (S level)) ign)
                              else tret [])
               (Err AttributeError))
        (fun lines => tlift (do x <- join_values nl lines; Ok (VStr x))).
(** node_decision_item.py:64-109, node_decision_list.py:39-63. *)
Definition tdecision_item (md : tdispatch) (c : slot node) (ign : bool) : T value :=
  tbind (tcontent md c ign) (fun x => tret (VStr (join nl (quote_lines 0 false (split_on NL (rstrip x)))))).
Definition tdecision_list (md : tdispatch) (c : slot node) (ign : bool) : T value :=
  tbind (tloop c (fun item => if is_type_of item [s "decisionItem"] then ttry ign (md item None ign) else tret []) (Err AttributeError))
        (fun blocks => tlift (do x <- join_values (nl ++ nl) blocks; Ok (VStr x))).
(** node_table_cell.py:85-104, node_table_row.py:50-58, node_table.py:78-87. *)
Definition ttable_cell (md : tdispatch) (c : slot node) (ign : bool) : T value :=
  tbind (tcontent md c ign) (fun x => tret (VStr (cell_text x))).
Definition ttable_row (md : tdispatch) (c : slot node) (ign : bool) : T value :=
  tbind (tloop c (fun cell => tbind (md cell None ign) (fun v => tret [v])) (Err AttributeError))
        (fun cells => tlift (do x <- join_values (s " | ") cells; Ok (VStr (s "| " ++ x ++ s " |")))).
Definition trow_lines (md : tdispatch) (ign : bool) (row : node) : T (list value) :=
  (fst (md row None false),
   match snd (md row None false) with
   | Err e => if ign then Ok [] else Err e
   | Ok v =>
       match header_width row with
       | Err e => if ign then Ok [v] else Err e
       | Ok None => Ok [v]
       | Ok (Some n) => Ok [v; VStr (delimiter n)]
       end
   end).
Definition ttable (md : tdispatch) (c : slot node) (ign : bool) : T value :=
  tbind (tloop c (trow_lines md ign) (try_ ign (Err AttributeError)))
        (fun lines => tlift (do x <- join_values nl lines; Ok (VStr x))).

(** [n.to_markdown(...)]: this call, then those made on its behalf. *)
Fixpoint to_mdt (E : runtime) (n : node) (lv : option nat) (ign : bool) {struct n} : T value :=
  match n with
  | Node k ty ve tx a co ma =>
      let md := to_mdt E in
      let level := match lv with Some l => l | None => O end in
      let body : T value :=
        match k with
        | KbulletList => tbullet md co level ign
        | KorderedList => tordered md a co level ign
        | KtaskList => ttask_list md co level ign
        | _ =>
            match lv with
            | Some _ => tlift (Err TypeError)
            | None =>
                match k with
                | Kdoc | KnestedExpand => tbind (tdoc md co ign) (fun x => tret (VStr x))
                | KlistItem | KtaskItem | KmediaSingle => tbind (tcontent md co ign) (fun x => tret (VStr x))
                | Kparagraph => tbind (tcontent md co ign) (fun x => tlift (
                    do v <- add_style E ma (VStr x); do y <- as_str v; Ok (VStr (y ++ nl))))
                | Kheading =>
                    tbind (tlift (do l <- attr a (s "level"); times l (s "#"))) (fun hashes =>
                    tbind (tcontent md co ign) (fun x => tret (VStr (nl ++ nl ++ hashes ++ s " " ++ x ++ nl ++ nl))))
                | KcodeBlock =>
                    tbind (tcontent md co ign) (fun code => tlift (
                      do lang <- code_lang a; Ok (VStr (s "```" ++ lang ++ nl ++ code ++ nl ++ s "```"))))
                | Kblockquote =>
                    tbind (tdoc md co ign) (fun x => tret (VStr (indent_all (s "> ") (strip_double_empty_line x) ++ nl)))
                | Kpanel =>
                    tbind (tlift (do t <- attr a (s "panelType"); match t with VStr p => Ok p | _ => Err AttributeError end)) (fun pt =>
                    tbind (tdoc md co ign) (fun x => tret
                      (VStr (indent_all (s "> ") (strip_double_empty_line (join nl [s "**" ++ py_upper E pt ++ s "**"; []; x])) ++ nl))))
                | Kexpand => tbind (tdoc md co ign) (fun x => tlift (add_style E ma (VStr x)))
                | KdecisionItem => tdecision_item md co ign
                | KdecisionList => tdecision_list md co ign
                | KtableCell | KtableHeader => ttable_cell md co ign
                | KtableRow => ttable_row md co ign
                | Ktable => ttable md co ign
                | _ => tlift (to_md E (Node k ty ve tx a NoField ma) None ign)   (* no calls: the content is not looked at *)
                end
            end
        end in
      ((0, n) :: deeper (fst body), snd body)
  end.
