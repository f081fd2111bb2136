(** Threads.  The parser again (same file and lines as Parse.v and Cache.v), now as a program of atomic accesses to the
    state all threads of a process share: the class-field cache [_CLASS_FIELD], the settings flag and the log.  Between any
    two accesses any other thread may run.  One access is one dictionary or attribute operation, which CPython's global
    interpreter lock makes atomic.  Simplified: the arguments are values, i.e. no thread changes another one's input
    dictionary while it is parsed. *)
From Coq Require Import List NArith ZArith Bool String.
From Verif Require Import PyStr Values Schema Parse Cache.
Import ListNotations.
Open Scope string_scope.
Open Scope list_scope.

Inductive prog (A : Type) :=
| Done (r : res A)
| ReadCache (c : cls) (k : option (list str) -> prog A)      (* _CLASS_FIELD[c], None = KeyError *)
| WriteCache (c : cls) (f : list str) (k : prog A)           (* _CLASS_FIELD[c] = f *)
| ReadFlag (k : bool -> prog A)                              (* settings.WARN_UNIMPLEMENTED_TYPE *)
| SetFlag (b : bool) (k : prog A)                            (* settings.WARN_UNIMPLEMENTED_TYPE = b *)
| LogW (x : warning) (k : prog A).                           (* logger.warning *)
Arguments Done {A} r. Arguments ReadCache {A} c k. Arguments WriteCache {A} c f k. Arguments ReadFlag {A} k.
Arguments SetFlag {A} b k. Arguments LogW {A} x k.

(** Run [p], then go on with its result or its exception. *)
Fixpoint ptry {A B} (p : prog A) (f : res A -> prog B) : prog B :=
  match p with
  | Done r => f r
  | ReadCache c k => ReadCache c (fun o => ptry (k o) f)
  | WriteCache c x k => WriteCache c x (ptry k f)
  | ReadFlag k => ReadFlag (fun b => ptry (k b) f)
  | SetFlag b k => SetFlag b (ptry k f)
  | LogW x k => LogW x (ptry k f)
  end.
Definition pret {A} (a : A) : prog A := Done (Ok a).
Definition praise {A} (e : exc) : prog A := Done (Err e).
Definition pbind {A B} (p : prog A) (f : A -> prog B) : prog B :=
  ptry p (fun r => match r with Ok a => f a | Err e => praise e end).

(** [Base.get_fields] (mark_or_node.py:41-53): look up; on KeyError store the declared fields and look up again. *)
Definition p_get_fields (c : cls) : prog (list str) :=
  ReadCache c (fun o =>
  match o with
  | Some f => pret f
  | None =>
      WriteCache c (declared c)
      (ReadCache c (fun o => match o with Some f => pret f | None => praise KeyError end))
  end).
(** mark_or_node.py:262-263 and 278-279. *)
Definition p_warn (x : warning) : prog unit := ReadFlag (fun b => if b then LogW x (pret tt) else pret tt).

(** [Attrs.from_dict(v)] (mark_or_node.py:67-88). *)
Definition p_attrs_from_dict (c : cls) (fs : list (str * fkind)) (v : value) : prog (list (str * value)) :=
  pbind (p_get_fields c) (fun names =>
  match v with
  | VDict d =>
      let kw := kwargs names d in
      if unexpected c kw then praise TypeError
      else Done (attrs_from_dict fs (VDict kw))
  | _ => match names with [] => pret [] | _ => praise TypeError end
  end).

Definition p_mark_from_dict (k : mkind) (v : value) : prog mark :=
  match v with
  | VDict d =>
      pbind (match lookup (s "attrs") d with
             | None => pret None
             | Some a =>
                 pbind (p_get_fields (MarkC k)) (fun names =>
                 if existsb (str_eqb (s "attrs")) names
                 then match mk_attrs k with
                      | Some fs => pbind (p_attrs_from_dict (MarkAttrsC k) fs a) (fun l => pret (Some (AObj l)))
                      | None => praise KeyError
                      end
                 else pret None)
             end) (fun oa =>
      pbind (p_get_fields (MarkC k)) (fun names =>
      let kw := kwargs names d in
      if unexpected (MarkC k) kw then praise TypeError
      else
        let t := match lookup (s "type") kw with Some t => t | None => VStr (mk_name k) end in
        match mk_attrs k with
        | None => pret (Mark k t NoAttrs)
        | Some _ => match lookup (s "attrs") kw, oa with
                    | Some _, Some a => pret (Mark k t a)
                    | _, _ => praise ParamError
                    end
        end))
  | _ => praise TypeError
  end.

Definition p_parse_mark (v : value) : prog mark :=
  match v with
  | VDict d =>
      match lookup (s "type") d with
      | None => praise KeyError
      | Some ty =>
          match mark_class_of ty with
          | Found k => p_mark_from_dict k v
          | Missing => praise (Unimplemented CMark ty)
          | Unhashable => praise TypeError
          end
      end
  | _ => praise TypeError
  end.

(** The loops over content and marks. *)
Fixpoint p_collect {A} (ms : list (prog A)) : prog (list A) :=
  match ms with
  | [] => pret []
  | m :: r =>
      ptry m (fun o =>
      match o with
      | Ok a => pbind (p_collect r) (fun l => pret (a :: l))
      | Err (Unimplemented c ty) => pbind (p_warn (Warn c ty)) (fun _ => p_collect r)
      | Err e => praise e
      end)
  end.
Inductive p_entry (A : Type) := PEAbsent | PEList (ms : list (prog A)) | PEOther (v : value).
Arguments PEAbsent {A}. Arguments PEList {A} ms. Arguments PEOther {A} v.
Definition p_run_entry {A} (e : p_entry A) : prog (option (slot A)) :=
  match e with
  | PEAbsent => pret None
  | PEList ms => pbind (p_collect ms) (fun l => pret (Some (Items l)))
  | PEOther VOpt => pret (Some SOpt)
  | PEOther v => pret (Some (Raw v))
  end.
Definition p_marks_entry (d : list (str * value)) : p_entry mark :=
  match lookup (s "marks") d with
  | None => PEAbsent
  | Some (VList l) => PEList (map p_parse_mark l)
  | Some v => PEOther v
  end.

(** [BaseNode.from_dict] with the cache. *)
Definition p_node_from_entry (k : nkind) (d : list (str * value)) (ce : p_entry node) : prog node :=
  pbind (match lookup (s "attrs") d with
         | None => pret None
         | Some a =>
             pbind (p_get_fields (NodeC k)) (fun names =>
             if existsb (str_eqb (s "attrs")) names
             then match nc_attrs (nk_class k) with
                  | Some (_, fs) => pbind (p_attrs_from_dict (NodeAttrsC k) fs a) (fun l => pret (Some (AObj l)))
                  | None => praise KeyError
                  end
             else pret None)
         end) (fun oa =>
  pbind (p_run_entry ce) (fun oc =>
  pbind (p_run_entry (p_marks_entry d)) (fun om =>
  pbind (p_get_fields (NodeC k)) (fun names =>
  let kw := kwargs names d in
  if unexpected (NodeC k) kw then praise TypeError
  else Done (construct k kw
                      (if has (s "attrs") kw then oa else None)
                      (if has (s "content") kw then oc else None)
                      (if has (s "marks") kw then om else None)))))) .

Fixpoint p_parse_node (v : value) {struct v} : prog node :=
  match v with
  | VDict d =>
      let ce :=
        (fix find_content (d : list (str * value)) : p_entry node :=
           match d with
           | [] => PEAbsent
           | (k, x) :: r =>
               if str_eqb k (s "content")
               then match x with VList l => PEList (map p_parse_node l) | _ => PEOther x end
               else find_content r
           end) d in
      match lookup (s "type") d with
      | None => praise KeyError
      | Some ty =>
          match node_class_of ty with
          | Found k => p_node_from_entry k d ce
          | Missing => praise (Unimplemented CNode ty)
          | Unhashable => praise TypeError
          end
      end
  | _ => praise TypeError
  end.

Definition p_content_entry (d : list (str * value)) : p_entry node :=
  match lookup (s "content") d with
  | None => PEAbsent
  | Some (VList l) => PEList (map p_parse_node l)
  | Some v => PEOther v
  end.
Definition p_from_dict (k : nkind) (v : value) : prog node :=
  match v with
  | VDict d => p_node_from_entry k d (p_content_entry d)
  | _ => praise TypeError
  end.


(** ---------------------------------------------------------------- a thread *)
(** One call. *)
Definition p_step (o : op) : prog answer :=
  match o with
  | OpParse v => ptry (p_parse_node v) (fun r => pret (ANode r))
  | OpFromDict k v => ptry (p_from_dict k v) (fun r => pret (ANode r))
  | OpMark v => ptry (p_parse_mark v) (fun r => pret (AMark r))
  | OpFields c => ptry (p_get_fields c) (fun r => pret (AFields r))
  | OpFlag b => SetFlag b (pret ANone)
  end.
(** A thread makes its calls one after the other and keeps the answers. *)
Fixpoint p_run (os : list op) : prog (list answer) :=
  match os with
  | [] => pret []
  | o :: r => pbind (p_step o) (fun a => pbind (p_run r) (fun l => pret (a :: l)))
  end.

(** ---------------------------------------------------------------- the process *)
(** One access of one thread: new cache and flag, what is logged, the rest of the thread. *)
Inductive access {A} : list (cls * list str) -> bool -> prog A ->
                       list (cls * list str) -> bool -> list warning -> prog A -> Prop :=
| a_read m b c k : access m b (ReadCache c k) m b [] (k (cached c m))
| a_write m b c f k : access m b (WriteCache c f k) ((c, f) :: m) b [] k
| a_flag m b k : access m b (ReadFlag k) m b [] (k b)
| a_set m b b' k : access m b (SetFlag b' k) m b' [] k
| a_log m b x k : access m b (LogW x k) m b [x] k.

(** The log records which thread logged what. *)
Record process := Process {
  p_cache : list (cls * list str);
  p_flag : bool;
  p_log : list (nat * warning);
  p_threads : list (prog (list answer)) }.
(** The scheduler picks any thread and lets it do one access. *)
Inductive pstep : process -> process -> Prop :=
| pstep_intro m b lg before p after m' b' ws p' :
    access m b p m' b' ws p' ->
    pstep (Process m b lg (before ++ p :: after))
          (Process m' b' (lg ++ map (pair (List.length before)) ws) (before ++ p' :: after)).
Inductive psteps : process -> process -> Prop :=
| ps_refl st : psteps st st
| ps_step st st1 st2 : psteps st st1 -> pstep st1 st2 -> psteps st st2.
(** A fresh process whose threads are about to make the given calls. *)
Definition start (flag : bool) (oss : list (list op)) : process := Process [] flag [] (map p_run oss).
