(** What the syntax of PySyntax.v does in the functions that read and write dictionaries: an interpreter with dataclasses, class methods,
    super(), a log and module-level caches.  [Wrong] is any behaviour outside this part of Python, among them running out of fuel, using a
    variable before it is assigned, changing the caller's data, and changing a list or dictionary that has two names.

    Lists and dictionaries that the code makes are values here, in one of three states: [Own], made by this function and known only by one
    variable, which may change it; [Lent], read from such a variable, which may be looked at and passed on but not stored; [Done], never
    changed again, which may be stored and shared.  Input data is never changed at all. *)
From Coq Require Import List NArith ZArith Bool String.
From Verif Require Import PyStr Values Schema Parse PySyntax PySem.
Import ListNotations.
Open Scope string_scope.
Open Scope list_scope.

Inductive own := Own | Lent | Done.
Inductive rv :=
| RV (v : value)                               (* None, bool, int, float, str, OPT; lists and dictionaries of such: input data *)
| RInst (c : string) (fs : list (str * rv))    (* an instance of a dataclass: its class and its fields *)
| RList (o : own) (l : list rv)                (* a list made by the code *)
| RDict (o : own) (d : list (str * rv))        (* a dictionary made by the code *)
| RItems (d : list (str * rv))                 (* d.items() *)
| RField (f : str) (t : option string)         (* a dataclasses.Field: name and annotated class *)
| RClass (q : string)                          (* a class of the program *)
| RFun (q : string)                            (* a function of the program *)
| RTable (d : list (str * string))             (* a module-level dictionary from strings to classes *)
| RCache (q : string)                          (* a module-level dictionary, empty at first, from classes *)
| RBuiltin (q : string)
| RBound (q : string) (o : rv) (m : string)    (* method [m], looked up from class [q] on, bound to [o] *)
| RSuper (q : string) (o : rv)                 (* super() in class [q] *)
| RMeth (o : rv) (m : string)                  (* a method of a built-in type *)
| RExc (e : exc)
| RMsg (c : Values.cat) (ty : value)                  (* str() of an UnimplementedTypeError *)
| RUnbound.

Definition renv := list (string * rv).
(** The state of the process: the warnings logged and the module-level caches. *)
Record world := World { w_log : list warning; w_cache : list (string * rv) }.
Definition S (A : Type) : Type := world -> world * out A.
Definition sval {A} (a : A) : S A := fun w => (w, Val a).
Definition sout {A} (o : out A) : S A := fun w => (w, o).
Definition sbind {A B} (m : S A) (f : A -> S B) : S B :=
  fun w => match m w with (w', Val a) => f a w' | (w', Exc e) => (w', Exc e) | (w', Wrong) => (w', Wrong) end.
Notation "'let!' x := m 'in' k" := (sbind m (fun x => k)) (at level 200, x pattern, right associativity).
Definition smap {A B} (f : A -> S B) : list A -> S (list B) :=
  fix go (l : list A) : S (list B) :=
  match l with
  | [] => sval []
  | a :: r => let! b := f a in let! bs := go r in sval (b :: bs)
  end.

(** Read from a variable. *)
Definition lend (v : rv) : rv := match v with RList Own l => RList Lent l | RDict Own l => RDict Lent l | _ => v end.
(** Stored in a list, a dictionary, a field or a cache: never changed again. *)
Definition keep (v : rv) : option rv :=
  match v with
  | RList Lent _ | RDict Lent _ | RUnbound => None
  | RList _ l => Some (RList Done l)
  | RDict _ d => Some (RDict Done d)
  | _ => Some v
  end.
Fixpoint rset (x : string) (v : rv) (en : renv) : renv :=
  match en with
  | [] => [(x, v)]
  | (y, w) :: r => if String.eqb y x then (y, v) :: r else (y, w) :: rset x v r
  end.
(** [d[k] = v]: an existing key keeps its place. *)
Fixpoint dput {A} (k : str) (v : A) (d : list (str * A)) : list (str * A) :=
  match d with
  | [] => [(k, v)]
  | (k', v') :: r => if str_eqb k' k then (k', v) :: r else (k', v') :: dput k v r
  end.

(** The data in a value: lists and dictionaries of the code count as data; instances only for dataclasses.asdict ([inst]). *)
Definition all_some {A B} (f : A -> option B) : list A -> option (list B) :=
  fix go (l : list A) : option (list B) :=
  match l with
  | [] => Some []
  | a :: r => match f a, go r with Some b, Some bs => Some (b :: bs) | _, _ => None end
  end.
Definition all_snd {K A B} (f : A -> option B) : list (K * A) -> option (list (K * B)) :=
  fix go (l : list (K * A)) : option (list (K * B)) :=
  match l with
  | [] => Some []
  | (k, a) :: r => match f a, go r with Some b, Some bs => Some ((k, b) :: bs) | _, _ => None end
  end.
Fixpoint data_of (inst : bool) (v : rv) {struct v} : option value :=
  match v with
  | RV x => Some x
  | RList _ l => option_map VList (all_some (data_of inst) l)
  | RDict _ d => option_map VDict (all_snd (data_of inst) d)
  | RInst _ fs => if inst then option_map VDict (all_snd (data_of inst) fs) else None
  | _ => None
  end.
(** What a function returns: data is the caller's from now on and not changed any more. *)
Definition settle (v : rv) : rv := match data_of false v with Some x => RV x | None => v end.

Section Sem.
  Variable W : bool.                           (* settings.WARN_UNIMPLEMENTED_TYPE *)
  Variable P : program2.

  (** ---- classes *)
  Fixpoint find (depth : nat) (q m : string) : option (bool * func) :=
    match depth, assoc q (q_classes P) with
    | O, _ | _, None => None
    | Datatypes.S k, Some c =>
        match assoc m (k_methods c) with
        | Some f => Some f
        | None => match k_base c with Some b => find k b m | None => None end
        end
    end.
  (** The fields of a dataclass: those of the base first; one declared again keeps its place. *)
  Fixpoint fields_of (depth : nat) (q : string) : list (str * (default * option string)) :=
    match depth, assoc q (q_classes P) with
    | O, _ | _, None => []
    | Datatypes.S k, Some c =>
        fold_left (fun fs f => dput (fst f) (snd f) fs) (k_fields c) (match k_base c with Some b => fields_of k b | None => [] end)
    end.
  Definition all_fields (q : string) := fields_of 8 q.
  (** [q( **kwargs)]: the constructor of a frozen dataclass, then func_args' check of the fields that are still REQ. *)
  Definition construct (q : string) (kw : list (str * rv)) : out rv :=
    let fs := all_fields q in
    if existsb (fun e => negb (has (fst e) fs)) kw then Exc TypeError
    else if existsb (fun f => match fst (snd f) with DNone => negb (has (fst f) kw) | _ => false end) fs then Exc TypeError
    else if existsb (fun f => match fst (snd f) with DReq => negb (has (fst f) kw) | _ => false end) fs then Exc ParamError
    else match all_snd keep (map (fun f => (fst f, match lookup (fst f) kw with
                                                   | Some v => v
                                                   | None => match fst (snd f) with DVal v => RV v | _ => RV VOpt end
                                                   end)) fs) with
         | Some l => Val (RInst q l)
         | None => Wrong
         end.
  Definition method_of (q : string) (o : rv) (m : string) : out rv :=
    match find 8 q m with
    | None => Exc AttributeError
    | Some (true, _) => match o with
                        | RClass _ => Val (RBound q o m)
                        | RInst c _ => Val (RBound q (RClass c) m)
                        | _ => Wrong
                        end
    | Some (false, _) => match o with RInst _ _ => Val (RBound q o m) | _ => Wrong end
    end.
  (** [o.f]. *)
  Definition rattr (o : rv) (f : string) : out rv :=
    if String.prefix "__" f then Wrong else
    match o with
    | RInst c fs => match lookup (s f) fs with Some v => Val v | None => method_of c o f end
    | RClass q => method_of q o f
    | RSuper q x => match assoc q (q_classes P) with
                    | Some c => match k_base c with Some b => method_of b x f | None => Wrong end
                    | None => Wrong
                    end
    | RField n t =>
        if String.eqb f "name" then Val (RV (VStr n))
        else if String.eqb f "type" then match t with Some c => Val (RClass c) | None => Wrong end
        else Wrong
    | RV v => let* _ := data_attr (PV v) v f in Val (RMeth o f)
    | RDict _ _ => if known f dict_methods then Val (RMeth o f) else Exc AttributeError
    | RList _ _ => if known f list_methods then Val (RMeth o f) else Exc AttributeError
    | RBuiltin q => let x := (q ++ "." ++ f)%string in if String.eqb x "settings.WARN_UNIMPLEMENTED_TYPE" then Val (RV (VBool W)) else Val (RBuiltin x)
    | _ => Wrong
    end.
  Definition is_cache (q : string) : bool := existsb (String.eqb q) (q_caches P).
  Definition rglob (q : string) : out rv :=
    if String.eqb q "func_args.api.OPT" then Val (RV VOpt)
    else match assoc q (q_funs P) with
    | Some _ => Val (RFun q)
    | None =>
        match assoc q (q_dicts P) with
        | Some d => Val (RTable d)
        | None => if is_cache q then Val (RCache q)
                  else match assoc q (q_classes P) with Some _ => Val (RClass q) | None => Val (RBuiltin q) end
        end
    end.

  (** ---- operations *)
  Definition rtruth (v : rv) : out bool :=
    match v with
    | RV x => truth (PV x)
    | _ => Wrong
    end.
  (** [a in b], [a] a string. *)
  Definition rin (a b : rv) : out bool :=
    match a, b with
    | RV (VStr x), RV v => py_in (PV (VStr x)) (PV v)
    | RV (VStr x), RDict _ d => Val (has x d)
    | _, _ => Wrong
    end.
  Definition ris (a b : rv) : out bool :=
    match b with
    | RV VOpt => match a with RV VOpt => Val true | RUnbound => Wrong | _ => Val false end
    | RV VNone => match a with RV VNone => Val true | RUnbound => Wrong | _ => Val false end
    | _ => Wrong
    end.
  Definition rcompare (o : cmpop) (a b : rv) : out bool :=
    match o with
    | CIn => rin a b
    | CIs => ris a b
    | CIsNot => let* t := ris a b in Val (negb t)
    | _ => Wrong
    end.
  Definition cache_get (q c : string) : S rv :=
    fun w => (w, match assoc c (w_cache w) with Some v => Val v | None => Exc KeyError end).
  Definition rsubscript (a i : rv) : S rv :=
    match a, i with
    | RV x, RV (VStr k) =>
        sout (match x with VDict d => match lookup k d with Some v => Val (RV v) | None => Exc KeyError end | _ => Exc TypeError end)
    | RDict _ d, RV (VStr k) => sout (match lookup k d with Some v => Val v | None => Exc KeyError end)
    | RTable d, RV y => sout (match y with
                              | VStr k => match lookup k d with Some c => Val (RClass c) | None => Exc KeyError end
                              | VList _ | VDict _ => Exc TypeError          (* unhashable *)
                              | _ => Exc KeyError
                              end)
    | RCache q, RClass c => cache_get q c
    | _, _ => sout Wrong
    end.
  Definition relements (v : rv) : out (list rv) :=
    match v with
    | RList _ l => Val l
    | RV x => match elements (PV x) with
              | Val l => match all_some (fun p => match p with PV y => Some (RV y) | _ => None end) l with Some l' => Val l' | None => Wrong end
              | Exc e => Exc e
              | Wrong => Wrong
              end
    | _ => Wrong
    end.
  Definition deepcopy (v : rv) : out rv :=
    match v with
    | RV (VDict d) => Val (RDict Own (map (fun e => (fst e, RV (snd e))) d))
    | RV x => Val (RV x)
    | _ => Wrong
    end.
  Definition hasattr (o : rv) (f : str) : out bool :=
    match rattr o (string_of_list_ascii (map Ascii.ascii_of_N f)) with
    | Val _ => Val true
    | Exc AttributeError => Val false
    | _ => Wrong
    end.
  (** Functions of Python and func_args. *)
  Definition rbuiltin (q : string) (args : list rv) : S rv :=
    match q, args with
    | "copy.deepcopy", [v] => sout (deepcopy v)
    | "builtins.hasattr", [o; RV (VStr f)] => sout (let* b := hasattr o f in Val (RV (VBool b)))
    | "builtins.isinstance", [v; RBuiltin "builtins.list"] =>
        sval (RV (VBool (match v with RV (VList _) | RList _ _ => true | _ => false end)))
    | "builtins.str", [RExc (Unimplemented c ty)] => sval (RMsg c ty)
    | "exc.UnimplementedTypeError", [RV ty; RV (VStr c)] =>
        sout (if str_eqb c (s "node") then Val (RExc (Unimplemented CNode ty))
              else if str_eqb c (s "mark") then Val (RExc (Unimplemented CMark ty)) else Wrong)
    | "logger.logger.warning", [RMsg c ty] => fun w => (World (w_log w ++ [Warn c ty]) (w_cache w), Val (RV VNone))
    | "dataclasses.fields", [RClass c] => sval (RList Own (map (fun f => RField (fst f) (snd (snd f))) (all_fields c)))
    | "dataclasses.asdict", [RInst c fs] =>
        sout (match all_snd (data_of true) fs with Some d => Val (RDict Own (map (fun e => (fst e, RV (snd e))) d)) | None => Wrong end)
    | _, _ => sout Wrong
    end.
  (** [f( **d)]. *)
  Definition rkwcall (f : rv) (d : list (str * rv)) : out rv :=
    match f with
    | RBuiltin "func_args.api.remove_optional" => Val (RDict Own (filter (fun e => match snd e with RV VOpt => false | _ => true end) d))
    | RClass q => construct q d
    | _ => Wrong
    end.
  Definition rmethod (o : rv) (m : string) (args : list rv) : out rv :=
    match o, m, args with
    | RDict _ d, "items", [] => Val (RItems d)
    | _, _, _ => Wrong
    end.

  Definition rcaller := rv -> list rv -> S rv.
  Definition rapply (cl : rcaller) (f : rv) (args : list rv) : S rv :=
    match f with
    | RBuiltin q => rbuiltin q args
    | RMeth o m => sout (rmethod o m args)
    | RFun _ | RBound _ _ _ => cl f (map lend args)
    | _ => sout Wrong
    end.
  Fixpoint reval (cl : rcaller) (en : renv) (e : expr) {struct e} : S rv :=
    match e with
    | Name x => sout (match assoc x en with Some RUnbound | None => Wrong | Some v => Val (lend v) end)
    | Glob q => sout (rglob q)
    | Const v => sval (RV v)
    | Attr a f => let! o := reval cl en a in sout (rattr o f)
    | Call f args [] =>
        let! g := reval cl en f in
        let! vs := (fix evals (l : list expr) : S (list rv) :=
                      match l with [] => sval [] | x :: r => let! v := reval cl en x in let! vs := evals r in sval (v :: vs) end) args in
        rapply cl g vs
    | CallKw f e =>
        let! g := reval cl en f in
        let! v := reval cl en e in
        match v with RDict _ d => sout (rkwcall g d) | _ => sout Wrong end
    | Cmp o a b => let! x := reval cl en a in let! y := reval cl en b in sout (let* t := rcompare o x y in Val (RV (VBool t)))
    | And a b => let! x := reval cl en a in let! t := sout (rtruth x) in if t then reval cl en b else sval x
    | Subscript a i => let! x := reval cl en a in let! y := reval cl en i in rsubscript x y
    | ListOf [] => sval (RList Own [])
    | EmptyDict => sval (RDict Own [])
    | ListComp b x it =>
        let! v := reval cl en it in
        let! vs := sout (relements v) in
        let! ws := smap (fun v => reval cl ((x, v) :: en) b) vs in
        sout (match all_some keep ws with Some l => Val (RList Own l) | None => Wrong end)
    | DictComp k b x it =>
        let! v := reval cl en it in
        let! vs := sout (relements v) in
        let! ws := smap (fun v => let! i := reval cl ((x, v) :: en) k in let! w := reval cl ((x, v) :: en) b in
                                  sout (match i, keep w with RV (VStr i), Some w => Val (i, w) | _, _ => Wrong end)) vs in
        sval (RDict Own (fold_left (fun d e => dput (fst e) (snd e) d) ws []))
    | SuperOf c x => sout (match assoc x en with Some (RInst q fs) => Val (RSuper c (RInst q fs)) | Some (RClass q) => Val (RSuper c (RClass q)) | _ => Wrong end)
    | _ => sout Wrong
    end.

  (** ---- statements *)
  Inductive rsig := RNext | RRet (v : rv) | RRais (e : exc).
  Definition T : Type := world -> world * option (renv * rsig).
  Definition rgo (en : renv) : T := fun w => (w, Some (en, RNext)).
  Definition rwith {A} (en : renv) (m : S A) (f : A -> T) : T :=
    fun w => match m w with (w', Val a) => f a w' | (w', Exc e) => (w', Some (en, RRais e)) | (w', Wrong) => (w', None) end.
  Definition rwrong : T := fun w => (w, None).
  (** [x = v]: what is only lent may not get a second name. *)
  Definition rstore (en : renv) (x : string) (v : rv) : T :=
    match v with
    | RList Lent _ | RDict Lent _ | RUnbound => rwrong
    | _ => rgo (rset x v en)
    end.
  (** [x.append(v)]. *)
  Definition rappend (en : renv) (x : string) (v : rv) : T :=
    match assoc x en, keep v with
    | Some (RList Own l), Some v => rgo (rset x (RList Own (l ++ [v])) en)
    | _, _ => rwrong
    end.
  (** [x[i] = e]; a list or dictionary that is the value of a variable is not changed through that variable any more. *)
  Definition give_up (en : renv) (e : expr) (v : rv) : renv * rv :=
    match e, v with
    | Name y, RList Lent l => match assoc y en with Some (RList Own _) => (rset y (RList Done l) en, RList Done l) | _ => (en, v) end
    | _, _ => (en, v)
    end.
  Definition rsetitem (en : renv) (x : string) (i v : rv) : T :=
    match assoc x en, i, keep v with
    | Some (RDict Own d), RV (VStr k), Some v => rgo (rset x (RDict Own (dput k v d)) en)
    | _, _, _ => rwrong
    end.
  Definition rcatches (q : string) (e : exc) : option bool :=
    match q with
    | "exc.UnimplementedTypeError" => Some (match e with Unimplemented _ _ => true | _ => false end)
    | "builtins.KeyError" => Some (match e with KeyError => true | _ => false end)
    | _ => None
    end.
  Definition riterate (step : renv -> rv -> T) : list rv -> renv -> T :=
    fix go (l : list rv) (en : renv) : T :=
    match l with
    | [] => rgo en
    | v :: r => fun w => match step en v w with
                         | (w', Some (en', RNext)) => go r en' w'
                         | o => o
                         end
    end.
  Definition riterate2 (step : renv -> str * rv -> T) : list (str * rv) -> renv -> T :=
    fix go (l : list (str * rv)) (en : renv) : T :=
    match l with
    | [] => rgo en
    | v :: r => fun w => match step en v w with
                         | (w', Some (en', RNext)) => go r en' w'
                         | o => o
                         end
    end.
  Fixpoint rexec (cl : rcaller) (st : stmt) (en : renv) {struct st} : T :=
    let block := fix block (b : list stmt) (en : renv) : T :=
      match b with
      | [] => rgo en
      | x :: r => fun w => match rexec cl x en w with (w', Some (en', RNext)) => block r en' w' | o => o end
      end in
    match st with
    | Expr (Call (Attr (Name x) "append") [a] []) => rwith en (reval cl en a) (fun v =>
        match v with RList Lent _ | RDict Lent _ => rwrong | _ => rappend en x v end)
    | Expr e => rwith en (reval cl en e) (fun _ => rgo en)
    | Assign x e => rwith en (reval cl en e) (rstore en x)
    | SetItem x i e =>
        rwith en (reval cl en e) (fun v =>
        rwith en (reval cl en i) (fun k => let (en', v') := give_up en e v in rsetitem en' x k v'))
    | SetGlob q i e =>
        rwith en (reval cl en e) (fun v =>
        rwith en (reval cl en i) (fun k =>
        match k, keep v with
        | RClass c, Some v' => if is_cache q then fun w => (World (w_log w) ((c, v') :: w_cache w), Some (en, RNext)) else rwrong
        | _, _ => rwrong
        end))
    | Return e => rwith en (reval cl en e) (fun v => match v with RList Lent _ | RDict Lent _ | RUnbound => rwrong | _ => fun w => (w, Some (en, RRet v)) end)
    | Raise e => rwith en (reval cl en e) (fun v => match v with RExc x => fun w => (w, Some (en, RRais x)) | _ => rwrong end)
    | If c a b => rwith en (reval cl en c) (fun v => rwith en (sout (rtruth v)) (fun t => if t then block a en else block b en))
    | For x it b =>
        rwith en (reval cl en it) (fun v =>
        rwith en (sout (relements v)) (fun vs =>
        match v with
        | RList Lent _ | RList Own _ => rwrong
        | _ => riterate (fun en v => block b (rset x v en)) vs en
        end))
    | For2 x y it b =>
        rwith en (reval cl en it) (fun v =>
        match v with
        | RItems d => riterate2 (fun en e => block b (rset y (snd e) (rset x (RV (VStr (fst e))) en))) d en
        | _ => rwrong
        end)
    | Try b hs => fun w =>
        match block b en w with
        | (w1, Some (en1, RRais e)) =>
            (fix go (hs : list (string * option string * list stmt)) : T :=
               match hs with
               | [] => fun w => (w, Some (en1, RRais e))
               | (q, x, h) :: r =>
                   match rcatches q e with
                   | Some true =>
                       match x with
                       | None => block h en1
                       | Some y => fun w => match block h (rset y (RExc e) en1) w with
                                            | (w', Some (en2, sg)) => (w', Some (rset y RUnbound en2, sg))
                                            | o => o
                                            end
                       end
                   | Some false => go r
                   | None => rwrong
                   end
               end) hs w1
        | o => o
        end
    | Pass => rgo en
    | _ => rwrong
    end.
  Definition rblock (cl : rcaller) : list stmt -> renv -> T :=
    fix block (b : list stmt) (en : renv) : T :=
      match b with
      | [] => rgo en
      | x :: r => fun w => match rexec cl x en w with (w', Some (en', RNext)) => block r en' w' | o => o end
      end.
  Fixpoint rbind (ps : list (string * option value)) (args : list rv) : option renv :=
    match ps, args with
    | [], [] => Some []
    | (x, _) :: r, a :: args' => option_map (cons (x, a)) (rbind r args')
    | (x, Some v) :: r, [] => option_map (cons (x, RV v)) (rbind r [])
    | _, _ => None
    end.
  Definition rrun (cl : rcaller) (f : func) (args : list rv) : S rv :=
    match rbind (f_params f) args with
    | None => sout (Exc TypeError)
    | Some en => fun w =>
        match rblock cl (f_body f) (en ++ map (fun x => (x, RUnbound)) (f_locals f)) w with
        | (w', Some (_, RRet v)) => (w', Val (settle v))
        | (w', Some (_, RNext)) => (w', Val (RV VNone))
        | (w', Some (_, RRais e)) => (w', Exc e)
        | (w', None) => (w', Wrong)
        end
    end.
  (** A call of a function or method of the program; [fuel] bounds the nesting of calls. *)
  Fixpoint rcall (fuel : nat) (f : rv) (args : list rv) {struct fuel} : S rv :=
    match fuel with
    | O => sout Wrong
    | Datatypes.S k =>
        match f with
        | RFun q => match assoc q (q_funs P) with Some fn => rrun (rcall k) fn args | None => sout Wrong end
        | RBound q o m => match find 8 q m with Some (_, fn) => rrun (rcall k) fn (o :: args) | None => sout Wrong end
        | _ => sout Wrong
        end
    end.
End Sem.
