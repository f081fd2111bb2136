(** What the syntax of PySyntax.v does: an interpreter.  [Wrong] (or [None]) is any behaviour outside this part of Python, among them
    running out of fuel, using a variable before it is assigned, changing a document object or a list that is part of one, and giving
    a list two names.

    Lists that the code makes are values here ([PL]).  That is faithful as long as no list is changed while it is known under a
    second name; a list read from a variable is [PL false] (borrowed) and must not be stored, returned or changed, only used. *)
From Coq Require Import List NArith ZArith Bool String.
From Verif Require Import PyStr Values Schema Parse Date Markdown PySyntax.
Import ListNotations.
Open Scope string_scope.
Open Scope list_scope.

Inductive pv :=
| PV (v : value)                               (* None, bool, int, float, str, input data, OPT *)
| PN (n : node) | PM (m : mark)                (* ADF objects *)
| PA (c : string) (l : list (str * value))     (* an Attrs instance of class [c] *)
| PNs (l : list node) | PMs (l : list mark)    (* the list in a content / marks field *)
| PL (fresh : bool) (l : list pv)              (* a list made by the code *)
| PRange (n : Z)
| PFun (q : string)                            (* a function of the program *)
| PBuiltin (q : string)                        (* a function, class or module of Python *)
| PClass (q : string)                          (* a class of the program *)
| PBound (o : pv) (m : string)                 (* o.m, a method of the program *)
| PMeth (o : pv) (m : string)                  (* o.m, a method of a built-in type *)
| PLam (xs : list string) (b : expr)           (* a lambda (closed: it may use its parameters only) *)
| PEnum (x : string)                           (* an enum member, by its value *)
| PExc (e : exc)                               (* an exception *)
| PTime (sec : Z) | PDate (sec : Z)            (* datetime in UTC, date *)
| PUnbound.                                    (* a variable not yet assigned *)

Inductive out (A : Type) := Val (a : A) | Exc (e : exc) | Wrong.
Arguments Val {A} a. Arguments Exc {A} e. Arguments Wrong {A}.
Definition obind {A B} (m : out A) (f : A -> out B) : out B :=
  match m with Val a => f a | Exc e => Exc e | Wrong => Wrong end.
Notation "'let*' x := m 'in' k" := (obind m (fun x => k)) (at level 200, x pattern, right associativity).
Definition of_res {A} (r : res A) : out A := match r with Ok a => Val a | Err e => Exc e end.
Definition omap {A B} (f : A -> out B) : list A -> out (list B) :=
  fix go (l : list A) : out (list B) :=
  match l with
  | [] => Val []
  | a :: r => let* b := f a in let* bs := go r in Val (b :: bs)
  end.

Fixpoint assoc {A} (x : string) (l : list (string * A)) : option A :=
  match l with
  | [] => None
  | (y, a) :: r => if String.eqb y x then Some a else assoc x r
  end.
Definition env := list (string * pv).
Fixpoint set_var (x : string) (v : pv) (en : env) : env :=
  match en with
  | [] => [(x, v)]
  | (y, w) :: r => if String.eqb y x then (y, v) :: r else (y, w) :: set_var x v r
  end.
Definition borrow (v : pv) : pv := match v with PL _ l => PL false l | _ => v end.
(** May be stored under a new name. *)
Definition owned (v : pv) : bool := match v with PL false _ | PUnbound => false | _ => true end.

(** ---------------------------------------------------------------- built-in operations *)
Definition truth (v : pv) : out bool :=
  match v with
  | PV (VBool b) => Val b
  | PV VNone => Val false
  | PV (VInt z) => Val (negb (Z.eqb z 0))
  | PV (VStr x) => Val (match x with [] => false | _ => true end)
  | PV (VList l) => Val (match l with [] => false | _ => true end)
  | PV (VDict l) => Val (match l with [] => false | _ => true end)
  | PL _ l => Val (match l with [] => false | _ => true end)
  | _ => Wrong
  end.
(** [a == b]. *)
Definition py_eq (a b : value) : out bool :=
  match a, b with
  | VStr x, VStr y => Val (str_eqb x y)
  | VStr _, _ | _, VStr _ => Val false
  | VInt x, VInt y => Val (Z.eqb x y)
  | _, _ => Wrong
  end.
Definition pv_eq (a b : pv) : out bool :=
  match a, b with
  | PV x, PV y => py_eq x y
  | _, _ => Wrong
  end.
Fixpoint any_eq (a : pv) (l : list pv) : out bool :=
  match l with
  | [] => Val false
  | b :: r => let* t := pv_eq a b in if t then Val true else any_eq a r
  end.
(** [a in b] with a str: substring, list or key membership. *)
Fixpoint contains (x y : str) : bool := prefixb x y || match y with [] => false | _ :: r => contains x r end.
Definition py_in (a b : pv) : out bool :=
  match b with
  | PL _ l => any_eq a l
  | PV (VList l) => any_eq a (map PV l)
  | PV (VDict d) => any_eq a (map (fun e => PV (VStr (fst e))) d)
  | PV (VStr y) => match a with PV (VStr x) => Val (contains x y) | PV _ => Exc TypeError | _ => Wrong end
  | PV _ => Exc TypeError
  | _ => Wrong
  end.
Definition is_same (a b : pv) : out bool :=
  match b with
  | PV VOpt => match a with PV VOpt => Val true | PUnbound => Wrong | _ => Val false end
  | PV VNone => match a with PV VNone => Val true | PUnbound => Wrong | _ => Val false end
  | _ => Wrong
  end.
Definition int_of (v : pv) : option Z :=
  match v with PV (VInt z) => Some z | PV (VBool b) => Some (if b then 1 else 0)%Z | _ => None end.
Definition compare (o : cmpop) (a b : pv) : out bool :=
  match o with
  | CEq => pv_eq a b
  | CNotEq => let* t := pv_eq a b in Val (negb t)
  | CIs => is_same a b
  | CIsNot => let* t := is_same a b in Val (negb t)
  | CIn => py_in a b
  | CNotIn => let* t := py_in a b in Val (negb t)
  | CLt | CLtE | CGt | CGtE =>
      match int_of a, int_of b with
      | Some x, Some y => Val (match o with CLt => Z.ltb x y | CLtE => Z.leb x y | CGt => Z.ltb y x | _ => Z.leb y x end)
      | _, _ => Wrong
      end
  end.
(** [n / 1000] for an int. *)
Definition float_1000 (n : Z) : pyfloat :=
  if (n =? 0)%Z then FFin 0 0
  else let (m, e) := div1000 (Z.abs n) in FFin (if (n <? 0)%Z then - m else m)%Z e.
Definition arith (o : binop) (a b : pv) : out pv :=
  match o, a, b with
  | Add, PV (VStr x), PV (VStr y) => Val (PV (VStr (x ++ y)))
  | Add, PV (VStr _), PV _ | Add, PV _, PV (VStr _) => Exc TypeError
  | Mult, PV (VStr x), PV v | Mult, PV v, PV (VStr x) => of_res (do y <- times v x; Ok (PV (VStr y)))
  | Mult, PL true l, PV (VInt z) => Val (PL true (List.concat (repeat l (Z.to_nat z))))
  | Div, PV (VInt n), PV (VInt 1000) => Val (PV (VFloat (float_1000 n)))
  | _, _, _ =>
      match int_of a, int_of b with
      | Some x, Some y =>
          match o with
          | Add => Val (PV (VInt (x + y)))
          | Minus => Val (PV (VInt (x - y)))
          | Mult => Val (PV (VInt (x * y)))
          | Div => Wrong
          end
      | _, _ => Wrong
      end
  end.
Definition nth_or {A} (l : list A) (z : Z) (f : A -> pv) : out pv :=
  if (z <? 0)%Z then Wrong else match nth_error l (Z.to_nat z) with Some a => Val (f a) | None => Exc IndexError end.
Definition subscript (a i : pv) : out pv :=
  match a, i with
  | PL _ l, PV (VInt z) => nth_or l z (fun v => v)
  | PNs l, PV (VInt z) => nth_or l z PN
  | PV (VStr x), PV (VInt z) => nth_or x z (fun c => PV (VStr [c]))
  | PV (VList l), PV (VInt z) => nth_or l z PV
  | PV (VDict d), PV (VStr k) => match lookup k d with Some v => Val (PV v) | None => Exc KeyError end
  | PV (VDict _), PV (VInt _) => Exc KeyError
  | PV (VList _), PV _ | PV (VDict _), PV _ => Wrong
  | PV _, PV _ => Exc TypeError
  | _, _ => Wrong
  end.
Definition slice_from (a i : pv) : out pv :=
  match a, i with
  | PL _ l, PV (VInt z) => if (z <? 0)%Z then Wrong else Val (PL true (skipn (Z.to_nat z) l))
  | _, _ => Wrong
  end.
(** The elements a for statement goes through. *)
Definition elements (v : pv) : out (list pv) :=
  match v with
  | PNs l => Val (map PN l)
  | PMs l => Val (map PM l)
  | PL _ l => Val l
  | PRange n => Val (map (fun k => PV (VInt (Z.of_nat k))) (seq 0 (Z.to_nat n)))
  | PV (VStr x) => Val (map (fun c => PV (VStr [c])) x)
  | PV (VDict d) => Val (map (fun e => PV (VStr (fst e))) d)
  | PV (VList l) => Val (map PV l)
  | PV _ => Exc TypeError
  | _ => Wrong
  end.
Definition isinstance (v : pv) (c : string) : out bool :=
  match c with
  | "builtins.str" => match v with PV (VStr _) => Val true | PUnbound => Wrong | _ => Val false end
  | "builtins.int" => match v with PV (VInt _) | PV (VBool _) => Val true | PUnbound => Wrong | _ => Val false end
  | "builtins.list" => match v with PV (VList _) | PL _ _ | PNs _ | PMs _ => Val true | PUnbound => Wrong | _ => Val false end
  | _ => Wrong
  end.
Definition exception_class (q : string) : option exc :=
  match q with
  | "builtins.TypeError" => Some TypeError
  | "builtins.ValueError" => Some ValueError
  | "builtins.KeyError" => Some KeyError
  | "builtins.AttributeError" => Some AttributeError
  | "builtins.IndexError" => Some IndexError
  | "builtins.NotImplementedError" => Some NotImplementedErr
  | _ => None
  end.
Definition exc_eqb (a b : exc) : bool :=
  match a, b with
  | TypeError, TypeError | KeyError, KeyError | ValueError, ValueError | AttributeError, AttributeError
  | IndexError, IndexError | NotImplementedErr, NotImplementedErr => true
  | _, _ => false
  end.
(** [except C:]. *)
Definition catches (q : string) (e : exc) : option bool :=
  match q with
  | "builtins.Exception" => Some true
  | _ => match exception_class q with
         | Some ValueError => match e with ERange => None | _ => Some (exc_eqb ValueError e) end
         | Some c => Some (exc_eqb c e)
         | None => None
         end
  end.
(** The names of the methods of built-in types (Python 3.12); one that has no meaning below is [Wrong], any other name is an AttributeError. *)
Definition str_methods := ["capitalize"; "casefold"; "center"; "count"; "encode"; "endswith"; "expandtabs"; "find"; "format"; "format_map"; "index";
  "isalnum"; "isalpha"; "isascii"; "isdecimal"; "isdigit"; "isidentifier"; "islower"; "isnumeric"; "isprintable"; "isspace"; "istitle"; "isupper"; "join";
  "ljust"; "lower"; "lstrip"; "maketrans"; "partition"; "removeprefix"; "removesuffix"; "replace"; "rfind"; "rindex"; "rjust"; "rpartition"; "rsplit";
  "rstrip"; "split"; "splitlines"; "startswith"; "strip"; "swapcase"; "title"; "translate"; "upper"; "zfill"].
Definition list_methods := ["append"; "clear"; "copy"; "count"; "extend"; "index"; "insert"; "pop"; "remove"; "reverse"; "sort"].
Definition dict_methods := ["clear"; "copy"; "fromkeys"; "get"; "items"; "keys"; "pop"; "popitem"; "setdefault"; "update"; "values"].
Definition int_methods := ["as_integer_ratio"; "bit_count"; "bit_length"; "conjugate"; "denominator"; "from_bytes"; "imag"; "is_integer"; "numerator";
  "real"; "to_bytes"; "fromhex"; "hex"].
Definition known (f : string) (l : list string) : bool := existsb (String.eqb f) l.
Definition data_attr (o : pv) (v : value) (f : string) : out pv :=
  if known f (match v with
              | VStr _ => str_methods
              | VList _ => list_methods
              | VDict _ => dict_methods
              | VInt _ | VBool _ | VFloat _ => int_methods
              | VNone | VOpt => []
              end)
  then Val (PMeth o f) else Exc AttributeError.
(** ["a{}b{}c".format(x, y)]: the arguments in the places of the pairs of braces. *)
Fixpoint fill (x : str) (args : list str) : option str :=
  match x with
  | 123%N :: 125%N :: r => match args with a :: as_ => option_map (app a) (fill r as_) | [] => None end
  | c :: r => if ((c =? 123) || (c =? 125))%N then None else option_map (cons c) (fill r args)
  | [] => Some []
  end.
(** f-strings: the parts one after the other. *)
Fixpoint cat (l : list str) : str :=
  match l with
  | [] => []
  | [x] => x
  | x :: r => x ++ cat r
  end.
Section Sem.
  Variable E : runtime.
  Variable P : program.
  (** The class names of objects (the registries, nodes/parse_node.py and marks/parse_mark.py). *)
  Variable node_class mark_class : str -> option string.

  (** [str(v)]. *)
  Definition str_of (v : pv) : out str :=
    match v with
    | PV x => Val (py_str E x)
    | PDate sec => of_res (date_of_seconds sec)
    | _ => Wrong
    end.
  Definition as_strs (l : list pv) : out (list str) :=
    omap (fun v => match v with PV (VStr x) => Val x | PV _ => Exc TypeError | _ => Wrong end) l.
  (** Methods of strings and dictionaries.  Lists have no entry: changing a list that the code did not make is [Wrong], and appending to
      one that it made is a statement. *)
  Definition data_method (o : pv) (m : string) (args : list pv) : out pv :=
    match o, m, args with
    | PV (VStr x), "join", [PL _ l] => let* xs := as_strs l in Val (PV (VStr (join x xs)))
    | PV (VStr x), "split", [PV (VStr [c])] => Val (PL true (map (fun y => PV (VStr y)) (split_on c x)))
    | PV (VStr x), "strip", [] => Val (PV (VStr (strip x)))
    | PV (VStr x), "rstrip", [] => Val (PV (VStr (rstrip x)))
    | PV (VStr x), "lstrip", [PV (VStr [c])] => Val (PV (VStr (lstrip_by (N.eqb c) x)))
    | PV (VStr x), "replace", [PV (VStr (a :: old)); PV (VStr new)] => Val (PV (VStr (replace (a :: old) new x)))
    | PV (VStr x), "upper", [] => Val (PV (VStr (py_upper E x)))
    | PV (VStr x), "format", _ =>
        let* ys := omap str_of args in match fill x ys with Some y => Val (PV (VStr y)) | None => Wrong end
    | PV (VDict d), "get", [PV (VStr k); v] => Val (match lookup k d with Some w => PV w | None => v end)
    | PTime sec, "date", [] => Val (PDate sec)
    | _, _, _ => Wrong
    end.
  (** Method [m] of class [q], looked up in the class and then in its bases. *)
  Fixpoint find_method (depth : nat) (q m : string) : option func :=
    match depth, assoc q (p_classes P) with
    | S k, Some c =>
        match assoc m (c_methods c) with
        | Some f => Some f
        | None => match c_base c with Some b => find_method k b m | None => None end
        end
    | _, _ => None
    end.
  Definition class_of (o : pv) : option string :=
    match o with
    | PN n => node_class (nk_name (n_kind n))
    | PM m => mark_class (mk_name (m_kind m))
    | PA c _ => Some c
    | _ => None
    end.
  Definition method (o : pv) (m : string) : option func :=
    match class_of o with Some q => find_method 8 q m | None => None end.
  Definition method_or (o : pv) (f : string) : out pv :=
    match class_of o with
    | None => Wrong
    | Some _ => match method o f with Some _ => Val (PBound o f) | None => Exc AttributeError end
    end.
  Definition attrs_value (o : pv) (a : attrs) : out pv :=
    match a with
    | NoAttrs => Exc AttributeError
    | AOpt => Val (PV VOpt)
    | AObj l => match class_of o with
                | Some q => match assoc q (p_attrs P) with Some c => Val (PA c l) | None => Wrong end
                | None => Wrong
                end
    end.
  Definition slot_value {A} (mk : list A -> pv) (c : slot A) : out pv :=
    match c with NoField => Exc AttributeError | SOpt => Val (PV VOpt) | Items l => Val (mk l) | Raw v => Val (PV v) end.
  (** [o.f] (names with two underscores are not in this part of Python). *)
  Definition get_attr (o : pv) (f : string) : out pv :=
    if String.prefix "__" f then Wrong else
    match o with
    | PN n =>
        match f with
        | "type" => Val (PV (n_type n))
        | "version" => match n_version n with Some v => Val (PV v) | None => Exc AttributeError end
        | "text" => match n_text n with Some v => Val (PV v) | None => Exc AttributeError end
        | "attrs" => attrs_value o (n_attrs n)
        | "content" => slot_value PNs (n_content n)
        | "marks" => slot_value PMs (n_marks n)
        | _ => method_or o f
        end
    | PM m =>
        match f with
        | "type" => Val (PV (m_type m))
        | "attrs" => attrs_value o (m_attrs m)
        | _ => method_or o f
        end
    | PA _ l => match lookup (s f) l with Some v => Val (PV v) | None => method_or o f end
    | PV v => data_attr o v f
    | PTime _ => if String.eqb f "date" then Val (PMeth o f) else Wrong
    | PClass q =>
        match assoc q (p_enums P) with
        | Some ms => match assoc f ms with Some x => Val (PEnum x) | None => Exc AttributeError end
        | None => Wrong
        end
    | PEnum x => if String.eqb f "value" then Val (PV (VStr (s x))) else Wrong
    | PBuiltin q => Val (PBuiltin (q ++ "." ++ f))
    | _ => Wrong
    end.
  Definition glob (q : string) : out pv :=
    if String.eqb q "func_args.api.OPT" then Val (PV VOpt)
    else match assoc q (p_consts P) with
    | Some v => Val (PV v)
    | None =>
        match assoc q (p_funs P) with
        | Some _ => Val (PFun q)
        | None => match assoc q (p_classes P) with
                  | Some _ => Val (PClass q)
                  | None => match assoc q (p_enums P) with Some _ => Val (PClass q) | None => Val (PBuiltin q) end
                  end
        end
    end.

  Definition caller := pv -> list pv -> list (string * pv) -> out pv.
  (** textwrap.indent, with its predicate called on every line. *)
  Definition indent (cl : caller) (text prefix : str) (p : pv) : out str :=
    let* ls := omap (fun l => let* t := cl p [PV (VStr l)] [] in let* b := truth t in Val (if b then prefix ++ l else l)) (splitlines_keep text) in
    Val (List.concat ls).
  Definition builtin (cl : caller) (q : string) (args : list pv) (kws : list (string * pv)) : out pv :=
    match q, args, kws with
    | "builtins.list", [], [] => Val (PL true [])
    | "builtins.len", [PL _ l], [] => Val (PV (VInt (Z.of_nat (List.length l))))
    | "builtins.len", [PNs l], [] => Val (PV (VInt (Z.of_nat (List.length l))))
    | "builtins.len", [PV (VStr l)], [] => Val (PV (VInt (Z.of_nat (List.length l))))
    | "builtins.range", [PV (VInt n)], [] => Val (PRange n)
    | "builtins.isinstance", [v; PBuiltin c], [] => let* b := isinstance v c in Val (PV (VBool b))
    | "builtins.int", [PV v], [] => of_res (do z <- py_int (rt_digit E) v; Ok (PV (VInt z)))
    | "builtins.str", [v], [] => let* x := str_of v in Val (PV (VStr x))
    | "datetime.datetime.fromtimestamp", [PV (VFloat (FFin m e))], [("tz", PBuiltin "datetime.timezone.utc")] =>
        let sec := whole_seconds (m <? 0)%Z (Z.abs m) e in
        of_res (do _ <- date_of_seconds sec; Ok (PTime sec))      (* out of range: here, not at .date() *)
    | "textwrap.indent", [PV (VStr x)], [("prefix", PV (VStr p)); ("predicate", f)] => let* y := indent cl x p f in Val (PV (VStr y))
    | _, _, _ => match exception_class q, args, kws with
                 | Some e, [], [] | Some e, [PV _], [] => Val (PExc e)
                 | _, _, _ => Wrong
                 end
    end.
  (** Calls: those of Python's own functions directly, those of the program's through [cl]. *)
  Definition apply (cl : caller) (f : pv) (args : list pv) (kws : list (string * pv)) : out pv :=
    match f with
    | PBuiltin q => builtin cl q args kws
    | PMeth o m => match kws with [] => data_method o m args | _ => Wrong end
    | PFun _ | PBound _ _ | PLam _ _ => cl f (map borrow args) (map (fun kw => (fst kw, borrow (snd kw))) kws)
    | _ => Wrong
    end.

  Fixpoint eval (cl : caller) (en : env) (e : expr) {struct e} : out pv :=
    let evals := fix evals (l : list expr) : out (list pv) :=
      match l with [] => Val [] | x :: r => let* v := eval cl en x in let* vs := evals r in Val (v :: vs) end in
    match e with
    | Name x => match assoc x en with Some PUnbound | None => Wrong | Some v => Val (borrow v) end
    | Glob q => glob q
    | Const v => Val (PV v)
    | Attr a f => let* o := eval cl en a in get_attr o f
    | Call f args kws =>
        let* g := eval cl en f in
        let* vs := evals args in
        let* ks := (fix go (l : list (string * expr)) : out (list (string * pv)) :=
                      match l with [] => Val [] | (k, x) :: r => let* v := eval cl en x in let* vs := go r in Val ((k, v) :: vs) end) kws in
        apply cl g vs ks
    | Bin o a b => let* x := eval cl en a in let* y := eval cl en b in arith o x y
    | Cmp o a b => let* x := eval cl en a in let* y := eval cl en b in let* t := compare o x y in Val (PV (VBool t))
    | And a b => let* x := eval cl en a in let* t := truth x in if t then eval cl en b else Val x
    | Or a b => let* x := eval cl en a in let* t := truth x in if t then Val x else eval cl en b
    | Not a => let* x := eval cl en a in let* t := truth x in Val (PV (VBool (negb t)))
    | IfExp c a b => let* x := eval cl en c in let* t := truth x in if t then eval cl en a else eval cl en b
    | ListOf l => let* vs := evals l in if forallb owned vs then Val (PL true vs) else Wrong
    | Subscript a i => let* x := eval cl en a in let* y := eval cl en i in subscript x y
    | SliceFrom a i => let* x := eval cl en a in let* y := eval cl en i in slice_from x y
    | FString l => let* vs := evals l in let* xs := omap str_of vs in Val (PV (VStr (cat xs)))
    | Lambda xs b => Val (PLam xs b)
    | ListComp b x it =>
        let* v := eval cl en it in
        let* vs := elements v in
        let* ws := omap (fun v => eval cl ((x, v) :: en) b) vs in
        if forallb owned ws then Val (PL true ws) else Wrong
    | EmptyDict | DictComp _ _ _ _ | CallKw _ _ | SuperOf _ _ => Wrong
    end.

  (** How a statement ends. *)
  Inductive sig := Next | Cont | Ret (v : pv) | Rais (e : exc).
  Definition state := (env * sig)%type.
  (** Evaluate, then go on; [None] is wrong behaviour. *)
  Definition withv {A} (en : env) (m : out A) (f : A -> option state) : option state :=
    match m with Val a => f a | Exc e => Some (en, Rais e) | Wrong => None end.
  Definition store (en : env) (x : string) (v : pv) : option state :=
    if owned v then Some (set_var x v en, Next) else None.
  (** [x.append(e)], [x.extend(e)] on a list the code made. *)
  Definition list_stmt (en : env) (x m : string) (v : pv) : option state :=
    match assoc x en with
    | Some (PL true l) =>
        match m, v with
        | "append", _ => if owned v then Some (set_var x (PL true (l ++ [v])) en, Next) else None
        | "extend", PL _ l' => Some (set_var x (PL true (l ++ l')) en, Next)
        | _, _ => None
        end
    | _ => None
    end.
  Definition is_list_var (en : env) (x : string) : bool := match assoc x en with Some (PL _ _) => true | _ => false end.
  (** The variable a for statement goes through is not changed any more. *)
  Definition freeze (en : env) (it : expr) (v : pv) : option env :=
    match v, it with
    | PL _ l, Name x => Some (set_var x (PL false l) en)
    | PL false _, _ => None
    | _, _ => Some en
    end.
  Definition iterate (step : env -> pv -> option state) : list pv -> env -> option state :=
    fix go (l : list pv) (en : env) : option state :=
    match l with
    | [] => Some (en, Next)
    | v :: r =>
        match step en v with
        | Some (en', Next) | Some (en', Cont) => go r en'
        | o => o
        end
    end.
  Fixpoint exec (cl : caller) (st : stmt) (en : env) {struct st} : option state :=
    let block := fix block (b : list stmt) (en : env) : option state :=
      match b with
      | [] => Some (en, Next)
      | x :: r => match exec cl x en with Some (en', Next) => block r en' | o => o end
      end in
    match st with
    | Expr (Call (Attr (Name x) m) [a] []) =>
        if is_list_var en x then withv en (eval cl en a) (list_stmt en x m)
        else withv en (eval cl en (Call (Attr (Name x) m) [a] [])) (fun _ => Some (en, Next))
    | Expr e => withv en (eval cl en e) (fun _ => Some (en, Next))
    | Assign x e => withv en (eval cl en e) (store en x)
    | AugAssign x o e => withv en (eval cl en (Bin o (Name x) e)) (store en x)
    | Return e => withv en (eval cl en e) (fun v => if owned v then Some (en, Ret v) else None)
    | Raise e => withv en (eval cl en e) (fun v =>
        match v with
        | PExc x => Some (en, Rais x)
        | PBuiltin q => match exception_class q with Some x => Some (en, Rais x) | None => None end
        | _ => None
        end)
    | If c a b => withv en (eval cl en c) (fun v => withv en (truth v) (fun t => if t then block a en else block b en))
    | For x it b =>
        withv en (eval cl en it) (fun v =>
        withv en (elements v) (fun vs =>
        match freeze en it v with
        | Some en1 => iterate (fun en v => if owned v then block b (set_var x v en) else None) vs en1
        | None => None
        end))
    | Try b hs =>
        match block b en with
        | Some (en1, Rais e) =>
            (fix go (hs : list (string * option string * list stmt)) : option state :=
               match hs with
               | [] => Some (en1, Rais e)
               | (q, x, h) :: r =>
                   match catches q e with
                   | Some true =>
                       match x with
                       | None => block h en1
                       | Some y => match block h (set_var y (PExc e) en1) with
                                   | Some (en2, sg) => Some (set_var y PUnbound en2, sg)
                                   | None => None
                                   end
                       end
                   | Some false => go r
                   | None => None
                   end
               end) hs
        | o => o
        end
    | Pass => Some (en, Next)
    | Continue => Some (en, Cont)
    | SetItem _ _ _ | SetGlob _ _ _ | For2 _ _ _ _ => None
    end.
  Definition exec_block (cl : caller) : list stmt -> env -> option state :=
    fix block (b : list stmt) (en : env) : option state :=
      match b with
      | [] => Some (en, Next)
      | x :: r => match exec cl x en with Some (en', Next) => block r en' | o => o end
      end.

  (** Parameter passing: positional arguments, then keywords, then defaults; anything else is a TypeError. *)
  Fixpoint bind_params (ps : list (string * option value)) (args : list pv) (kws : list (string * pv)) : option env :=
    match ps with
    | [] => match args with [] => Some [] | _ => None end
    | (x, d) :: r =>
        match args with
        | a :: args' => match assoc x kws with
                        | Some _ => None
                        | None => option_map (cons (x, a)) (bind_params r args' kws)
                        end
        | [] => match assoc x kws, d with
                | Some v, _ => option_map (cons (x, v)) (bind_params r [] kws)
                | None, Some v => option_map (cons (x, PV v)) (bind_params r [] kws)
                | None, None => None
                end
        end
    end.
  Definition no_unknown (ps : list (string * option value)) (kws : list (string * pv)) : bool :=
    forallb (fun kw => existsb (fun p => String.eqb (fst p) (fst kw)) ps) kws.
  Definition run_func (cl : caller) (f : func) (args : list pv) (kws : list (string * pv)) : out pv :=
    match (if no_unknown (f_params f) kws then bind_params (f_params f) args kws else None) with
    | None => Exc TypeError
    | Some en =>
        match exec_block cl (f_body f) (en ++ map (fun x => (x, PUnbound)) (f_locals f)) with
        | Some (_, Ret v) => Val v
        | Some (_, Next) => Val (PV VNone)
        | Some (_, Rais e) => Exc e
        | Some (_, Cont) | None => Wrong
        end
    end.
  (** A call of a function, method or lambda of the program; [fuel] bounds the nesting of calls. *)
  Fixpoint call (fuel : nat) (f : pv) (args : list pv) (kws : list (string * pv)) {struct fuel} : out pv :=
    match fuel with
    | O => Wrong
    | S k =>
        match f with
        | PFun q => match assoc q (p_funs P) with Some fn => run_func (call k) fn args kws | None => Wrong end
        | PBound o m => match method o m with Some fn => run_func (call k) fn (o :: args) kws | None => Wrong end
        | PLam xs b =>
            match kws, bind_params (map (fun x => (x, None)) xs) args [] with
            | [], Some en => eval (call k) en b
            | [], None => Exc TypeError
            | _, _ => Wrong
            end
        | _ => Wrong
        end
    end.
End Sem.
