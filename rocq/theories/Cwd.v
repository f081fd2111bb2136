(** The working directory of the process: atlas_doc_parser/vendor/pytest_cov_helper.py and the functions of tests/helper.py:16-39 that call it.
    A program is a tree of statements with exceptions; it runs in a world: the working directory, the directories there are, and the commands
    that were started, each with the directory it was started in.
    Simplified: no symbolic links, so that the absolute path of a directory that exists leads to it; POSIX paths; a command changes the world
    only in its directories (a parameter), and may raise (a parameter: no such file, interrupted). *)
From Coq Require Import List NArith Bool String.
From Verif Require Import PyStr.
Import ListNotations.
Open Scope string_scope.
Open Scope list_scope.

(** A directory: the names on the way from the root. *)
Definition dir := list str.
Fixpoint dir_eqb (a b : dir) : bool := match a, b with [], [] => true | x :: a', y :: b' => str_eqb x y && dir_eqb a' b' | _, _ => false end.
Definition isdir (ds : list dir) (d : dir) : bool := existsb (dir_eqb d) ds.
Record world := World { cwd : dir; dirs : list dir; log : list (dir * list str) }.
(** [os.chdir(str(Path(p)))]: where it leads from here; None is the exception. *)
Fixpoint walk (ds : list dir) (d : dir) (l : list str) : option dir :=
  if isdir ds d then
    match l with
    | [] => Some d
    | x :: r => walk ds (if str_eqb x [] || str_eqb x (s ".") then d else if str_eqb x (s "..") then removelast d else d ++ [x]) r
    end
  else None.
Definition names (p : str) : list str := split_on 47 p.
Definition absolute (p : str) : bool := prefixb (s "/") p.
Definition goes_to (ds : list dir) (here : dir) (p : str) : option dir := walk ds (if absolute p then [] else here) (names p).

Inductive prog :=
| Skip | Seq (p q : prog) | Raise (e : str) | Catch (p : prog)          (* p; q   raise e   try: p except: pass *)
| Chdir (path : str) | Mkdir (path : str) | Rmdir (path : str)
| Start (args : list str)                                               (* subprocess.run(args) *)
| Temp (path : str) (p : prog).                                         (* with temp_cwd(path): p *)
Definition missing : str := s "FileNotFoundError".

Section Run.
(** What a command does: started in this directory, on these directories. *)
Variable command : dir -> list str -> list dir -> list dir * option str.
(** pytest_cov_helper.py:12-24 temp_cwd is the case [Temp]: getcwd raises if the directory is gone; then chdir; the body; chdir in the finally clause, which may raise itself and
    then replaces the exception of the body. *)
Fixpoint exec (p : prog) (w : world) : world * option str :=
  match p with
  | Skip => (w, None)
  | Seq p q => let '(w1, o) := exec p w in match o with None => exec q w1 | Some e => (w1, Some e) end
  | Raise e => (w, Some e)
  | Catch p => (fst (exec p w), None)
  | Chdir path => match goes_to (dirs w) (cwd w) path with Some d => (World d (dirs w) (log w), None) | None => (w, Some missing) end
  | Mkdir n => if isdir (dirs w) (cwd w) then (World (cwd w) ((cwd w ++ [n]) :: dirs w) (log w), None) else (w, Some missing)
  | Rmdir n => match goes_to (dirs w) (cwd w) n with Some d => (World (cwd w) (filter (fun x => negb (dir_eqb d x)) (dirs w)) (log w), None) | None => (w, Some missing) end
  | Start args => let '(ds, o) := command (cwd w) args (dirs w) in (World (cwd w) ds (log w ++ [(cwd w, args)]), o)
  | Temp path p =>
      if isdir (dirs w) (cwd w) then
        match goes_to (dirs w) (cwd w) path with
        | None => (w, Some missing)
        | Some d => let '(w1, o) := exec p (World d (dirs w) (log w)) in
                    if isdir (dirs w1) (cwd w) then (World (cwd w) (dirs w1) (log w1), o) else (w1, Some missing)
        end
      else (w, Some missing)
  end.
End Run.

(** ---------------------------------------------------------------- the commands *)
(** [f"{Path(p).parent}"] for a path without "." in it; pathlib drops empty names. *)
Definition shown (abs : bool) (l : list str) : str := match l with [] => if abs then s "/" else s "." | _ => (if abs then s "/" else []) ++ join (s "/") l end.
Definition parts (p : str) : list str := filter (fun x => negb (str_eqb x [] || str_eqb x (s "."))) (names p).
Definition parent (p : str) : str := shown (absolute p) (removelast (parts p)).
Definition below_dir (d n : str) : str := shown (absolute d) (parts d ++ [n]).
(** [module[:-3] if module.endswith(".py")] *)
Definition without_py (m : str) : str := if prefixb (rev (s ".py")) (rev m) then firstn (List.length m - 3) m else m.
Section Commands.
(** pytest_cov_helper.py:40,118 [Path(sys.executable).parent / "pytest"]; sys.platform. *)
Variables executable platform : str.
Definition pytest : str := below_dir (parent executable) (s "pytest").
(** pytest_cov_helper.py:27-48 run_unit_test. *)
Definition run_unit_test (script root_dir : str) : prog := Temp root_dir (Start [pytest; s "-s"; s "--tb=native"; script]).
(** pytest_cov_helper.py:51-147 run_cov_test. *)
Definition cov_args (script module root_dir htmlcov_dir : str) (is_folder : bool) : list str :=
  [pytest; s "-s"; s "--tb=native"; s "--rootdir=" ++ root_dir; s "--cov=" ++ without_py module; s "--cov-report"; s "term-missing"; s "--cov-report"; s "html:" ++ htmlcov_dir;
   if is_folder then parent script else script].
Definition opener : option str :=
  if str_eqb platform (s "win32") || str_eqb platform (s "cygwin") then Some (s "start")
  else if str_eqb platform (s "darwin") || str_eqb platform (s "linux") then Some (s "open") else None.
Definition run_cov_test (script module root_dir htmlcov_dir : str) (preview is_folder : bool) : prog :=
  Seq (Temp root_dir (Start (cov_args script module root_dir htmlcov_dir is_folder)))
      (if preview then match opener with Some o => Start [o; below_dir htmlcov_dir (s "index.html")] | None => Raise (s "NotImplementedError") end else Skip).
End Commands.

(** ---------------------------------------------------------------- threads *)
(** The working directory belongs to the process. A block of temp_cwd as it is seen from other threads: it reads the directory and changes it in the beginning, and sets what it read at
    the end. [seen]: what the open blocks read. *)
Inductive event := Enter (block : nat) (to : dir) | Leave (block : nat).
Fixpoint happen (l : list event) (here : dir) (seen : nat -> dir) : dir :=
  match l with
  | [] => here
  | Enter b d :: r => happen r d (fun x => if Nat.eqb x b then here else seen x)
  | Leave b :: r => happen r (seen b) seen
  end.
