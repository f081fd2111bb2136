(** The downloaded test data: tests/data/schema.py (AdfJsonSchema.data) and tests/data/samples.py (PageSample.adf), several
    processes on one file. *)
From Coq Require Import List NArith ZArith Bool Arith.
From Verif Require Import PyStr Values.
Import ListNotations.
Open Scope list_scope.

(** The json module as an oracle. [loads] = [None]: JSONDecodeError. *)
Record json := Json { loads : str -> option value; dumps : value -> str }.

(** A process and the cached property: not computed yet ([fetched]: what PageSample.adf_no_cache holds, samples.py:67-76; always
    [None] for the schema); after FileNotFoundError; with a body to store; with the file open; computed. *)
Inductive process := Idle (fetched : option value) | Missing (fetched : option value) | Got (v : value) | Opened (v : value) | Have (v : value).
Record world := World { file : option str; proc : nat -> process }.
Definition set_proc (w : world) (p : nat) (x : process) : world := World (file w) (fun q => if Nat.eqb q p then x else proc w q).
Definition set_file (w : world) (t : str) : world := World (Some t) (proc w).
(** Writing [x] at the beginning of the file. (Simplified: read_text is one step, and so is the write of the whole text.) *)
Definition overwrite (x : str) (o : option str) : str := match o with None => x | Some t => x ++ skipn (length x) t end.

(** What is seen of a step. [Trouble]: a kill or a failed write. *)
Inductive event := Request (p : nat) | Return (p : nat) (v : value) | Raise (p : nat) | Trouble | Silent.
(** schema.py:20-31, samples.py:78-92.  [memo]: a body survives a failed write, in the process (PageSample).  [server]: the JSON
    bodies the server may answer with; the status code is not looked at (schema.py:26-27). *)
Inductive step (J : json) (memo : bool) (server : value -> Prop) : world -> event -> world -> Prop :=
| st_again w p v : proc w p = Have v -> step J memo server w (Return p v) w
| st_read w p f t v : proc w p = Idle f -> file w = Some t -> loads J t = Some v -> step J memo server w (Return p v) (set_proc w p (Have v))
| st_unreadable w p f t : proc w p = Idle f -> file w = Some t -> loads J t = None -> step J memo server w (Raise p) w
| st_missing w p f : proc w p = Idle f -> file w = None -> step J memo server w Silent (set_proc w p (Missing f))
| st_request w p v : proc w p = Missing None -> server v -> step J memo server w (Request p) (set_proc w p (Got v))
| st_no_answer w p : proc w p = Missing None -> step J memo server w (Request p) (set_proc w p (Idle None))
| st_fetched w p v : proc w p = Missing (Some v) -> step J memo server w Silent (set_proc w p (Got v))
| st_open w p v : proc w p = Got v -> step J memo server w Silent (set_proc (set_file w []) p (Opened v))
| st_open_fails w p v : proc w p = Got v -> step J memo server w Trouble (set_proc w p (Idle (if memo then Some v else None)))
| st_write w p v : proc w p = Opened v -> step J memo server w (Return p v) (set_proc (set_file w (overwrite (dumps J v) (file w))) p (Have v))
| st_write_fails w p v x y : proc w p = Opened v -> dumps J v = x ++ y ->
    step J memo server w Trouble (set_proc (set_file w (overwrite x (file w))) p (Idle (if memo then Some v else None)))
| st_kill w p : step J memo server w Trouble (set_proc w p (Idle None))
| st_kill_write w p v x y : proc w p = Opened v -> dumps J v = x ++ y ->
    step J memo server w Trouble (set_proc (set_file w (overwrite x (file w))) p (Idle None)).
Inductive steps (J : json) (memo : bool) (server : value -> Prop) : world -> list event -> world -> Prop :=
| steps_none w : steps J memo server w [] w
| steps_more w e w1 es w2 : step J memo server w e w1 -> steps J memo server w1 es w2 -> steps J memo server w (e :: es) w2.

(** ---------------------------------------------------------------- vocabulary *)
(** No process is between missing the file and having written it. *)
Definition quiet (w : world) : Prop := forall p, (exists f, proc w p = Idle f) \/ exists v, proc w p = Have v.
Definition fresh : world := World None (fun _ => Idle None).
Definition has_value (w : world) (p : nat) : Prop := exists v, proc w p = Have v.
(** What json does with a document: it comes back from its text, and no beginning of the text can be read. *)
Definition json_text (J : json) (v : value) : Prop :=
  loads J (dumps J v) = Some v /\ forall x y, dumps J v = x ++ y -> y <> [] -> loads J x = None.
