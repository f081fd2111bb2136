(** The conversion of a dictionary, as the source text does it: parse_node(v) run by PySem2.v, then to_markdown run by PySem.v.
    No definition of Parse.v's or Markdown.v's functions is used here; [node] is only the shape of the objects. *)
From Coq Require Import List NArith ZArith Bool String.
From Verif Require Import PyStr Values Schema Parse Markdown PySyntax PySem RepoCode RepoCode2 PySem2 ReadFacts WriteFacts2 CodeFacts Properties_Code.
Import ListNotations.
Open Scope string_scope.
Open Scope list_scope.
Open Scope nat_scope.

(** [f] gives [a] once enough calls inside each other are allowed, and with any larger allowance. *)
Definition finally {A} (f : nat -> A) (a : A) : Prop := exists k0, forall k, k0 <= k -> f k = a.

(** What the two interpreters hold for the same thing: data, an object, a mark, the lists in content and marks, the instance in attrs. *)
Inductive same : pv -> rv -> Prop :=
| same_data v : same (PV v) (RV v)
| same_node n : same (PN n) (rv_node n)
| same_mark m : same (PM m) (rv_mark m)
| same_nodes l : same (PNs l) (RList Done (map rv_node l))
| same_marks l : same (PMs l) (RList Done (map rv_mark l))
| same_attrs c l : same (PA c l) (RInst c (data_fields l)).
(** The same outcome. *)
Inductive same_out : out pv -> out rv -> Prop :=
| same_val p r : same p r -> same_out (Val p) (Val r)
| same_exc e : same_out (Exc e) (Exc e).

(** In a new process with the warning setting [W]: parse_node(v) ends with [o] after logging [lg]. *)
Definition reads (W : bool) (v : value) (lg : list warning) (o : out rv) : Prop :=
  finally (fun k => let (w, r) := rcall W repo2 k (RFun "nodes.parse_node.parse_node") [RV v] (World [] []) in (w_log w, r)) (lg, o).
(** n.to_markdown(ignore_error=ign) ends with [o]. *)
Definition shows (E : runtime) (n : node) (ign : bool) (o : out pv) : Prop :=
  finally (fun k => run E k (PN n) "to_markdown" [] [("ignore_error", PV (VBool ign))]) o.
(** n.to_dict() ends with [o]. *)
Definition writes (W : bool) (n : node) (o : out rv) : Prop :=
  finally (fun k => match rattr W repo2 (rv_node n) "to_dict" with Val m => snd (rcall W repo2 k m [] (World [] [])) | _ => Wrong end) o.
(** parse_node(v) returns the object [n] (whose unset fields hold OPT and whose lists hold objects). *)
Definition loads (W : bool) (v : value) (n : node) : Prop := writable n /\ exists lg, reads W v lg (Val (rv_node n)).

(** parse_node(v).to_markdown(ignore_error=ign) ends with [o]. *)
Inductive converts (E : runtime) (W : bool) (v : value) (ign : bool) : out pv -> Prop :=
| not_read lg e : reads W v lg (Exc e) -> converts E W v ign (Exc e)
| read_shown n o : loads W v n -> shows E n ign o -> converts E W v ign o.
