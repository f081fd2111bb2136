"""Generate rocq/theories/RepoApi.v from the text of /repo/atlas_doc_parser (no import of the package)."""
import ast, pathlib
R = pathlib.Path("/repo/atlas_doc_parser")
BASES = {"Base", "BaseMark", "BaseNode", "BaseMarkOrNode"}
def q(x): return '(s "%s")' % x.replace('"', '""')
def members(path, full):
    tree = ast.parse(path.read_text()); out = {}; base = set(BASES)
    for n in tree.body:
        if isinstance(n, ast.ImportFrom):
            for a in n.names: out[a.asname or a.name] = (
                "AClass (s \"atlas_doc_parser.mark_or_node\") true" if (a.name in BASES) else "AnObject")
        elif isinstance(n, ast.Import):
            for a in n.names: out[a.asname or a.name.split(".")[0]] = "AnObject"
        elif isinstance(n, ast.ClassDef):
            b = any(isinstance(x, ast.Name) and x.id in base for x in n.bases)
            if b: base.add(n.name)
            out[n.name] = "AClass (s \"%s\") %s" % (full, "true" if b else "false")
        elif isinstance(n, (ast.FunctionDef,)): out[n.name] = "AnObject"
        elif isinstance(n, ast.Assign):
            for t in n.targets:
                if isinstance(t, ast.Name): out[t.id] = "AnObject"
        elif isinstance(n, ast.AnnAssign) and isinstance(n.target, ast.Name): out[n.target.id] = "AnObject"
        elif isinstance(n, ast.If):   # if T.TYPE_CHECKING: not executed
            assert "TYPE_CHECKING" in ast.unparse(n.test), (path, ast.unparse(n.test))
    for d in ("__name__", "__doc__", "__file__"): out[d] = "AnObject"
    return out
o = []
o.append('''(** GENERATED by tools/gen_modules.py from the text of /repo/atlas_doc_parser: the repository as input of the API
    generator (files of marks/ and nodes/, top-level names of each module), and the committed api.py.
    Dunder members are represented by three of them. *)
From Coq Require Import List NArith Bool String Ascii.
From Verif Require Import PyStr Values GenCode.
Import ListNotations.
Open Scope string_scope.
Open Scope list_scope.
''')
table = []
for sub, pre in (("marks", "mark_"), ("nodes", "node_")):
    names = sorted(x.name for x in (R / sub).iterdir() if x.is_file())
    o.append("Definition repo_%s : list str := [%s]." % (sub, "; ".join(q(x) for x in reversed(names))))
    for x in names:
        if x.startswith(pre) and x.endswith(".py"):
            full = "atlas_doc_parser.%s.%s" % (sub, x[:-3])
            ms = members(R / sub / x, full)
            table.append("(%s, [%s])" % (q(full), "; ".join("(%s, %s)" % (q(k), v) for k, v in ms.items())))
o.append("Definition repo_table : list (str * list (str * member)) :=\n  [ %s ]." % ";\n    ".join(table))
o.append('''Definition repo_project : project :=
  Project [s "/"; s "repo"; s "atlas_doc_parser"] repo_marks repo_nodes
          (fun full => match lookup full repo_table with Some ms => Loaded ms | None => NoImport end).
(** /repo/atlas_doc_parser/api.py, line by line. *)''')
t = (R / "api.py").read_text(); assert t.endswith("\n") and '"' in t
def coqline(x):
    assert all(ord(c) < 128 for c in x)
    if x == '"""': return "dquote ++ dquote ++ dquote"
    assert '"' not in x
    return '"%s"' % x
o.append("Definition api_py : str := text_lines\n  [ %s ]%%string." % ";\n    ".join(coqline(x) for x in t[:-1].split("\n")))
pathlib.Path("/verif/rocq/theories/RepoApi.v").write_text("\n".join(o) + "\n")
