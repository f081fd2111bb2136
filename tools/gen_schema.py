"""Write rocq/theories/RepoSchema.v: the dataclass field tables, registries and TypeEnum members of
/repo/atlas_doc_parser, read from the source text with Python's ast module (nothing is imported or run)."""
import ast, os
REPO = "/repo/atlas_doc_parser"
OUT = os.path.join(os.path.dirname(os.path.dirname(os.path.abspath(__file__))), "rocq/theories/RepoSchema.v")

def tree(p): return ast.parse(open(os.path.join(REPO, p), encoding="utf-8").read())

def decl(v):
    if v is None: return "Positional"
    t = ast.unparse(v)
    if t == "REQ": return "Required"
    if t == "OPT": return "Optional"
    if t.startswith("TypeEnum.") and t.endswith(".value"): return 'DefaultStr "%s"' % t[9:-6]
    if isinstance(v, ast.Constant) and isinstance(v.value, int): return "DefaultInt %d" % v.value
    raise SystemExit("unknown default " + t)

def classes(sub):
    out = {}
    for f in sorted(os.listdir(os.path.join(REPO, sub))):
        if f.endswith(".py") and f.startswith(sub[:-1] + "_"):
            for c in tree(sub + "/" + f).body:
                if isinstance(c, ast.ClassDef):
                    fields = [(b.target.id, decl(b.value), ast.unparse(b.annotation)) for b in c.body if isinstance(b, ast.AnnAssign)]
                    out[c.name] = (sub + "/" + f, [ast.unparse(b) for b in c.bases], fields)
    return out

def registry(sub):
    for c in tree(sub + "/parse_" + sub[:-1] + ".py").body:
        if isinstance(c, (ast.Assign, ast.AnnAssign)) and isinstance(c.value, ast.Dict):
            return [(ast.unparse(k), ast.unparse(v)) for k, v in zip(c.value.keys, c.value.values)]

def rows(sub):
    cl = classes(sub); res = []
    for key, cname in registry(sub):
        assert key.startswith("TypeEnum.") and key.endswith(".value")
        path, bases, fields = cl[cname]
        assert bases == ["BaseMark" if sub == "marks" else "BaseNode"], (cname, bases)
        # dataclass order: [type] comes from BaseMarkOrNode, so it is first whatever the subclass says
        fields = [f for f in fields if f[0] == "type"] + [f for f in fields if f[0] != "type"]
        attrs = []
        for n, d, ann in fields:
            if n == "attrs":
                ann = ann.strip("'\"")
                p2, b2, attrs = cl[ann]
                assert b2 == ["Base"], (ann, b2)
        res.append((key[9:-6], cname, path, fields, attrs))
    return res

def lst(fs): return "[" + "; ".join('("%s", %s)' % (n, d) for n, d, _ in fs) + "]"
def dump(name, rs):
    return "Definition %s : list row :=\n  [" % name + ";\n   ".join(
        'Row "%s" %s %s (* %s %s *)' % (k, lst(f), lst(a), p, c) for k, c, p, f, a in rs) + "].\n"

enum = [c for c in tree("type_enum.py").body if isinstance(c, ast.ClassDef) and c.name == "TypeEnum"][0]
members = [(b.targets[0].id, b.value.value) for b in enum.body if isinstance(b, ast.Assign)]
text = '''(** GENERATED by tools/gen_schema.py from the text of /repo/atlas_doc_parser: for every registered class, in the
    order of NODE_TYPE_TO_CLASS_MAPPING (nodes/parse_node.py:61-97) and MARK_TYPE_TO_CLASS_MAPPING
    (marks/parse_mark.py:42-59), the registry key, the dataclass fields and those of its Attrs class, each with its
    default; and the members of TypeEnum (type_enum.py). *)
From Coq Require Import List String ZArith.
Import ListNotations.
Open Scope string_scope.
(** [= REQ], [= OPT], no default, another default. *)
Inductive decl := Required | Optional | Positional | DefaultStr (x : string) | DefaultInt (z : Z).
Record row := Row { r_type : string; r_fields : list (string * decl); r_attrs : list (string * decl) }.
''' + dump("node_rows", rows("nodes")) + dump("mark_rows", rows("marks")) + \
"Definition type_enum_rows : list (string * string) :=\n  [" + ";\n   ".join('("%s", "%s")' % m for m in members) + "].\n"
open(OUT, "w").write(text)
print(len(members))
