"""Write rocq/theories/RepoCode.v: the functions and methods of /repo/atlas_doc_parser that render Markdown, as PySyntax.v terms, read from the
source text with Python's ast module (nothing is imported or run)."""
import ast, os, builtins
REPO = "/repo/atlas_doc_parser"
HERE = os.path.dirname(os.path.dirname(os.path.abspath(__file__)))
OUT = os.path.join(HERE, "rocq/theories/RepoCode.v")

def q(x): return '"%s"' % x.replace('"', '""')
def lit(x):
    """A Python str as a list of code points."""
    if x == "": return "[]"
    if all(32 <= ord(c) < 127 for c in x): return "(s %s)" % q(x)
    return "[" + "; ".join("%d%%N" % ord(c) for c in x) + "]"
def const(v):
    if v is None: return "VNone"
    if v is True or v is False: return "(VBool %s)" % str(v).lower()
    if isinstance(v, int): return "(VInt %s)" % (v if v >= 0 else "(%d)" % v)
    if isinstance(v, str): return "(VStr %s)" % lit(v)
    raise SystemExit("constant %r" % (v,))
def lst(l): return "[" + "; ".join(l) + "]"
BIN = {ast.Add: "Add", ast.Sub: "Minus", ast.Mult: "Mult", ast.Div: "Div"}
CMP = {ast.Eq: "CEq", ast.NotEq: "CNotEq", ast.Is: "CIs", ast.IsNot: "CIsNot", ast.In: "CIn", ast.NotIn: "CNotIn", ast.Lt: "CLt", ast.LtE: "CLtE",
       ast.Gt: "CGt", ast.GtE: "CGtE"}

class Module:
    def __init__(self, path):
        self.path = path
        self.name = path[:-3].replace("/", ".")
        self.tree = ast.parse(open(os.path.join(REPO, path), encoding="utf-8").read())
        self.names = {}
        for st in self.tree.body: self.top(st)
    def top(self, st):
        if isinstance(st, ast.Import):
            for a in st.names: self.names[a.asname or a.name.split(".")[0]] = a.name if a.asname else a.name.split(".")[0]
        elif isinstance(st, ast.ImportFrom):
            base = st.module or ""
            if st.level:
                pkg = self.name.split(".")[:-st.level]
                base = ".".join(pkg + ([base] if base else []))
            for a in st.names: self.names[a.asname or a.name] = (base + "." if base else "") + a.name
        elif isinstance(st, (ast.FunctionDef, ast.ClassDef)): self.names[st.name] = self.name + "." + st.name
        elif isinstance(st, ast.Assign):
            for t in st.targets:
                if isinstance(t, ast.Name): self.names[t.id] = self.name + "." + t.id
        elif isinstance(st, ast.AnnAssign):
            if isinstance(st.target, ast.Name): self.names[st.target.id] = self.name + "." + st.target.id
        elif isinstance(st, ast.If): pass      # if T.TYPE_CHECKING: imports for annotations only
    def glob(self, x):
        if x in self.names: return self.names[x]
        assert hasattr(builtins, x), (self.path, x)
        return "builtins." + x

def assigned(body):
    """The variables a function's body assigns, in order of first assignment."""
    out = []
    def add(x):
        if x not in out: out.append(x)
    class V(ast.NodeVisitor):
        def visit_Name(self, n):
            if isinstance(n.ctx, ast.Store): add(n.id)
        def visit_ExceptHandler(self, n):
            if n.name: add(n.name)
            self.generic_visit(n)
        def visit_ImportFrom(self, n):
            for a in n.names: add(a.asname or a.name)
        def visit_ListComp(self, n): pass
        def visit_DictComp(self, n): pass
        def visit_Lambda(self, n): pass
        def visit_FunctionDef(self, n): raise SystemExit("nested function")
    for st in body: V().visit(st)
    return out

class Fn:
    def __init__(self, mod, node, cls=None):
        self.mod = mod; self.node = node; self.cls = cls
        a = node.args
        assert not (a.posonlyargs or a.kwonlyargs or a.vararg or a.kwarg), node.name
        names = [x.arg for x in a.args]
        defs = [None] * (len(names) - len(a.defaults)) + a.defaults
        self.params = [(n, None if d is None else const(d.value)) for n, d in zip(names, defs)]
        body = node.body
        if body and isinstance(body[0], ast.Expr) and isinstance(body[0].value, ast.Constant) and isinstance(body[0].value.value, str): body = body[1:]
        self.locals = [x for x in assigned(body) if x not in names]
        self.scope = set(names) | set(self.locals)
        self.body = self.block(body, 4)
    def text(self):
        ps = lst("(%s, %s)" % (q(n), "None" if d is None else "Some %s" % d) for n, d in self.params)
        return "Func %s\n    %s\n    %s" % (ps, lst(map(q, self.locals)), self.body)
    def block(self, b, ind):
        return "[" + (";\n" + " " * ind).join(self.stmt(x, ind + 1) for x in b) + "]"
    def stmt(self, st, ind):
        e = self.expr
        if isinstance(st, ast.Expr): return "Expr " + e(st.value)
        if isinstance(st, ast.Assign):
            assert len(st.targets) == 1, ast.unparse(st)
            if isinstance(st.targets[0], ast.Subscript):
                x = st.targets[0].value.id
                if x in self.scope: return "SetItem %s %s %s" % (q(x), e(st.targets[0].slice), e(st.value))
                return "SetGlob %s %s %s" % (q(self.mod.glob(x)), e(st.targets[0].slice), e(st.value))
            assert isinstance(st.targets[0], ast.Name), ast.unparse(st)
            return "Assign %s %s" % (q(st.targets[0].id), e(st.value))
        if isinstance(st, ast.AugAssign): return "AugAssign %s %s %s" % (q(st.target.id), BIN[type(st.op)], e(st.value))
        if isinstance(st, ast.Return): return "Return " + (e(st.value) if st.value else "(Const VNone)")
        if isinstance(st, ast.Raise):
            assert st.exc is not None and st.cause is None
            return "Raise " + e(st.exc)
        if isinstance(st, ast.If): return "If %s %s %s" % (e(st.test), self.block(st.body, ind + 2), self.block(st.orelse, ind + 2))
        if isinstance(st, ast.For):
            assert not st.orelse
            if isinstance(st.target, ast.Tuple):
                x, y = st.target.elts
                return "For2 %s %s %s %s" % (q(x.id), q(y.id), e(st.iter), self.block(st.body, ind + 2))
            assert isinstance(st.target, ast.Name)
            return "For %s %s %s" % (q(st.target.id), e(st.iter), self.block(st.body, ind + 2))
        if isinstance(st, ast.Try):
            assert not st.orelse and not st.finalbody
            hs = ["(%s, %s, %s)" % (q(self.mod.glob(h.type.id)), "Some " + q(h.name) if h.name else "None", self.block(h.body, ind + 4)) for h in st.handlers]
            return "Try %s %s" % (self.block(st.body, ind + 2), lst(hs))
        if isinstance(st, ast.ImportFrom):    # inside a function: a variable assigned
            assert len(st.names) == 1 and not st.names[0].asname and st.level
            pkg = self.mod.name.split(".")[:-st.level]
            return "Assign %s (Glob %s)" % (q(st.names[0].name), q(".".join(pkg + [st.module, st.names[0].name])))
        if isinstance(st, ast.Pass): return "Pass"
        if isinstance(st, ast.Continue): return "Continue"
        raise SystemExit("statement " + ast.unparse(st))
    def expr(self, x):
        e = self.expr
        if isinstance(x, ast.Name): return ("(Name %s)" % q(x.id)) if x.id in self.scope else "(Glob %s)" % q(self.mod.glob(x.id))
        if isinstance(x, ast.Constant): return "(Const %s)" % const(x.value)
        if isinstance(x, ast.Attribute): return "(Attr %s %s)" % (e(x.value), q(x.attr))
        if isinstance(x, ast.Call) and isinstance(x.func, ast.Name) and x.func.id == "super":
            assert not x.args and not x.keywords
            return "(SuperOf %s %s)" % (q(self.cls), q(self.params[0][0]))
        if isinstance(x, ast.Call) and len(x.keywords) == 1 and x.keywords[0].arg is None:
            assert not x.args
            return "(CallKw %s %s)" % (e(x.func), e(x.keywords[0].value))
        if isinstance(x, ast.Dict):
            assert not x.keys
            return "EmptyDict"
        if isinstance(x, ast.DictComp):
            assert len(x.generators) == 1 and not x.generators[0].ifs and isinstance(x.generators[0].target, ast.Name)
            g = x.generators[0]; it = e(g.iter); old = self.scope; self.scope = old | {g.target.id}
            r = "(DictComp %s %s %s %s)" % (e(x.key), e(x.value), q(g.target.id), it); self.scope = old; return r
        if isinstance(x, ast.Call):
            assert not any(isinstance(a, ast.Starred) for a in x.args) and all(k.arg for k in x.keywords), ast.unparse(x)
            return "(Call %s %s %s)" % (e(x.func), lst(map(e, x.args)), lst("(%s, %s)" % (q(k.arg), e(k.value)) for k in x.keywords))
        if isinstance(x, ast.BinOp): return "(Bin %s %s %s)" % (BIN[type(x.op)], e(x.left), e(x.right))
        if isinstance(x, ast.Compare):
            assert len(x.ops) == 1
            return "(Cmp %s %s %s)" % (CMP[type(x.ops[0])], e(x.left), e(x.comparators[0]))
        if isinstance(x, ast.BoolOp):
            op = "And" if isinstance(x.op, ast.And) else "Or"
            r = e(x.values[-1])
            for v in reversed(x.values[:-1]): r = "(%s %s %s)" % (op, e(v), r)
            return r
        if isinstance(x, ast.UnaryOp) and isinstance(x.op, ast.Not): return "(Not %s)" % e(x.operand)
        if isinstance(x, ast.IfExp): return "(IfExp %s %s %s)" % (e(x.test), e(x.body), e(x.orelse))
        if isinstance(x, ast.List): return "(ListOf %s)" % lst(map(e, x.elts))
        if isinstance(x, ast.Subscript):
            if isinstance(x.slice, ast.Slice):
                assert x.slice.upper is None and x.slice.step is None and x.slice.lower is not None
                return "(SliceFrom %s %s)" % (e(x.value), e(x.slice.lower))
            return "(Subscript %s %s)" % (e(x.value), e(x.slice))
        if isinstance(x, ast.JoinedStr):
            for v in x.values: assert isinstance(v, ast.Constant) or (v.conversion == -1 and v.format_spec is None), ast.unparse(x)
            return "(FString %s)" % lst(e(v) if isinstance(v, ast.Constant) else e(v.value) for v in x.values)
        if isinstance(x, ast.Lambda):
            ps = [a.arg for a in x.args.args]; old = self.scope; self.scope = set(ps)
            r = "(Lambda %s %s)" % (lst(map(q, ps)), e(x.body)); self.scope = old; return r
        if isinstance(x, ast.ListComp):
            assert len(x.generators) == 1 and not x.generators[0].ifs and isinstance(x.generators[0].target, ast.Name)
            g = x.generators[0]; it = e(g.iter); old = self.scope; self.scope = old | {g.target.id}
            r = "(ListComp %s %s %s)" % (e(x.elt), q(g.target.id), it); self.scope = old; return r
        raise SystemExit("expression " + ast.unparse(x))

METHODS = ("to_markdown", "is_type_of", "is_file_type", "is_link_type", "is_external_type")
FUNCS = ("strip_double_empty_line", "content_to_markdown", "doc_content_to_markdown", "add_style_to_markdown", "check_type_match")
files = ["markdown_helpers.py", "type_enum.py", "mark_or_node.py"]
for sub in ("nodes", "marks"):
    files += [sub + "/" + f for f in sorted(os.listdir(os.path.join(REPO, sub))) if f.startswith(sub[:-1] + "_") and f.endswith(".py")]
defs, funs, classes, attrs, consts, enums, skipped = [], [], [], [], [], [], []
ident = lambda x: x.replace(".", "_")
for f in files:
    m = Module(f)
    for st in m.tree.body:
        if isinstance(st, ast.FunctionDef) and st.name in FUNCS:
            n = m.name + "." + st.name
            defs.append("(** %s:%d-%d *)\nDefinition f_%s : func :=\n  %s." % (f, st.lineno, st.end_lineno, st.name, Fn(m, st).text()))
            funs.append("(%s, f_%s)" % (q(n), st.name))
        elif isinstance(st, ast.FunctionDef): skipped.append(m.name + "." + st.name)
        elif isinstance(st, ast.ClassDef):
            n = m.name + "." + st.name
            bases = [m.glob(b.id) if isinstance(b, ast.Name) else ast.unparse(b) for b in st.bases]
            if not bases: bases = ["func_args"]
            assert len(bases) == 1, (n, bases)
            if bases == ["enum.Enum"]:
                enums.append("(%s, %s)" % (q(n), lst("(%s, %s)" % (q(b.targets[0].id), q(b.value.value)) for b in st.body if isinstance(b, ast.Assign))))
                continue
            meths = []
            for b in st.body:
                if isinstance(b, ast.FunctionDef) and b.name in METHODS:
                    d = "m_%s_%s" % (st.name, b.name)
                    defs.append("(** %s:%d-%d *)\nDefinition %s : func :=\n  %s." % (f, b.lineno, b.end_lineno, d, Fn(m, b).text()))
                    meths.append("(%s, %s)" % (q(b.name), d))
                elif isinstance(b, ast.FunctionDef): skipped.append(n + "." + b.name)
                elif isinstance(b, ast.AnnAssign) and b.target.id == "attrs":
                    ann = b.annotation.value if isinstance(b.annotation, ast.Constant) else b.annotation.id
                    attrs.append("(%s, %s)" % (q(n), q(m.glob(ann))))
            classes.append("(%s, Class %s %s)" % (q(n), "None" if bases[0].startswith(("func_args", "typing", "T.", "enum.")) else "(Some %s)" % q(bases[0]), lst(meths)))
        elif isinstance(st, ast.Assign) and isinstance(st.value, ast.Dict) and not st.value.keys and m.name == "markdown_helpers":
            consts.append("(%s, VDict [])" % q(m.name + "." + st.targets[0].id))
regs = []
for sub in ("nodes", "marks"):
    m = Module(sub + "/parse_" + sub[:-1] + ".py")
    for st in m.tree.body:
        if isinstance(st, (ast.Assign, ast.AnnAssign)) and isinstance(st.value, ast.Dict):
            rows = []
            for k, v in zip(st.value.keys, st.value.values):
                t = ast.unparse(k); assert t.startswith("TypeEnum.") and t.endswith(".value")
                rows.append("(s %s, %s)" % (q(t[9:-6]), q(m.glob(v.id))))
            regs.append("Definition %s_registry : list (str * string) :=\n  [%s]." % (sub[:-1], ";\n   ".join(rows)))
text = """(** GENERATED by tools/gen_code_ast.py from the text of /repo/atlas_doc_parser: the functions and methods that render Markdown,
    the classes, enum members and registries they use, as PySyntax.v terms.  Docstrings, annotations and comments are left out.
    Functions of these modules that are not here: %s. *)
From Coq Require Import List NArith ZArith Bool String.
From Verif Require Import PyStr Values PySyntax.
Import ListNotations.
Open Scope string_scope.
Open Scope list_scope.
Open Scope Z_scope.

%s

Definition repo : program := {|
  p_funs := [%s];
  p_classes :=
    [%s];
  p_consts := [%s];
  p_enums := [%s];
  p_attrs :=
    [%s] |}.

(** nodes/parse_node.py, marks/parse_mark.py: the classes by the value of "type". *)
%s
""" % (", ".join(skipped), "\n\n".join(defs), ";\n             ".join(funs), ";\n     ".join(classes), "; ".join(consts), "; ".join(enums), ";\n     ".join(attrs), "\n".join(regs))
open(OUT, "w").write(text)
print(len(defs), "functions")

# ---------------------------------------------------------------- reading and writing: RepoCode2.v
METHODS2 = ("get_fields", "to_dict", "to_kwargs", "from_dict", "is_opt")
defs, funs, classes, fields, regs = [], [], [], [], []
def default(v):
    """How a dataclass field is declared."""
    if v is None: return "DNone"
    if isinstance(v, ast.Name) and v.id in ("REQ", "OPT"): return "DReq" if v.id == "REQ" else "DOpt"
    if isinstance(v, ast.Constant): return "(DVal %s)" % const(v.value)
    t = ast.unparse(v)
    if t == "dataclasses.field(default_factory=REQ)": return "DReq"
    assert t.startswith("TypeEnum.") and t.endswith(".value"), t
    return "(DVal (VStr %s))" % lit(ENUM[t[9:-6]])
ENUM = {}
for st in Module("type_enum.py").tree.body:
    if isinstance(st, ast.ClassDef) and st.name == "TypeEnum":
        ENUM = {b.targets[0].id: b.value.value for b in st.body if isinstance(b, ast.Assign)}
known = set()
for f in files[2:]:
    m = Module(f)
    for st in m.tree.body:
        if not isinstance(st, ast.ClassDef) or not st.bases: continue      # AnnotationType only holds constants
        n = m.name + "." + st.name; known.add(n)
        base = m.glob(st.bases[0].id); meths, own = [], []
        assert [ast.unparse(d) for d in st.decorator_list] == ["dataclasses.dataclass(frozen=True)"], n
        for b in st.body:
            if isinstance(b, ast.FunctionDef) and b.name in METHODS2:
                d = "m_%s_%s" % (st.name, b.name)
                deco = [ast.unparse(x) for x in b.decorator_list]; assert deco in ([], ["classmethod"]), n
                defs.append("(** %s:%d-%d *)\nDefinition %s : func :=\n  %s." % (f, b.lineno, b.end_lineno, d, Fn(m, b, n).text()))
                meths.append("(%s, (%s, %s))" % (q(b.name), "true" if deco else "false", d))
            elif isinstance(b, ast.AnnAssign):
                a = b.annotation
                c = m.glob(a.id) if isinstance(a, ast.Name) and a.id in m.names else None
                own.append("(s %s, (%s, %s))" % (q(b.target.id), default(b.value), "Some " + q(c) if c in known else "None"))
            else: assert isinstance(b, ast.FunctionDef) or isinstance(b, ast.Expr), (n, ast.unparse(b))
        assert base in known or base == "func_args.api.BaseFrozenModel", base
        classes.append("(%s, DClass %s %s\n        %s)" % (q(n), "(Some %s)" % q(base) if base in known else "None", lst(meths), lst(own)))
for sub in ("nodes", "marks"):
    f = sub + "/parse_" + sub[:-1] + ".py"; m = Module(f)
    for st in m.tree.body:
        if isinstance(st, ast.FunctionDef):
            defs.append("(** %s:%d-%d *)\nDefinition f_%s : func :=\n  %s." % (f, st.lineno, st.end_lineno, st.name, Fn(m, st).text()))
            funs.append("(%s, f_%s)" % (q(m.name + "." + st.name), st.name))
        if isinstance(st, ast.Assign) and isinstance(st.value, ast.Dict): regs.append("(%s, %s_registry)" % (q(m.name + "." + st.targets[0].id), sub[:-1]))
text = """(** GENERATED by tools/gen_code_ast.py from the text of /repo/atlas_doc_parser: the functions that read and write ADF dictionaries,
    and every dataclass with its base, these methods (true: a classmethod) and the fields it declares (default, class annotated). *)
From Coq Require Import List NArith ZArith Bool String.
From Verif Require Import PyStr Values PySyntax RepoCode.
Import ListNotations.
Open Scope string_scope.
Open Scope list_scope.
Open Scope Z_scope.

%s

Definition repo2 : program2 := {|
  q_funs := [%s];
  q_dicts := [%s];
  q_caches := ["mark_or_node._CLASS_FIELD"];
  q_classes :=
    [%s] |}.
""" % ("\n\n".join(defs), ";\n             ".join(funs), "; ".join(regs), ";\n     ".join(classes))
cf = [st for st in Module("mark_or_node.py").tree.body if isinstance(st, ast.AnnAssign) and ast.unparse(st.target) == "_CLASS_FIELD"]
assert len(cf) == 1 and ast.unparse(cf[0].value) == "{}"
open(OUT.replace("RepoCode.v", "RepoCode2.v"), "w").write(text)
print(len(defs), "functions")
