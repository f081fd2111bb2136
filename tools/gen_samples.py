"""Generate rocq/theories/Samples.v: the fixtures of /repo/tests/adf_samples with the
expected Markdown of /repo/atlas_doc_parser/tests/data/samples.py, as tests of the model.
Reads the repository as text/JSON only (no repository code is executed)."""
import ast, json, re, textwrap, sys
R = "/repo/"
src = open(R + "atlas_doc_parser/tests/data/samples.py", encoding="utf8").read()
cls = [n for n in ast.parse(src).body if isinstance(n, ast.ClassDef) and n.name == "AdfSampleEnum"][0]

def kw(call): return {k.arg: ast.literal_eval(k.value) for k in call.keywords}
pages, samples = {}, []
for st in cls.body:
    if not isinstance(st, ast.Assign): continue
    name, v = st.targets[0].id, st.value
    if isinstance(v, ast.Call) and getattr(v.func, "id", None) == "PageSample":
        pages[name] = kw(v)["name"]
    elif isinstance(v, ast.Call) and isinstance(v.func, ast.Attribute) and v.func.attr == "get_sample":
        page = pages[v.func.value.id] if isinstance(v.func.value, ast.Name) else kw(v.func.value)["name"]
        k = kw(v)
        samples.append((name, page, k["jpath"], k.get("md")))
    else:
        print("skip", name, file=sys.stderr)

def jpath(p, d):
    if p == "@": return d
    for part in p.split("."):
        m = re.fullmatch(r"(\w+)((?:\[\d+\])*)", part)
        if not m: raise ValueError(p)
        d = d[m.group(1)]
        for i in re.findall(r"\[(\d+)\]", m.group(2)): d = d[int(i)]
    return d

def cstr(x):
    if all(32 <= ord(c) < 127 for c in x): return '(s "%s")' % x.replace('"', '""')
    return "[%s]%%N" % "; ".join(str(ord(c)) for c in x)

def cval(v):
    if v is None: return "VNone"
    if v is True: return "VBool true"
    if v is False: return "VBool false"
    if isinstance(v, int): return "VInt (%d)" % v
    if isinstance(v, float):
        n, d = v.as_integer_ratio()
        return "VFloat (FFin (%d) (%d))" % (n, -(d.bit_length() - 1))
    if isinstance(v, str): return "VStr " + cstr(v)
    if isinstance(v, list): return "VList [%s]" % "; ".join(cval(x) for x in v)
    return "VDict [%s]" % "; ".join("(%s, %s)" % (cstr(k), cval(x)) for k, x in v.items())

out = ["""(** GENERATED by tools/gen_samples.py from /repo/tests/adf_samples/*.json and
    /repo/atlas_doc_parser/tests/data/samples.py.  Tests of the model's fidelity (the
    repository's own fixtures and expected Markdown), not proofs of properties. *)
From Coq Require Import List NArith ZArith Bool String.
From Verif Require Import PyStr Values Schema Parse Serialize Date Markdown.
Import ListNotations.
Open Scope string_scope.
Open Scope list_scope.

Definition rt0 : runtime := Runtime (fun _ => []) (fun x => x) (fun _ => None).

(** helper.py check_markdown: compare the stripped Markdown. *)
Definition renders (v : value) (expected : str) : bool :=
  match parse_node true v with
  | (_, Ok n) => match to_markdown rt0 n false with
                 | Ok (VStr x) => str_eqb (strip x) expected
                 | _ => false
                 end
  | _ => false
  end.

(** helper.py check_seder: re-parsing the serialised object succeeds and serialises to the same. *)
Fixpoint value_eqb (a b : value) {struct a} : bool :=
  match a, b with
  | VNone, VNone | VOpt, VOpt => true
  | VBool x, VBool y => Bool.eqb x y
  | VInt x, VInt y => Z.eqb x y
  | VFloat (FFin m e), VFloat (FFin m' e') => Z.eqb m m' && Z.eqb e e'
  | VStr x, VStr y => str_eqb x y
  | VList l, VList l' =>
      (fix go l l' := match l, l' with
                      | [], [] => true
                      | x :: r, y :: r' => value_eqb x y && go r r'
                      | _, _ => false end) l l'
  | VDict d, VDict d' =>
      (fix go (l l' : list (str * value)) :=
         match l, l' with
         | [], [] => true
         | (k, x) :: r, (k', y) :: r' => str_eqb k k' && value_eqb x y && go r r'
         | _, _ => false end) d d'
  | _, _ => false
  end.
Definition seder (v : value) : bool :=
  match parse_node true v with
  | (_, Ok n) => match node_to_dict n with
                 | Ok v1 => match parse_node true v1 with
                            | (_, Ok n1) => match node_to_dict n1 with
                                            | Ok v2 => value_eqb v1 v2 | _ => false end
                            | _ => false end
                 | _ => false end
  | _ => false
  end.
"""]
import glob
tests = "".join(open(f, encoding="utf8").read() for f in glob.glob(R + "tests/**/test_*.py", recursive=True))
n = 0
for name, page, jp, md in samples:
    if not re.search(r"AdfSampleEnum\.%s\b" % name, tests):
        print("not used by a test:", name, file=sys.stderr); md = None
    data = jpath(jp, json.load(open(R + "tests/adf_samples/%s.json" % page, encoding="utf8")))
    if name.startswith("mark_") and not data.get("content") and "text" not in data:
        out.append("Example t_%s : match parse_mark (%s) with Ok _ => true | Err _ => false end = true.\nProof. vm_compute. reflexivity. Qed.\n" % (name, cval(data)))
        continue
    out.append("Definition v_%s : value := %s.\n" % (name, cval(data)))
    out.append("Example seder_%s : seder v_%s = true.\nProof. vm_compute. reflexivity. Qed.\n" % (name, name))
    if md is not None:
        exp = textwrap.dedent(textwrap.dedent(md)).strip()
        out.append("Example md_%s : renders v_%s %s = true.\nProof. vm_compute. reflexivity. Qed.\n" % (name, name, cstr(exp)))
    n += 1
open("/verif/rocq/theories/Samples.v", "w").write("\n".join(out))
print(n, "node samples")
