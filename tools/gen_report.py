"""RepoReport.v from the committed scripts/s01-adf-json-schema-analysis/ADF-JSON-Schema-Analysis.md: its text, the
dependencies and the order it lists, and a smallest set of definitions that has these names and references (the
schema itself is not in the repository)."""
import re
p = "/repo/scripts/s01-adf-json-schema-analysis/ADF-JSON-Schema-Analysis.md"
lines = open(p, encoding="utf-8").read().split("\n")
num = lambda prefix: int(next(l for l in lines if l.startswith(prefix)).split(": ")[1])
total, nn, nm, no = num("- Total"), num("- Node def"), num("- Mark def"), num("- Other")
a = lines.index("## All Type Enum Values"); b = lines.index("## Implementation Order"); c = lines.index("## Mark Definitions")
d = lines.index("## Recommended Implementation Phases")
enums = [l[2:] for l in lines[a:b] if l.startswith("- ")]
marks = [l[2:] for l in lines[c:d] if l.startswith("- ")]
order = []
for l in lines[b:c]:
    m = re.match(r"^\d+\. \*\*(\w+)\*\* - (no dependencies|depends on: (.*))$", l)
    if m:
        order.append((m.group(1), m.group(3).split(", ") if m.group(3) else []))
nodes = {x for x, _ in order}
q = lambda x: '"' + x.replace('"', '""') + '"'
lst = lambda l: "[" + "; ".join(l) + "]"
defname = lambda x: x + ("_node" if x in nodes else "_mark")
out = []
out.append("(** Generated by tools/gen_report.py from scripts/s01-adf-json-schema-analysis/ADF-JSON-Schema-Analysis.md. Do not edit. *)")
out.append("From Coq Require Import List NArith ZArith Bool String.\nFrom Verif Require Import PyStr Values.\nImport ListNotations.\nOpen Scope string_scope.\nOpen Scope list_scope.\n")
out.append("(** The text of the committed report. *)\nDefinition committed_report : str := join nl (map s\n  [" + ";\n   ".join(q(l) for l in lines) + "]%string).\n")
out.append("(** The entries under \"Implementation Order\": name and dependencies. *)\nDefinition committed_order : list (str * list str) := map (fun e => (s (fst e), map s (snd e)))\n  ["
  + ";\n   ".join("(%s, %s)" % (q(x), lst(map(q, ds))) for x, ds in order) + "]%string.\n")
defs = []
for x, ds in reversed(order):
    defs.append((x + "_node", "VDict [(s \"anyOf\", VList %s)]" % lst("ref %s" % q(defname(y)) for y in reversed(ds))))
extra = nn - len(order)
for i in range(extra):
    defs.insert(3 * i, (order[i][0] + "_with_variant%d_node" % i, "VDict []"))
for m in reversed(marks):
    defs.insert(5, (m + "_mark", "VDict []"))
for i in range(no):
    defs.insert(7 * i, ("other%d" % i, "VDict [(s \"type\", VDict [(s \"enum\", VList (map (fun x => VStr (s x)) %s))])]" % lst(map(q, enums[i::no]))))
assert len(defs) == total and len(marks) == nm
out.append("Definition ref (x : string) : value := VDict [(s \"$ref\", VStr (s (\"#/definitions/\" ++ x)%string))].")
out.append("Definition sample_definitions : list (str * value) :=\n  [" + ";\n   ".join("(s %s, %s)" % (q(n), v) for n, v in defs) + "].")
open("/verif/rocq/theories/RepoReport.v", "w").write("\n".join(out) + "\n")
