"""Regenerates MANIFEST.json from the theorem names in rocq/theories/Properties*.v."""
import re, json, glob, os
root = os.path.dirname(os.path.dirname(os.path.abspath(__file__)))
notes = json.load(open(os.path.join(root, "tools", "notes.json")))
props = [json.loads(l)["id"] for l in open(os.path.join(root, "properties.jsonl")) if l.strip()]
thms = {p: [] for p in props}
for f in sorted(glob.glob(os.path.join(root, "rocq", "theories", "Properties*.v"))):
    for m in re.finditer(r"^Theorem (C\d\d+)_(\w+)", open(f).read(), re.M):
        thms[m.group(1)].append(m.group(1) + "_" + m.group(2))
claims = []
for p in props:
    t = thms[p]
    if not t:
        continue
    part = any(x.endswith("_partial") or x.endswith("_refuted") for x in t)
    st = notes.get(p, {}).get("status", "partial" if part else "proved")
    claims.append({"property": p, "status": st, "theorems": t, "note": notes.get(p, {}).get("note", "")})
json.dump({"claims": claims}, open(os.path.join(root, "MANIFEST.json"), "w"), indent=1)
print("missing:", [p for p in props if not thms[p]])
