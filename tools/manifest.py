"""Write MANIFEST.json: theorem names are collected from the Properties files, statuses
and notes from manifest_notes.json."""
import json, re, glob, os
root = os.path.join(os.path.dirname(__file__), "..")
thms = {}
for f in sorted(glob.glob(os.path.join(root, "rocq/theories/Properties*.v"))):
    for n in re.findall(r"^Theorem (C(\d\d)_\w+)", open(f).read(), re.M):
        thms.setdefault("C" + n[1], []).append(n[0])
notes = json.load(open(os.path.join(root, "tools/manifest_notes.json")))
claims = []
for line in open(os.path.join(root, "properties.jsonl")):
    i = json.loads(line)["id"]
    if i not in thms:
        continue
    n = notes.get(i, {})
    claims.append({"property": i, "status": n.get("status", "proved"), "theorems": thms[i], "note": n.get("note", "")})
json.dump({"claims": claims}, open(os.path.join(root, "MANIFEST.json"), "w"), indent=1)
print(len(claims), "claims", sum(len(c["theorems"]) for c in claims), "theorems")
