"""Rebuild MANIFEST.json: theorem names come from the Props*.v files, status and notes from tools/status.json."""
import json, re, glob
names = {}
for f in sorted(glob.glob("/verif/rocq/theories/Props*.v")):
    for m in re.finditer(r"^Theorem ((C\d+)_\w+)", open(f).read(), re.M):
        names.setdefault(m.group(2), []).append(m.group(1))
st = json.load(open("/verif/tools/status.json"))
props = [json.loads(l)["id"] for l in open("/verif/properties.jsonl")]
claims = []
for p in props:
    if p in st:
        claims.append({"property": p, "status": st[p][0], "theorems": names.get(p, []), "note": st[p][1]})
for p in names:
    assert p in st, p
json.dump({"claims": claims}, open("/verif/MANIFEST.json", "w"), indent=1)
print(len(claims), "claims", sum(len(v) for v in names.values()), "theorems; without status:", [p for p in props if p not in st])
