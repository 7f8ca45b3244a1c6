"""Write MANIFEST.json from tools/claims.json-like data kept here."""
import json, os, re
here = os.path.dirname(os.path.abspath(__file__))
root = os.path.dirname(here)
claims = []
ns = {}
exec(open(os.path.join(here, "claims.py")).read(), ns)
thms = set()
d = os.path.join(root, "rocq", "theories")
for f in sorted(os.listdir(d)):
    if f.endswith(".v"):
        thms |= set(re.findall(r"^(?:Theorem|Lemma|Example) (\w+)", open(os.path.join(d, f)).read(), re.M))
used = set()
for pid, status, names, note in ns["CLAIMS"]:
    for n in names:
        assert n in thms, (pid, n)
        used.add(n)
    claims.append({"property": pid, "status": status, "theorems": names, "note": note})
props = [json.loads(l)["id"] for l in open(os.path.join(root, "properties.jsonl"))]
missing = [p for p in props if p not in {c["property"] for c in claims}]
extra = [c["property"] for c in claims if c["property"] not in props]
assert not extra, extra
allprops = set()
for f in sorted(os.listdir(d)):
    if f.startswith("Props") and f.endswith(".v"):
        allprops |= set(re.findall(r"^Theorem (\w+)", open(os.path.join(d, f)).read(), re.M))
print("unclaimed properties:", missing)
print("theorems not in manifest:", sorted(allprops - used))
json.dump({"claims": claims}, open(os.path.join(root, "MANIFEST.json"), "w"), indent=1)
