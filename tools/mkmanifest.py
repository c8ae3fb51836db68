"""Rebuild MANIFEST.json: collects theorems Cnn_* from rocq/theories/Props*.v, adds notes."""
import json, re, glob, os
root = os.path.dirname(os.path.dirname(os.path.abspath(__file__)))
thms = {}
for f in sorted(glob.glob(root + "/rocq/theories/Props*.v")):
    for m in re.finditer(r"^Theorem (C\d+)(_\w+)", open(f).read(), re.M):
        thms.setdefault(m.group(1), []).append(m.group(1) + m.group(2))
notes = json.load(open(root + "/tools/notes.json"))
claims = []
for line in open(root + "/properties.jsonl"):
    p = json.loads(line)["id"]
    n = notes.get(p, {})
    t = thms.get(p, [])
    if n.get("status"):
        status = n["status"]
    elif not t:
        status = None
    elif any("_refuted" in x or x.endswith("_partial") for x in t):
        status = "partial"
    else:
        status = "proved"
    if status is None:
        continue
    claims.append({"property": p, "status": status, "theorems": t, "note": n.get("note", "")})
json.dump({"claims": claims}, open(root + "/MANIFEST.json", "w"), indent=1)
print({s: sum(c["status"] == s for c in claims) for s in ("proved", "partial", "not_applicable")})
