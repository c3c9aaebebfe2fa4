#!/usr/bin/env python3
"""Write MANIFEST.json from the theorems in rocq/theories/Props*.v and the notes in tools/notes.json.
A property is "partial" when one of its theorems is named ..._partial or ..._refuted, unless the
notes say otherwise."""
import glob, json, os, re
root = os.path.dirname(os.path.dirname(os.path.abspath(__file__)))
props = [json.loads(l) for l in open(f"{root}/properties.jsonl")]
notes = json.load(open(f"{root}/tools/notes.json"))
thms = {}
for f in sorted(glob.glob(f"{root}/rocq/theories/Props*.v")):
    for m in re.finditer(r"^Theorem\s+((C\d\d+)_\w+)", open(f).read(), re.M):
        thms.setdefault(m.group(2), []).append(m.group(1))
claims = []
for p in props:
    i = p["id"]
    t = thms.get(i, [])
    n = notes.get(i, {})
    if isinstance(n, str): n = {"note": n}
    st = n.get("status") or ("partial" if not t or any(re.search(r"_(partial|refuted)", x) for x in t) else "proved")
    claims.append({"property": i, "status": st, "theorems": t,
                   "note": n.get("note") or ("" if t else "not proved yet")})
json.dump({"claims": claims}, open(f"{root}/MANIFEST.json", "w"), indent=1)
print({s: sum(c["status"] == s for c in claims) for s in ("proved", "partial", "not_applicable")},
      "no theorem:", [c["property"] for c in claims if not c["theorems"]])
