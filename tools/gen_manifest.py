"""Collects the theorems named Cxx_... from rocq/theories into MANIFEST.json.

A property is "partial" when one of its theorems is a refutation or is marked
_partial (see NOTES for what is missing), "proved" otherwise.
"""
import glob, json, os, re

ROOT = os.path.dirname(os.path.dirname(os.path.abspath(__file__)))
NOTES = json.load(open(os.path.join(ROOT, "tools", "notes.json")))

ids = [json.loads(l)["id"] for l in open(os.path.join(ROOT, "properties.jsonl"))]
thms = {i: [] for i in ids}
for f in sorted(glob.glob(os.path.join(ROOT, "rocq", "theories", "*.v"))):
    for name in re.findall(r"^Theorem\s+([A-Za-z0-9_']+)", open(f).read(), re.M):
        m = re.match(r"(C\d\d+)_", name)
        if m and m.group(1) in thms:
            thms[m.group(1)].append(name)

claims = []
for i in ids:
    if not thms[i]:
        if i in NOTES.get("not_applicable", {}):
            claims.append({"property": i, "status": "not_applicable", "theorems": [],
                           "note": NOTES["not_applicable"][i]})
        continue
    part = any(re.search(r"_(partial|refuted)(_|\d|$)", t) or t.endswith("partial") for t in thms[i])
    if i in NOTES.get("force_partial", []):
        part = True
    claims.append({"property": i, "status": "partial" if part else "proved",
                   "theorems": thms[i], "note": NOTES["notes"].get(i, "")})
with open(os.path.join(ROOT, "MANIFEST.json"), "w") as out:
    json.dump({"claims": claims}, out, indent=1)
    out.write("\n")
print({s: sum(c["status"] == s for c in claims) for s in ("proved", "partial", "not_applicable")},
      "missing:", [i for i in ids if i not in [c["property"] for c in claims]])
