"""Check that every anchor file:symbol in properties.jsonl exists in /repo."""
import json, os, re
for l in open(os.path.join(os.path.dirname(__file__), "..", "properties.jsonl")):
    r = json.loads(l)
    for a in r["anchors"]:
        f, _, s = a.partition(":")
        p = "/repo/" + f
        if not os.path.exists(p):
            print(r["id"], "no file", a); continue
        if s and not re.search(r"\b(def|class)\s+" + re.escape(s.split(".")[-1]) + r"\b|^\s*" + re.escape(s.split(".")[-1]) + r"\s*=", open(p).read(), re.M):
            print(r["id"], "no symbol", a)
