"""Print a markdown table with the axioms Print Assumptions lists for every manifest theorem.
Run after building rocq/.  Output replaces the block between the markers in DESIGN.md."""
import json, os, re, subprocess, tempfile, glob
root = os.path.dirname(os.path.dirname(os.path.abspath(__file__)))
th = os.path.join(root, "rocq", "theories")
claims = json.load(open(os.path.join(root, "MANIFEST.json")))["claims"]
where = {}
for f in sorted(glob.glob(os.path.join(th, "T_*.v"))):
    for m in re.finditer(r"^\s*Theorem\s+(C\d+_\w+)", open(f).read(), re.M):
        where[m.group(1)] = os.path.basename(f)[:-2]
names = [t for c in claims for t in c["theorems"]]
with tempfile.TemporaryDirectory() as d:
    v = os.path.join(d, "Assume.v")
    with open(v, "w") as o:
        for m in sorted(set(where.values())):
            o.write(f"From Verif Require {m}.\n")
        for n in names:
            o.write(f'Print Assumptions Verif.{where[n]}.{n}.\nCheck tt.\n')
    out = subprocess.run(["coqc", "-Q", th, "Verif", v], capture_output=True, text=True)
    assert out.returncode == 0, out.stderr
    out = out.stdout
parts = re.split(r"tt\s*:\s*unit\s*", out)
short = {"ClassicalDedekindReals.sig_forall_dec": "D", "ClassicalDedekindReals.sig_not_dec": "N",
         "FunctionalExtensionality.functional_extensionality_dep": "F", "Classical_Prop.classic": "C"}
rows, other = [], set()
for n, p in zip(names, parts):
    ax = re.findall(r"^([A-Za-z_][\w.]*)\s*(?::|$)", p, re.M)
    ax = [a for a in ax if a != "Axioms"]
    if "Closed under the global context" in p:
        s = "none"
    else:
        other |= {a for a in ax if a not in short}
        s = " ".join(sorted(short.get(a, a) for a in ax))
    rows.append((n, where[n], s))
assert not other, other
tab = "| theorem | file | axioms |\n|---|---|---|\n" + "".join(f"| `{n}` | `{w}.v` | {s} |\n" for n, w, s in rows)
p = os.path.join(root, "DESIGN.md")
t = open(p).read()
a, b = "<!-- assumptions:begin -->\n", "<!-- assumptions:end -->"
if a in t:
    t = t[:t.index(a) + len(a)] + tab + t[t.index(b):]
    open(p, "w").write(t)
print(len(rows), "theorems")
