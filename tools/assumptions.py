#!/usr/bin/env python3
"""Write section 5 of DESIGN.md: the output of Print Assumptions for each property theorem.
Needs the compiled theories in rocq/theories."""
import glob, os, re, subprocess
from concurrent.futures import ThreadPoolExecutor
root = os.path.dirname(os.path.dirname(os.path.abspath(__file__)))
os.chdir(os.path.join(root, "rocq"))
os.makedirs("/tmp/pa", exist_ok=True)
rows = []
def ask(f):
    """The theorems of a file and what Print Assumptions says of each outside its section."""
    t = os.path.basename(f)[:-2]
    names = re.findall(r"^Print Assumptions (\w+)\.", open(f).read(), re.M)
    with open(f"/tmp/pa/q_{t}.v", "w") as q:
        q.write(f"From Verif Require {t}.\n" + "".join(f"Print Assumptions {t}.{n}.\n" for n in names))
    out = subprocess.run(["coqc", "-Q", "theories", "Verif", f"/tmp/pa/q_{t}.v"], capture_output=True, text=True)
    if out.returncode: raise SystemExit(f + out.stderr)
    blocks = re.split(r"^(?=Axioms:|Closed under the global context)", out.stdout, flags=re.M)[1:]
    assert len(blocks) == len(names), (f, len(blocks), len(names))
    return [(n, os.path.basename(f), re.findall(r"^([A-Za-z_][\w.]*)\s*(?=:|\n\s+:)", b[8:], re.M) if b.startswith("Axioms:") else [])
            for n, b in zip(names, blocks)]
with ThreadPoolExecutor(4) as pool:
    for r in pool.map(ask, sorted(glob.glob("theories/*_props.v"))): rows += r
short = {"ClassicalDedekindReals.sig_forall_dec": "F", "ClassicalDedekindReals.sig_not_dec": "N",
         "FunctionalExtensionality.functional_extensionality_dep": "E", "functional_extensionality_dep": "E", "Classical_Prop.classic": "C", "classic": "C"}
def key(n): return (int(re.match(r"C(\d+)", n).group(1)), n)
lines = ["## 5. Print Assumptions", "",
  "Generated by `tools/assumptions.py`.  F = ClassicalDedekindReals.sig_forall_dec, N =",
  "ClassicalDedekindReals.sig_not_dec, E = functional_extensionality_dep, C = Classical_Prop.classic, all from",
  "the standard library; - means closed under the global context.", "", "| theorem | file | axioms |", "|---|---|---|"]
for n, f, ax in sorted(rows, key=lambda r: key(r[0])):
    for a in ax:
        if a not in short: raise SystemExit("unexpected axiom " + a + " in " + n)
    lines.append(f"| {n} | {f} | {' '.join(sorted({short[a] for a in ax})) or '-'} |")
lines += ["", "## 6. Findings", "", "Each `_refuted` theorem is a place where the code does not do what its documentation or", "its users expect.  The text is the comment above the theorem.  Generated.", ""]
for f in sorted(glob.glob("theories/*_props.v")):
    src = open(f).read()
    for m in re.finditer(r"\(\*\*((?:(?!\*\)).)*)\*\)\s*Theorem (\w+_refuted)", src, re.S):
        lines.append(f"* `{m.group(2)}`: " + " ".join(m.group(1).split()))
d = open("../DESIGN.md").read()
d = re.sub(r"\n## 5\. Print Assumptions.*", "", d, flags=re.S).rstrip() + "\n\n" + "\n".join(lines) + "\n"
open("../DESIGN.md", "w").write(d)
print(len(rows), "theorems")
