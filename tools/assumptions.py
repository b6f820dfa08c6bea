#!/usr/bin/env python3
"""Write ASSUMPTIONS.md: what Print Assumptions says of every property theorem.
Needs a built rocq/."""
import glob, os, re, subprocess, tempfile
root = os.path.dirname(os.path.dirname(os.path.abspath(__file__)))
names = []
for f in sorted(glob.glob(f"{root}/rocq/theories/Prop*.v")):
    mod = os.path.basename(f)[:-2]
    names += [(mod, m) for m in re.findall(r"^Theorem (C\d+_\w+)", open(f).read(), re.M)]
src = "".join(f"From Verif Require {m}.\n" for m in sorted({m for m, _ in names}))
src += "".join(f'Redirect "out_{n}" Print Assumptions {m}.{n}.\n' for m, n in names)
with tempfile.TemporaryDirectory() as d:
    open(f"{d}/a.v", "w").write(src)
    subprocess.run(["coqc", "-Q", f"{root}/rocq/theories", "Verif", f"{d}/a.v"], check=True, cwd=d)
    res = {n: " ".join(open(f"{d}/out_{n}.out").read().split()) for _, n in names}
names.sort(key=lambda x: (x[1][:3], ))
with open(f"{root}/ASSUMPTIONS.md", "w") as f:
    f.write("# Print Assumptions\n\nGenerated by `tools/assumptions.py`.\n\n| theorem | file | Print Assumptions |\n|---|---|---|\n")
    for m, n in names:
        f.write(f"| `{n}` | `{m}.v` | {res[n]} |\n")
print(len(names), "theorems;", sum(r != "Closed under the global context" for r in res.values()), "not closed")
