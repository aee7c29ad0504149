#!/usr/bin/env python3
"""Write MANIFEST.json, and the list of properties in DESIGN.md, from the
theorem names in theories/Prop*.v.

Status and notes come from tools/status.json; a theorem named Cnn_... belongs to Cnn.
"""
import glob, json, os, re, sys
root = sys.argv[1] if len(sys.argv) > 1 else "/verif"
STATUS = json.load(open(f"{root}/tools/status.json"))
thms, files = {}, {}
for f in sorted(glob.glob(f"{root}/rocq/theories/Prop*.v")):
    for m in re.finditer(r"^ *Theorem (C\d\d_\w+)", open(f).read(), re.M):
        pid = m.group(1)[:3]
        thms.setdefault(pid, []).append(m.group(1))
        files.setdefault(pid, set()).add(os.path.basename(f))
claims, text = [], []
for line in open(f"{root}/properties.jsonl"):
    p = json.loads(line)
    pid = p["id"]
    if pid in thms:
        st, note = STATUS.get(pid, ["partial", ""])
        claims.append({"property": pid, "status": st, "theorems": thms[pid], "note": note})
        text.append(f"* **{pid}** {p['title']} — {st} (`{', '.join(sorted(files[pid]))}`). "
                    f"{note[:1].upper() + note[1:]}{'.' if note and not note.endswith('.') else ''}\n"
                    f"  Theorems: {', '.join('`' + t + '`' for t in thms[pid])}.\n")
    else:
        text.append(f"* **{pid}** {p['title']} — no theorem yet.\n")
json.dump({"claims": claims}, open(f"{root}/MANIFEST.json", "w"), indent=1)
d = open(f"{root}/DESIGN.md").read()
a, b = d.index("<!-- generated"), d.index("<!-- end -->")
a = d.index("\n", a) + 1
open(f"{root}/DESIGN.md", "w").write(d[:a] + "".join(text) + d[b:])
print(len(claims), "claims")
