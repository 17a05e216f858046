#!/usr/bin/env python3
"""Expand tools/Prop_*.v.in into rocq/theories/Prop_*.v.

A line `@thm cNN_name [as NAME]` becomes the theorem CNN_name with the statement of
the lemma cNN_name found in rocq/theories, closed by `exact cNN_name`.
A line `@assume` becomes one `Print Assumptions` per theorem since the last one.
Every other line is copied.
"""
import glob, os, re, sys

root = os.path.join(os.path.dirname(os.path.abspath(__file__)), "..")
theories = os.path.join(root, "rocq", "theories")
lemmas = {}
for path in sorted(glob.glob(os.path.join(theories, "*.v"))):
    if os.path.basename(path).startswith("Prop_"):
        continue
    text = open(path).read()
    for m in re.finditer(r"((?:[ ]*\(\*\*(?:(?!\*\)).)*\*\)\n)?)([ ]*)Lemma (c\d\d\w*)\b(.*?)\n?[ ]*Proof\.", text, re.S):
        doc, ind, name, stmt = m.groups()
        if doc.strip().startswith("(** ** "):
            doc = ""
        lemmas[name] = (doc, stmt.strip())

for path in sorted(glob.glob(os.path.join(root, "tools", "Prop_*.v.in"))):
    out, pending = [], []
    for line in open(path).read().split("\n"):
        m = re.match(r"(\s*)@thm (\w+)(?: as (\w+))?$", line)
        if m:
            ind, name, new = m.groups()
            if name not in lemmas:
                sys.exit("no lemma " + name)
            new = new or "C" + name[1:]
            doc, stmt = lemmas[name]
            body = "\n".join(ind + l[2:] if l.startswith("  ") and ind == "" else l
                             for l in (doc.rstrip("\n") + "\n" if doc else "").split("\n"))
            out.append(body + ind + "Theorem " + new + " " + stmt)
            out.append(ind + "Proof. exact %s. Qed." % name)
            pending.append(new)
        elif line.strip() == "@assume":
            out += ["Print Assumptions %s." % p for p in pending]
            pending = []
        else:
            out.append(line)
    if pending:
        sys.exit("theorems without @assume in " + path)
    dest = os.path.join(theories, os.path.basename(path)[:-3])
    new = "\n".join(out)
    if not os.path.exists(dest) or open(dest).read() != new:
        open(dest, "w").write(new)
        print("wrote", dest)
