#!/usr/bin/env python3
"""Rewrite the axiom table of DESIGN.md (section 2) from Print Assumptions.

Run from /verif after a build. The property files are compiled again, to /tmp."""
import re, subprocess, sys

FILES = "Util Analysis Kiss Accuracy Image Format Cli Tool Refusal Library Binding Handle Size Interpolate Cubic Lanczos Inverse Detect Turned Order Crossing Text End Session Precision Scalar Trig Build Visualize".split()
NAMES = {"ClassicalDedekindReals.sig_not_dec": "sig_not_dec",
         "ClassicalDedekindReals.sig_forall_dec": "sig_forall_dec",
         "FunctionalExtensionality.functional_extensionality_dep": "functional_extensionality_dep",
         "Classical_Prop.classic": "classic"}


def assumptions(name):
    src = open(f"rocq/theories/{name}.v").read()
    theorems = re.findall(r"Print Assumptions (\w+)\.", src)
    run = subprocess.run(["coqc", "-Q", ".", "Verif", "-o", f"/tmp/{name}.vo", f"{name}.v"],
                         cwd="rocq/theories", capture_output=True, text=True)
    if run.returncode:
        sys.exit(run.stderr)
    blocks = re.split(r"(?=^Closed under|^Axioms:)", run.stdout, flags=re.M)[1:]
    assert len(blocks) == len(theorems), (name, len(blocks), len(theorems))
    result = {}
    for theorem, block in zip(theorems, blocks):
        axioms = [] if block.startswith("Closed") else re.findall(r"^([\w.]+)", block, flags=re.M)[1:]
        result[theorem] = frozenset(NAMES[a] for a in axioms)
    return result


def row(name):
    ax = assumptions(name)
    closed = [t for t in ax if not ax[t]]
    full = [t for t in ax if len(ax[t]) == 4]
    rest = {}
    for t in ax:
        if ax[t] and len(ax[t]) < 4:
            rest.setdefault(ax[t], []).append(t)
    quote = lambda ts: ", ".join(f"`{t}`" for t in ts)
    if not closed:
        c = "none"
    elif len(closed) == len(ax):
        c = "all"
    elif len(closed) > len(ax) / 2 and len(closed) > 4:
        c = "all but " + quote(t for t in ax if ax[t])
    else:
        c = quote(closed)
    o = ([f"{len(full)}, all four"] if full else []) + \
        [quote(ts) + ": " + ", ".join(sorted(s)) for s, ts in rest.items()]
    return f"   | {name} | {len(ax)} | {c} | {'; '.join(o)} |"


rows = [row("Prop" + f) for f in FILES]
text = open("DESIGN.md").read()
new = re.sub(r"(   \|---\|---\|---\|---\|\n)(   \| Prop.*\n)+", lambda m: m.group(1) + "\n".join(rows) + "\n", text)
open("DESIGN.md", "w").write(new)
print("\n".join(rows))
