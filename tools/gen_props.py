#!/usr/bin/env python3
"""Generate Prop*.v (statements only) from *Claims.v.

In a claims file every `Lemma foo_claim <binders> : <statement>.` becomes
`Theorem foo ... exact foo_claim`, every `Example foo_example : <statement>.` becomes
`Example foo_witness`, each with the doc comment that precedes it."""
import re, sys, os
d = os.path.join(os.path.dirname(os.path.abspath(__file__)), "..", "rocq", "theories")
for f in sorted(os.listdir(d)):
    if not f.endswith("Claims.v"): continue
    base = f[:-len("Claims.v")]
    s = open(os.path.join(d, f)).read()
    head = re.search(r"\(\*\* @header\n(.*?)\*\)", s, re.S).group(1)
    imports = re.search(r"(?:^(?:From|Require|Import|Open|Local)[^\n]*(?:\n  [^\n]*)*\n)+", s, re.M).group(0)
    out = "(** %s*)\n%sFrom Verif Require Import %sClaims.\n" % (head, imports, base)
    for m in re.finditer(r"(\(\*\*(?:(?!\*\)).)*\*\)\n)?(Lemma|Example) (\w+)_(claim|example)\b(.*?)\.\nProof", s, re.S):
        doc, kind, name, suf, stmt = m.groups()
        if suf == "claim":
            # binders are passed on by eta: state as forall via the same binder text
            out += "\n%sTheorem %s%s.\nProof. exact %s. Qed.\nPrint Assumptions %s.\n" % (doc or "", name, stmt, name + "_claim", name)
        else:
            out += "\n%sExample %s_witness%s.\nProof. exact %s_example. Qed.\n" % (doc or "", name, stmt, name)
    open(os.path.join(d, "Prop%s.v" % base), "w").write(out)
