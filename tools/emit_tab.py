#!/usr/bin/env python3
"""Generates rocq/theories/M_HmmEmit.v and M_PosEmit.v from /repo/hmm/prob_emit.go and /repo/hmm/pos/prob_emit.go (read as text).
A row (n, [h1; h2; ...]) says that the characters in h1, h2, ... have the value -n * 10^-17; the hexadecimal digits, four at a time, are
the characters. Characters with the same value share a row; the order within a map has no meaning."""
import re, os
root = os.path.dirname(os.path.dirname(os.path.abspath(__file__)))
def scaled(t):
    m = re.fullmatch(r"(-?)(\d+)\.(\d{1,17})", t)
    n = int(m.group(2) + m.group(3).ljust(17, "0"))
    assert n == 0 or m.group(1) == "-", t
    return n
def rows(entries):
    g = {}
    for r, v in entries: g.setdefault(scaled(v), []).append(r)
    def packed(rs): return "; ".join("0x" + "".join(rs[i:i + 24]) for i in range(0, len(rs), 24))
    return ";\n".join("  (%d, [%s])" % (n, packed(sorted(rs))) for n, rs in sorted(g.items()))
ent = r"'\\u([0-9a-f]{4})':\s*(-?[\d.]+)"
def head(w, f):
    w("(** Data of %s, generated by tools/emit_tab.py. *)" % f)
    w("From Verif Require Import Base.")
    w("Local Open Scope Z_scope.")
    w("")
src = open("/repo/hmm/prob_emit.go").read()
total = 0
out = []; w = out.append
head(w, "hmm/prob_emit.go")
for m in re.finditer(r"probEmit\['(.)'\] = map\[rune\]float64\{(.*?)\}", src, re.S):
    es = re.findall(ent, m.group(2)); total += len(es)
    w("(** prob_emit.go:%d-%d loadDefEmit, state %s *)" % (src[:m.start()].count("\n") + 1, src[:m.end()].count("\n") + 1, m.group(1)))
    w("Definition emit_%s : list (Z * list Z) := [" % m.group(1))
    w(rows(es)); w("]."); w("")
assert total == src.count("'\\u"), (total, src.count("'\\u"))
open(os.path.join(root, "rocq/theories/M_HmmEmit.v"), "w").write("\n".join(out))
src = open("/repo/hmm/pos/prob_emit.go").read()
total = 0; names = []
out = []; w = out.append
head(w, "hmm/pos/prob_emit.go")
i = src.index("var probEmit")
for m in re.finditer(r"^\t(\d+): \{(.*?)\}", src[i:], re.S | re.M):
    es = re.findall(ent, m.group(2)); total += len(es); names.append(m.group(1))
    w("(** prob_emit.go:%d-%d probEmit, state %s *)" % (src[:i + m.start()].count("\n") + 1, src[:i + m.end()].count("\n") + 1, m.group(1)))
    w("Definition emit_%s : list (Z * list Z) := [%s" % (m.group(1), "\n" if es else "") + rows(es) + ("\n" if es else "") + "].")
assert total == src.count("'\\u"), (total, src.count("'\\u"))
w("(** prob_emit.go:%d-%d probEmit *)" % (src[:i].count("\n") + 1, src.rstrip().count("\n") + 1))
w("Definition pos_emit_tab : list (Z * list (Z * list Z)) := [")
w(";\n".join("  (%s, emit_%s)" % (k, k) for k in names)); w("].")
open(os.path.join(root, "rocq/theories/M_PosEmit.v"), "w").write("\n".join(out) + "\n")
