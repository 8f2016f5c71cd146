#!/usr/bin/env python3
"""Generates rocq/theories/M_PosTab.v from /repo/hmm/pos/{char_state_tab,prob_trans,prob_start}.go (read as text).
Floats are written as the nearest float64 m * 2^e; state lists as hexadecimal literals whose digits, three at a time, are
the decimal digits of the states in order."""
import re, os
root = os.path.dirname(os.path.dirname(os.path.abspath(__file__)))
base = "/repo/hmm/pos/"
def num(t):
    n, d = float(t).as_integer_ratio()
    e = -(d.bit_length() - 1)
    while n and n % 2 == 0:
        n //= 2; e += 1
    if n == 0: return "0, 0"
    return "%s0x%x, %d" % ("-" if n < 0 else "", abs(n), e)
def val(t):
    return num(t)
ct = open(base + "char_state_tab.go").read()
tt = open(base + "prob_trans.go").read()
st = open(base + "prob_start.go").read()
out = []
w = out.append
w("(** Data of package pos, generated by tools/pos_tab.py. *)")
w("From Verif Require Import Base.")
w("Local Open Scope Z_scope.")
w("")
cs = re.findall(r"^\t\t'\\u([0-9a-f]{4})':\s*\[\]uint16\{(.*?)\},", ct, re.M)
assert len(cs) == ct.count("[]uint16{") - 0, (len(cs), ct.count("[]uint16{"))
w("(** char_state_tab.go:61-%d charStateTab: the states of a character; the hexadecimal digits, in threes, are the decimal" % (62 + len(cs)))
w("    digits of the states. *)")
w("Definition char_hex : list (Z * Z) := [")
w(";\n".join("  (0x%s, 0x%s)" % (c, "".join("%03d" % int(x) for x in l.split(","))) for c, l in cs))
w("].")
poss = re.search(r"poss\s+= \[\]string\{(.*?)\}", ct).group(1)
w("")
w("(** char_state_tab.go: poss *)")
w("Local Open Scope lit_scope.")
w("Definition poss : list bytes := map str [" + "; ".join(x.strip() for x in poss.split(",")) + "].")
w("Local Open Scope Z_scope.")
w("")
rows = re.findall(r"^\t\t(\d+): \{(.*?)\},?$", tt, re.M)
w("(** prob_trans.go:21-278 probTrans: for every state its successors (y, m, e) with probability m * 2^e. *)")
w("Definition trans_tab : list (Z * list (Z * Z * Z)) := [")
w(";\n".join("  (%s, [%s])" % (k, "; ".join("(%s, %s)" % (y, val(p)) for y, p in re.findall(r"(\d+): (-?[\d.e+-]+)", r))) for k, r in rows))
w("].")
w("")
ss = re.findall(r"^\t(\d+):\s*(-?[\d.e+-]+),", st, re.M)
w("(** prob_start.go:3-260 probStart *)")
w("Definition start_tab : list (Z * Z * Z) := [")
w(";\n".join("  (%s, %s)" % (k, val(p)) for k, p in ss))
w("].")
open(os.path.join(root, "rocq/theories/M_PosTab.v"), "w").write("\n".join(out) + "\n")
