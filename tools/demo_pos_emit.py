#!/usr/bin/env python3
"""Emission probabilities of a few characters from /repo/hmm/pos/prob_emit.go as exact float64 values."""
import re, math
src = open('/repo/hmm/pos/prob_emit.go', encoding='utf8').read()
chars = "纽约时代广场"
def lit(x):
    m, e = math.frexp(x); m = int(m * 2**53); e -= 53
    while m and m % 2 == 0: m //= 2; e += 1
    return "%d, %d" % (m, e)
rows = []
for m in re.finditer(r"^\t(\d+): \{(.*?)\}", src, re.S | re.M):
    for k, v in re.findall(r"'\\u([0-9a-f]{4})':\s*([-0-9.e+]+)", m.group(2)):
        if chr(int(k, 16)) in chars: rows.append((int(m.group(1)), int(k, 16), float(v)))
print("(** Entries of hmm/pos/prob_emit.go for the characters of the examples (tools/demo_pos_emit.py). *)")
print("Definition demo_ptab : list (Z * Z * Z * Z) := [")
print(";\n".join("  (%d, %d, %s)" % (s, r, lit(v)) for s, r, v in rows))
print("]%Z.")
