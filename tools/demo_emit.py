#!/usr/bin/env python3
"""Emission probabilities of a few characters from /repo/hmm/prob_emit.go as exact float64 values."""
import re, math
src = open('/repo/hmm/prob_emit.go', encoding='utf8').read()
chars = "纽约时代广场西雅图太空针"
tabs = {}
for m in re.finditer(r"probEmit\['(.)'\] = map\[rune\]float64\{(.*?)\}", src, re.S):
    tabs[m.group(1)] = dict((chr(int(k, 16)), float(v)) for k, v in re.findall(r"'\\u([0-9a-f]{4})':\s*([-0-9.e+]+)", m.group(2)))
def lit(x):
    m, e = math.frexp(x); m = int(m * 2**53); e -= 53
    while m and m % 2 == 0: m //= 2; e += 1
    return "lit_64 (%d) (%d)" % (m, e)
print("(** Entries of hmm/prob_emit.go for the characters of the examples (tools/demo_emit.py). *)")
print("Definition demo_emit : emits demo := fun y r =>\n  match y with")
for y in "BEMS":
    print("  | H%s =>" % y)
    for c in chars:
        print("    if (r =? %d)%%Z then Some (%s) else" % (ord(c), lit(tabs[y][c])))
    print("    None")
print("  end.")
