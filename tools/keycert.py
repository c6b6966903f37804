#!/usr/bin/env python3
"""Print KeyCert.v: the steps of the double-and-add ladder for the two private keys of
src/dnssec.h, as slopes and quotients that KeyTheorems.v checks."""
p = 2**256 - 2**224 + 2**192 + 2**96 - 1
g = (0x6b17d1f2e12c4247f8bce6e563a440f277037d812deb33a0f4a13945d898c296,
     0x4fe342e2fe1a7f9b8ee7eb4a7c0f9e162bce33576b315ececbb6406837bf51f5)
keys = [("ksk", 0x1c74c825c5b0f08cf6be846bfc93c423f03e3e1f6202fb2d96474b1520bbafad),
        ("zsk", 0x54276ff8604a3494c5c76d6651f14b289c7253ba636be4bfd7969308f48da47d)]

def third(l, a, b):
    x = (l * l - a[0] - b[0]) % p
    q2 = (l * l - a[0] - b[0] - x) // p
    t = l * (a[0] - x) - a[1]
    y = t % p
    return (x, y), q2, (t - y) // p

def chord(a, b):
    l = (b[1] - a[1]) * pow(b[0] - a[0], -1, p) % p
    q1, r = divmod(l * (b[0] - a[0]) - (b[1] - a[1]), p)
    assert r == 0
    c, q2, q3 = third(l, a, b)
    return c, (l, q1, q2, q3)

def tangent(a):
    l = (3 * a[0] * a[0] - 3) * pow(2 * a[1], -1, p) % p
    q1, r = divmod(l * (2 * a[1]) - (3 * a[0] * a[0] - 3), p)
    assert r == 0
    c, q2, q3 = third(l, a, a)
    return c, (l, q1, q2, q3)

def z(v):
    return "(-%#x)" % -v if v < 0 else "%#x" % v

def st(s):
    return "St " + " ".join(z(v) for v in s)

print("(** Written by tools/keycert.py: slopes and quotients of the ladder for the two keys of")
print("    src/dnssec.h:7-19. KeyTheorems.v checks them. *)")
print("From Verif Require Import Common KeySteps.")
for name, k in keys:
    bits = bin(k)[3:]
    a = g
    b, s0 = tangent(g)
    rows = []
    for c in bits:
        m, s1 = chord(a, b)
        if c == "0":
            d, s2 = tangent(a)
            a, b = d, m
        else:
            d, s2 = tangent(b)
            a, b = m, d
        rows.append("  (%s, %s, %s)" % ("true" if c == "1" else "false", st(s1), st(s2)))
    print("Definition %s_first : step := %s." % (name, st(s0)))
    print("Definition %s_steps : list (bool * step * step) := [" % name)
    print(";\n".join(rows) + "].")
    print("Definition %s_point : Z * Z := (%#x, %#x)." % (name, a[0], a[1]))
