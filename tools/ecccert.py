#!/usr/bin/env python3
"""Writes rocq/theories/EccCert.v: certificates of powers modulo a number, as lists of
(multiply by the base?, quotient, remainder)."""
import sys
p = 2**256 - 2**224 + 2**192 + 2**96 - 1
n = 0xffffffff00000000ffffffffffffffffbce6faada7179e84f3b9cac2fc632551
b = 0x5ac635d8aa3a93e7b3ebbd55769886bc651d06b0cc53b0f63bce3c3e27d2604b
out = []

def chain(name, N, base, e):
    x, steps = base, []
    for bit in bin(e)[3:]:
        q, x = divmod(x * x, N)
        steps.append(('false', q, x))
        if bit == '1':
            q, x = divmod(x * base, N)
            steps.append(('true', q, x))
    assert x == pow(base, e, N)
    out.append('Definition %s : list (bool * Z * Z) := [\n  %s].' % (name, ';\n  '.join('(%s, %s, %s)' % (m, hex(q), hex(r)) for m, q, r in steps)))
    return x

def num(name, v):
    out.append('Definition %s : Z := %s.' % (name, hex(v)))

def one(tag, N, a, f):
    """N - 1 = R f"""
    R = (N - 1) // f
    assert R * f == N - 1 and f * f > N
    y = chain(tag + '_a', N, a, R)
    assert chain(tag + '_b', N, y, f) == 1
    num(tag + '_y', y)
    num(tag + '_i', pow(y - 1, -1, N))

def two(tag, N, a, f, g):
    R = (N - 1) // (f * g)
    assert R * f * g == N - 1 and (f * g) ** 2 > N
    y = chain(tag + '_a', N, a, R)
    u = chain(tag + '_f', N, y, f)
    v = chain(tag + '_g', N, y, g)
    assert chain(tag + '_fg', N, u, g) == 1
    num(tag + '_y', y)
    num(tag + '_u', u)
    num(tag + '_v', v)
    num(tag + '_ui', pow(u - 1, -1, N))
    num(tag + '_vi', pow(v - 1, -1, N))

primes = [
    ('p256', p, [835945042244614951780389953367877943453916927241]),
    ('n256', n, [2624747550333869278416773953, 1002328039319]),
    ('', 835945042244614951780389953367877943453916927241, [774023187263532362759620327192479577272145303]),
    ('', 774023187263532362759620327192479577272145303, [11290956913871, 46076956964474543]),
    ('', 2624747550333869278416773953, [208150935158385979]),
    ('', 66417393611, [3677, 197]),
    ('', 11290956913871, [66417393611]),
    ('', 704251, [313, 5]),
    ('', 78283, [4349]),
    ('', 46076956964474543, [704251, 78283]),
    ('', 191039911, [155317]),
    ('', 3969899, [104471]),
    ('', 1002328039319, [3969899]),
    ('', 208150935158385979, [191039911, 3023]),
]
lemmas = {}
from math import gcd
for name, N, fs in primes:
    tag = 'c_' + (name or str(N))
    a = next(a for a in range(2, 50) if pow(a, N - 1, N) == 1 and all(gcd(pow(a, (N - 1) // f, N) - 1, N) == 1 for f in fs))
    short = name or str(N)
    if len(fs) == 1:
        one(tag, N, a, fs[0])
        lemmas[N] = 'Lemma pr_%s : prime %s.\nProof. apply (pocklington1 _ %d %d pr_%d); [apply (chk1_ok _ _ _ %s_y %s_i %s_a %s_b)|]; vm_compute; reflexivity. Qed.' % (short, short, a, fs[0], fs[0], tag, tag, tag, tag)
    else:
        two(tag, N, a, fs[0], fs[1])
        lemmas[N] = ('Lemma ch_%s : step_ok %s %d %d /\\ step_ok %s %d %d.\nProof. apply (chk2_ok _ _ _ _ %s_y %s_u %s_v %s_ui %s_vi %s_a %s_f %s_g %s_fg). vm_compute. reflexivity. Qed.\n' % ((short, short, a, fs[0], short, a, fs[1]) + (tag,) * 9)
            + 'Lemma pr_%s : prime %s.\nProof. apply (pocklington2 _ %d %d %d pr_%d pr_%d); [discriminate|exact (proj1 ch_%s)|exact (proj2 ch_%s)|vm_compute; reflexivity]. Qed.' % (short, short, a, fs[0], fs[1], fs[0], fs[1], short, short))
if sys.argv[1:] == ['lemmas']:
    print('\n'.join(lemmas[N] for N in sorted(lemmas, key=lambda N: (N == p, N))))
    sys.exit()
# t + 1/t = -b, and t is no cube
def sqrt(a):
    r = pow(a, (p + 1) // 4, p)
    assert r * r % p == a % p
    return r
t = (-b + sqrt((b * b - 4) % p)) * pow(2, -1, p) % p
assert (t * t + b * t + 1) % p == 0
num('ct', t)
u = chain('ct_c', p, t, (p - 1) // 3)
assert u != 1
num('ct_u', u)
print('(** Certificates for EccPrime and EccAlgebra, written by tools/ecccert.py: chains of powers\n    modulo a number, each step (multiply by the base?, quotient, remainder). They are data;\n    nothing is believed about them that is not checked. *)\nFrom Verif Require Import Common.\n')
print('\n'.join(out))
