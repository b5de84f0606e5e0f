"""Write rocq/theories/VecFloat.v: the model's binary64 operations against CPython's."""
import random, math
from fractions import Fraction
random.seed(20240611)
def me(x):
    n, d = x.as_integer_ratio()
    e = 0
    if d > 1:
        e = -(d.bit_length() - 1)
    else:
        while n and n % 2 == 0 and abs(n) >= 2**60:
            n //= 2; e += 1
    assert Fraction(n) * Fraction(2) ** e == Fraction(x)
    return f"({n}, {e})"
cases = []
def add(op, a, b):
    r = {"fadd": lambda: a + b, "fsub": lambda: a - b, "fmul": lambda: a * b, "fdiv": lambda: a / b}[op]()
    if math.isfinite(r):
        cases.append((op, a, b, r))
ops = ["fadd", "fsub", "fmul", "fdiv"]
for op in ops:
    for a, b in [(0.1, 0.2), (1.0, 3.0), (1.0, 2.0**-53), (1.0, 2.0**-54), (1.0, 3 * 2.0**-53), (1 + 2.0**-52, 2.0**-53),
                 (5e-324, 3.0), (5e-324, 2.0), (2.0**-1022, 3.0), (1.5 * 2.0**-1022, 2.0**-1074 * 5), (-0.1, 0.3), (1e16, 1.0), (1e16, -3.0),
                 (8760.5, 168.0), (4.35, 100.0), (2.0**53 - 1, 2.0), (1.7976931348623157e308, 3.0)]:
        add(op, a, b)
    for _ in range(40):
        a = random.uniform(-1, 1) * 10.0 ** random.randint(-6, 6); b = random.uniform(-1, 1) * 10.0 ** random.randint(-6, 6)
        add(op, a, b)
    for _ in range(10):
        a = math.ldexp(random.randint(1, 2**53), -1074 + random.randint(0, 30)); b = math.ldexp(random.randint(1, 2**10), random.choice([-10, 0, -1074, -3]))
        if b: add(op, a, b)
draws = [(s, s * 0.4656613e-9) for s in [1, 64, 65539, 123456, 2147483584, 2147483589, 2147483590, 2147483647] + [random.randrange(2**31) for _ in range(40)]]
lits = [("1", "10", 0.1), ("2", "10", 0.2), ("1", "1000", 0.001), ("4656613", "10000000000000000", 0.4656613e-9), ("668", "10000", 0.0668), ("2417", "10000", 0.2417), ("383", "1000", 0.383)]
out = ['(** Rounding of FloatModel.v against CPython\'s floats: operands and results are (m, e) for m * 2^e.',
       '    Generated by tools/mkfloats.py (which only computes with Python numbers); do not edit. *)',
       'From Verif Require Import Base Vec FloatSpec FloatModel.', 'Open Scope Z_scope.', '',
       'Definition me (p : Z * Z) : Qc := Qcmult (qz (fst p)) (p2 (snd p)).',
       'Definition ok3 (f : Qc -> Qc -> Qc) (c : (Z * Z) * (Z * Z) * (Z * Z)) : bool :=',
       '  let \'(a, b, r) := c in qeqb (f (me a) (me b)) (me r).', '']
for op in ops:
    cs = [c for c in cases if c[0] == op]
    for k in range(0, len(cs), 20):
        out.append(f"Example {op}_{k//20} : True.")
        out.append(f"Proof. agrees (forallb (ok3 {op}) [" + ";\n  ".join(f"({me(a)}, {me(b)}, {me(r)})" for _, a, b, r in cs[k:k+20]) + "]). exact I. Qed.")
out.append("Example draws : True.")
out.append("Proof. agrees (forallb (fun p => qeqb (frand_of (fst p)) (me (snd p))) [" + ";\n  ".join(f"({s}, {me(x)})" for s, x in draws) + "]). exact I. Qed.")
out.append("Example literals : True.")
out.append("Proof. agrees (forallb (fun p => qeqb (fl (fst p)) (me (snd p))) [" + ";\n  ".join(f"(qq {n} {d}, {me(x)})" for n, d, x in lits) + "]). exact I. Qed.")
row = [random.uniform(5, 90) for _ in range(24)]; pk = 2850.0; m = max(row)
out.append("Example scaling : True.")
out.append("Proof. agrees (veq (frescale (map me [" + "; ".join(me(v) for v in row) + f"]) (me {me(pk)})) (map me [" + "; ".join(me(v / m * pk) for v in row) + "])). exact I. Qed.")
open("/verif/rocq/theories/VecFloat.v", "w").write("\n".join(out) + "\n")
print(len(cases))
