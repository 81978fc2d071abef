#!/usr/bin/env python3
"""Transcribe the tables of pinilla_ramos_et_al_2024.py:_get_energy_coefficients into Coq (exact decimals).
Run: python3 tools/gen_pr24.py   (from /verif; writes rocq/theories/Data_pr24.v)
"""
import os, re
from decimal import Decimal

SRC = "/repo/src/pygmm/pinilla_ramos_et_al_2024.py"
OUT = os.path.join(os.path.dirname(os.path.abspath(__file__)), "..", "rocq", "theories", "Data_pr24.v")
NAMES = ["c_median", "a0", "m1", "r1", "v1", "rho_c_d575", "sigma_c"]


def q(t):
    sign, digits, exp = Decimal(t).normalize().as_tuple()
    num = int("".join(map(str, digits))) * (-1 if sign else 1)
    return "(%d # 1)" % (num * 10 ** exp) if exp >= 0 else "(%d # %d)" % (num, 10 ** -exp)


def arrays(t):
    return {m.group(1): [x.strip() for x in m.group(2).split(",") if x.strip()]
            for m in re.finditer(r"(\w+) = np\.array\(\s*\[([^\]]*)\]", t)}


s = open(SRC).read()
i, j, k = s.index("def _get_energy_coefficients"), s.index("n2 = 0.15"), s.index("n2 = 0.25")
energies = arrays(s[:i])["ENERGY_THRESHOLDS"]
with open(OUT, "w") as fp:
    fp.write("(** Generated by tools/gen_pr24.py - do not edit.\n"
             "    pinilla_ramos_et_al_2024.py:60-81 (ENERGY_THRESHOLDS) and 296-619 (the arrays of _get_energy_coefficients), one row per threshold. *)\n"
             "From Coq Require Import QArith List.\nImport ListNotations.\nOpen Scope Q_scope.\n\n"
             "Record pr24_row := Pr24Row { f_energy : Q; f_c_median : Q; f_a0 : Q; f_m1 : Q; f_r1 : Q; f_v1 : Q; f_rho : Q; f_sigma_c : Q }.\n")
    for name, t in (("interface", s[i:j]), ("slab", s[j:k])):
        a = arrays(t)
        assert all(len(a[n]) == len(energies) for n in NAMES)
        fp.write("Definition pr24_%s : list pr24_row := [\n%s].\n" % (name, ";\n".join(
            "  Pr24Row " + " ".join([q(e)] + [q(a[n][x]) for n in NAMES]) for x, e in enumerate(energies))))
