#!/usr/bin/env python3
"""Transcribe the coefficient tables of /repo/src/pygmm/data into Coq.

Every cell is written as the exact decimal it is in the file (a Q), no rounding.
Run: python3 tools/gen_data.py   (from /verif; writes rocq/theories/Data_*.v)
The generated files are committed; this script only needs re-running if the
tables change.
"""
import os
from decimal import Decimal
from fractions import Fraction

SRC = "/repo/src/pygmm/data"
OUT = os.path.join(os.path.dirname(__file__), "..", "rocq", "theories")

# name, file, skip_header, python loader citation
TABLES = [
    ("c03", "Data_c03", [("c03", "campbell_2003.csv", 1, "campbell_2003.py:29")]),
    ("tp05", "Data_tp05", [("tp05", "tavakoli_pezeshk_2005.csv", 1, "tavakoli_pezeshk_2005.py:30")]),
    ("pzt11", "Data_pzt11", [("pzt11", "pezeshk_zandieh_tavakoli_2011.csv", 1, "pezeshk_zandieh_tavakoli_2011.py:30")]),
    ("i14", "Data_i14", [("i14_small", "idriss_2014-small.csv", 2, "idriss_2014.py:31"),
                          ("i14_large", "idriss_2014-large.csv", 2, "idriss_2014.py:32")]),
    ("ab06", "Data_ab06", [("ab06_bc", "atkinson_boore_2006-bc.csv", 2, "atkinson_boore_2006.py:28"),
                            ("ab06_rock", "atkinson_boore_2006-rock.csv", 2, "atkinson_boore_2006.py:29")]),
    ("ab06s", "Data_ab06s", [("ab06_site", "atkinson_boore_2006-site.csv", 2, "atkinson_boore_2006.py:34")]),
    ("ab06f", "Data_ab06f", [("ab06_sf", "atkinson_boore_2006-sf.csv", 2, "atkinson_boore_2006.py:35")]),
    ("asb14", "Data_asb14", [("asb14_jb", "akkar-sandikkaya-bommer-2014-dist_jb.csv", 2, "akkar_sandikkaya_bommer_2014.py:44"),
                              ("asb14_hyp", "akkar-sandikkaya-bommer-2014-dist_hyp.csv", 2, "akkar_sandikkaya_bommer_2014.py:44"),
                              ("asb14_epi", "akkar-sandikkaya-bommer-2014-dist_epi.csv", 2, "akkar_sandikkaya_bommer_2014.py:44")]),
    ("ask14", "Data_ask14", [("ask14", "abrahamson_silva_kamai_2014.csv", 2, "abrahamson_silva_kamai_2014.py:32")]),
    ("bssa14", "Data_bssa14", [("bssa14", "boore_stewart_seyhan_atkinson-2014.csv", 2, "boore_stewart_seyhan_atkinson_2014.py:80")]),
    ("cb14", "Data_cb14", [("cb14", "campbell_bozorgnia_2014.csv", 2, "campbell_bozorgnia_2014.py:29")]),
    ("cy14", "Data_cy14", [("cy14", "chiou_youngs_2014.csv", 2, "chiou_youngs_2014.py:34")]),
    ("aga16", "Data_aga16", [("aga16", "abrahamson_gregor_addo_2016.csv", 1, "abrahamson_gregor_addo_2016.py:30")]),
    ("cop14", "Data_cop14", [("cop14", "coppersmith_bommer_2014.csv", 1, "coppersmith_bommer_2014.py:30")]),
    ("ga11", "Data_ga11", [("ga11", "gulerce_abrahamson_2011-coefficients.csv", 2, "gulerce_abrahamson_2011.py:31")]),
    ("ba18", "Data_ba18", [("ba18", "bayless_abrahamson_2018.csv", 3, "bayless_abrahamson_2018.py:25")]),
    ("ba19", "Data_ba19", [("ba19", "bayless_abrahamson_2019.csv", 2, "bayless_abrahamson_2019.py:32")]),
]


def q(text):
    f = Fraction(Decimal(text))
    d = Decimal(text).normalize()
    sign, digits, exp = d.as_tuple()
    num = int("".join(map(str, digits)))
    if sign:
        num = -num
    if exp >= 0:
        n, den = num * 10 ** exp, 1
    else:
        n, den = num, 10 ** (-exp)
    assert Fraction(n, den) == f
    return "(%d # %d)" % (n, den)


def read(fname, skip):
    with open(os.path.join(SRC, fname), encoding="utf-8-sig") as fp:
        lines = [l.rstrip("\n").rstrip("\r") for l in fp]
    header = lines[skip].lstrip("#").strip().split(",")
    header = [h.strip() for h in header]
    rows = []
    for no, l in enumerate(lines[skip + 1:], skip + 2):
        if not l.strip() or l.lstrip().startswith("#"):
            continue
        cells = [c.strip() for c in l.split(",")]
        assert len(cells) == len(header), (fname, no, len(cells), len(header))
        rows.append((no, cells))
    return header, rows


def main():
    for prefix, mod, tabs in TABLES:
        loaded = [(n, f, c) + read(f, s) for n, f, s, c in tabs]
        header = loaded[0][3]
        for t in loaded:
            assert t[3] == header, (prefix, t[3])
        opt = {h for t in loaded for _, cells in t[4] for h, c in zip(header, cells) if c == ""}
        with open(os.path.join(OUT, mod + ".v"), "w") as fp:
            fp.write("(** Generated by tools/gen_data.py - do not edit.\n")
            fp.write("    Coefficient tables, exact decimals as in the data files. *)\n")
            fp.write("From Coq Require Import QArith List.\nImport ListNotations.\nOpen Scope Q_scope.\n\n")
            fp.write("(** One row of %s; the field names are the column names of the file\n"
                     "    (load_data_file, model.py:526-538).%s *)\n" % (
                         ", ".join("data/" + t[1] for t in loaded),
                         " Blank cells (NaN) are None." if opt else ""))
            rec = prefix + "_row"
            fp.write("Record %s := Mk_%s {\n" % (rec, rec))
            fp.write(";\n".join("  %s_%s : %s" % (prefix, h, "option Q" if h in opt else "Q") for h in header))
            fp.write("\n}.\n\n")
            for n, f, c, _, rows in loaded:
                fp.write("(** %s: data/%s lines %d-%d (%d rows) *)\n" % (c, f, rows[0][0], rows[-1][0], len(rows)))
                fp.write("Definition %s_coeff : list %s := [\n" % (n, rec))
                out = []
                for no, cells in rows:
                    cs = []
                    for h, x in zip(header, cells):
                        if h in opt:
                            cs.append("None" if x == "" else "(Some %s)" % q(x))
                        else:
                            cs.append(q(x))
                    out.append("  Mk_%s %s" % (rec, " ".join(cs)))
                fp.write(";\n".join(out))
                fp.write("\n].\n\n")
        print(mod, [(t[0], len(t[4])) for t in loaded], len(header), sorted(opt))


main()
