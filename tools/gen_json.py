#!/usr/bin/env python3
"""Transcribe data/derras_bard_cotton_2014.json into Coq (exact decimals).
Run: python3 tools/gen_json.py   (from /verif; writes rocq/theories/Data_dbc14.v)
"""
import json, os
from decimal import Decimal

SRC = "/repo/src/pygmm/data"
OUT = os.path.join(os.path.dirname(os.path.abspath(__file__)), "..", "rocq", "theories")


def q(d):
    sign, digits, exp = Decimal(d).normalize().as_tuple()
    num = int("".join(map(str, digits))) * (-1 if sign else 1)
    return "(%d # 1)" % (num * 10 ** exp) if exp >= 0 else "(%d # %d)" % (num, 10 ** -exp)


def ql(l):
    return "[" + "; ".join(q(x) for x in l) + "]"


def dbc14():
    d = json.load(open(os.path.join(SRC, "derras_bard_cotton_2014.json")), parse_float=Decimal, parse_int=Decimal)
    mm = d["min_max"]
    with open(os.path.join(OUT, "Data_dbc14.v"), "w") as fp:
        fp.write("(** Generated by tools/gen_json.py - do not edit.\n"
                 "    data/derras_bard_cotton_2014.json, loaded at derras_bard_cotton_2014.py:28-34. *)\n"
                 "From Coq Require Import QArith List.\nImport ListNotations.\nOpen Scope Q_scope.\n\n")
        fp.write("(** One output: period, the limits of log10_resp, b_2, the row of w_2, log10_std between/within/total. *)\n")
        fp.write("Record dbc14_row := Mk_dbc14_row { dbc14_period : Q; dbc14_min : Q; dbc14_max : Q; dbc14_b2 : Q;\n"
                 "  dbc14_w2 : list Q; dbc14_sd_between : Q; dbc14_sd_within : Q; dbc14_sd_total : Q }.\n")
        fp.write("(** min_max of log10_dist_jb, mag, log10_v_s30, depth_hyp, mechanism. *)\n")
        fp.write("Definition dbc14_limits : list (Q * Q) := [%s].\n" % "; ".join(
            "(%s, %s)" % (q(mm[k][0]), q(mm[k][1])) for k in ["log10_dist_jb", "mag", "log10_v_s30", "depth_hyp", "mechanism"]))
        fp.write("(** b_1 and the rows of w_1. *)\n")
        fp.write("Definition dbc14_hidden : list (Q * list Q) := [\n%s].\n" % ";\n".join(
            "  (%s, %s)" % (q(b), ql(w)) for b, w in zip(d["b_1"], d["w_1"])))
        fp.write("Definition dbc14_coeff : list dbc14_row := [\n%s].\n" % ";\n".join(
            "  Mk_dbc14_row %s %s %s %s %s %s %s %s" % (
                q(d["period"][i]), q(mm["log10_resp"][i][0]), q(mm["log10_resp"][i][1]), q(d["b_2"][i]), ql(d["w_2"][i]),
                q(d["log10_std"]["between"][i]), q(d["log10_std"]["within"][i]), q(d["log10_std"]["total"][i]))
            for i in range(len(d["period"]))))


dbc14()
