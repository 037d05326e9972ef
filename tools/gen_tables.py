#!/usr/bin/env python3
"""Extracts the tables of /repo/src/tables into Coq lists (rocq/theories/Tables*.v).
A float literal becomes (m, e), standing for m * 10^e exactly as written."""
import re, sys
from decimal import Decimal
from fractions import Fraction
R = "/repo/src/tables/"
OUT = "/verif/rocq/theories/"

def strip(src):
    src = re.sub(r"//[^\n]*", "", src)
    return re.sub(r"/\*.*?\*/", "", src, flags=re.S)

def const(file, name):
    raw = open(R + file).read()
    line = 1 + raw[: re.search(r"const %s:" % name, raw).start()].count("\n")
    src = strip(raw)
    m = re.search(r"const %s:[^=]*=\s*(\[.*?\]);" % name, src, flags=re.S)
    return line, eval(m.group(1).replace("_", ""))

def coq(v):
    if isinstance(v, list):
        return "[" + "; ".join(coq(x) for x in v) + "]"
    return str(v)

def emit(out, file, names, extra=""):
    with open(OUT + out, "w") as f:
        f.write("(* Generated by tools/gen_tables.py from /repo/src/tables/%s. Do not edit. *)\n" % file)
        f.write("From Coq Require Import ZArith List.\nImport ListNotations.\nLocal Open Scope Z_scope.\n\n")
        for n in names:
            line, v = const(file, n)
            f.write("(* /repo/src/tables/%s:%d *)\n" % (file, line))
            if isinstance(v[0], list):
                f.write("Definition %s : list (list Z) := [\n  %s].\n\n" % (n, ";\n  ".join(coq(r) for r in v)))
            else:
                rows = [coq(v[i:i+32])[1:-1] for i in range(0, len(v), 32)]
                f.write("Definition %s : list Z := [\n  %s].\n\n" % (n, ";\n  ".join(rows)))

emit("TablesSpec.v", "spectral_data_tables.rs", ["AC_SPEC_LOOKUP", "AC_SPEC_CUMFREQ", "AC_SPEC_FREQ", "AC_SPEC_BITS"])
emit("TablesTns.v", "temporal_noise_shaping_tables.rs",
     ["AC_TNS_ORDER_BITS", "AC_TNS_ORDER_FREQ", "AC_TNS_ORDER_CUMFREQ", "AC_TNS_COEF_BITS", "AC_TNS_COEF_FREQ", "AC_TNS_COEF_CUMFREQ"])
emit("TablesSns.v", "spec_noise_shape_quant_tables.rs", ["SNS_GAIN_MSB_BITS", "SNS_GAIN_LSB_BITS", "MPVQ_OFFSETS"])
emit("TablesBand.v", "band_index_tables.rs",
     ["I_8000_10MS", "I_16000_10MS", "I_24000_10MS", "I_32000_10MS", "I_48000_10MS",
      "I_8000_7P5MS", "I_16000_7P5MS", "I_24000_7P5MS", "I_32000_7P5MS", "I_48000_7P5MS"])

def lit(t):
    """a float literal or a quotient of two literals with a finite decimal expansion"""
    if "/" in t:
        a, b = t.split("/")
        q = Fraction(Decimal(a.strip())) / Fraction(Decimal(b.strip()))
        e = 0
        while q.denominator != 1:
            q, e = q * 10, e - 1
            assert e > -40
        return q.numerator, e
    sign, digits, e = Decimal(t.strip()).as_tuple()
    m = int("".join(map(str, digits)))
    return (-m if sign else m), e

def fconst(file, name):
    raw = open(R + file).read()
    line = 1 + raw[: re.search(r"const %s:" % name, raw).start()].count("\n")
    src = strip(raw)
    body = re.search(r"const %s:[^=]*=\s*(\[.*?\]);" % name, src, flags=re.S).group(1)
    body = re.sub(r"[^\[\],]+", lambda m: '"%s"' % m.group(0).strip() if m.group(0).strip() else "", body)
    return line, eval(body)

def flist(v):
    return "[" + "; ".join("(%d, %d)" % lit(x) for x in v) + "]"

def femit(out, file, names):
    with open(OUT + out, "w") as f:
        f.write("(* Generated by tools/gen_tables.py from /repo/src/tables/%s. Do not edit. (m, e) stands for m * 10^e. *)\n" % file)
        f.write("From Coq Require Import ZArith List.\nImport ListNotations.\nLocal Open Scope Z_scope.\n\n")
        for n in names:
            line, v = fconst(file, n)
            f.write("(* /repo/src/tables/%s:%d *)\n" % (file, line))
            if isinstance(v[0], list):
                f.write("Definition %s : list (list (Z * Z)) := [\n  %s].\n\n" % (n, ";\n  ".join(flist(r) for r in v)))
            else:
                rows = [flist(v[i:i+8])[1:-1] for i in range(0, len(v), 8)]
                f.write("Definition %s : list (Z * Z) := [\n  %s].\n\n" % (n, ";\n  ".join(rows)))

femit("TablesWindow.v", "mdct_windows.rs",
      ["W_N80_10MS", "W_N160_10MS", "W_N240_10MS", "W_N320_10MS", "W_N480_10MS",
       "W_N60_7P5MS", "W_N120_7P5MS", "W_N180_7P5MS", "W_N240_7P5MS", "W_N360_7P5MS"])
femit("TablesLtpf.v", "long_term_post_filter_coef.rs",
      ["TAB_RESAMP_FILTER", "TAB_LTPF_INTERP_R", "TAB_LTPF_INTERP_X12K8"]
      + ["TAB_LTPF_%s_%d" % (k, r) for k in ("NUM", "DEN") for r in (8000, 16000, 24000, 32000, 48000)])
femit("TablesSnsF.v", "spec_noise_shape_quant_tables.rs",
      ["LFCB", "HFCB", "SNS_VQ_REG_ADJ_GAINS", "SNS_VQ_REG_LF_ADJ_GAINS", "SNS_VQ_NEAR_ADJ_GAINS", "SNS_VQ_FAR_ADJ_GAINS", "D"])
