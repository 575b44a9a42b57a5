"""Writes Gen_UbcGo.v, Gen_UbcC.v (syntax trees of the bit-condition code) and
Gen_DvsGo.v, Gen_DvsC.v (difference tables) from the text of /repo."""
import re
import ubcparse

OUT = "/verif/rocq/theories/"
OPS = {"&": "UAnd", "|": "UOr", "^": "UXor", "-": "USub", "<<": "UShl", ">>": "UShr",
       "!=": "UNe", "||": "ULor"}


def expr(e):
    o = e[0]
    if o == "W":
        return f"(UW {e[1]}%nat)"
    if o == "Const":
        return f"(UC {e[1]})"
    if o == "DV":
        return f"(UC {e[1]})"
    if o == "Mask":
        return "UMask"
    if o in ("Not", "LNot"):
        return f"(U{o} {expr(e[1])})"
    return f"({OPS[o]} {expr(e[1])} {expr(e[2])})"


def prog(stmts, ind, f):
    out, close = [], 0
    for s in stmts:
        if s[0] == "AndAssign":
            out.append(f"{ind}(* {f}:{s[2]} *) (PAnd {expr(s[1])}")
        else:
            out.append(f"{ind}(* {f}:{s[3]} *) (PIf {expr(s[1])}")
            out.append(prog(s[2], ind + "  ", f))
        close += 1
    return "\n".join(out) + f"\n{ind}PEnd" + ")" * close


def ubc(lang):
    p, a, b = ubcparse.parse(lang)
    if lang == "go":
        f, name, mod = "ubc.go", "ubc/ubc.go", "Go"
        bits = re.findall(r"(DV_\w+_bit)\s*=\s*\(uint32\)\(1 << (\d+)\)", open("/repo/ubc/const.go").read())
        where = "ubc/const.go, const block"
    else:
        f, name, mod = "ubc_check.c", "cgo/ubc_check.c", "C"
        bits = re.findall(r"(DV_\w+_bit) = \(uint32_t\)\(1\) << (\d+);", open("/repo/cgo/ubc_check.c").read())
        where = "cgo/ubc_check.c, static const declarations"
    assert len(bits) == 32
    with open(f"{OUT}Gen_Ubc{mod}.v", "w") as o:
        o.write(f"""(** GENERATED by tools/gen_ubc.py from /repo/{name} lines {a}-{b}; do not edit.
    Syntax tree of the bit-condition program; see Model_Ubc.v for its meaning.
    Each statement carries the source line it comes from. *)
From Coq Require Import NArith.
From Verif Require Import Model_Ubc.
Local Open Scope N_scope.

(** /repo/{where} *)
""")
        for n, s in bits:
            o.write(f"Definition {n} : N := {1 << int(s)}.\n")
        o.write(f"\n(** /repo/{name} lines {a}-{b} *)\nDefinition ubc_prog_{mod.lower()} : prog :=\n{prog(p, '  ', f)}.\n")


def dvs():
    src = open("/repo/ubc/const.go").read()
    off = src.index("var sha1_dvs")
    g = [(m, off) for m in re.finditer(
        r"DvType: (\d+), DvK: (\d+), DvB: (\d+), TestT: (\d+), MaskI: (\d+), MaskB: (\d+),\s*Dm: \[CheckSize\]uint32\{([^}]*)\}", src[off:])]
    csrc = open("/repo/cgo/ubc_check.c").read()
    coff = csrc.index("dv_info_t sha1_dvs[]")
    c = [(m, coff) for m in re.finditer(
        r"\{(\d+), (\d+), (\d+), (\d+), (\d+), (\d+), \{([^}]*)\}\}", csrc[coff:csrc.index("void ubc_check")])]
    for mod, text, ents, name in (("Go", src, g, "ubc/const.go"), ("C", csrc, c, "cgo/ubc_check.c")):
        assert len(ents) == 33
        with open(f"{OUT}Gen_Dvs{mod}.v", "w") as o:
            o.write(f"""(** GENERATED by tools/gen_ubc.py from /repo/{name} (table sha1_dvs); do not edit. *)
From Coq Require Import NArith List.
From Verif Require Import Model_Ubc.
Import ListNotations.
Local Open Scope N_scope.

(** /repo/{name} lines {text.count(chr(10), 0, ents[0][1]) + 1}-{text.count(chr(10), 0, ents[-1][1] + ents[-1][0].end()) + 1} *)
Definition dvs_{mod.lower()} : list dvinfo := [
""")
            rows = []
            for m, base in ents:
                ln = text.count("\n", 0, base + m.start()) + 1
                words = [int(x, 0) for x in re.findall(r"0x[0-9a-fA-F]+|\d+", m.group(7))]
                if len(words) < 80:      # initialisers missing in the source are zero in both languages
                    words += [0] * (80 - len(words))
                assert len(words) == 80
                ws = "; ".join("0x%08x" % w for w in words)
                rows.append(f"  (* {name.split('/')[1]}:{ln} *)\n  mkdv {' '.join(m.group(i) for i in range(1, 7))} [{ws}]")
            o.write(";\n".join(rows) + "].\n")


ubc("go")
ubc("c")
dvs()
