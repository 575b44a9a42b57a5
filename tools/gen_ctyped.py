"""Writes Gen_CTyped.v: the bit-condition program of /repo/cgo/ubc_check.c with C's integer types
(literals are int, W, mask and the DV_..._bit objects are uint32_t) and the initialisers of these objects."""
import re
import ubcparse

OUT = "/verif/rocq/theories/Gen_CTyped.v"
OPS = {"&": "EAnd", "|": "EOr", "^": "EXor", "-": "ESub", "<<": "EShl", ">>": "EShr", "!=": "ENe", "||": "ELor"}


def expr(e):
    o = e[0]
    if o == "W":
        return f"(EV {e[1]})"
    if o == "Const":
        return f"(EL {e[1]})"
    if o == "DV":
        return f"(EO {e[1]})"
    if o == "Mask":
        return "(EV 80)"
    if o in ("Not", "LNot"):
        return f"(E{o} {expr(e[1])})"
    return f"({OPS[o]} {expr(e[1])} {expr(e[2])})"


def prog(stmts, ind):
    out, close = [], 0
    for s in stmts:
        if s[0] == "AndAssign":
            out.append(f"{ind}(* {s[2]} *) (TAnd {expr(s[1])}")
        else:
            out.append(f"{ind}(* {s[3]} *) (TIf {expr(s[1])}")
            out.append(prog(s[2], ind + "  "))
        close += 1
    return "\n".join(out) + f"\n{ind}TEnd" + ")" * close


p, a, b = ubcparse.parse("c")
src = open("/repo/cgo/ubc_check.c").read()
bits = re.findall(r"static const uint32_t (DV_\w+_bit) = \(uint32_t\)\(1\) << (\d+);", src)
assert len(bits) == 32
first = src[:src.index("static const uint32_t DV_")].count("\n") + 1
with open(OUT, "w") as o:
    o.write(f"""(** GENERATED by tools/gen_ctyped.py from /repo/cgo/ubc_check.c lines {a}-{b}; do not edit.
    See Model_CTypes.v for the meaning.  The numbers in the comments are lines. *)
From Coq Require Import NArith List.
From Verif Require Import Model_CTypes Gen_UbcC.
Import ListNotations.
Local Open Scope N_scope.

(** /repo/cgo/ubc_check.c lines {first}-{first + 31}: the objects and their initialisers. *)
Definition bit_inits : list (N * cexp) := [
""")
    o.write(";\n".join(f"  ({n}, EShl (ECast (EL 1)) (EL {k}))" for n, k in bits) + "].\n")
    o.write(f"\n(** /repo/cgo/ubc_check.c lines {a}-{b} *)\nDefinition ubc_typed : cprog :=\n{prog(p, '  ')}.\n")
