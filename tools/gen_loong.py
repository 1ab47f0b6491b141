#!/usr/bin/env python3
"""Transcribe the round lines of the LoongArch64 assembly back ends."""
import re
def lines(path, kinds):
    out = []
    for n, l in enumerate(open(path), 1):
        m = re.match(r'\s*(\w+)!\((.*)\),\s*$', l)
        if m and m.group(1) in kinds:
            args = [a.strip().strip('"') for a in m.group(2).split(',')]
            out.append((n, m.group(1), [a.replace('$', '') for a in args]))
    return out
def emit(name, path, rel, kinds, ren):
    ls = lines(path, kinds)
    s = f"(** {rel} {ls[0][0]}-{ls[-1][0]} *)\nDefinition {name} : list (list instr) :=\n  ["
    s += ";\n   ".join(" ".join([ren[k]] + a) for _, k, a in ls) + "].\n"
    return s
R = "/repo/"
print("(** The round lines of the LoongArch64 back ends (generated by tools/gen_loong.py")
print("    from the source text), in the order in which they are assembled. *)")
print("From Verif Require Import Base.Words Model.Loong.\n")
print("Section Sha256.\nLocal Notation rounda := (rounda sha256_asm).\nLocal Notation roundb := (roundb sha256_asm).")
print(emit("lines256", R+"sha2/src/sha256/loongarch64_asm.rs", "sha2/src/sha256/loongarch64_asm.rs", ("rounda","roundb"), {"rounda":"rounda","roundb":"roundb"}))
print("End Sha256.\n\nSection Sha512.\nLocal Notation rounda := (rounda sha512_asm).\nLocal Notation roundb := (roundb sha512_asm).")
print(emit("lines512", R+"sha2/src/sha512/loongarch64_asm.rs", "sha2/src/sha512/loongarch64_asm.rs", ("rounda","roundb"), {"rounda":"rounda","roundb":"roundb"}))
print("End Sha512.\n")
print(emit("lines1", R+"sha1/src/compress/loongarch64_asm.rs", "sha1/src/compress/loongarch64_asm.rs", ("round0a","round0b","round1","round2","round3"), {k:k for k in ("round0a","round0b","round1","round2","round3")}))
def emit5():
    path = R + "md5/src/compress/loongarch64_asm.rs"
    ls = lines(path, ("round0", "round1", "round2", "round3"))
    s = f"(** md5/src/compress/loongarch64_asm.rs {ls[0][0]}-{ls[-1][0]} *)\nDefinition lines5 : list (list instr) :=\n  ["
    return s + ";\n   ".join(f"md5_{k} " + " ".join(a) for _, k, a in ls) + "].\n"
print(emit5())
