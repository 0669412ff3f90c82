#!/usr/bin/env python3
"""Transcribes the straight-line SIMD code of /repo/c64 into Gallina (theories/Simd64Gen.v).

Every statement of the vector round becomes one instruction, every statement of the
row-oriented compression becomes one let.  Nothing is reordered or simplified."""
import re, sys
R = "/repo/c64/"

def lines(f, a, b):
    return open(R + f).read().split("\n")[a - 1:b]

def instrs(f, a, b):
    out = []
    for st in " ".join(l.split("//")[0].strip() for l in lines(f, a, b)).split(";"):
        st = re.sub(r"_(128|256|512)\b", "", st.strip())
        if not st:
            continue
        m = re.fullmatch(r"v\[(\d+)\] = addv?\(v\[(\d+)\], m\[\(size_t\)MSG_SCHEDULE\[r\]\[(\d+)\]\]\)", st)
        if m:
            assert m[1] == m[2]
            out.append(f"MAdd {m[1]} {m[3]}")
            continue
        m = re.fullmatch(r"v\[(\d+)\] = (add|xor)v?\(v\[(\d+)\], v\[(\d+)\]\)", st)
        if m:
            assert m[1] == m[3]
            out.append(f"V{m[2].capitalize()} {m[1]} {m[4]}")
            continue
        m = re.fullmatch(r"v\[(\d+)\] = rot(\d+)\(v\[(\d+)\]\)", st)
        if m:
            assert m[1] == m[3]
            out.append(f"VRot{m[2]} {m[1]}")
            continue
        raise SystemExit("cannot parse " + st)
    assert len(out) == 112, (f, len(out))
    return out

def emit(name, cite, ins):
    rows = [ins[i:i + 4] for i in range(0, len(ins), 4)]
    return (f"(* {cite} *)\nDefinition {name} : list instr64 :=\n  ["
            + ";\n   ".join("; ".join(r) for r in rows) + "]%nat.\n")

ARG = r"(\w+)"
def stmt(st):
    m = re.fullmatch(rf"{ARG} = _mm256_(unpacklo_epi64|unpackhi_epi64)\({ARG}, {ARG}\)", st)
    if m:
        return f"let {m[1]} := {m[2]} {m[3]} {m[4]} in"
    m = re.fullmatch(rf"{ARG} = _mm256_(alignr_epi8|blend_epi32)\({ARG}, {ARG}, {ARG}\)", st)
    if m:
        return f"let {m[1]} := {m[2]} {m[3]} {m[4]} {m[5]} in"
    m = re.fullmatch(rf"{ARG} = _mm256_shuffle_epi32\({ARG}, _MM_SHUFFLE\((\d), (\d), (\d), (\d)\)\)", st)
    if m:
        return f"let {m[1]} := shuffle_epi32 {m[2]} (MM_SHUFFLE {m[3]} {m[4]} {m[5]} {m[6]}) in"
    m = re.fullmatch(r"(g1|g2)\(&a, &b, &c, &d, &b0\)", st)
    if m:
        return f"let '(a, b, c, d) := row_{m[1]} a b c d b0 in"
    m = re.fullmatch(r"(diagonalize|undiagonalize)\(&a, &b, &c, &d\)", st)
    if m:
        return f"let '(a, c, d) := {m[1]}64 a c d in"
    raise SystemExit("cannot parse " + st)

def rounds(f, a, b):
    parts = re.split(r" *// round (\d+)\n", "\n".join(lines(f, a, b)))
    res = []
    for i in range(1, len(parts), 2):
        body = [" ".join(s.split()) for s in parts[i + 1].split(";")]
        res.append((int(parts[i]), [stmt(s) for s in body if s]))
    assert [k for k, _ in res] == list(range(1, 9)), [k for k, _ in res]
    return res

o = '''(* Transcription of the straight-line 64-bit SIMD code, produced by tools/gen_simd64.py
   from the source text.  Definitions only. *)
From Coq Require Import NArith List.
From Verif Require Import Base Simd64.
Import ListNotations.
Open Scope N_scope.

(* One statement of the vectorised round function:
   MAdd d k :  v[d] = add(v[d], m[MSG_SCHEDULE[r][k]])
   VAdd d s :  v[d] = add(v[d], v[s])
   VXor d s :  v[d] = xor(v[d], v[s])
   VRotN d  :  v[d] = rotN(v[d]) *)
Inductive instr64 : Type :=
| MAdd (d k : nat)
| VAdd (d s : nat)
| VXor (d s : nat)
| VRot32 (d : nat)
| VRot24 (d : nat)
| VRot16 (d : nat)
| VRot63 (d : nat).

'''
for n, f, a, b in [("sse41_code64", "baokeshed64_sse41.c", 46, 158),
                   ("avx2_code64", "baokeshed64_avx2.c", 279, 391),
                   ("avx512_code64_2", "baokeshed64_avx512.c", 319, 431),
                   ("avx512_code64_4", "baokeshed64_avx512.c", 539, 651),
                   ("avx512_code64_8", "baokeshed64_avx512.c", 758, 870),
                   ("neon_code64", "baokeshed64_neon.c", 60, 172)]:
    L = lines(f, a - 1, b + 1)
    assert "round_fn" in L[0], L[0]
    if L[-1] == "}":
        b -= 0
        ins = instrs(f, a, b)
    else:
        while lines(f, b, b)[0] == "}":
            b -= 1
        ins = instrs(f, a, b)
    o += emit(n, f"c64/{f}:{a-1}-{b+1}", ins) + "\n"
o += '''(* ---- row-oriented compression ------------------------------------------- *)
(* The functions below are parameterised by the lane operations, which differ between
   baokeshed64_avx2.c and baokeshed64_avx512.c. *)
Section Rows.
Variable O : ops64 vec.

(* c64/baokeshed64_avx2.c:48-56, c64/baokeshed64_avx512.c:82-90 *)
Definition row_g1 (a b c d m : vec) : vec * vec * vec * vec :=
  let a := o_add O a m in
  let a := o_add O a b in
  let d := o_xor O d a in
  let d := o_rot32 O d in
  let c := o_add O c d in
  let b := o_xor O b c in
  let b := o_rot24 O b in
  (a, b, c, d).

(* c64/baokeshed64_avx2.c:58-66, c64/baokeshed64_avx512.c:92-100 *)
Definition row_g2 (a b c d m : vec) : vec * vec * vec * vec :=
  let a := o_add O a m in
  let a := o_add O a b in
  let d := o_xor O d a in
  let d := o_rot16 O d in
  let c := o_add O c d in
  let b := o_xor O b c in
  let b := o_rot63 O b in
  (a, b, c, d).

(* c64/baokeshed64_avx2.c:71-76, c64/baokeshed64_avx512.c:105-110 *)
Definition diagonalize64 (a c d : vec) : vec * vec * vec :=
  let a := permute4x64_epi64 a (MM_SHUFFLE 2 1 0 3) in
  let d := permute4x64_epi64 d (MM_SHUFFLE 1 0 3 2) in
  let c := permute4x64_epi64 c (MM_SHUFFLE 0 3 2 1) in
  (a, c, d).

(* c64/baokeshed64_avx2.c:78-83, c64/baokeshed64_avx512.c:112-117 *)
Definition undiagonalize64 (a c d : vec) : vec * vec * vec :=
  let a := permute4x64_epi64 a (MM_SHUFFLE 0 3 2 1) in
  let d := permute4x64_epi64 d (MM_SHUFFLE 1 0 3 2) in
  let c := permute4x64_epi64 c (MM_SHUFFLE 2 1 0 3) in
  (a, c, d).

'''
for pre, f, a, b in [("avx2", "baokeshed64_avx2.c", 115, 273), ("avx512", "baokeshed64_avx512.c", 149, 307)]:
    ls = lines(f, 1, 400)
    for k, body in rounds(f, a, b):
        ln = next(i + 1 for i, l in enumerate(ls) if l.strip() == f"// round {k}")
        o += f"(* c64/{f}: the statements under \"// round {k}\", from line {ln} *)\n"
        o += (f"Definition {pre}_row64_{k} (m0 m1 m2 m3 m4 m5 m6 m7 a b c d : vec)\n"
              "  : vec * vec * vec * vec :=\n  ")
        o += "\n  ".join(body) + "\n  (a, b, c, d).\n\n"
o += "End Rows.\n"
open(sys.argv[1], "w").write(o)
