#!/usr/bin/env python3
"""Transcribes the straight-line SIMD code of /repo into Gallina (theories/SimdGen.v).

Every statement of the vector round becomes one instruction, every statement of the
row-oriented compression becomes one let.  Nothing is reordered or simplified."""
import re,sys
R="/repo/"
def lines(f,a,b): return open(R+f).read().split("\n")[a-1:b]
def instrs(f,a,b):
    out=[]
    text=" ".join(l.split("//")[0].strip() for l in lines(f,a,b))
    for st in text.split(";"):
        st=st.strip()
        st=re.sub(r"_(128|256|512)\b","",st)
        if not st or st=="}": continue
        m=re.fullmatch(r"(?:.*\{ *)?v\[(\d+)\] = (?:addv?|ADDV?)\(v\[(\d+)\], m\[(?:\(size_t\))?MSG_SCHEDULE\[r\]\[(\d+)\](?: as usize)?\]\)",st)
        if m:
            assert m[1]==m[2]; out.append(f"AddM {m[1]} {m[3]}"); continue
        m=re.fullmatch(r"v\[(\d+)\] = addv?\(v\[(\d+)\], v\[(\d+)\]\)",st)
        if m: assert m[1]==m[2]; out.append(f"AddV {m[1]} {m[3]}"); continue
        m=re.fullmatch(r"v\[(\d+)\] = xorv?\(v\[(\d+)\], v\[(\d+)\]\)",st)
        if m: assert m[1]==m[2]; out.append(f"XorV {m[1]} {m[3]}"); continue
        m=re.fullmatch(r"v\[(\d+)\] = rot(\d+)\(v\[(\d+)\]\)",st)
        if m: assert m[1]==m[3]; out.append(f"Rot{m[2]} {m[1]}"); continue
        raise SystemExit("cannot parse "+st)
    assert len(out)==112,(f,len(out))
    return out
def emit(name,cite,ins):
    s=f"(* {cite} *)\nDefinition {name} : list instr :=\n  ["
    rows=[ins[i:i+4] for i in range(0,len(ins),4)]
    s+=";\n   ".join("; ".join(r) for r in rows)+"]%nat.\n"
    return s
def conv_expr(e):
    e=e.replace("_mm_castps_si128(","(").replace("_mm_castsi128_ps(","(")
    e=re.sub(r"_MM_SHUFFLE!?\(",r"MM_SHUFFLE(",e)
    e=re.sub(r"\b_mm_",r"mm_",e)
    # parse f(a,b,c)
    pos=0
    def ws():
        nonlocal pos
        while pos<len(e) and e[pos].isspace(): pos+=1
    def parse():
        nonlocal pos
        ws()
        if e[pos]=="(":
            pos+=1; x=parse(); ws(); assert e[pos]==")",e[pos:]; pos+=1; return x
        m=re.compile(r"[A-Za-z0-9_]+").match(e,pos); t=m[0]; pos=m.end(); ws()
        if pos<len(e) and e[pos]=="(":
            pos+=1; args=[]
            while True:
                args.append(parse()); ws()
                if e[pos]==",":
                    pos+=1; ws()
                    if e[pos]==")": pos+=1; break
                    continue
                assert e[pos]==")",e[pos:]; pos+=1; break
            return "("+" ".join([t]+args)+")"
        return t
    r=parse(); ws(); assert pos==len(e),e[pos:]
    return r
def rounds(f,a,b):
    text="\n".join(l for l in lines(f,a,b))
    parts=re.split(r"// round (\d+)\n",text)
    res=[]
    for i in range(1,len(parts),2):
        body=parts[i+1]
        out=[]
        for st in body.split(";"):
            st=" ".join(st.split())
            if not st or st=="}" : continue
            if st.startswith("[*row1") or st.startswith("storeu"): continue
            m=re.fullmatch(r"(?:let )?(\w+) = (.*)",st)
            if m: out.append(f"let {m[1]} := {conv_expr(m[2])} in"); continue
            m=re.fullmatch(r"(g[12])\(&?row1, &?row2, &?row3, &?row4, buf\)",st)
            if m: out.append(f"let '(row1, row2, row3, row4) := {m[1]} row1 row2 row3 row4 buf in"); continue
            m=re.fullmatch(r"(diagonalize|undiagonalize)\(&?row1, &?row3, &?row4\)",st)
            if m: out.append(f"let '(row1, row3, row4) := {m[1]} row1 row3 row4 in"); continue
            raise SystemExit("cannot parse stmt "+st)
        res.append((int(parts[i]),out))
    assert len(res)==7
    return res
def find(f,pat,start=0):
    L=open(R+f).read().split("\n")
    for i in range(start,len(L)):
        if re.search(pat,L[i]): return i+1
    raise SystemExit(pat)
o='''(* Transcription of the straight-line SIMD code, produced by tools/gen_simd.py from
   the source text.  Definitions only. *)
From Coq Require Import NArith List.
From Verif Require Import Base Simd.
Import ListNotations.
Open Scope N_scope.

(* One statement of the vectorised round function:
   AddM d k :  v[d] = add(v[d], m[MSG_SCHEDULE[r][k]])
   AddV d s :  v[d] = add(v[d], v[s])
   XorV d s :  v[d] = xor(v[d], v[s])
   RotN d   :  v[d] = rotN(v[d]) *)
Inductive instr : Type :=
| AddM (d k : nat)
| AddV (d s : nat)
| XorV (d s : nat)
| Rot16 (d : nat)
| Rot12 (d : nat)
| Rot8 (d : nat)
| Rot7 (d : nat).

'''
specs=[("sse41_round_code","src/sse41.rs",340,452),("avx2_round_code","src/avx2.rs",79,191),
("c_sse41_round_code","c/baokeshed_sse41.c",252,364),("c_avx2_round_code","c/baokeshed_avx2.c",49,161),
("c_avx512_round4_code","c/baokeshed_avx512.c",291,403),("c_avx512_round8_code","c/baokeshed_avx512.c",527,639),
("c_avx512_round16_code","c/baokeshed_avx512.c",771,883),("c_neon_round_code","c/baokeshed_neon.c",60,172)]
for n,f,a,b in specs:
    o+=emit(n,f"{f}:{a-1}-{b+1}",instrs(f,a,b))+"\n"
o+='''(* ---- row-oriented compression ------------------------------------------- *)
(* The functions below are parameterised by the lane operations (the C AVX-512 file
   has the same code with other rotations). *)
Section Rows.
Variable O : vops vec.

(* src/sse41.rs:69-83, c/baokeshed_sse41.c:44-52, c/baokeshed_avx512.c:77-85 *)
Definition g1 (row1 row2 row3 row4 m : vec) : vec * vec * vec * vec :=
  let row1 := v_add O (v_add O row1 m) row2 in
  let row4 := v_xor O row4 row1 in
  let row4 := v_rot16 O row4 in
  let row3 := v_add O row3 row4 in
  let row2 := v_xor O row2 row3 in
  let row2 := v_rot12 O row2 in
  (row1, row2, row3, row4).

(* src/sse41.rs:85-99, c/baokeshed_sse41.c:54-62, c/baokeshed_avx512.c:87-95 *)
Definition g2 (row1 row2 row3 row4 m : vec) : vec * vec * vec * vec :=
  let row1 := v_add O (v_add O row1 m) row2 in
  let row4 := v_xor O row4 row1 in
  let row4 := v_rot8 O row4 in
  let row3 := v_add O row3 row4 in
  let row2 := v_xor O row2 row3 in
  let row2 := v_rot7 O row2 in
  (row1, row2, row3, row4).

(* src/sse41.rs:111-116, c/baokeshed_sse41.c:67-71, c/baokeshed_avx512.c:100-104 *)
Definition diagonalize (row1 row3 row4 : vec) : vec * vec * vec :=
  let row1 := mm_shuffle_epi32 row1 (MM_SHUFFLE 2 1 0 3) in
  let row4 := mm_shuffle_epi32 row4 (MM_SHUFFLE 1 0 3 2) in
  let row3 := mm_shuffle_epi32 row3 (MM_SHUFFLE 0 3 2 1) in
  (row1, row3, row4).

(* src/sse41.rs:118-123, c/baokeshed_sse41.c:73-77, c/baokeshed_avx512.c:106-110 *)
Definition undiagonalize (row1 row3 row4 : vec) : vec * vec * vec :=
  let row1 := mm_shuffle_epi32 row1 (MM_SHUFFLE 0 3 2 1) in
  let row4 := mm_shuffle_epi32 row4 (MM_SHUFFLE 1 0 3 2) in
  let row3 := mm_shuffle_epi32 row3 (MM_SHUFFLE 2 1 0 3) in
  (row1, row3, row4).

'''
for pre,f,a,b in [("sse41","src/sse41.rs",147,304),("c_sse41","c/baokeshed_sse41.c",94,245),("c_avx512","c/baokeshed_avx512.c",127,278)]:
    for k,body in rounds(f,a,b):
        ln=find(f,rf"// round {k}\b")
        o+=f"(* {f}: the statements under \"// round {k}\", from line {ln} *)\n"
        o+=f"Definition {pre}_row_round{k} (m0 m1 m2 m3 row1 row2 row3 row4 : vec)\n  : vec * vec * vec * vec :=\n  "
        o+="\n  ".join(body)+"\n  (row1, row2, row3, row4).\n\n"
o+="End Rows.\n"
open(sys.argv[1],"w").write(o)
