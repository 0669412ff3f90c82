#!/usr/bin/env python3
"""Transcribes the row-oriented compression of /repo/src/sse41.rs and of the C files once more,
this time with every intrinsic noted (theories/VSimdGen.v).  Uses the parser of gen_simd.py:
every statement becomes one line, nested calls are taken apart from the inside out."""
import os,re,sys
sys.argv=[sys.argv[0],os.devnull]+sys.argv[1:]
exec(open(os.path.join(os.path.dirname(os.path.abspath(__file__)),"gen_simd.py")).read())
OUT=sys.argv[2]
OPS={"mm_shuffle_epi32":(1,"ShuffleEpi32"),"mm_slli_si128":(1,"SlliSi128"),"mm_srli_si128":(1,"SrliSi128"),
"mm_shuffle_ps":(2,"ShufflePs"),"mm_blend_epi16":(2,"BlendEpi16"),"mm_alignr_epi8":(2,"AlignrEpi8"),
"mm_unpacklo_epi32":(2,"UnpackLo32"),"mm_unpackhi_epi32":(2,"UnpackHi32"),
"mm_unpacklo_epi64":(2,"UnpackLo64"),"mm_unpackhi_epi64":(2,"UnpackHi64")}
def parse_s(t):
    toks=re.findall(r"[()]|[^()\s]+",t); pos=0
    def go():
        nonlocal pos
        if toks[pos]=="(":
            pos+=1; l=[]
            while toks[pos]!=")": l.append(go())
            pos+=1; return l
        pos+=1; return toks[pos-1]
    return go()
def anf(e,name,out):
    n=0
    def flat(e,target):
        nonlocal n
        arity,op=OPS[e[0]]
        args=[]
        for a in e[1:1+arity]:
            if isinstance(a,list):
                n+=1; v=f"x{n}"; flat(a,v); args.append(v)
            else: args.append(a)
        imm=e[1+arity:]
        if imm:
            i=imm[0]; i="("+" ".join(i)+")" if isinstance(i,list) else i
            op=f"({op} {i})"
        out.append(f"let? {target} := op{arity} {op} {' '.join(args)} in")
    flat(parse_s(e),name)
o='''(* Transcription of the row-oriented compression with every intrinsic noted, produced by
   tools/gen_vsteps.py from the source text.  Definitions only. *)
From Coq Require Import NArith List.
From Verif Require Import Base Simd VOps.
Import ListNotations.
Open Scope N_scope.

Section Rows.
Variable O : svops.

(* src/sse41.rs:69-83, c/baokeshed_sse41.c:44-52, c/baokeshed_avx512.c:77-85 *)
Definition v_g1 (row1 row2 row3 row4 m : vec) : vs (vec * vec * vec * vec) :=
  let? t := sv_add O row1 m in
  let? row1 := sv_add O t row2 in
  let? row4 := sv_xor O row4 row1 in
  let? row4 := sv_rot16 O row4 in
  let? row3 := sv_add O row3 row4 in
  let? row2 := sv_xor O row2 row3 in
  let? row2 := sv_rot12 O row2 in
  vlift (Ok (row1, row2, row3, row4)).

(* src/sse41.rs:85-99, c/baokeshed_sse41.c:54-62, c/baokeshed_avx512.c:87-95 *)
Definition v_g2 (row1 row2 row3 row4 m : vec) : vs (vec * vec * vec * vec) :=
  let? t := sv_add O row1 m in
  let? row1 := sv_add O t row2 in
  let? row4 := sv_xor O row4 row1 in
  let? row4 := sv_rot8 O row4 in
  let? row3 := sv_add O row3 row4 in
  let? row2 := sv_xor O row2 row3 in
  let? row2 := sv_rot7 O row2 in
  vlift (Ok (row1, row2, row3, row4)).

(* src/sse41.rs:111-116, c/baokeshed_sse41.c:67-71, c/baokeshed_avx512.c:100-104 *)
Definition v_diagonalize (row1 row3 row4 : vec) : vs (vec * vec * vec) :=
  let? row1 := op1 (ShuffleEpi32 (MM_SHUFFLE 2 1 0 3)) row1 in
  let? row4 := op1 (ShuffleEpi32 (MM_SHUFFLE 1 0 3 2)) row4 in
  let? row3 := op1 (ShuffleEpi32 (MM_SHUFFLE 0 3 2 1)) row3 in
  vlift (Ok (row1, row3, row4)).

(* src/sse41.rs:118-123, c/baokeshed_sse41.c:73-77, c/baokeshed_avx512.c:106-110 *)
Definition v_undiagonalize (row1 row3 row4 : vec) : vs (vec * vec * vec) :=
  let? row1 := op1 (ShuffleEpi32 (MM_SHUFFLE 0 3 2 1)) row1 in
  let? row4 := op1 (ShuffleEpi32 (MM_SHUFFLE 1 0 3 2)) row4 in
  let? row3 := op1 (ShuffleEpi32 (MM_SHUFFLE 2 1 0 3)) row3 in
  vlift (Ok (row1, row3, row4)).

'''
for pre,f,a,b in [("sse41","src/sse41.rs",147,304),("c_sse41","c/baokeshed_sse41.c",94,245),("c_avx512","c/baokeshed_avx512.c",127,278)]:
    for k,body in rounds(f,a,b):
        ln=find(f,rf"// round {k}\b")
        o+=f"(* {f}: the statements under \"// round {k}\", from line {ln} *)\n"
        o+=f"Definition v_{pre}_row_round{k} (m0 m1 m2 m3 row1 row2 row3 row4 : vec)\n  : vs (vec * vec * vec * vec) :=\n  "
        out=[]
        for st in body:
            m=re.fullmatch(r"let (\w+) := (.*) in",st)
            if m: anf(m[2],m[1],out); continue
            m=re.fullmatch(r"let '(\(.*\)) := (g1|g2|diagonalize|undiagonalize) (.*) in",st)
            out.append(f"let? {m[1]} := v_{m[2]} {m[3]} in")
        o+="\n  ".join(out)+"\n  vlift (Ok (row1, row2, row3, row4)).\n\n"
o+="End Rows.\n"
open(OUT,"w").write(o)
