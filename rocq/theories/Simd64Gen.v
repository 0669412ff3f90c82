(* Transcription of the straight-line 64-bit SIMD code, produced by tools/gen_simd64.py
   from the source text.  Definitions only. *)
From Coq Require Import NArith List.
From Verif Require Import Base Simd64.
Import ListNotations.
Open Scope N_scope.

(* One statement of the vectorised round function:
   MAdd d k :  v[d] = add(v[d], m[MSG_SCHEDULE[r][k]])
   VAdd d s :  v[d] = add(v[d], v[s])
   VXor d s :  v[d] = xor(v[d], v[s])
   VRotN d  :  v[d] = rotN(v[d]) *)
Inductive instr64 : Type :=
| MAdd (d k : nat)
| VAdd (d s : nat)
| VXor (d s : nat)
| VRot32 (d : nat)
| VRot24 (d : nat)
| VRot16 (d : nat)
| VRot63 (d : nat).

(* c64/baokeshed64_sse41.c:45-159 *)
Definition sse41_code64 : list instr64 :=
  [MAdd 0 0; MAdd 1 2; MAdd 2 4; MAdd 3 6;
   VAdd 0 4; VAdd 1 5; VAdd 2 6; VAdd 3 7;
   VXor 12 0; VXor 13 1; VXor 14 2; VXor 15 3;
   VRot32 12; VRot32 13; VRot32 14; VRot32 15;
   VAdd 8 12; VAdd 9 13; VAdd 10 14; VAdd 11 15;
   VXor 4 8; VXor 5 9; VXor 6 10; VXor 7 11;
   VRot24 4; VRot24 5; VRot24 6; VRot24 7;
   MAdd 0 1; MAdd 1 3; MAdd 2 5; MAdd 3 7;
   VAdd 0 4; VAdd 1 5; VAdd 2 6; VAdd 3 7;
   VXor 12 0; VXor 13 1; VXor 14 2; VXor 15 3;
   VRot16 12; VRot16 13; VRot16 14; VRot16 15;
   VAdd 8 12; VAdd 9 13; VAdd 10 14; VAdd 11 15;
   VXor 4 8; VXor 5 9; VXor 6 10; VXor 7 11;
   VRot63 4; VRot63 5; VRot63 6; VRot63 7;
   MAdd 0 8; MAdd 1 10; MAdd 2 12; MAdd 3 14;
   VAdd 0 5; VAdd 1 6; VAdd 2 7; VAdd 3 4;
   VXor 15 0; VXor 12 1; VXor 13 2; VXor 14 3;
   VRot32 15; VRot32 12; VRot32 13; VRot32 14;
   VAdd 10 15; VAdd 11 12; VAdd 8 13; VAdd 9 14;
   VXor 5 10; VXor 6 11; VXor 7 8; VXor 4 9;
   VRot24 5; VRot24 6; VRot24 7; VRot24 4;
   MAdd 0 9; MAdd 1 11; MAdd 2 13; MAdd 3 15;
   VAdd 0 5; VAdd 1 6; VAdd 2 7; VAdd 3 4;
   VXor 15 0; VXor 12 1; VXor 13 2; VXor 14 3;
   VRot16 15; VRot16 12; VRot16 13; VRot16 14;
   VAdd 10 15; VAdd 11 12; VAdd 8 13; VAdd 9 14;
   VXor 5 10; VXor 6 11; VXor 7 8; VXor 4 9;
   VRot63 5; VRot63 6; VRot63 7; VRot63 4]%nat.

(* c64/baokeshed64_avx2.c:278-392 *)
Definition avx2_code64 : list instr64 :=
  [MAdd 0 0; MAdd 1 2; MAdd 2 4; MAdd 3 6;
   VAdd 0 4; VAdd 1 5; VAdd 2 6; VAdd 3 7;
   VXor 12 0; VXor 13 1; VXor 14 2; VXor 15 3;
   VRot32 12; VRot32 13; VRot32 14; VRot32 15;
   VAdd 8 12; VAdd 9 13; VAdd 10 14; VAdd 11 15;
   VXor 4 8; VXor 5 9; VXor 6 10; VXor 7 11;
   VRot24 4; VRot24 5; VRot24 6; VRot24 7;
   MAdd 0 1; MAdd 1 3; MAdd 2 5; MAdd 3 7;
   VAdd 0 4; VAdd 1 5; VAdd 2 6; VAdd 3 7;
   VXor 12 0; VXor 13 1; VXor 14 2; VXor 15 3;
   VRot16 12; VRot16 13; VRot16 14; VRot16 15;
   VAdd 8 12; VAdd 9 13; VAdd 10 14; VAdd 11 15;
   VXor 4 8; VXor 5 9; VXor 6 10; VXor 7 11;
   VRot63 4; VRot63 5; VRot63 6; VRot63 7;
   MAdd 0 8; MAdd 1 10; MAdd 2 12; MAdd 3 14;
   VAdd 0 5; VAdd 1 6; VAdd 2 7; VAdd 3 4;
   VXor 15 0; VXor 12 1; VXor 13 2; VXor 14 3;
   VRot32 15; VRot32 12; VRot32 13; VRot32 14;
   VAdd 10 15; VAdd 11 12; VAdd 8 13; VAdd 9 14;
   VXor 5 10; VXor 6 11; VXor 7 8; VXor 4 9;
   VRot24 5; VRot24 6; VRot24 7; VRot24 4;
   MAdd 0 9; MAdd 1 11; MAdd 2 13; MAdd 3 15;
   VAdd 0 5; VAdd 1 6; VAdd 2 7; VAdd 3 4;
   VXor 15 0; VXor 12 1; VXor 13 2; VXor 14 3;
   VRot16 15; VRot16 12; VRot16 13; VRot16 14;
   VAdd 10 15; VAdd 11 12; VAdd 8 13; VAdd 9 14;
   VXor 5 10; VXor 6 11; VXor 7 8; VXor 4 9;
   VRot63 5; VRot63 6; VRot63 7; VRot63 4]%nat.

(* c64/baokeshed64_avx512.c:318-432 *)
Definition avx512_code64_2 : list instr64 :=
  [MAdd 0 0; MAdd 1 2; MAdd 2 4; MAdd 3 6;
   VAdd 0 4; VAdd 1 5; VAdd 2 6; VAdd 3 7;
   VXor 12 0; VXor 13 1; VXor 14 2; VXor 15 3;
   VRot32 12; VRot32 13; VRot32 14; VRot32 15;
   VAdd 8 12; VAdd 9 13; VAdd 10 14; VAdd 11 15;
   VXor 4 8; VXor 5 9; VXor 6 10; VXor 7 11;
   VRot24 4; VRot24 5; VRot24 6; VRot24 7;
   MAdd 0 1; MAdd 1 3; MAdd 2 5; MAdd 3 7;
   VAdd 0 4; VAdd 1 5; VAdd 2 6; VAdd 3 7;
   VXor 12 0; VXor 13 1; VXor 14 2; VXor 15 3;
   VRot16 12; VRot16 13; VRot16 14; VRot16 15;
   VAdd 8 12; VAdd 9 13; VAdd 10 14; VAdd 11 15;
   VXor 4 8; VXor 5 9; VXor 6 10; VXor 7 11;
   VRot63 4; VRot63 5; VRot63 6; VRot63 7;
   MAdd 0 8; MAdd 1 10; MAdd 2 12; MAdd 3 14;
   VAdd 0 5; VAdd 1 6; VAdd 2 7; VAdd 3 4;
   VXor 15 0; VXor 12 1; VXor 13 2; VXor 14 3;
   VRot32 15; VRot32 12; VRot32 13; VRot32 14;
   VAdd 10 15; VAdd 11 12; VAdd 8 13; VAdd 9 14;
   VXor 5 10; VXor 6 11; VXor 7 8; VXor 4 9;
   VRot24 5; VRot24 6; VRot24 7; VRot24 4;
   MAdd 0 9; MAdd 1 11; MAdd 2 13; MAdd 3 15;
   VAdd 0 5; VAdd 1 6; VAdd 2 7; VAdd 3 4;
   VXor 15 0; VXor 12 1; VXor 13 2; VXor 14 3;
   VRot16 15; VRot16 12; VRot16 13; VRot16 14;
   VAdd 10 15; VAdd 11 12; VAdd 8 13; VAdd 9 14;
   VXor 5 10; VXor 6 11; VXor 7 8; VXor 4 9;
   VRot63 5; VRot63 6; VRot63 7; VRot63 4]%nat.

(* c64/baokeshed64_avx512.c:538-652 *)
Definition avx512_code64_4 : list instr64 :=
  [MAdd 0 0; MAdd 1 2; MAdd 2 4; MAdd 3 6;
   VAdd 0 4; VAdd 1 5; VAdd 2 6; VAdd 3 7;
   VXor 12 0; VXor 13 1; VXor 14 2; VXor 15 3;
   VRot32 12; VRot32 13; VRot32 14; VRot32 15;
   VAdd 8 12; VAdd 9 13; VAdd 10 14; VAdd 11 15;
   VXor 4 8; VXor 5 9; VXor 6 10; VXor 7 11;
   VRot24 4; VRot24 5; VRot24 6; VRot24 7;
   MAdd 0 1; MAdd 1 3; MAdd 2 5; MAdd 3 7;
   VAdd 0 4; VAdd 1 5; VAdd 2 6; VAdd 3 7;
   VXor 12 0; VXor 13 1; VXor 14 2; VXor 15 3;
   VRot16 12; VRot16 13; VRot16 14; VRot16 15;
   VAdd 8 12; VAdd 9 13; VAdd 10 14; VAdd 11 15;
   VXor 4 8; VXor 5 9; VXor 6 10; VXor 7 11;
   VRot63 4; VRot63 5; VRot63 6; VRot63 7;
   MAdd 0 8; MAdd 1 10; MAdd 2 12; MAdd 3 14;
   VAdd 0 5; VAdd 1 6; VAdd 2 7; VAdd 3 4;
   VXor 15 0; VXor 12 1; VXor 13 2; VXor 14 3;
   VRot32 15; VRot32 12; VRot32 13; VRot32 14;
   VAdd 10 15; VAdd 11 12; VAdd 8 13; VAdd 9 14;
   VXor 5 10; VXor 6 11; VXor 7 8; VXor 4 9;
   VRot24 5; VRot24 6; VRot24 7; VRot24 4;
   MAdd 0 9; MAdd 1 11; MAdd 2 13; MAdd 3 15;
   VAdd 0 5; VAdd 1 6; VAdd 2 7; VAdd 3 4;
   VXor 15 0; VXor 12 1; VXor 13 2; VXor 14 3;
   VRot16 15; VRot16 12; VRot16 13; VRot16 14;
   VAdd 10 15; VAdd 11 12; VAdd 8 13; VAdd 9 14;
   VXor 5 10; VXor 6 11; VXor 7 8; VXor 4 9;
   VRot63 5; VRot63 6; VRot63 7; VRot63 4]%nat.

(* c64/baokeshed64_avx512.c:757-871 *)
Definition avx512_code64_8 : list instr64 :=
  [MAdd 0 0; MAdd 1 2; MAdd 2 4; MAdd 3 6;
   VAdd 0 4; VAdd 1 5; VAdd 2 6; VAdd 3 7;
   VXor 12 0; VXor 13 1; VXor 14 2; VXor 15 3;
   VRot32 12; VRot32 13; VRot32 14; VRot32 15;
   VAdd 8 12; VAdd 9 13; VAdd 10 14; VAdd 11 15;
   VXor 4 8; VXor 5 9; VXor 6 10; VXor 7 11;
   VRot24 4; VRot24 5; VRot24 6; VRot24 7;
   MAdd 0 1; MAdd 1 3; MAdd 2 5; MAdd 3 7;
   VAdd 0 4; VAdd 1 5; VAdd 2 6; VAdd 3 7;
   VXor 12 0; VXor 13 1; VXor 14 2; VXor 15 3;
   VRot16 12; VRot16 13; VRot16 14; VRot16 15;
   VAdd 8 12; VAdd 9 13; VAdd 10 14; VAdd 11 15;
   VXor 4 8; VXor 5 9; VXor 6 10; VXor 7 11;
   VRot63 4; VRot63 5; VRot63 6; VRot63 7;
   MAdd 0 8; MAdd 1 10; MAdd 2 12; MAdd 3 14;
   VAdd 0 5; VAdd 1 6; VAdd 2 7; VAdd 3 4;
   VXor 15 0; VXor 12 1; VXor 13 2; VXor 14 3;
   VRot32 15; VRot32 12; VRot32 13; VRot32 14;
   VAdd 10 15; VAdd 11 12; VAdd 8 13; VAdd 9 14;
   VXor 5 10; VXor 6 11; VXor 7 8; VXor 4 9;
   VRot24 5; VRot24 6; VRot24 7; VRot24 4;
   MAdd 0 9; MAdd 1 11; MAdd 2 13; MAdd 3 15;
   VAdd 0 5; VAdd 1 6; VAdd 2 7; VAdd 3 4;
   VXor 15 0; VXor 12 1; VXor 13 2; VXor 14 3;
   VRot16 15; VRot16 12; VRot16 13; VRot16 14;
   VAdd 10 15; VAdd 11 12; VAdd 8 13; VAdd 9 14;
   VXor 5 10; VXor 6 11; VXor 7 8; VXor 4 9;
   VRot63 5; VRot63 6; VRot63 7; VRot63 4]%nat.

(* c64/baokeshed64_neon.c:59-173 *)
Definition neon_code64 : list instr64 :=
  [MAdd 0 0; MAdd 1 2; MAdd 2 4; MAdd 3 6;
   VAdd 0 4; VAdd 1 5; VAdd 2 6; VAdd 3 7;
   VXor 12 0; VXor 13 1; VXor 14 2; VXor 15 3;
   VRot32 12; VRot32 13; VRot32 14; VRot32 15;
   VAdd 8 12; VAdd 9 13; VAdd 10 14; VAdd 11 15;
   VXor 4 8; VXor 5 9; VXor 6 10; VXor 7 11;
   VRot24 4; VRot24 5; VRot24 6; VRot24 7;
   MAdd 0 1; MAdd 1 3; MAdd 2 5; MAdd 3 7;
   VAdd 0 4; VAdd 1 5; VAdd 2 6; VAdd 3 7;
   VXor 12 0; VXor 13 1; VXor 14 2; VXor 15 3;
   VRot16 12; VRot16 13; VRot16 14; VRot16 15;
   VAdd 8 12; VAdd 9 13; VAdd 10 14; VAdd 11 15;
   VXor 4 8; VXor 5 9; VXor 6 10; VXor 7 11;
   VRot63 4; VRot63 5; VRot63 6; VRot63 7;
   MAdd 0 8; MAdd 1 10; MAdd 2 12; MAdd 3 14;
   VAdd 0 5; VAdd 1 6; VAdd 2 7; VAdd 3 4;
   VXor 15 0; VXor 12 1; VXor 13 2; VXor 14 3;
   VRot32 15; VRot32 12; VRot32 13; VRot32 14;
   VAdd 10 15; VAdd 11 12; VAdd 8 13; VAdd 9 14;
   VXor 5 10; VXor 6 11; VXor 7 8; VXor 4 9;
   VRot24 5; VRot24 6; VRot24 7; VRot24 4;
   MAdd 0 9; MAdd 1 11; MAdd 2 13; MAdd 3 15;
   VAdd 0 5; VAdd 1 6; VAdd 2 7; VAdd 3 4;
   VXor 15 0; VXor 12 1; VXor 13 2; VXor 14 3;
   VRot16 15; VRot16 12; VRot16 13; VRot16 14;
   VAdd 10 15; VAdd 11 12; VAdd 8 13; VAdd 9 14;
   VXor 5 10; VXor 6 11; VXor 7 8; VXor 4 9;
   VRot63 5; VRot63 6; VRot63 7; VRot63 4]%nat.

(* ---- row-oriented compression ------------------------------------------- *)
(* The functions below are parameterised by the lane operations, which differ between
   baokeshed64_avx2.c and baokeshed64_avx512.c. *)
Section Rows.
Variable O : ops64 vec.

(* c64/baokeshed64_avx2.c:48-56, c64/baokeshed64_avx512.c:82-90 *)
Definition row_g1 (a b c d m : vec) : vec * vec * vec * vec :=
  let a := o_add O a m in
  let a := o_add O a b in
  let d := o_xor O d a in
  let d := o_rot32 O d in
  let c := o_add O c d in
  let b := o_xor O b c in
  let b := o_rot24 O b in
  (a, b, c, d).

(* c64/baokeshed64_avx2.c:58-66, c64/baokeshed64_avx512.c:92-100 *)
Definition row_g2 (a b c d m : vec) : vec * vec * vec * vec :=
  let a := o_add O a m in
  let a := o_add O a b in
  let d := o_xor O d a in
  let d := o_rot16 O d in
  let c := o_add O c d in
  let b := o_xor O b c in
  let b := o_rot63 O b in
  (a, b, c, d).

(* c64/baokeshed64_avx2.c:71-76, c64/baokeshed64_avx512.c:105-110 *)
Definition diagonalize64 (a c d : vec) : vec * vec * vec :=
  let a := permute4x64_epi64 a (MM_SHUFFLE 2 1 0 3) in
  let d := permute4x64_epi64 d (MM_SHUFFLE 1 0 3 2) in
  let c := permute4x64_epi64 c (MM_SHUFFLE 0 3 2 1) in
  (a, c, d).

(* c64/baokeshed64_avx2.c:78-83, c64/baokeshed64_avx512.c:112-117 *)
Definition undiagonalize64 (a c d : vec) : vec * vec * vec :=
  let a := permute4x64_epi64 a (MM_SHUFFLE 0 3 2 1) in
  let d := permute4x64_epi64 d (MM_SHUFFLE 1 0 3 2) in
  let c := permute4x64_epi64 c (MM_SHUFFLE 2 1 0 3) in
  (a, c, d).

(* c64/baokeshed64_avx2.c: the statements under "// round 1", from line 115 *)
Definition avx2_row64_1 (m0 m1 m2 m3 m4 m5 m6 m7 a b c d : vec)
  : vec * vec * vec * vec :=
  let t0 := unpacklo_epi64 m0 m1 in
  let t1 := unpacklo_epi64 m2 m3 in
  let b0 := blend_epi32 t0 t1 0xF0 in
  let '(a, b, c, d) := row_g1 a b c d b0 in
  let t0 := unpackhi_epi64 m0 m1 in
  let t1 := unpackhi_epi64 m2 m3 in
  let b0 := blend_epi32 t0 t1 0xF0 in
  let '(a, b, c, d) := row_g2 a b c d b0 in
  let '(a, c, d) := diagonalize64 a c d in
  let t0 := unpacklo_epi64 m7 m4 in
  let t1 := unpacklo_epi64 m5 m6 in
  let b0 := blend_epi32 t0 t1 0xF0 in
  let '(a, b, c, d) := row_g1 a b c d b0 in
  let t0 := unpackhi_epi64 m7 m4 in
  let t1 := unpackhi_epi64 m5 m6 in
  let b0 := blend_epi32 t0 t1 0xF0 in
  let '(a, b, c, d) := row_g2 a b c d b0 in
  let '(a, c, d) := undiagonalize64 a c d in
  (a, b, c, d).

(* c64/baokeshed64_avx2.c: the statements under "// round 2", from line 135 *)
Definition avx2_row64_2 (m0 m1 m2 m3 m4 m5 m6 m7 a b c d : vec)
  : vec * vec * vec * vec :=
  let t0 := unpacklo_epi64 m7 m2 in
  let t1 := unpackhi_epi64 m4 m6 in
  let b0 := blend_epi32 t0 t1 0xF0 in
  let '(a, b, c, d) := row_g1 a b c d b0 in
  let t0 := unpacklo_epi64 m5 m4 in
  let t1 := alignr_epi8 m3 m7 8 in
  let b0 := blend_epi32 t0 t1 0xF0 in
  let '(a, b, c, d) := row_g2 a b c d b0 in
  let '(a, c, d) := diagonalize64 a c d in
  let t0 := unpackhi_epi64 m2 m0 in
  let t1 := blend_epi32 m5 m0 0x33 in
  let b0 := blend_epi32 t0 t1 0xF0 in
  let '(a, b, c, d) := row_g1 a b c d b0 in
  let t0 := alignr_epi8 m6 m1 8 in
  let t1 := blend_epi32 m3 m1 0x33 in
  let b0 := blend_epi32 t0 t1 0xF0 in
  let '(a, b, c, d) := row_g2 a b c d b0 in
  let '(a, c, d) := undiagonalize64 a c d in
  (a, b, c, d).

(* c64/baokeshed64_avx2.c: the statements under "// round 3", from line 155 *)
Definition avx2_row64_3 (m0 m1 m2 m3 m4 m5 m6 m7 a b c d : vec)
  : vec * vec * vec * vec :=
  let t0 := alignr_epi8 m6 m5 8 in
  let t1 := unpackhi_epi64 m2 m7 in
  let b0 := blend_epi32 t0 t1 0xF0 in
  let '(a, b, c, d) := row_g1 a b c d b0 in
  let t0 := unpacklo_epi64 m4 m0 in
  let t1 := blend_epi32 m6 m1 0x33 in
  let b0 := blend_epi32 t0 t1 0xF0 in
  let '(a, b, c, d) := row_g2 a b c d b0 in
  let '(a, c, d) := diagonalize64 a c d in
  let t0 := alignr_epi8 m5 m4 8 in
  let t1 := unpackhi_epi64 m1 m3 in
  let b0 := blend_epi32 t0 t1 0xF0 in
  let '(a, b, c, d) := row_g1 a b c d b0 in
  let t0 := unpacklo_epi64 m2 m7 in
  let t1 := blend_epi32 m0 m3 0x33 in
  let b0 := blend_epi32 t0 t1 0xF0 in
  let '(a, b, c, d) := row_g2 a b c d b0 in
  let '(a, c, d) := undiagonalize64 a c d in
  (a, b, c, d).

(* c64/baokeshed64_avx2.c: the statements under "// round 4", from line 175 *)
Definition avx2_row64_4 (m0 m1 m2 m3 m4 m5 m6 m7 a b c d : vec)
  : vec * vec * vec * vec :=
  let t0 := unpackhi_epi64 m3 m1 in
  let t1 := unpackhi_epi64 m6 m5 in
  let b0 := blend_epi32 t0 t1 0xF0 in
  let '(a, b, c, d) := row_g1 a b c d b0 in
  let t0 := unpackhi_epi64 m4 m0 in
  let t1 := unpacklo_epi64 m6 m7 in
  let b0 := blend_epi32 t0 t1 0xF0 in
  let '(a, b, c, d) := row_g2 a b c d b0 in
  let '(a, c, d) := diagonalize64 a c d in
  let t0 := alignr_epi8 m1 m7 8 in
  let t1 := shuffle_epi32 m2 (MM_SHUFFLE 1 0 3 2) in
  let b0 := blend_epi32 t0 t1 0xF0 in
  let '(a, b, c, d) := row_g1 a b c d b0 in
  let t0 := unpacklo_epi64 m4 m3 in
  let t1 := unpacklo_epi64 m5 m0 in
  let b0 := blend_epi32 t0 t1 0xF0 in
  let '(a, b, c, d) := row_g2 a b c d b0 in
  let '(a, c, d) := undiagonalize64 a c d in
  (a, b, c, d).

(* c64/baokeshed64_avx2.c: the statements under "// round 5", from line 195 *)
Definition avx2_row64_5 (m0 m1 m2 m3 m4 m5 m6 m7 a b c d : vec)
  : vec * vec * vec * vec :=
  let t0 := unpackhi_epi64 m4 m2 in
  let t1 := unpacklo_epi64 m1 m5 in
  let b0 := blend_epi32 t0 t1 0xF0 in
  let '(a, b, c, d) := row_g1 a b c d b0 in
  let t0 := blend_epi32 m3 m0 0x33 in
  let t1 := blend_epi32 m7 m2 0x33 in
  let b0 := blend_epi32 t0 t1 0xF0 in
  let '(a, b, c, d) := row_g2 a b c d b0 in
  let '(a, c, d) := diagonalize64 a c d in
  let t0 := alignr_epi8 m7 m1 8 in
  let t1 := alignr_epi8 m3 m5 8 in
  let b0 := blend_epi32 t0 t1 0xF0 in
  let '(a, b, c, d) := row_g1 a b c d b0 in
  let t0 := unpackhi_epi64 m6 m0 in
  let t1 := unpacklo_epi64 m6 m4 in
  let b0 := blend_epi32 t0 t1 0xF0 in
  let '(a, b, c, d) := row_g2 a b c d b0 in
  let '(a, c, d) := undiagonalize64 a c d in
  (a, b, c, d).

(* c64/baokeshed64_avx2.c: the statements under "// round 6", from line 215 *)
Definition avx2_row64_6 (m0 m1 m2 m3 m4 m5 m6 m7 a b c d : vec)
  : vec * vec * vec * vec :=
  let t0 := unpacklo_epi64 m1 m3 in
  let t1 := unpacklo_epi64 m0 m4 in
  let b0 := blend_epi32 t0 t1 0xF0 in
  let '(a, b, c, d) := row_g1 a b c d b0 in
  let t0 := unpacklo_epi64 m6 m5 in
  let t1 := unpackhi_epi64 m5 m1 in
  let b0 := blend_epi32 t0 t1 0xF0 in
  let '(a, b, c, d) := row_g2 a b c d b0 in
  let '(a, c, d) := diagonalize64 a c d in
  let t0 := alignr_epi8 m2 m0 8 in
  let t1 := unpackhi_epi64 m3 m7 in
  let b0 := blend_epi32 t0 t1 0xF0 in
  let '(a, b, c, d) := row_g1 a b c d b0 in
  let t0 := unpackhi_epi64 m4 m6 in
  let t1 := alignr_epi8 m7 m2 8 in
  let b0 := blend_epi32 t0 t1 0xF0 in
  let '(a, b, c, d) := row_g2 a b c d b0 in
  let '(a, c, d) := undiagonalize64 a c d in
  (a, b, c, d).

(* c64/baokeshed64_avx2.c: the statements under "// round 7", from line 235 *)
Definition avx2_row64_7 (m0 m1 m2 m3 m4 m5 m6 m7 a b c d : vec)
  : vec * vec * vec * vec :=
  let t0 := blend_epi32 m0 m6 0x33 in
  let t1 := unpacklo_epi64 m7 m2 in
  let b0 := blend_epi32 t0 t1 0xF0 in
  let '(a, b, c, d) := row_g1 a b c d b0 in
  let t0 := unpackhi_epi64 m2 m7 in
  let t1 := alignr_epi8 m5 m6 8 in
  let b0 := blend_epi32 t0 t1 0xF0 in
  let '(a, b, c, d) := row_g2 a b c d b0 in
  let '(a, c, d) := diagonalize64 a c d in
  let t0 := unpacklo_epi64 m4 m0 in
  let t1 := blend_epi32 m4 m3 0x33 in
  let b0 := blend_epi32 t0 t1 0xF0 in
  let '(a, b, c, d) := row_g1 a b c d b0 in
  let t0 := unpackhi_epi64 m5 m3 in
  let t1 := shuffle_epi32 m1 (MM_SHUFFLE 1 0 3 2) in
  let b0 := blend_epi32 t0 t1 0xF0 in
  let '(a, b, c, d) := row_g2 a b c d b0 in
  let '(a, c, d) := undiagonalize64 a c d in
  (a, b, c, d).

(* c64/baokeshed64_avx2.c: the statements under "// round 8", from line 255 *)
Definition avx2_row64_8 (m0 m1 m2 m3 m4 m5 m6 m7 a b c d : vec)
  : vec * vec * vec * vec :=
  let t0 := unpackhi_epi64 m6 m3 in
  let t1 := blend_epi32 m1 m6 0x33 in
  let b0 := blend_epi32 t0 t1 0xF0 in
  let '(a, b, c, d) := row_g1 a b c d b0 in
  let t0 := alignr_epi8 m7 m5 8 in
  let t1 := unpackhi_epi64 m0 m4 in
  let b0 := blend_epi32 t0 t1 0xF0 in
  let '(a, b, c, d) := row_g2 a b c d b0 in
  let '(a, c, d) := diagonalize64 a c d in
  let t0 := blend_epi32 m2 m1 0x33 in
  let t1 := alignr_epi8 m4 m7 8 in
  let b0 := blend_epi32 t0 t1 0xF0 in
  let '(a, b, c, d) := row_g1 a b c d b0 in
  let t0 := unpacklo_epi64 m5 m0 in
  let t1 := unpacklo_epi64 m2 m3 in
  let b0 := blend_epi32 t0 t1 0xF0 in
  let '(a, b, c, d) := row_g2 a b c d b0 in
  let '(a, c, d) := undiagonalize64 a c d in
  (a, b, c, d).

(* c64/baokeshed64_avx512.c: the statements under "// round 1", from line 149 *)
Definition avx512_row64_1 (m0 m1 m2 m3 m4 m5 m6 m7 a b c d : vec)
  : vec * vec * vec * vec :=
  let t0 := unpacklo_epi64 m0 m1 in
  let t1 := unpacklo_epi64 m2 m3 in
  let b0 := blend_epi32 t0 t1 0xF0 in
  let '(a, b, c, d) := row_g1 a b c d b0 in
  let t0 := unpackhi_epi64 m0 m1 in
  let t1 := unpackhi_epi64 m2 m3 in
  let b0 := blend_epi32 t0 t1 0xF0 in
  let '(a, b, c, d) := row_g2 a b c d b0 in
  let '(a, c, d) := diagonalize64 a c d in
  let t0 := unpacklo_epi64 m7 m4 in
  let t1 := unpacklo_epi64 m5 m6 in
  let b0 := blend_epi32 t0 t1 0xF0 in
  let '(a, b, c, d) := row_g1 a b c d b0 in
  let t0 := unpackhi_epi64 m7 m4 in
  let t1 := unpackhi_epi64 m5 m6 in
  let b0 := blend_epi32 t0 t1 0xF0 in
  let '(a, b, c, d) := row_g2 a b c d b0 in
  let '(a, c, d) := undiagonalize64 a c d in
  (a, b, c, d).

(* c64/baokeshed64_avx512.c: the statements under "// round 2", from line 169 *)
Definition avx512_row64_2 (m0 m1 m2 m3 m4 m5 m6 m7 a b c d : vec)
  : vec * vec * vec * vec :=
  let t0 := unpacklo_epi64 m7 m2 in
  let t1 := unpackhi_epi64 m4 m6 in
  let b0 := blend_epi32 t0 t1 0xF0 in
  let '(a, b, c, d) := row_g1 a b c d b0 in
  let t0 := unpacklo_epi64 m5 m4 in
  let t1 := alignr_epi8 m3 m7 8 in
  let b0 := blend_epi32 t0 t1 0xF0 in
  let '(a, b, c, d) := row_g2 a b c d b0 in
  let '(a, c, d) := diagonalize64 a c d in
  let t0 := unpackhi_epi64 m2 m0 in
  let t1 := blend_epi32 m5 m0 0x33 in
  let b0 := blend_epi32 t0 t1 0xF0 in
  let '(a, b, c, d) := row_g1 a b c d b0 in
  let t0 := alignr_epi8 m6 m1 8 in
  let t1 := blend_epi32 m3 m1 0x33 in
  let b0 := blend_epi32 t0 t1 0xF0 in
  let '(a, b, c, d) := row_g2 a b c d b0 in
  let '(a, c, d) := undiagonalize64 a c d in
  (a, b, c, d).

(* c64/baokeshed64_avx512.c: the statements under "// round 3", from line 189 *)
Definition avx512_row64_3 (m0 m1 m2 m3 m4 m5 m6 m7 a b c d : vec)
  : vec * vec * vec * vec :=
  let t0 := alignr_epi8 m6 m5 8 in
  let t1 := unpackhi_epi64 m2 m7 in
  let b0 := blend_epi32 t0 t1 0xF0 in
  let '(a, b, c, d) := row_g1 a b c d b0 in
  let t0 := unpacklo_epi64 m4 m0 in
  let t1 := blend_epi32 m6 m1 0x33 in
  let b0 := blend_epi32 t0 t1 0xF0 in
  let '(a, b, c, d) := row_g2 a b c d b0 in
  let '(a, c, d) := diagonalize64 a c d in
  let t0 := alignr_epi8 m5 m4 8 in
  let t1 := unpackhi_epi64 m1 m3 in
  let b0 := blend_epi32 t0 t1 0xF0 in
  let '(a, b, c, d) := row_g1 a b c d b0 in
  let t0 := unpacklo_epi64 m2 m7 in
  let t1 := blend_epi32 m0 m3 0x33 in
  let b0 := blend_epi32 t0 t1 0xF0 in
  let '(a, b, c, d) := row_g2 a b c d b0 in
  let '(a, c, d) := undiagonalize64 a c d in
  (a, b, c, d).

(* c64/baokeshed64_avx512.c: the statements under "// round 4", from line 209 *)
Definition avx512_row64_4 (m0 m1 m2 m3 m4 m5 m6 m7 a b c d : vec)
  : vec * vec * vec * vec :=
  let t0 := unpackhi_epi64 m3 m1 in
  let t1 := unpackhi_epi64 m6 m5 in
  let b0 := blend_epi32 t0 t1 0xF0 in
  let '(a, b, c, d) := row_g1 a b c d b0 in
  let t0 := unpackhi_epi64 m4 m0 in
  let t1 := unpacklo_epi64 m6 m7 in
  let b0 := blend_epi32 t0 t1 0xF0 in
  let '(a, b, c, d) := row_g2 a b c d b0 in
  let '(a, c, d) := diagonalize64 a c d in
  let t0 := alignr_epi8 m1 m7 8 in
  let t1 := shuffle_epi32 m2 (MM_SHUFFLE 1 0 3 2) in
  let b0 := blend_epi32 t0 t1 0xF0 in
  let '(a, b, c, d) := row_g1 a b c d b0 in
  let t0 := unpacklo_epi64 m4 m3 in
  let t1 := unpacklo_epi64 m5 m0 in
  let b0 := blend_epi32 t0 t1 0xF0 in
  let '(a, b, c, d) := row_g2 a b c d b0 in
  let '(a, c, d) := undiagonalize64 a c d in
  (a, b, c, d).

(* c64/baokeshed64_avx512.c: the statements under "// round 5", from line 229 *)
Definition avx512_row64_5 (m0 m1 m2 m3 m4 m5 m6 m7 a b c d : vec)
  : vec * vec * vec * vec :=
  let t0 := unpackhi_epi64 m4 m2 in
  let t1 := unpacklo_epi64 m1 m5 in
  let b0 := blend_epi32 t0 t1 0xF0 in
  let '(a, b, c, d) := row_g1 a b c d b0 in
  let t0 := blend_epi32 m3 m0 0x33 in
  let t1 := blend_epi32 m7 m2 0x33 in
  let b0 := blend_epi32 t0 t1 0xF0 in
  let '(a, b, c, d) := row_g2 a b c d b0 in
  let '(a, c, d) := diagonalize64 a c d in
  let t0 := alignr_epi8 m7 m1 8 in
  let t1 := alignr_epi8 m3 m5 8 in
  let b0 := blend_epi32 t0 t1 0xF0 in
  let '(a, b, c, d) := row_g1 a b c d b0 in
  let t0 := unpackhi_epi64 m6 m0 in
  let t1 := unpacklo_epi64 m6 m4 in
  let b0 := blend_epi32 t0 t1 0xF0 in
  let '(a, b, c, d) := row_g2 a b c d b0 in
  let '(a, c, d) := undiagonalize64 a c d in
  (a, b, c, d).

(* c64/baokeshed64_avx512.c: the statements under "// round 6", from line 249 *)
Definition avx512_row64_6 (m0 m1 m2 m3 m4 m5 m6 m7 a b c d : vec)
  : vec * vec * vec * vec :=
  let t0 := unpacklo_epi64 m1 m3 in
  let t1 := unpacklo_epi64 m0 m4 in
  let b0 := blend_epi32 t0 t1 0xF0 in
  let '(a, b, c, d) := row_g1 a b c d b0 in
  let t0 := unpacklo_epi64 m6 m5 in
  let t1 := unpackhi_epi64 m5 m1 in
  let b0 := blend_epi32 t0 t1 0xF0 in
  let '(a, b, c, d) := row_g2 a b c d b0 in
  let '(a, c, d) := diagonalize64 a c d in
  let t0 := alignr_epi8 m2 m0 8 in
  let t1 := unpackhi_epi64 m3 m7 in
  let b0 := blend_epi32 t0 t1 0xF0 in
  let '(a, b, c, d) := row_g1 a b c d b0 in
  let t0 := unpackhi_epi64 m4 m6 in
  let t1 := alignr_epi8 m7 m2 8 in
  let b0 := blend_epi32 t0 t1 0xF0 in
  let '(a, b, c, d) := row_g2 a b c d b0 in
  let '(a, c, d) := undiagonalize64 a c d in
  (a, b, c, d).

(* c64/baokeshed64_avx512.c: the statements under "// round 7", from line 269 *)
Definition avx512_row64_7 (m0 m1 m2 m3 m4 m5 m6 m7 a b c d : vec)
  : vec * vec * vec * vec :=
  let t0 := blend_epi32 m0 m6 0x33 in
  let t1 := unpacklo_epi64 m7 m2 in
  let b0 := blend_epi32 t0 t1 0xF0 in
  let '(a, b, c, d) := row_g1 a b c d b0 in
  let t0 := unpackhi_epi64 m2 m7 in
  let t1 := alignr_epi8 m5 m6 8 in
  let b0 := blend_epi32 t0 t1 0xF0 in
  let '(a, b, c, d) := row_g2 a b c d b0 in
  let '(a, c, d) := diagonalize64 a c d in
  let t0 := unpacklo_epi64 m4 m0 in
  let t1 := blend_epi32 m4 m3 0x33 in
  let b0 := blend_epi32 t0 t1 0xF0 in
  let '(a, b, c, d) := row_g1 a b c d b0 in
  let t0 := unpackhi_epi64 m5 m3 in
  let t1 := shuffle_epi32 m1 (MM_SHUFFLE 1 0 3 2) in
  let b0 := blend_epi32 t0 t1 0xF0 in
  let '(a, b, c, d) := row_g2 a b c d b0 in
  let '(a, c, d) := undiagonalize64 a c d in
  (a, b, c, d).

(* c64/baokeshed64_avx512.c: the statements under "// round 8", from line 289 *)
Definition avx512_row64_8 (m0 m1 m2 m3 m4 m5 m6 m7 a b c d : vec)
  : vec * vec * vec * vec :=
  let t0 := unpackhi_epi64 m6 m3 in
  let t1 := blend_epi32 m1 m6 0x33 in
  let b0 := blend_epi32 t0 t1 0xF0 in
  let '(a, b, c, d) := row_g1 a b c d b0 in
  let t0 := alignr_epi8 m7 m5 8 in
  let t1 := unpackhi_epi64 m0 m4 in
  let b0 := blend_epi32 t0 t1 0xF0 in
  let '(a, b, c, d) := row_g2 a b c d b0 in
  let '(a, c, d) := diagonalize64 a c d in
  let t0 := blend_epi32 m2 m1 0x33 in
  let t1 := alignr_epi8 m4 m7 8 in
  let b0 := blend_epi32 t0 t1 0xF0 in
  let '(a, b, c, d) := row_g1 a b c d b0 in
  let t0 := unpacklo_epi64 m5 m0 in
  let t1 := unpacklo_epi64 m2 m3 in
  let b0 := blend_epi32 t0 t1 0xF0 in
  let '(a, b, c, d) := row_g2 a b c d b0 in
  let '(a, c, d) := undiagonalize64 a c d in
  (a, b, c, d).

End Rows.
