(* Transcription of the row-oriented compression with every intrinsic noted, produced by
   tools/gen_vsteps.py from the source text.  Definitions only. *)
From Coq Require Import NArith List.
From Verif Require Import Base Simd VOps.
Import ListNotations.
Open Scope N_scope.

Section Rows.
Variable O : svops.

(* src/sse41.rs:69-83, c/baokeshed_sse41.c:44-52, c/baokeshed_avx512.c:77-85 *)
Definition v_g1 (row1 row2 row3 row4 m : vec) : vs (vec * vec * vec * vec) :=
  let? t := sv_add O row1 m in
  let? row1 := sv_add O t row2 in
  let? row4 := sv_xor O row4 row1 in
  let? row4 := sv_rot16 O row4 in
  let? row3 := sv_add O row3 row4 in
  let? row2 := sv_xor O row2 row3 in
  let? row2 := sv_rot12 O row2 in
  vlift (Ok (row1, row2, row3, row4)).

(* src/sse41.rs:85-99, c/baokeshed_sse41.c:54-62, c/baokeshed_avx512.c:87-95 *)
Definition v_g2 (row1 row2 row3 row4 m : vec) : vs (vec * vec * vec * vec) :=
  let? t := sv_add O row1 m in
  let? row1 := sv_add O t row2 in
  let? row4 := sv_xor O row4 row1 in
  let? row4 := sv_rot8 O row4 in
  let? row3 := sv_add O row3 row4 in
  let? row2 := sv_xor O row2 row3 in
  let? row2 := sv_rot7 O row2 in
  vlift (Ok (row1, row2, row3, row4)).

(* src/sse41.rs:111-116, c/baokeshed_sse41.c:67-71, c/baokeshed_avx512.c:100-104 *)
Definition v_diagonalize (row1 row3 row4 : vec) : vs (vec * vec * vec) :=
  let? row1 := op1 (ShuffleEpi32 (MM_SHUFFLE 2 1 0 3)) row1 in
  let? row4 := op1 (ShuffleEpi32 (MM_SHUFFLE 1 0 3 2)) row4 in
  let? row3 := op1 (ShuffleEpi32 (MM_SHUFFLE 0 3 2 1)) row3 in
  vlift (Ok (row1, row3, row4)).

(* src/sse41.rs:118-123, c/baokeshed_sse41.c:73-77, c/baokeshed_avx512.c:106-110 *)
Definition v_undiagonalize (row1 row3 row4 : vec) : vs (vec * vec * vec) :=
  let? row1 := op1 (ShuffleEpi32 (MM_SHUFFLE 0 3 2 1)) row1 in
  let? row4 := op1 (ShuffleEpi32 (MM_SHUFFLE 1 0 3 2)) row4 in
  let? row3 := op1 (ShuffleEpi32 (MM_SHUFFLE 2 1 0 3)) row3 in
  vlift (Ok (row1, row3, row4)).

(* src/sse41.rs: the statements under "// round 1", from line 148 *)
Definition v_sse41_row_round1 (m0 m1 m2 m3 row1 row2 row3 row4 : vec)
  : vs (vec * vec * vec * vec) :=
  let? buf := op2 (ShufflePs (MM_SHUFFLE 2 0 2 0)) m0 m1 in
  let? (row1, row2, row3, row4) := v_g1 row1 row2 row3 row4 buf in
  let? buf := op2 (ShufflePs (MM_SHUFFLE 3 1 3 1)) m0 m1 in
  let? (row1, row2, row3, row4) := v_g2 row1 row2 row3 row4 buf in
  let? (row1, row3, row4) := v_diagonalize row1 row3 row4 in
  let? t0 := op1 (ShuffleEpi32 (MM_SHUFFLE 3 2 0 1)) m2 in
  let? t1 := op1 (ShuffleEpi32 (MM_SHUFFLE 0 1 3 2)) m3 in
  let? buf := op2 (BlendEpi16 0xC3) t0 t1 in
  let? (row1, row2, row3, row4) := v_g1 row1 row2 row3 row4 buf in
  let? t0 := op2 (BlendEpi16 0x3C) t0 t1 in
  let? buf := op1 (ShuffleEpi32 (MM_SHUFFLE 2 3 0 1)) t0 in
  let? (row1, row2, row3, row4) := v_g2 row1 row2 row3 row4 buf in
  let? (row1, row3, row4) := v_undiagonalize row1 row3 row4 in
  vlift (Ok (row1, row2, row3, row4)).

(* src/sse41.rs: the statements under "// round 2", from line 171 *)
Definition v_sse41_row_round2 (m0 m1 m2 m3 row1 row2 row3 row4 : vec)
  : vs (vec * vec * vec * vec) :=
  let? t0 := op2 (BlendEpi16 0x0C) m1 m2 in
  let? t1 := op1 (SlliSi128 4) m3 in
  let? t2 := op2 (BlendEpi16 0xF0) t0 t1 in
  let? buf := op1 (ShuffleEpi32 (MM_SHUFFLE 2 1 0 3)) t2 in
  let? (row1, row2, row3, row4) := v_g1 row1 row2 row3 row4 buf in
  let? t0 := op1 (ShuffleEpi32 (MM_SHUFFLE 0 0 2 0)) m2 in
  let? t1 := op2 (BlendEpi16 0xC0) m1 m3 in
  let? t2 := op2 (BlendEpi16 0xF0) t0 t1 in
  let? buf := op1 (ShuffleEpi32 (MM_SHUFFLE 2 3 0 1)) t2 in
  let? (row1, row2, row3, row4) := v_g2 row1 row2 row3 row4 buf in
  let? (row1, row3, row4) := v_diagonalize row1 row3 row4 in
  let? t0 := op1 (SlliSi128 4) m1 in
  let? t1 := op2 (BlendEpi16 0x30) m2 t0 in
  let? t2 := op2 (BlendEpi16 0xF0) m0 t1 in
  let? buf := op1 (ShuffleEpi32 (MM_SHUFFLE 3 0 1 2)) t2 in
  let? (row1, row2, row3, row4) := v_g1 row1 row2 row3 row4 buf in
  let? t0 := op2 UnpackHi32 m0 m1 in
  let? t1 := op1 (SlliSi128 4) m3 in
  let? t2 := op2 (BlendEpi16 0x0C) t0 t1 in
  let? buf := op1 (ShuffleEpi32 (MM_SHUFFLE 3 0 1 2)) t2 in
  let? (row1, row2, row3, row4) := v_g2 row1 row2 row3 row4 buf in
  let? (row1, row3, row4) := v_undiagonalize row1 row3 row4 in
  vlift (Ok (row1, row2, row3, row4)).

(* src/sse41.rs: the statements under "// round 3", from line 195 *)
Definition v_sse41_row_round3 (m0 m1 m2 m3 row1 row2 row3 row4 : vec)
  : vs (vec * vec * vec * vec) :=
  let? t0 := op2 UnpackHi32 m2 m3 in
  let? t1 := op2 (BlendEpi16 0x0C) m3 m1 in
  let? t2 := op2 (BlendEpi16 0x0F) t0 t1 in
  let? buf := op1 (ShuffleEpi32 (MM_SHUFFLE 3 1 0 2)) t2 in
  let? (row1, row2, row3, row4) := v_g1 row1 row2 row3 row4 buf in
  let? t0 := op2 UnpackLo32 m2 m0 in
  let? t1 := op2 (BlendEpi16 0xF0) t0 m0 in
  let? t2 := op1 (SlliSi128 8) m3 in
  let? buf := op2 (BlendEpi16 0xC0) t1 t2 in
  let? (row1, row2, row3, row4) := v_g2 row1 row2 row3 row4 buf in
  let? (row1, row3, row4) := v_diagonalize row1 row3 row4 in
  let? t0 := op2 (BlendEpi16 0x3C) m0 m2 in
  let? t1 := op1 (SrliSi128 12) m1 in
  let? t2 := op2 (BlendEpi16 0x03) t0 t1 in
  let? buf := op1 (ShuffleEpi32 (MM_SHUFFLE 0 3 2 1)) t2 in
  let? (row1, row2, row3, row4) := v_g1 row1 row2 row3 row4 buf in
  let? t0 := op1 (SlliSi128 4) m3 in
  let? t1 := op2 (BlendEpi16 0x33) m0 m1 in
  let? t2 := op2 (BlendEpi16 0xC0) t1 t0 in
  let? buf := op1 (ShuffleEpi32 (MM_SHUFFLE 1 2 3 0)) t2 in
  let? (row1, row2, row3, row4) := v_g2 row1 row2 row3 row4 buf in
  let? (row1, row3, row4) := v_undiagonalize row1 row3 row4 in
  vlift (Ok (row1, row2, row3, row4)).

(* src/sse41.rs: the statements under "// round 4", from line 219 *)
Definition v_sse41_row_round4 (m0 m1 m2 m3 row1 row2 row3 row4 : vec)
  : vs (vec * vec * vec * vec) :=
  let? t0 := op2 UnpackHi32 m0 m1 in
  let? t1 := op2 UnpackHi32 t0 m2 in
  let? t2 := op2 (BlendEpi16 0x0C) t1 m3 in
  let? buf := op1 (ShuffleEpi32 (MM_SHUFFLE 3 1 0 2)) t2 in
  let? (row1, row2, row3, row4) := v_g1 row1 row2 row3 row4 buf in
  let? t0 := op1 (SlliSi128 8) m2 in
  let? t1 := op2 (BlendEpi16 0x0C) m3 m0 in
  let? t2 := op2 (BlendEpi16 0xC0) t1 t0 in
  let? buf := op1 (ShuffleEpi32 (MM_SHUFFLE 2 0 1 3)) t2 in
  let? (row1, row2, row3, row4) := v_g2 row1 row2 row3 row4 buf in
  let? (row1, row3, row4) := v_diagonalize row1 row3 row4 in
  let? t0 := op2 (BlendEpi16 0x0F) m0 m1 in
  let? t1 := op2 (BlendEpi16 0xC0) t0 m3 in
  let? buf := op1 (ShuffleEpi32 (MM_SHUFFLE 0 1 2 3)) t1 in
  let? (row1, row2, row3, row4) := v_g1 row1 row2 row3 row4 buf in
  let? t0 := op2 (AlignrEpi8 4) m0 m1 in
  let? buf := op2 (BlendEpi16 0x33) t0 m2 in
  let? (row1, row2, row3, row4) := v_g2 row1 row2 row3 row4 buf in
  let? (row1, row3, row4) := v_undiagonalize row1 row3 row4 in
  vlift (Ok (row1, row2, row3, row4)).

(* src/sse41.rs: the statements under "// round 5", from line 240 *)
Definition v_sse41_row_round5 (m0 m1 m2 m3 row1 row2 row3 row4 : vec)
  : vs (vec * vec * vec * vec) :=
  let? t0 := op2 UnpackLo64 m1 m2 in
  let? t1 := op2 UnpackHi64 m0 m2 in
  let? t2 := op2 (BlendEpi16 0x33) t0 t1 in
  let? buf := op1 (ShuffleEpi32 (MM_SHUFFLE 2 0 1 3)) t2 in
  let? (row1, row2, row3, row4) := v_g1 row1 row2 row3 row4 buf in
  let? t0 := op2 UnpackHi64 m1 m3 in
  let? t1 := op2 UnpackLo64 m0 m1 in
  let? buf := op2 (BlendEpi16 0x33) t0 t1 in
  let? (row1, row2, row3, row4) := v_g2 row1 row2 row3 row4 buf in
  let? (row1, row3, row4) := v_diagonalize row1 row3 row4 in
  let? t0 := op2 UnpackHi64 m3 m1 in
  let? t1 := op2 UnpackHi64 m2 m0 in
  let? t2 := op2 (BlendEpi16 0x33) t1 t0 in
  let? buf := op1 (ShuffleEpi32 (MM_SHUFFLE 2 1 0 3)) t2 in
  let? (row1, row2, row3, row4) := v_g1 row1 row2 row3 row4 buf in
  let? t0 := op2 (BlendEpi16 0x03) m0 m2 in
  let? t1 := op1 (SlliSi128 8) t0 in
  let? t2 := op2 (BlendEpi16 0x0F) t1 m3 in
  let? buf := op1 (ShuffleEpi32 (MM_SHUFFLE 2 0 3 1)) t2 in
  let? (row1, row2, row3, row4) := v_g2 row1 row2 row3 row4 buf in
  let? (row1, row3, row4) := v_undiagonalize row1 row3 row4 in
  vlift (Ok (row1, row2, row3, row4)).

(* src/sse41.rs: the statements under "// round 6", from line 263 *)
Definition v_sse41_row_round6 (m0 m1 m2 m3 row1 row2 row3 row4 : vec)
  : vs (vec * vec * vec * vec) :=
  let? t0 := op2 UnpackHi32 m0 m1 in
  let? t1 := op2 UnpackLo32 m0 m2 in
  let? buf := op2 UnpackLo64 t0 t1 in
  let? (row1, row2, row3, row4) := v_g1 row1 row2 row3 row4 buf in
  let? t0 := op1 (SrliSi128 4) m2 in
  let? t1 := op2 (BlendEpi16 0x03) m0 m3 in
  let? buf := op2 (BlendEpi16 0x3C) t1 t0 in
  let? (row1, row2, row3, row4) := v_g2 row1 row2 row3 row4 buf in
  let? (row1, row3, row4) := v_diagonalize row1 row3 row4 in
  let? t0 := op2 (BlendEpi16 0x0C) m1 m0 in
  let? t1 := op1 (SrliSi128 4) m3 in
  let? t2 := op2 (BlendEpi16 0x30) t0 t1 in
  let? buf := op1 (ShuffleEpi32 (MM_SHUFFLE 2 3 0 1)) t2 in
  let? (row1, row2, row3, row4) := v_g1 row1 row2 row3 row4 buf in
  let? t0 := op2 UnpackLo64 m2 m1 in
  let? t1 := op1 (ShuffleEpi32 (MM_SHUFFLE 2 0 1 0)) m3 in
  let? t2 := op1 (SrliSi128 4) t0 in
  let? buf := op2 (BlendEpi16 0x33) t1 t2 in
  let? (row1, row2, row3, row4) := v_g2 row1 row2 row3 row4 buf in
  let? (row1, row3, row4) := v_undiagonalize row1 row3 row4 in
  vlift (Ok (row1, row2, row3, row4)).

(* src/sse41.rs: the statements under "// round 7", from line 285 *)
Definition v_sse41_row_round7 (m0 m1 m2 m3 row1 row2 row3 row4 : vec)
  : vs (vec * vec * vec * vec) :=
  let? t0 := op1 (SlliSi128 12) m1 in
  let? t1 := op2 (BlendEpi16 0x33) m0 m3 in
  let? buf := op2 (BlendEpi16 0xC0) t1 t0 in
  let? (row1, row2, row3, row4) := v_g1 row1 row2 row3 row4 buf in
  let? t0 := op2 (BlendEpi16 0x30) m3 m2 in
  let? t1 := op1 (SrliSi128 4) m1 in
  let? t2 := op2 (BlendEpi16 0x03) t0 t1 in
  let? buf := op1 (ShuffleEpi32 (MM_SHUFFLE 2 1 3 0)) t2 in
  let? (row1, row2, row3, row4) := v_g2 row1 row2 row3 row4 buf in
  let? (row1, row3, row4) := v_diagonalize row1 row3 row4 in
  let? t0 := op2 UnpackLo64 m0 m2 in
  let? t1 := op1 (SrliSi128 4) m1 in
  let? x1 := op2 (BlendEpi16 0x0C) t0 t1 in
  let? buf := op1 (ShuffleEpi32 (MM_SHUFFLE 3 1 0 2)) x1 in
  let? (row1, row2, row3, row4) := v_g1 row1 row2 row3 row4 buf in
  let? t0 := op2 UnpackHi32 m1 m2 in
  let? t1 := op2 UnpackHi64 m0 t0 in
  let? buf := op1 (ShuffleEpi32 (MM_SHUFFLE 0 1 2 3)) t1 in
  let? (row1, row2, row3, row4) := v_g2 row1 row2 row3 row4 buf in
  let? (row1, row3, row4) := v_undiagonalize row1 row3 row4 in
  vlift (Ok (row1, row2, row3, row4)).

(* c/baokeshed_sse41.c: the statements under "// round 1", from line 94 *)
Definition v_c_sse41_row_round1 (m0 m1 m2 m3 row1 row2 row3 row4 : vec)
  : vs (vec * vec * vec * vec) :=
  let? buf := op2 (ShufflePs (MM_SHUFFLE 2 0 2 0)) m0 m1 in
  let? (row1, row2, row3, row4) := v_g1 row1 row2 row3 row4 buf in
  let? buf := op2 (ShufflePs (MM_SHUFFLE 3 1 3 1)) m0 m1 in
  let? (row1, row2, row3, row4) := v_g2 row1 row2 row3 row4 buf in
  let? (row1, row3, row4) := v_diagonalize row1 row3 row4 in
  let? t0 := op1 (ShuffleEpi32 (MM_SHUFFLE 3 2 0 1)) m2 in
  let? t1 := op1 (ShuffleEpi32 (MM_SHUFFLE 0 1 3 2)) m3 in
  let? buf := op2 (BlendEpi16 0xC3) t0 t1 in
  let? (row1, row2, row3, row4) := v_g1 row1 row2 row3 row4 buf in
  let? t0 := op2 (BlendEpi16 0x3C) t0 t1 in
  let? buf := op1 (ShuffleEpi32 (MM_SHUFFLE 2 3 0 1)) t0 in
  let? (row1, row2, row3, row4) := v_g2 row1 row2 row3 row4 buf in
  let? (row1, row3, row4) := v_undiagonalize row1 row3 row4 in
  vlift (Ok (row1, row2, row3, row4)).

(* c/baokeshed_sse41.c: the statements under "// round 2", from line 111 *)
Definition v_c_sse41_row_round2 (m0 m1 m2 m3 row1 row2 row3 row4 : vec)
  : vs (vec * vec * vec * vec) :=
  let? t0 := op2 (BlendEpi16 0x0C) m1 m2 in
  let? t1 := op1 (SlliSi128 4) m3 in
  let? t2 := op2 (BlendEpi16 0xF0) t0 t1 in
  let? buf := op1 (ShuffleEpi32 (MM_SHUFFLE 2 1 0 3)) t2 in
  let? (row1, row2, row3, row4) := v_g1 row1 row2 row3 row4 buf in
  let? t0 := op1 (ShuffleEpi32 (MM_SHUFFLE 0 0 2 0)) m2 in
  let? t1 := op2 (BlendEpi16 0xC0) m1 m3 in
  let? t2 := op2 (BlendEpi16 0xF0) t0 t1 in
  let? buf := op1 (ShuffleEpi32 (MM_SHUFFLE 2 3 0 1)) t2 in
  let? (row1, row2, row3, row4) := v_g2 row1 row2 row3 row4 buf in
  let? (row1, row3, row4) := v_diagonalize row1 row3 row4 in
  let? t0 := op1 (SlliSi128 4) m1 in
  let? t1 := op2 (BlendEpi16 0x30) m2 t0 in
  let? t2 := op2 (BlendEpi16 0xF0) m0 t1 in
  let? buf := op1 (ShuffleEpi32 (MM_SHUFFLE 3 0 1 2)) t2 in
  let? (row1, row2, row3, row4) := v_g1 row1 row2 row3 row4 buf in
  let? t0 := op2 UnpackHi32 m0 m1 in
  let? t1 := op1 (SlliSi128 4) m3 in
  let? t2 := op2 (BlendEpi16 0x0C) t0 t1 in
  let? buf := op1 (ShuffleEpi32 (MM_SHUFFLE 3 0 1 2)) t2 in
  let? (row1, row2, row3, row4) := v_g2 row1 row2 row3 row4 buf in
  let? (row1, row3, row4) := v_undiagonalize row1 row3 row4 in
  vlift (Ok (row1, row2, row3, row4)).

(* c/baokeshed_sse41.c: the statements under "// round 3", from line 135 *)
Definition v_c_sse41_row_round3 (m0 m1 m2 m3 row1 row2 row3 row4 : vec)
  : vs (vec * vec * vec * vec) :=
  let? t0 := op2 UnpackHi32 m2 m3 in
  let? t1 := op2 (BlendEpi16 0x0C) m3 m1 in
  let? t2 := op2 (BlendEpi16 0x0F) t0 t1 in
  let? buf := op1 (ShuffleEpi32 (MM_SHUFFLE 3 1 0 2)) t2 in
  let? (row1, row2, row3, row4) := v_g1 row1 row2 row3 row4 buf in
  let? t0 := op2 UnpackLo32 m2 m0 in
  let? t1 := op2 (BlendEpi16 0xF0) t0 m0 in
  let? t2 := op1 (SlliSi128 8) m3 in
  let? buf := op2 (BlendEpi16 0xC0) t1 t2 in
  let? (row1, row2, row3, row4) := v_g2 row1 row2 row3 row4 buf in
  let? (row1, row3, row4) := v_diagonalize row1 row3 row4 in
  let? t0 := op2 (BlendEpi16 0x3C) m0 m2 in
  let? t1 := op1 (SrliSi128 12) m1 in
  let? t2 := op2 (BlendEpi16 0x03) t0 t1 in
  let? buf := op1 (ShuffleEpi32 (MM_SHUFFLE 0 3 2 1)) t2 in
  let? (row1, row2, row3, row4) := v_g1 row1 row2 row3 row4 buf in
  let? t0 := op1 (SlliSi128 4) m3 in
  let? t1 := op2 (BlendEpi16 0x33) m0 m1 in
  let? t2 := op2 (BlendEpi16 0xC0) t1 t0 in
  let? buf := op1 (ShuffleEpi32 (MM_SHUFFLE 1 2 3 0)) t2 in
  let? (row1, row2, row3, row4) := v_g2 row1 row2 row3 row4 buf in
  let? (row1, row3, row4) := v_undiagonalize row1 row3 row4 in
  vlift (Ok (row1, row2, row3, row4)).

(* c/baokeshed_sse41.c: the statements under "// round 4", from line 159 *)
Definition v_c_sse41_row_round4 (m0 m1 m2 m3 row1 row2 row3 row4 : vec)
  : vs (vec * vec * vec * vec) :=
  let? t0 := op2 UnpackHi32 m0 m1 in
  let? t1 := op2 UnpackHi32 t0 m2 in
  let? t2 := op2 (BlendEpi16 0x0C) t1 m3 in
  let? buf := op1 (ShuffleEpi32 (MM_SHUFFLE 3 1 0 2)) t2 in
  let? (row1, row2, row3, row4) := v_g1 row1 row2 row3 row4 buf in
  let? t0 := op1 (SlliSi128 8) m2 in
  let? t1 := op2 (BlendEpi16 0x0C) m3 m0 in
  let? t2 := op2 (BlendEpi16 0xC0) t1 t0 in
  let? buf := op1 (ShuffleEpi32 (MM_SHUFFLE 2 0 1 3)) t2 in
  let? (row1, row2, row3, row4) := v_g2 row1 row2 row3 row4 buf in
  let? (row1, row3, row4) := v_diagonalize row1 row3 row4 in
  let? t0 := op2 (BlendEpi16 0x0F) m0 m1 in
  let? t1 := op2 (BlendEpi16 0xC0) t0 m3 in
  let? buf := op1 (ShuffleEpi32 (MM_SHUFFLE 0 1 2 3)) t1 in
  let? (row1, row2, row3, row4) := v_g1 row1 row2 row3 row4 buf in
  let? t0 := op2 (AlignrEpi8 4) m0 m1 in
  let? buf := op2 (BlendEpi16 0x33) t0 m2 in
  let? (row1, row2, row3, row4) := v_g2 row1 row2 row3 row4 buf in
  let? (row1, row3, row4) := v_undiagonalize row1 row3 row4 in
  vlift (Ok (row1, row2, row3, row4)).

(* c/baokeshed_sse41.c: the statements under "// round 5", from line 180 *)
Definition v_c_sse41_row_round5 (m0 m1 m2 m3 row1 row2 row3 row4 : vec)
  : vs (vec * vec * vec * vec) :=
  let? t0 := op2 UnpackLo64 m1 m2 in
  let? t1 := op2 UnpackHi64 m0 m2 in
  let? t2 := op2 (BlendEpi16 0x33) t0 t1 in
  let? buf := op1 (ShuffleEpi32 (MM_SHUFFLE 2 0 1 3)) t2 in
  let? (row1, row2, row3, row4) := v_g1 row1 row2 row3 row4 buf in
  let? t0 := op2 UnpackHi64 m1 m3 in
  let? t1 := op2 UnpackLo64 m0 m1 in
  let? buf := op2 (BlendEpi16 0x33) t0 t1 in
  let? (row1, row2, row3, row4) := v_g2 row1 row2 row3 row4 buf in
  let? (row1, row3, row4) := v_diagonalize row1 row3 row4 in
  let? t0 := op2 UnpackHi64 m3 m1 in
  let? t1 := op2 UnpackHi64 m2 m0 in
  let? t2 := op2 (BlendEpi16 0x33) t1 t0 in
  let? buf := op1 (ShuffleEpi32 (MM_SHUFFLE 2 1 0 3)) t2 in
  let? (row1, row2, row3, row4) := v_g1 row1 row2 row3 row4 buf in
  let? t0 := op2 (BlendEpi16 0x03) m0 m2 in
  let? t1 := op1 (SlliSi128 8) t0 in
  let? t2 := op2 (BlendEpi16 0x0F) t1 m3 in
  let? buf := op1 (ShuffleEpi32 (MM_SHUFFLE 2 0 3 1)) t2 in
  let? (row1, row2, row3, row4) := v_g2 row1 row2 row3 row4 buf in
  let? (row1, row3, row4) := v_undiagonalize row1 row3 row4 in
  vlift (Ok (row1, row2, row3, row4)).

(* c/baokeshed_sse41.c: the statements under "// round 6", from line 203 *)
Definition v_c_sse41_row_round6 (m0 m1 m2 m3 row1 row2 row3 row4 : vec)
  : vs (vec * vec * vec * vec) :=
  let? t0 := op2 UnpackHi32 m0 m1 in
  let? t1 := op2 UnpackLo32 m0 m2 in
  let? buf := op2 UnpackLo64 t0 t1 in
  let? (row1, row2, row3, row4) := v_g1 row1 row2 row3 row4 buf in
  let? t0 := op1 (SrliSi128 4) m2 in
  let? t1 := op2 (BlendEpi16 0x03) m0 m3 in
  let? buf := op2 (BlendEpi16 0x3C) t1 t0 in
  let? (row1, row2, row3, row4) := v_g2 row1 row2 row3 row4 buf in
  let? (row1, row3, row4) := v_diagonalize row1 row3 row4 in
  let? t0 := op2 (BlendEpi16 0x0C) m1 m0 in
  let? t1 := op1 (SrliSi128 4) m3 in
  let? t2 := op2 (BlendEpi16 0x30) t0 t1 in
  let? buf := op1 (ShuffleEpi32 (MM_SHUFFLE 2 3 0 1)) t2 in
  let? (row1, row2, row3, row4) := v_g1 row1 row2 row3 row4 buf in
  let? t0 := op2 UnpackLo64 m2 m1 in
  let? t1 := op1 (ShuffleEpi32 (MM_SHUFFLE 2 0 1 0)) m3 in
  let? t2 := op1 (SrliSi128 4) t0 in
  let? buf := op2 (BlendEpi16 0x33) t1 t2 in
  let? (row1, row2, row3, row4) := v_g2 row1 row2 row3 row4 buf in
  let? (row1, row3, row4) := v_undiagonalize row1 row3 row4 in
  vlift (Ok (row1, row2, row3, row4)).

(* c/baokeshed_sse41.c: the statements under "// round 7", from line 225 *)
Definition v_c_sse41_row_round7 (m0 m1 m2 m3 row1 row2 row3 row4 : vec)
  : vs (vec * vec * vec * vec) :=
  let? t0 := op1 (SlliSi128 12) m1 in
  let? t1 := op2 (BlendEpi16 0x33) m0 m3 in
  let? buf := op2 (BlendEpi16 0xC0) t1 t0 in
  let? (row1, row2, row3, row4) := v_g1 row1 row2 row3 row4 buf in
  let? t0 := op2 (BlendEpi16 0x30) m3 m2 in
  let? t1 := op1 (SrliSi128 4) m1 in
  let? t2 := op2 (BlendEpi16 0x03) t0 t1 in
  let? buf := op1 (ShuffleEpi32 (MM_SHUFFLE 2 1 3 0)) t2 in
  let? (row1, row2, row3, row4) := v_g2 row1 row2 row3 row4 buf in
  let? (row1, row3, row4) := v_diagonalize row1 row3 row4 in
  let? t0 := op2 UnpackLo64 m0 m2 in
  let? t1 := op1 (SrliSi128 4) m1 in
  let? x1 := op2 (BlendEpi16 0x0C) t0 t1 in
  let? buf := op1 (ShuffleEpi32 (MM_SHUFFLE 3 1 0 2)) x1 in
  let? (row1, row2, row3, row4) := v_g1 row1 row2 row3 row4 buf in
  let? t0 := op2 UnpackHi32 m1 m2 in
  let? t1 := op2 UnpackHi64 m0 t0 in
  let? buf := op1 (ShuffleEpi32 (MM_SHUFFLE 0 1 2 3)) t1 in
  let? (row1, row2, row3, row4) := v_g2 row1 row2 row3 row4 buf in
  let? (row1, row3, row4) := v_undiagonalize row1 row3 row4 in
  vlift (Ok (row1, row2, row3, row4)).

(* c/baokeshed_avx512.c: the statements under "// round 1", from line 127 *)
Definition v_c_avx512_row_round1 (m0 m1 m2 m3 row1 row2 row3 row4 : vec)
  : vs (vec * vec * vec * vec) :=
  let? buf := op2 (ShufflePs (MM_SHUFFLE 2 0 2 0)) m0 m1 in
  let? (row1, row2, row3, row4) := v_g1 row1 row2 row3 row4 buf in
  let? buf := op2 (ShufflePs (MM_SHUFFLE 3 1 3 1)) m0 m1 in
  let? (row1, row2, row3, row4) := v_g2 row1 row2 row3 row4 buf in
  let? (row1, row3, row4) := v_diagonalize row1 row3 row4 in
  let? t0 := op1 (ShuffleEpi32 (MM_SHUFFLE 3 2 0 1)) m2 in
  let? t1 := op1 (ShuffleEpi32 (MM_SHUFFLE 0 1 3 2)) m3 in
  let? buf := op2 (BlendEpi16 0xC3) t0 t1 in
  let? (row1, row2, row3, row4) := v_g1 row1 row2 row3 row4 buf in
  let? t0 := op2 (BlendEpi16 0x3C) t0 t1 in
  let? buf := op1 (ShuffleEpi32 (MM_SHUFFLE 2 3 0 1)) t0 in
  let? (row1, row2, row3, row4) := v_g2 row1 row2 row3 row4 buf in
  let? (row1, row3, row4) := v_undiagonalize row1 row3 row4 in
  vlift (Ok (row1, row2, row3, row4)).

(* c/baokeshed_avx512.c: the statements under "// round 2", from line 144 *)
Definition v_c_avx512_row_round2 (m0 m1 m2 m3 row1 row2 row3 row4 : vec)
  : vs (vec * vec * vec * vec) :=
  let? t0 := op2 (BlendEpi16 0x0C) m1 m2 in
  let? t1 := op1 (SlliSi128 4) m3 in
  let? t2 := op2 (BlendEpi16 0xF0) t0 t1 in
  let? buf := op1 (ShuffleEpi32 (MM_SHUFFLE 2 1 0 3)) t2 in
  let? (row1, row2, row3, row4) := v_g1 row1 row2 row3 row4 buf in
  let? t0 := op1 (ShuffleEpi32 (MM_SHUFFLE 0 0 2 0)) m2 in
  let? t1 := op2 (BlendEpi16 0xC0) m1 m3 in
  let? t2 := op2 (BlendEpi16 0xF0) t0 t1 in
  let? buf := op1 (ShuffleEpi32 (MM_SHUFFLE 2 3 0 1)) t2 in
  let? (row1, row2, row3, row4) := v_g2 row1 row2 row3 row4 buf in
  let? (row1, row3, row4) := v_diagonalize row1 row3 row4 in
  let? t0 := op1 (SlliSi128 4) m1 in
  let? t1 := op2 (BlendEpi16 0x30) m2 t0 in
  let? t2 := op2 (BlendEpi16 0xF0) m0 t1 in
  let? buf := op1 (ShuffleEpi32 (MM_SHUFFLE 3 0 1 2)) t2 in
  let? (row1, row2, row3, row4) := v_g1 row1 row2 row3 row4 buf in
  let? t0 := op2 UnpackHi32 m0 m1 in
  let? t1 := op1 (SlliSi128 4) m3 in
  let? t2 := op2 (BlendEpi16 0x0C) t0 t1 in
  let? buf := op1 (ShuffleEpi32 (MM_SHUFFLE 3 0 1 2)) t2 in
  let? (row1, row2, row3, row4) := v_g2 row1 row2 row3 row4 buf in
  let? (row1, row3, row4) := v_undiagonalize row1 row3 row4 in
  vlift (Ok (row1, row2, row3, row4)).

(* c/baokeshed_avx512.c: the statements under "// round 3", from line 168 *)
Definition v_c_avx512_row_round3 (m0 m1 m2 m3 row1 row2 row3 row4 : vec)
  : vs (vec * vec * vec * vec) :=
  let? t0 := op2 UnpackHi32 m2 m3 in
  let? t1 := op2 (BlendEpi16 0x0C) m3 m1 in
  let? t2 := op2 (BlendEpi16 0x0F) t0 t1 in
  let? buf := op1 (ShuffleEpi32 (MM_SHUFFLE 3 1 0 2)) t2 in
  let? (row1, row2, row3, row4) := v_g1 row1 row2 row3 row4 buf in
  let? t0 := op2 UnpackLo32 m2 m0 in
  let? t1 := op2 (BlendEpi16 0xF0) t0 m0 in
  let? t2 := op1 (SlliSi128 8) m3 in
  let? buf := op2 (BlendEpi16 0xC0) t1 t2 in
  let? (row1, row2, row3, row4) := v_g2 row1 row2 row3 row4 buf in
  let? (row1, row3, row4) := v_diagonalize row1 row3 row4 in
  let? t0 := op2 (BlendEpi16 0x3C) m0 m2 in
  let? t1 := op1 (SrliSi128 12) m1 in
  let? t2 := op2 (BlendEpi16 0x03) t0 t1 in
  let? buf := op1 (ShuffleEpi32 (MM_SHUFFLE 0 3 2 1)) t2 in
  let? (row1, row2, row3, row4) := v_g1 row1 row2 row3 row4 buf in
  let? t0 := op1 (SlliSi128 4) m3 in
  let? t1 := op2 (BlendEpi16 0x33) m0 m1 in
  let? t2 := op2 (BlendEpi16 0xC0) t1 t0 in
  let? buf := op1 (ShuffleEpi32 (MM_SHUFFLE 1 2 3 0)) t2 in
  let? (row1, row2, row3, row4) := v_g2 row1 row2 row3 row4 buf in
  let? (row1, row3, row4) := v_undiagonalize row1 row3 row4 in
  vlift (Ok (row1, row2, row3, row4)).

(* c/baokeshed_avx512.c: the statements under "// round 4", from line 192 *)
Definition v_c_avx512_row_round4 (m0 m1 m2 m3 row1 row2 row3 row4 : vec)
  : vs (vec * vec * vec * vec) :=
  let? t0 := op2 UnpackHi32 m0 m1 in
  let? t1 := op2 UnpackHi32 t0 m2 in
  let? t2 := op2 (BlendEpi16 0x0C) t1 m3 in
  let? buf := op1 (ShuffleEpi32 (MM_SHUFFLE 3 1 0 2)) t2 in
  let? (row1, row2, row3, row4) := v_g1 row1 row2 row3 row4 buf in
  let? t0 := op1 (SlliSi128 8) m2 in
  let? t1 := op2 (BlendEpi16 0x0C) m3 m0 in
  let? t2 := op2 (BlendEpi16 0xC0) t1 t0 in
  let? buf := op1 (ShuffleEpi32 (MM_SHUFFLE 2 0 1 3)) t2 in
  let? (row1, row2, row3, row4) := v_g2 row1 row2 row3 row4 buf in
  let? (row1, row3, row4) := v_diagonalize row1 row3 row4 in
  let? t0 := op2 (BlendEpi16 0x0F) m0 m1 in
  let? t1 := op2 (BlendEpi16 0xC0) t0 m3 in
  let? buf := op1 (ShuffleEpi32 (MM_SHUFFLE 0 1 2 3)) t1 in
  let? (row1, row2, row3, row4) := v_g1 row1 row2 row3 row4 buf in
  let? t0 := op2 (AlignrEpi8 4) m0 m1 in
  let? buf := op2 (BlendEpi16 0x33) t0 m2 in
  let? (row1, row2, row3, row4) := v_g2 row1 row2 row3 row4 buf in
  let? (row1, row3, row4) := v_undiagonalize row1 row3 row4 in
  vlift (Ok (row1, row2, row3, row4)).

(* c/baokeshed_avx512.c: the statements under "// round 5", from line 213 *)
Definition v_c_avx512_row_round5 (m0 m1 m2 m3 row1 row2 row3 row4 : vec)
  : vs (vec * vec * vec * vec) :=
  let? t0 := op2 UnpackLo64 m1 m2 in
  let? t1 := op2 UnpackHi64 m0 m2 in
  let? t2 := op2 (BlendEpi16 0x33) t0 t1 in
  let? buf := op1 (ShuffleEpi32 (MM_SHUFFLE 2 0 1 3)) t2 in
  let? (row1, row2, row3, row4) := v_g1 row1 row2 row3 row4 buf in
  let? t0 := op2 UnpackHi64 m1 m3 in
  let? t1 := op2 UnpackLo64 m0 m1 in
  let? buf := op2 (BlendEpi16 0x33) t0 t1 in
  let? (row1, row2, row3, row4) := v_g2 row1 row2 row3 row4 buf in
  let? (row1, row3, row4) := v_diagonalize row1 row3 row4 in
  let? t0 := op2 UnpackHi64 m3 m1 in
  let? t1 := op2 UnpackHi64 m2 m0 in
  let? t2 := op2 (BlendEpi16 0x33) t1 t0 in
  let? buf := op1 (ShuffleEpi32 (MM_SHUFFLE 2 1 0 3)) t2 in
  let? (row1, row2, row3, row4) := v_g1 row1 row2 row3 row4 buf in
  let? t0 := op2 (BlendEpi16 0x03) m0 m2 in
  let? t1 := op1 (SlliSi128 8) t0 in
  let? t2 := op2 (BlendEpi16 0x0F) t1 m3 in
  let? buf := op1 (ShuffleEpi32 (MM_SHUFFLE 2 0 3 1)) t2 in
  let? (row1, row2, row3, row4) := v_g2 row1 row2 row3 row4 buf in
  let? (row1, row3, row4) := v_undiagonalize row1 row3 row4 in
  vlift (Ok (row1, row2, row3, row4)).

(* c/baokeshed_avx512.c: the statements under "// round 6", from line 236 *)
Definition v_c_avx512_row_round6 (m0 m1 m2 m3 row1 row2 row3 row4 : vec)
  : vs (vec * vec * vec * vec) :=
  let? t0 := op2 UnpackHi32 m0 m1 in
  let? t1 := op2 UnpackLo32 m0 m2 in
  let? buf := op2 UnpackLo64 t0 t1 in
  let? (row1, row2, row3, row4) := v_g1 row1 row2 row3 row4 buf in
  let? t0 := op1 (SrliSi128 4) m2 in
  let? t1 := op2 (BlendEpi16 0x03) m0 m3 in
  let? buf := op2 (BlendEpi16 0x3C) t1 t0 in
  let? (row1, row2, row3, row4) := v_g2 row1 row2 row3 row4 buf in
  let? (row1, row3, row4) := v_diagonalize row1 row3 row4 in
  let? t0 := op2 (BlendEpi16 0x0C) m1 m0 in
  let? t1 := op1 (SrliSi128 4) m3 in
  let? t2 := op2 (BlendEpi16 0x30) t0 t1 in
  let? buf := op1 (ShuffleEpi32 (MM_SHUFFLE 2 3 0 1)) t2 in
  let? (row1, row2, row3, row4) := v_g1 row1 row2 row3 row4 buf in
  let? t0 := op2 UnpackLo64 m2 m1 in
  let? t1 := op1 (ShuffleEpi32 (MM_SHUFFLE 2 0 1 0)) m3 in
  let? t2 := op1 (SrliSi128 4) t0 in
  let? buf := op2 (BlendEpi16 0x33) t1 t2 in
  let? (row1, row2, row3, row4) := v_g2 row1 row2 row3 row4 buf in
  let? (row1, row3, row4) := v_undiagonalize row1 row3 row4 in
  vlift (Ok (row1, row2, row3, row4)).

(* c/baokeshed_avx512.c: the statements under "// round 7", from line 258 *)
Definition v_c_avx512_row_round7 (m0 m1 m2 m3 row1 row2 row3 row4 : vec)
  : vs (vec * vec * vec * vec) :=
  let? t0 := op1 (SlliSi128 12) m1 in
  let? t1 := op2 (BlendEpi16 0x33) m0 m3 in
  let? buf := op2 (BlendEpi16 0xC0) t1 t0 in
  let? (row1, row2, row3, row4) := v_g1 row1 row2 row3 row4 buf in
  let? t0 := op2 (BlendEpi16 0x30) m3 m2 in
  let? t1 := op1 (SrliSi128 4) m1 in
  let? t2 := op2 (BlendEpi16 0x03) t0 t1 in
  let? buf := op1 (ShuffleEpi32 (MM_SHUFFLE 2 1 3 0)) t2 in
  let? (row1, row2, row3, row4) := v_g2 row1 row2 row3 row4 buf in
  let? (row1, row3, row4) := v_diagonalize row1 row3 row4 in
  let? t0 := op2 UnpackLo64 m0 m2 in
  let? t1 := op1 (SrliSi128 4) m1 in
  let? x1 := op2 (BlendEpi16 0x0C) t0 t1 in
  let? buf := op1 (ShuffleEpi32 (MM_SHUFFLE 3 1 0 2)) x1 in
  let? (row1, row2, row3, row4) := v_g1 row1 row2 row3 row4 buf in
  let? t0 := op2 UnpackHi32 m1 m2 in
  let? t1 := op2 UnpackHi64 m0 t0 in
  let? buf := op1 (ShuffleEpi32 (MM_SHUFFLE 0 1 2 3)) t1 in
  let? (row1, row2, row3, row4) := v_g2 row1 row2 row3 row4 buf in
  let? (row1, row3, row4) := v_undiagonalize row1 row3 row4 in
  vlift (Ok (row1, row2, row3, row4)).

End Rows.
