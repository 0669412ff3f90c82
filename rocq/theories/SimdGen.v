(* Transcription of the straight-line SIMD code, produced by tools/gen_simd.py from
   the source text.  Definitions only. *)
From Coq Require Import NArith List.
From Verif Require Import Base Simd.
Import ListNotations.
Open Scope N_scope.

(* One statement of the vectorised round function:
   AddM d k :  v[d] = add(v[d], m[MSG_SCHEDULE[r][k]])
   AddV d s :  v[d] = add(v[d], v[s])
   XorV d s :  v[d] = xor(v[d], v[s])
   RotN d   :  v[d] = rotN(v[d]) *)
Inductive instr : Type :=
| AddM (d k : nat)
| AddV (d s : nat)
| XorV (d s : nat)
| Rot16 (d : nat)
| Rot12 (d : nat)
| Rot8 (d : nat)
| Rot7 (d : nat).

(* src/sse41.rs:339-453 *)
Definition sse41_round_code : list instr :=
  [AddM 0 0; AddM 1 2; AddM 2 4; AddM 3 6;
   AddV 0 4; AddV 1 5; AddV 2 6; AddV 3 7;
   XorV 12 0; XorV 13 1; XorV 14 2; XorV 15 3;
   Rot16 12; Rot16 13; Rot16 14; Rot16 15;
   AddV 8 12; AddV 9 13; AddV 10 14; AddV 11 15;
   XorV 4 8; XorV 5 9; XorV 6 10; XorV 7 11;
   Rot12 4; Rot12 5; Rot12 6; Rot12 7;
   AddM 0 1; AddM 1 3; AddM 2 5; AddM 3 7;
   AddV 0 4; AddV 1 5; AddV 2 6; AddV 3 7;
   XorV 12 0; XorV 13 1; XorV 14 2; XorV 15 3;
   Rot8 12; Rot8 13; Rot8 14; Rot8 15;
   AddV 8 12; AddV 9 13; AddV 10 14; AddV 11 15;
   XorV 4 8; XorV 5 9; XorV 6 10; XorV 7 11;
   Rot7 4; Rot7 5; Rot7 6; Rot7 7;
   AddM 0 8; AddM 1 10; AddM 2 12; AddM 3 14;
   AddV 0 5; AddV 1 6; AddV 2 7; AddV 3 4;
   XorV 15 0; XorV 12 1; XorV 13 2; XorV 14 3;
   Rot16 15; Rot16 12; Rot16 13; Rot16 14;
   AddV 10 15; AddV 11 12; AddV 8 13; AddV 9 14;
   XorV 5 10; XorV 6 11; XorV 7 8; XorV 4 9;
   Rot12 5; Rot12 6; Rot12 7; Rot12 4;
   AddM 0 9; AddM 1 11; AddM 2 13; AddM 3 15;
   AddV 0 5; AddV 1 6; AddV 2 7; AddV 3 4;
   XorV 15 0; XorV 12 1; XorV 13 2; XorV 14 3;
   Rot8 15; Rot8 12; Rot8 13; Rot8 14;
   AddV 10 15; AddV 11 12; AddV 8 13; AddV 9 14;
   XorV 5 10; XorV 6 11; XorV 7 8; XorV 4 9;
   Rot7 5; Rot7 6; Rot7 7; Rot7 4]%nat.

(* src/avx2.rs:78-192 *)
Definition avx2_round_code : list instr :=
  [AddM 0 0; AddM 1 2; AddM 2 4; AddM 3 6;
   AddV 0 4; AddV 1 5; AddV 2 6; AddV 3 7;
   XorV 12 0; XorV 13 1; XorV 14 2; XorV 15 3;
   Rot16 12; Rot16 13; Rot16 14; Rot16 15;
   AddV 8 12; AddV 9 13; AddV 10 14; AddV 11 15;
   XorV 4 8; XorV 5 9; XorV 6 10; XorV 7 11;
   Rot12 4; Rot12 5; Rot12 6; Rot12 7;
   AddM 0 1; AddM 1 3; AddM 2 5; AddM 3 7;
   AddV 0 4; AddV 1 5; AddV 2 6; AddV 3 7;
   XorV 12 0; XorV 13 1; XorV 14 2; XorV 15 3;
   Rot8 12; Rot8 13; Rot8 14; Rot8 15;
   AddV 8 12; AddV 9 13; AddV 10 14; AddV 11 15;
   XorV 4 8; XorV 5 9; XorV 6 10; XorV 7 11;
   Rot7 4; Rot7 5; Rot7 6; Rot7 7;
   AddM 0 8; AddM 1 10; AddM 2 12; AddM 3 14;
   AddV 0 5; AddV 1 6; AddV 2 7; AddV 3 4;
   XorV 15 0; XorV 12 1; XorV 13 2; XorV 14 3;
   Rot16 15; Rot16 12; Rot16 13; Rot16 14;
   AddV 10 15; AddV 11 12; AddV 8 13; AddV 9 14;
   XorV 5 10; XorV 6 11; XorV 7 8; XorV 4 9;
   Rot12 5; Rot12 6; Rot12 7; Rot12 4;
   AddM 0 9; AddM 1 11; AddM 2 13; AddM 3 15;
   AddV 0 5; AddV 1 6; AddV 2 7; AddV 3 4;
   XorV 15 0; XorV 12 1; XorV 13 2; XorV 14 3;
   Rot8 15; Rot8 12; Rot8 13; Rot8 14;
   AddV 10 15; AddV 11 12; AddV 8 13; AddV 9 14;
   XorV 5 10; XorV 6 11; XorV 7 8; XorV 4 9;
   Rot7 5; Rot7 6; Rot7 7; Rot7 4]%nat.

(* c/baokeshed_sse41.c:251-365 *)
Definition c_sse41_round_code : list instr :=
  [AddM 0 0; AddM 1 2; AddM 2 4; AddM 3 6;
   AddV 0 4; AddV 1 5; AddV 2 6; AddV 3 7;
   XorV 12 0; XorV 13 1; XorV 14 2; XorV 15 3;
   Rot16 12; Rot16 13; Rot16 14; Rot16 15;
   AddV 8 12; AddV 9 13; AddV 10 14; AddV 11 15;
   XorV 4 8; XorV 5 9; XorV 6 10; XorV 7 11;
   Rot12 4; Rot12 5; Rot12 6; Rot12 7;
   AddM 0 1; AddM 1 3; AddM 2 5; AddM 3 7;
   AddV 0 4; AddV 1 5; AddV 2 6; AddV 3 7;
   XorV 12 0; XorV 13 1; XorV 14 2; XorV 15 3;
   Rot8 12; Rot8 13; Rot8 14; Rot8 15;
   AddV 8 12; AddV 9 13; AddV 10 14; AddV 11 15;
   XorV 4 8; XorV 5 9; XorV 6 10; XorV 7 11;
   Rot7 4; Rot7 5; Rot7 6; Rot7 7;
   AddM 0 8; AddM 1 10; AddM 2 12; AddM 3 14;
   AddV 0 5; AddV 1 6; AddV 2 7; AddV 3 4;
   XorV 15 0; XorV 12 1; XorV 13 2; XorV 14 3;
   Rot16 15; Rot16 12; Rot16 13; Rot16 14;
   AddV 10 15; AddV 11 12; AddV 8 13; AddV 9 14;
   XorV 5 10; XorV 6 11; XorV 7 8; XorV 4 9;
   Rot12 5; Rot12 6; Rot12 7; Rot12 4;
   AddM 0 9; AddM 1 11; AddM 2 13; AddM 3 15;
   AddV 0 5; AddV 1 6; AddV 2 7; AddV 3 4;
   XorV 15 0; XorV 12 1; XorV 13 2; XorV 14 3;
   Rot8 15; Rot8 12; Rot8 13; Rot8 14;
   AddV 10 15; AddV 11 12; AddV 8 13; AddV 9 14;
   XorV 5 10; XorV 6 11; XorV 7 8; XorV 4 9;
   Rot7 5; Rot7 6; Rot7 7; Rot7 4]%nat.

(* c/baokeshed_avx2.c:48-162 *)
Definition c_avx2_round_code : list instr :=
  [AddM 0 0; AddM 1 2; AddM 2 4; AddM 3 6;
   AddV 0 4; AddV 1 5; AddV 2 6; AddV 3 7;
   XorV 12 0; XorV 13 1; XorV 14 2; XorV 15 3;
   Rot16 12; Rot16 13; Rot16 14; Rot16 15;
   AddV 8 12; AddV 9 13; AddV 10 14; AddV 11 15;
   XorV 4 8; XorV 5 9; XorV 6 10; XorV 7 11;
   Rot12 4; Rot12 5; Rot12 6; Rot12 7;
   AddM 0 1; AddM 1 3; AddM 2 5; AddM 3 7;
   AddV 0 4; AddV 1 5; AddV 2 6; AddV 3 7;
   XorV 12 0; XorV 13 1; XorV 14 2; XorV 15 3;
   Rot8 12; Rot8 13; Rot8 14; Rot8 15;
   AddV 8 12; AddV 9 13; AddV 10 14; AddV 11 15;
   XorV 4 8; XorV 5 9; XorV 6 10; XorV 7 11;
   Rot7 4; Rot7 5; Rot7 6; Rot7 7;
   AddM 0 8; AddM 1 10; AddM 2 12; AddM 3 14;
   AddV 0 5; AddV 1 6; AddV 2 7; AddV 3 4;
   XorV 15 0; XorV 12 1; XorV 13 2; XorV 14 3;
   Rot16 15; Rot16 12; Rot16 13; Rot16 14;
   AddV 10 15; AddV 11 12; AddV 8 13; AddV 9 14;
   XorV 5 10; XorV 6 11; XorV 7 8; XorV 4 9;
   Rot12 5; Rot12 6; Rot12 7; Rot12 4;
   AddM 0 9; AddM 1 11; AddM 2 13; AddM 3 15;
   AddV 0 5; AddV 1 6; AddV 2 7; AddV 3 4;
   XorV 15 0; XorV 12 1; XorV 13 2; XorV 14 3;
   Rot8 15; Rot8 12; Rot8 13; Rot8 14;
   AddV 10 15; AddV 11 12; AddV 8 13; AddV 9 14;
   XorV 5 10; XorV 6 11; XorV 7 8; XorV 4 9;
   Rot7 5; Rot7 6; Rot7 7; Rot7 4]%nat.

(* c/baokeshed_avx512.c:290-404 *)
Definition c_avx512_round4_code : list instr :=
  [AddM 0 0; AddM 1 2; AddM 2 4; AddM 3 6;
   AddV 0 4; AddV 1 5; AddV 2 6; AddV 3 7;
   XorV 12 0; XorV 13 1; XorV 14 2; XorV 15 3;
   Rot16 12; Rot16 13; Rot16 14; Rot16 15;
   AddV 8 12; AddV 9 13; AddV 10 14; AddV 11 15;
   XorV 4 8; XorV 5 9; XorV 6 10; XorV 7 11;
   Rot12 4; Rot12 5; Rot12 6; Rot12 7;
   AddM 0 1; AddM 1 3; AddM 2 5; AddM 3 7;
   AddV 0 4; AddV 1 5; AddV 2 6; AddV 3 7;
   XorV 12 0; XorV 13 1; XorV 14 2; XorV 15 3;
   Rot8 12; Rot8 13; Rot8 14; Rot8 15;
   AddV 8 12; AddV 9 13; AddV 10 14; AddV 11 15;
   XorV 4 8; XorV 5 9; XorV 6 10; XorV 7 11;
   Rot7 4; Rot7 5; Rot7 6; Rot7 7;
   AddM 0 8; AddM 1 10; AddM 2 12; AddM 3 14;
   AddV 0 5; AddV 1 6; AddV 2 7; AddV 3 4;
   XorV 15 0; XorV 12 1; XorV 13 2; XorV 14 3;
   Rot16 15; Rot16 12; Rot16 13; Rot16 14;
   AddV 10 15; AddV 11 12; AddV 8 13; AddV 9 14;
   XorV 5 10; XorV 6 11; XorV 7 8; XorV 4 9;
   Rot12 5; Rot12 6; Rot12 7; Rot12 4;
   AddM 0 9; AddM 1 11; AddM 2 13; AddM 3 15;
   AddV 0 5; AddV 1 6; AddV 2 7; AddV 3 4;
   XorV 15 0; XorV 12 1; XorV 13 2; XorV 14 3;
   Rot8 15; Rot8 12; Rot8 13; Rot8 14;
   AddV 10 15; AddV 11 12; AddV 8 13; AddV 9 14;
   XorV 5 10; XorV 6 11; XorV 7 8; XorV 4 9;
   Rot7 5; Rot7 6; Rot7 7; Rot7 4]%nat.

(* c/baokeshed_avx512.c:526-640 *)
Definition c_avx512_round8_code : list instr :=
  [AddM 0 0; AddM 1 2; AddM 2 4; AddM 3 6;
   AddV 0 4; AddV 1 5; AddV 2 6; AddV 3 7;
   XorV 12 0; XorV 13 1; XorV 14 2; XorV 15 3;
   Rot16 12; Rot16 13; Rot16 14; Rot16 15;
   AddV 8 12; AddV 9 13; AddV 10 14; AddV 11 15;
   XorV 4 8; XorV 5 9; XorV 6 10; XorV 7 11;
   Rot12 4; Rot12 5; Rot12 6; Rot12 7;
   AddM 0 1; AddM 1 3; AddM 2 5; AddM 3 7;
   AddV 0 4; AddV 1 5; AddV 2 6; AddV 3 7;
   XorV 12 0; XorV 13 1; XorV 14 2; XorV 15 3;
   Rot8 12; Rot8 13; Rot8 14; Rot8 15;
   AddV 8 12; AddV 9 13; AddV 10 14; AddV 11 15;
   XorV 4 8; XorV 5 9; XorV 6 10; XorV 7 11;
   Rot7 4; Rot7 5; Rot7 6; Rot7 7;
   AddM 0 8; AddM 1 10; AddM 2 12; AddM 3 14;
   AddV 0 5; AddV 1 6; AddV 2 7; AddV 3 4;
   XorV 15 0; XorV 12 1; XorV 13 2; XorV 14 3;
   Rot16 15; Rot16 12; Rot16 13; Rot16 14;
   AddV 10 15; AddV 11 12; AddV 8 13; AddV 9 14;
   XorV 5 10; XorV 6 11; XorV 7 8; XorV 4 9;
   Rot12 5; Rot12 6; Rot12 7; Rot12 4;
   AddM 0 9; AddM 1 11; AddM 2 13; AddM 3 15;
   AddV 0 5; AddV 1 6; AddV 2 7; AddV 3 4;
   XorV 15 0; XorV 12 1; XorV 13 2; XorV 14 3;
   Rot8 15; Rot8 12; Rot8 13; Rot8 14;
   AddV 10 15; AddV 11 12; AddV 8 13; AddV 9 14;
   XorV 5 10; XorV 6 11; XorV 7 8; XorV 4 9;
   Rot7 5; Rot7 6; Rot7 7; Rot7 4]%nat.

(* c/baokeshed_avx512.c:770-884 *)
Definition c_avx512_round16_code : list instr :=
  [AddM 0 0; AddM 1 2; AddM 2 4; AddM 3 6;
   AddV 0 4; AddV 1 5; AddV 2 6; AddV 3 7;
   XorV 12 0; XorV 13 1; XorV 14 2; XorV 15 3;
   Rot16 12; Rot16 13; Rot16 14; Rot16 15;
   AddV 8 12; AddV 9 13; AddV 10 14; AddV 11 15;
   XorV 4 8; XorV 5 9; XorV 6 10; XorV 7 11;
   Rot12 4; Rot12 5; Rot12 6; Rot12 7;
   AddM 0 1; AddM 1 3; AddM 2 5; AddM 3 7;
   AddV 0 4; AddV 1 5; AddV 2 6; AddV 3 7;
   XorV 12 0; XorV 13 1; XorV 14 2; XorV 15 3;
   Rot8 12; Rot8 13; Rot8 14; Rot8 15;
   AddV 8 12; AddV 9 13; AddV 10 14; AddV 11 15;
   XorV 4 8; XorV 5 9; XorV 6 10; XorV 7 11;
   Rot7 4; Rot7 5; Rot7 6; Rot7 7;
   AddM 0 8; AddM 1 10; AddM 2 12; AddM 3 14;
   AddV 0 5; AddV 1 6; AddV 2 7; AddV 3 4;
   XorV 15 0; XorV 12 1; XorV 13 2; XorV 14 3;
   Rot16 15; Rot16 12; Rot16 13; Rot16 14;
   AddV 10 15; AddV 11 12; AddV 8 13; AddV 9 14;
   XorV 5 10; XorV 6 11; XorV 7 8; XorV 4 9;
   Rot12 5; Rot12 6; Rot12 7; Rot12 4;
   AddM 0 9; AddM 1 11; AddM 2 13; AddM 3 15;
   AddV 0 5; AddV 1 6; AddV 2 7; AddV 3 4;
   XorV 15 0; XorV 12 1; XorV 13 2; XorV 14 3;
   Rot8 15; Rot8 12; Rot8 13; Rot8 14;
   AddV 10 15; AddV 11 12; AddV 8 13; AddV 9 14;
   XorV 5 10; XorV 6 11; XorV 7 8; XorV 4 9;
   Rot7 5; Rot7 6; Rot7 7; Rot7 4]%nat.

(* c/baokeshed_neon.c:59-173 *)
Definition c_neon_round_code : list instr :=
  [AddM 0 0; AddM 1 2; AddM 2 4; AddM 3 6;
   AddV 0 4; AddV 1 5; AddV 2 6; AddV 3 7;
   XorV 12 0; XorV 13 1; XorV 14 2; XorV 15 3;
   Rot16 12; Rot16 13; Rot16 14; Rot16 15;
   AddV 8 12; AddV 9 13; AddV 10 14; AddV 11 15;
   XorV 4 8; XorV 5 9; XorV 6 10; XorV 7 11;
   Rot12 4; Rot12 5; Rot12 6; Rot12 7;
   AddM 0 1; AddM 1 3; AddM 2 5; AddM 3 7;
   AddV 0 4; AddV 1 5; AddV 2 6; AddV 3 7;
   XorV 12 0; XorV 13 1; XorV 14 2; XorV 15 3;
   Rot8 12; Rot8 13; Rot8 14; Rot8 15;
   AddV 8 12; AddV 9 13; AddV 10 14; AddV 11 15;
   XorV 4 8; XorV 5 9; XorV 6 10; XorV 7 11;
   Rot7 4; Rot7 5; Rot7 6; Rot7 7;
   AddM 0 8; AddM 1 10; AddM 2 12; AddM 3 14;
   AddV 0 5; AddV 1 6; AddV 2 7; AddV 3 4;
   XorV 15 0; XorV 12 1; XorV 13 2; XorV 14 3;
   Rot16 15; Rot16 12; Rot16 13; Rot16 14;
   AddV 10 15; AddV 11 12; AddV 8 13; AddV 9 14;
   XorV 5 10; XorV 6 11; XorV 7 8; XorV 4 9;
   Rot12 5; Rot12 6; Rot12 7; Rot12 4;
   AddM 0 9; AddM 1 11; AddM 2 13; AddM 3 15;
   AddV 0 5; AddV 1 6; AddV 2 7; AddV 3 4;
   XorV 15 0; XorV 12 1; XorV 13 2; XorV 14 3;
   Rot8 15; Rot8 12; Rot8 13; Rot8 14;
   AddV 10 15; AddV 11 12; AddV 8 13; AddV 9 14;
   XorV 5 10; XorV 6 11; XorV 7 8; XorV 4 9;
   Rot7 5; Rot7 6; Rot7 7; Rot7 4]%nat.

(* ---- row-oriented compression ------------------------------------------- *)
(* The functions below are parameterised by the lane operations (the C AVX-512 file
   has the same code with other rotations). *)
Section Rows.
Variable O : vops vec.

(* src/sse41.rs:69-83, c/baokeshed_sse41.c:44-52, c/baokeshed_avx512.c:77-85 *)
Definition g1 (row1 row2 row3 row4 m : vec) : vec * vec * vec * vec :=
  let row1 := v_add O (v_add O row1 m) row2 in
  let row4 := v_xor O row4 row1 in
  let row4 := v_rot16 O row4 in
  let row3 := v_add O row3 row4 in
  let row2 := v_xor O row2 row3 in
  let row2 := v_rot12 O row2 in
  (row1, row2, row3, row4).

(* src/sse41.rs:85-99, c/baokeshed_sse41.c:54-62, c/baokeshed_avx512.c:87-95 *)
Definition g2 (row1 row2 row3 row4 m : vec) : vec * vec * vec * vec :=
  let row1 := v_add O (v_add O row1 m) row2 in
  let row4 := v_xor O row4 row1 in
  let row4 := v_rot8 O row4 in
  let row3 := v_add O row3 row4 in
  let row2 := v_xor O row2 row3 in
  let row2 := v_rot7 O row2 in
  (row1, row2, row3, row4).

(* src/sse41.rs:111-116, c/baokeshed_sse41.c:67-71, c/baokeshed_avx512.c:100-104 *)
Definition diagonalize (row1 row3 row4 : vec) : vec * vec * vec :=
  let row1 := mm_shuffle_epi32 row1 (MM_SHUFFLE 2 1 0 3) in
  let row4 := mm_shuffle_epi32 row4 (MM_SHUFFLE 1 0 3 2) in
  let row3 := mm_shuffle_epi32 row3 (MM_SHUFFLE 0 3 2 1) in
  (row1, row3, row4).

(* src/sse41.rs:118-123, c/baokeshed_sse41.c:73-77, c/baokeshed_avx512.c:106-110 *)
Definition undiagonalize (row1 row3 row4 : vec) : vec * vec * vec :=
  let row1 := mm_shuffle_epi32 row1 (MM_SHUFFLE 0 3 2 1) in
  let row4 := mm_shuffle_epi32 row4 (MM_SHUFFLE 1 0 3 2) in
  let row3 := mm_shuffle_epi32 row3 (MM_SHUFFLE 2 1 0 3) in
  (row1, row3, row4).

(* src/sse41.rs: the statements under "// round 1", from line 148 *)
Definition sse41_row_round1 (m0 m1 m2 m3 row1 row2 row3 row4 : vec)
  : vec * vec * vec * vec :=
  let buf := (mm_shuffle_ps m0 m1 (MM_SHUFFLE 2 0 2 0)) in
  let '(row1, row2, row3, row4) := g1 row1 row2 row3 row4 buf in
  let buf := (mm_shuffle_ps m0 m1 (MM_SHUFFLE 3 1 3 1)) in
  let '(row1, row2, row3, row4) := g2 row1 row2 row3 row4 buf in
  let '(row1, row3, row4) := diagonalize row1 row3 row4 in
  let t0 := (mm_shuffle_epi32 m2 (MM_SHUFFLE 3 2 0 1)) in
  let t1 := (mm_shuffle_epi32 m3 (MM_SHUFFLE 0 1 3 2)) in
  let buf := (mm_blend_epi16 t0 t1 0xC3) in
  let '(row1, row2, row3, row4) := g1 row1 row2 row3 row4 buf in
  let t0 := (mm_blend_epi16 t0 t1 0x3C) in
  let buf := (mm_shuffle_epi32 t0 (MM_SHUFFLE 2 3 0 1)) in
  let '(row1, row2, row3, row4) := g2 row1 row2 row3 row4 buf in
  let '(row1, row3, row4) := undiagonalize row1 row3 row4 in
  (row1, row2, row3, row4).

(* src/sse41.rs: the statements under "// round 2", from line 171 *)
Definition sse41_row_round2 (m0 m1 m2 m3 row1 row2 row3 row4 : vec)
  : vec * vec * vec * vec :=
  let t0 := (mm_blend_epi16 m1 m2 0x0C) in
  let t1 := (mm_slli_si128 m3 4) in
  let t2 := (mm_blend_epi16 t0 t1 0xF0) in
  let buf := (mm_shuffle_epi32 t2 (MM_SHUFFLE 2 1 0 3)) in
  let '(row1, row2, row3, row4) := g1 row1 row2 row3 row4 buf in
  let t0 := (mm_shuffle_epi32 m2 (MM_SHUFFLE 0 0 2 0)) in
  let t1 := (mm_blend_epi16 m1 m3 0xC0) in
  let t2 := (mm_blend_epi16 t0 t1 0xF0) in
  let buf := (mm_shuffle_epi32 t2 (MM_SHUFFLE 2 3 0 1)) in
  let '(row1, row2, row3, row4) := g2 row1 row2 row3 row4 buf in
  let '(row1, row3, row4) := diagonalize row1 row3 row4 in
  let t0 := (mm_slli_si128 m1 4) in
  let t1 := (mm_blend_epi16 m2 t0 0x30) in
  let t2 := (mm_blend_epi16 m0 t1 0xF0) in
  let buf := (mm_shuffle_epi32 t2 (MM_SHUFFLE 3 0 1 2)) in
  let '(row1, row2, row3, row4) := g1 row1 row2 row3 row4 buf in
  let t0 := (mm_unpackhi_epi32 m0 m1) in
  let t1 := (mm_slli_si128 m3 4) in
  let t2 := (mm_blend_epi16 t0 t1 0x0C) in
  let buf := (mm_shuffle_epi32 t2 (MM_SHUFFLE 3 0 1 2)) in
  let '(row1, row2, row3, row4) := g2 row1 row2 row3 row4 buf in
  let '(row1, row3, row4) := undiagonalize row1 row3 row4 in
  (row1, row2, row3, row4).

(* src/sse41.rs: the statements under "// round 3", from line 195 *)
Definition sse41_row_round3 (m0 m1 m2 m3 row1 row2 row3 row4 : vec)
  : vec * vec * vec * vec :=
  let t0 := (mm_unpackhi_epi32 m2 m3) in
  let t1 := (mm_blend_epi16 m3 m1 0x0C) in
  let t2 := (mm_blend_epi16 t0 t1 0x0F) in
  let buf := (mm_shuffle_epi32 t2 (MM_SHUFFLE 3 1 0 2)) in
  let '(row1, row2, row3, row4) := g1 row1 row2 row3 row4 buf in
  let t0 := (mm_unpacklo_epi32 m2 m0) in
  let t1 := (mm_blend_epi16 t0 m0 0xF0) in
  let t2 := (mm_slli_si128 m3 8) in
  let buf := (mm_blend_epi16 t1 t2 0xC0) in
  let '(row1, row2, row3, row4) := g2 row1 row2 row3 row4 buf in
  let '(row1, row3, row4) := diagonalize row1 row3 row4 in
  let t0 := (mm_blend_epi16 m0 m2 0x3C) in
  let t1 := (mm_srli_si128 m1 12) in
  let t2 := (mm_blend_epi16 t0 t1 0x03) in
  let buf := (mm_shuffle_epi32 t2 (MM_SHUFFLE 0 3 2 1)) in
  let '(row1, row2, row3, row4) := g1 row1 row2 row3 row4 buf in
  let t0 := (mm_slli_si128 m3 4) in
  let t1 := (mm_blend_epi16 m0 m1 0x33) in
  let t2 := (mm_blend_epi16 t1 t0 0xC0) in
  let buf := (mm_shuffle_epi32 t2 (MM_SHUFFLE 1 2 3 0)) in
  let '(row1, row2, row3, row4) := g2 row1 row2 row3 row4 buf in
  let '(row1, row3, row4) := undiagonalize row1 row3 row4 in
  (row1, row2, row3, row4).

(* src/sse41.rs: the statements under "// round 4", from line 219 *)
Definition sse41_row_round4 (m0 m1 m2 m3 row1 row2 row3 row4 : vec)
  : vec * vec * vec * vec :=
  let t0 := (mm_unpackhi_epi32 m0 m1) in
  let t1 := (mm_unpackhi_epi32 t0 m2) in
  let t2 := (mm_blend_epi16 t1 m3 0x0C) in
  let buf := (mm_shuffle_epi32 t2 (MM_SHUFFLE 3 1 0 2)) in
  let '(row1, row2, row3, row4) := g1 row1 row2 row3 row4 buf in
  let t0 := (mm_slli_si128 m2 8) in
  let t1 := (mm_blend_epi16 m3 m0 0x0C) in
  let t2 := (mm_blend_epi16 t1 t0 0xC0) in
  let buf := (mm_shuffle_epi32 t2 (MM_SHUFFLE 2 0 1 3)) in
  let '(row1, row2, row3, row4) := g2 row1 row2 row3 row4 buf in
  let '(row1, row3, row4) := diagonalize row1 row3 row4 in
  let t0 := (mm_blend_epi16 m0 m1 0x0F) in
  let t1 := (mm_blend_epi16 t0 m3 0xC0) in
  let buf := (mm_shuffle_epi32 t1 (MM_SHUFFLE 0 1 2 3)) in
  let '(row1, row2, row3, row4) := g1 row1 row2 row3 row4 buf in
  let t0 := (mm_alignr_epi8 m0 m1 4) in
  let buf := (mm_blend_epi16 t0 m2 0x33) in
  let '(row1, row2, row3, row4) := g2 row1 row2 row3 row4 buf in
  let '(row1, row3, row4) := undiagonalize row1 row3 row4 in
  (row1, row2, row3, row4).

(* src/sse41.rs: the statements under "// round 5", from line 240 *)
Definition sse41_row_round5 (m0 m1 m2 m3 row1 row2 row3 row4 : vec)
  : vec * vec * vec * vec :=
  let t0 := (mm_unpacklo_epi64 m1 m2) in
  let t1 := (mm_unpackhi_epi64 m0 m2) in
  let t2 := (mm_blend_epi16 t0 t1 0x33) in
  let buf := (mm_shuffle_epi32 t2 (MM_SHUFFLE 2 0 1 3)) in
  let '(row1, row2, row3, row4) := g1 row1 row2 row3 row4 buf in
  let t0 := (mm_unpackhi_epi64 m1 m3) in
  let t1 := (mm_unpacklo_epi64 m0 m1) in
  let buf := (mm_blend_epi16 t0 t1 0x33) in
  let '(row1, row2, row3, row4) := g2 row1 row2 row3 row4 buf in
  let '(row1, row3, row4) := diagonalize row1 row3 row4 in
  let t0 := (mm_unpackhi_epi64 m3 m1) in
  let t1 := (mm_unpackhi_epi64 m2 m0) in
  let t2 := (mm_blend_epi16 t1 t0 0x33) in
  let buf := (mm_shuffle_epi32 t2 (MM_SHUFFLE 2 1 0 3)) in
  let '(row1, row2, row3, row4) := g1 row1 row2 row3 row4 buf in
  let t0 := (mm_blend_epi16 m0 m2 0x03) in
  let t1 := (mm_slli_si128 t0 8) in
  let t2 := (mm_blend_epi16 t1 m3 0x0F) in
  let buf := (mm_shuffle_epi32 t2 (MM_SHUFFLE 2 0 3 1)) in
  let '(row1, row2, row3, row4) := g2 row1 row2 row3 row4 buf in
  let '(row1, row3, row4) := undiagonalize row1 row3 row4 in
  (row1, row2, row3, row4).

(* src/sse41.rs: the statements under "// round 6", from line 263 *)
Definition sse41_row_round6 (m0 m1 m2 m3 row1 row2 row3 row4 : vec)
  : vec * vec * vec * vec :=
  let t0 := (mm_unpackhi_epi32 m0 m1) in
  let t1 := (mm_unpacklo_epi32 m0 m2) in
  let buf := (mm_unpacklo_epi64 t0 t1) in
  let '(row1, row2, row3, row4) := g1 row1 row2 row3 row4 buf in
  let t0 := (mm_srli_si128 m2 4) in
  let t1 := (mm_blend_epi16 m0 m3 0x03) in
  let buf := (mm_blend_epi16 t1 t0 0x3C) in
  let '(row1, row2, row3, row4) := g2 row1 row2 row3 row4 buf in
  let '(row1, row3, row4) := diagonalize row1 row3 row4 in
  let t0 := (mm_blend_epi16 m1 m0 0x0C) in
  let t1 := (mm_srli_si128 m3 4) in
  let t2 := (mm_blend_epi16 t0 t1 0x30) in
  let buf := (mm_shuffle_epi32 t2 (MM_SHUFFLE 2 3 0 1)) in
  let '(row1, row2, row3, row4) := g1 row1 row2 row3 row4 buf in
  let t0 := (mm_unpacklo_epi64 m2 m1) in
  let t1 := (mm_shuffle_epi32 m3 (MM_SHUFFLE 2 0 1 0)) in
  let t2 := (mm_srli_si128 t0 4) in
  let buf := (mm_blend_epi16 t1 t2 0x33) in
  let '(row1, row2, row3, row4) := g2 row1 row2 row3 row4 buf in
  let '(row1, row3, row4) := undiagonalize row1 row3 row4 in
  (row1, row2, row3, row4).

(* src/sse41.rs: the statements under "// round 7", from line 285 *)
Definition sse41_row_round7 (m0 m1 m2 m3 row1 row2 row3 row4 : vec)
  : vec * vec * vec * vec :=
  let t0 := (mm_slli_si128 m1 12) in
  let t1 := (mm_blend_epi16 m0 m3 0x33) in
  let buf := (mm_blend_epi16 t1 t0 0xC0) in
  let '(row1, row2, row3, row4) := g1 row1 row2 row3 row4 buf in
  let t0 := (mm_blend_epi16 m3 m2 0x30) in
  let t1 := (mm_srli_si128 m1 4) in
  let t2 := (mm_blend_epi16 t0 t1 0x03) in
  let buf := (mm_shuffle_epi32 t2 (MM_SHUFFLE 2 1 3 0)) in
  let '(row1, row2, row3, row4) := g2 row1 row2 row3 row4 buf in
  let '(row1, row3, row4) := diagonalize row1 row3 row4 in
  let t0 := (mm_unpacklo_epi64 m0 m2) in
  let t1 := (mm_srli_si128 m1 4) in
  let buf := (mm_shuffle_epi32 (mm_blend_epi16 t0 t1 0x0C) (MM_SHUFFLE 3 1 0 2)) in
  let '(row1, row2, row3, row4) := g1 row1 row2 row3 row4 buf in
  let t0 := (mm_unpackhi_epi32 m1 m2) in
  let t1 := (mm_unpackhi_epi64 m0 t0) in
  let buf := (mm_shuffle_epi32 t1 (MM_SHUFFLE 0 1 2 3)) in
  let '(row1, row2, row3, row4) := g2 row1 row2 row3 row4 buf in
  let '(row1, row3, row4) := undiagonalize row1 row3 row4 in
  (row1, row2, row3, row4).

(* c/baokeshed_sse41.c: the statements under "// round 1", from line 94 *)
Definition c_sse41_row_round1 (m0 m1 m2 m3 row1 row2 row3 row4 : vec)
  : vec * vec * vec * vec :=
  let buf := (mm_shuffle_ps m0 m1 (MM_SHUFFLE 2 0 2 0)) in
  let '(row1, row2, row3, row4) := g1 row1 row2 row3 row4 buf in
  let buf := (mm_shuffle_ps m0 m1 (MM_SHUFFLE 3 1 3 1)) in
  let '(row1, row2, row3, row4) := g2 row1 row2 row3 row4 buf in
  let '(row1, row3, row4) := diagonalize row1 row3 row4 in
  let t0 := (mm_shuffle_epi32 m2 (MM_SHUFFLE 3 2 0 1)) in
  let t1 := (mm_shuffle_epi32 m3 (MM_SHUFFLE 0 1 3 2)) in
  let buf := (mm_blend_epi16 t0 t1 0xC3) in
  let '(row1, row2, row3, row4) := g1 row1 row2 row3 row4 buf in
  let t0 := (mm_blend_epi16 t0 t1 0x3C) in
  let buf := (mm_shuffle_epi32 t0 (MM_SHUFFLE 2 3 0 1)) in
  let '(row1, row2, row3, row4) := g2 row1 row2 row3 row4 buf in
  let '(row1, row3, row4) := undiagonalize row1 row3 row4 in
  (row1, row2, row3, row4).

(* c/baokeshed_sse41.c: the statements under "// round 2", from line 111 *)
Definition c_sse41_row_round2 (m0 m1 m2 m3 row1 row2 row3 row4 : vec)
  : vec * vec * vec * vec :=
  let t0 := (mm_blend_epi16 m1 m2 0x0C) in
  let t1 := (mm_slli_si128 m3 4) in
  let t2 := (mm_blend_epi16 t0 t1 0xF0) in
  let buf := (mm_shuffle_epi32 t2 (MM_SHUFFLE 2 1 0 3)) in
  let '(row1, row2, row3, row4) := g1 row1 row2 row3 row4 buf in
  let t0 := (mm_shuffle_epi32 m2 (MM_SHUFFLE 0 0 2 0)) in
  let t1 := (mm_blend_epi16 m1 m3 0xC0) in
  let t2 := (mm_blend_epi16 t0 t1 0xF0) in
  let buf := (mm_shuffle_epi32 t2 (MM_SHUFFLE 2 3 0 1)) in
  let '(row1, row2, row3, row4) := g2 row1 row2 row3 row4 buf in
  let '(row1, row3, row4) := diagonalize row1 row3 row4 in
  let t0 := (mm_slli_si128 m1 4) in
  let t1 := (mm_blend_epi16 m2 t0 0x30) in
  let t2 := (mm_blend_epi16 m0 t1 0xF0) in
  let buf := (mm_shuffle_epi32 t2 (MM_SHUFFLE 3 0 1 2)) in
  let '(row1, row2, row3, row4) := g1 row1 row2 row3 row4 buf in
  let t0 := (mm_unpackhi_epi32 m0 m1) in
  let t1 := (mm_slli_si128 m3 4) in
  let t2 := (mm_blend_epi16 t0 t1 0x0C) in
  let buf := (mm_shuffle_epi32 t2 (MM_SHUFFLE 3 0 1 2)) in
  let '(row1, row2, row3, row4) := g2 row1 row2 row3 row4 buf in
  let '(row1, row3, row4) := undiagonalize row1 row3 row4 in
  (row1, row2, row3, row4).

(* c/baokeshed_sse41.c: the statements under "// round 3", from line 135 *)
Definition c_sse41_row_round3 (m0 m1 m2 m3 row1 row2 row3 row4 : vec)
  : vec * vec * vec * vec :=
  let t0 := (mm_unpackhi_epi32 m2 m3) in
  let t1 := (mm_blend_epi16 m3 m1 0x0C) in
  let t2 := (mm_blend_epi16 t0 t1 0x0F) in
  let buf := (mm_shuffle_epi32 t2 (MM_SHUFFLE 3 1 0 2)) in
  let '(row1, row2, row3, row4) := g1 row1 row2 row3 row4 buf in
  let t0 := (mm_unpacklo_epi32 m2 m0) in
  let t1 := (mm_blend_epi16 t0 m0 0xF0) in
  let t2 := (mm_slli_si128 m3 8) in
  let buf := (mm_blend_epi16 t1 t2 0xC0) in
  let '(row1, row2, row3, row4) := g2 row1 row2 row3 row4 buf in
  let '(row1, row3, row4) := diagonalize row1 row3 row4 in
  let t0 := (mm_blend_epi16 m0 m2 0x3C) in
  let t1 := (mm_srli_si128 m1 12) in
  let t2 := (mm_blend_epi16 t0 t1 0x03) in
  let buf := (mm_shuffle_epi32 t2 (MM_SHUFFLE 0 3 2 1)) in
  let '(row1, row2, row3, row4) := g1 row1 row2 row3 row4 buf in
  let t0 := (mm_slli_si128 m3 4) in
  let t1 := (mm_blend_epi16 m0 m1 0x33) in
  let t2 := (mm_blend_epi16 t1 t0 0xC0) in
  let buf := (mm_shuffle_epi32 t2 (MM_SHUFFLE 1 2 3 0)) in
  let '(row1, row2, row3, row4) := g2 row1 row2 row3 row4 buf in
  let '(row1, row3, row4) := undiagonalize row1 row3 row4 in
  (row1, row2, row3, row4).

(* c/baokeshed_sse41.c: the statements under "// round 4", from line 159 *)
Definition c_sse41_row_round4 (m0 m1 m2 m3 row1 row2 row3 row4 : vec)
  : vec * vec * vec * vec :=
  let t0 := (mm_unpackhi_epi32 m0 m1) in
  let t1 := (mm_unpackhi_epi32 t0 m2) in
  let t2 := (mm_blend_epi16 t1 m3 0x0C) in
  let buf := (mm_shuffle_epi32 t2 (MM_SHUFFLE 3 1 0 2)) in
  let '(row1, row2, row3, row4) := g1 row1 row2 row3 row4 buf in
  let t0 := (mm_slli_si128 m2 8) in
  let t1 := (mm_blend_epi16 m3 m0 0x0C) in
  let t2 := (mm_blend_epi16 t1 t0 0xC0) in
  let buf := (mm_shuffle_epi32 t2 (MM_SHUFFLE 2 0 1 3)) in
  let '(row1, row2, row3, row4) := g2 row1 row2 row3 row4 buf in
  let '(row1, row3, row4) := diagonalize row1 row3 row4 in
  let t0 := (mm_blend_epi16 m0 m1 0x0F) in
  let t1 := (mm_blend_epi16 t0 m3 0xC0) in
  let buf := (mm_shuffle_epi32 t1 (MM_SHUFFLE 0 1 2 3)) in
  let '(row1, row2, row3, row4) := g1 row1 row2 row3 row4 buf in
  let t0 := (mm_alignr_epi8 m0 m1 4) in
  let buf := (mm_blend_epi16 t0 m2 0x33) in
  let '(row1, row2, row3, row4) := g2 row1 row2 row3 row4 buf in
  let '(row1, row3, row4) := undiagonalize row1 row3 row4 in
  (row1, row2, row3, row4).

(* c/baokeshed_sse41.c: the statements under "// round 5", from line 180 *)
Definition c_sse41_row_round5 (m0 m1 m2 m3 row1 row2 row3 row4 : vec)
  : vec * vec * vec * vec :=
  let t0 := (mm_unpacklo_epi64 m1 m2) in
  let t1 := (mm_unpackhi_epi64 m0 m2) in
  let t2 := (mm_blend_epi16 t0 t1 0x33) in
  let buf := (mm_shuffle_epi32 t2 (MM_SHUFFLE 2 0 1 3)) in
  let '(row1, row2, row3, row4) := g1 row1 row2 row3 row4 buf in
  let t0 := (mm_unpackhi_epi64 m1 m3) in
  let t1 := (mm_unpacklo_epi64 m0 m1) in
  let buf := (mm_blend_epi16 t0 t1 0x33) in
  let '(row1, row2, row3, row4) := g2 row1 row2 row3 row4 buf in
  let '(row1, row3, row4) := diagonalize row1 row3 row4 in
  let t0 := (mm_unpackhi_epi64 m3 m1) in
  let t1 := (mm_unpackhi_epi64 m2 m0) in
  let t2 := (mm_blend_epi16 t1 t0 0x33) in
  let buf := (mm_shuffle_epi32 t2 (MM_SHUFFLE 2 1 0 3)) in
  let '(row1, row2, row3, row4) := g1 row1 row2 row3 row4 buf in
  let t0 := (mm_blend_epi16 m0 m2 0x03) in
  let t1 := (mm_slli_si128 t0 8) in
  let t2 := (mm_blend_epi16 t1 m3 0x0F) in
  let buf := (mm_shuffle_epi32 t2 (MM_SHUFFLE 2 0 3 1)) in
  let '(row1, row2, row3, row4) := g2 row1 row2 row3 row4 buf in
  let '(row1, row3, row4) := undiagonalize row1 row3 row4 in
  (row1, row2, row3, row4).

(* c/baokeshed_sse41.c: the statements under "// round 6", from line 203 *)
Definition c_sse41_row_round6 (m0 m1 m2 m3 row1 row2 row3 row4 : vec)
  : vec * vec * vec * vec :=
  let t0 := (mm_unpackhi_epi32 m0 m1) in
  let t1 := (mm_unpacklo_epi32 m0 m2) in
  let buf := (mm_unpacklo_epi64 t0 t1) in
  let '(row1, row2, row3, row4) := g1 row1 row2 row3 row4 buf in
  let t0 := (mm_srli_si128 m2 4) in
  let t1 := (mm_blend_epi16 m0 m3 0x03) in
  let buf := (mm_blend_epi16 t1 t0 0x3C) in
  let '(row1, row2, row3, row4) := g2 row1 row2 row3 row4 buf in
  let '(row1, row3, row4) := diagonalize row1 row3 row4 in
  let t0 := (mm_blend_epi16 m1 m0 0x0C) in
  let t1 := (mm_srli_si128 m3 4) in
  let t2 := (mm_blend_epi16 t0 t1 0x30) in
  let buf := (mm_shuffle_epi32 t2 (MM_SHUFFLE 2 3 0 1)) in
  let '(row1, row2, row3, row4) := g1 row1 row2 row3 row4 buf in
  let t0 := (mm_unpacklo_epi64 m2 m1) in
  let t1 := (mm_shuffle_epi32 m3 (MM_SHUFFLE 2 0 1 0)) in
  let t2 := (mm_srli_si128 t0 4) in
  let buf := (mm_blend_epi16 t1 t2 0x33) in
  let '(row1, row2, row3, row4) := g2 row1 row2 row3 row4 buf in
  let '(row1, row3, row4) := undiagonalize row1 row3 row4 in
  (row1, row2, row3, row4).

(* c/baokeshed_sse41.c: the statements under "// round 7", from line 225 *)
Definition c_sse41_row_round7 (m0 m1 m2 m3 row1 row2 row3 row4 : vec)
  : vec * vec * vec * vec :=
  let t0 := (mm_slli_si128 m1 12) in
  let t1 := (mm_blend_epi16 m0 m3 0x33) in
  let buf := (mm_blend_epi16 t1 t0 0xC0) in
  let '(row1, row2, row3, row4) := g1 row1 row2 row3 row4 buf in
  let t0 := (mm_blend_epi16 m3 m2 0x30) in
  let t1 := (mm_srli_si128 m1 4) in
  let t2 := (mm_blend_epi16 t0 t1 0x03) in
  let buf := (mm_shuffle_epi32 t2 (MM_SHUFFLE 2 1 3 0)) in
  let '(row1, row2, row3, row4) := g2 row1 row2 row3 row4 buf in
  let '(row1, row3, row4) := diagonalize row1 row3 row4 in
  let t0 := (mm_unpacklo_epi64 m0 m2) in
  let t1 := (mm_srli_si128 m1 4) in
  let buf := (mm_shuffle_epi32 (mm_blend_epi16 t0 t1 0x0C) (MM_SHUFFLE 3 1 0 2)) in
  let '(row1, row2, row3, row4) := g1 row1 row2 row3 row4 buf in
  let t0 := (mm_unpackhi_epi32 m1 m2) in
  let t1 := (mm_unpackhi_epi64 m0 t0) in
  let buf := (mm_shuffle_epi32 t1 (MM_SHUFFLE 0 1 2 3)) in
  let '(row1, row2, row3, row4) := g2 row1 row2 row3 row4 buf in
  let '(row1, row3, row4) := undiagonalize row1 row3 row4 in
  (row1, row2, row3, row4).

(* c/baokeshed_avx512.c: the statements under "// round 1", from line 127 *)
Definition c_avx512_row_round1 (m0 m1 m2 m3 row1 row2 row3 row4 : vec)
  : vec * vec * vec * vec :=
  let buf := (mm_shuffle_ps m0 m1 (MM_SHUFFLE 2 0 2 0)) in
  let '(row1, row2, row3, row4) := g1 row1 row2 row3 row4 buf in
  let buf := (mm_shuffle_ps m0 m1 (MM_SHUFFLE 3 1 3 1)) in
  let '(row1, row2, row3, row4) := g2 row1 row2 row3 row4 buf in
  let '(row1, row3, row4) := diagonalize row1 row3 row4 in
  let t0 := (mm_shuffle_epi32 m2 (MM_SHUFFLE 3 2 0 1)) in
  let t1 := (mm_shuffle_epi32 m3 (MM_SHUFFLE 0 1 3 2)) in
  let buf := (mm_blend_epi16 t0 t1 0xC3) in
  let '(row1, row2, row3, row4) := g1 row1 row2 row3 row4 buf in
  let t0 := (mm_blend_epi16 t0 t1 0x3C) in
  let buf := (mm_shuffle_epi32 t0 (MM_SHUFFLE 2 3 0 1)) in
  let '(row1, row2, row3, row4) := g2 row1 row2 row3 row4 buf in
  let '(row1, row3, row4) := undiagonalize row1 row3 row4 in
  (row1, row2, row3, row4).

(* c/baokeshed_avx512.c: the statements under "// round 2", from line 144 *)
Definition c_avx512_row_round2 (m0 m1 m2 m3 row1 row2 row3 row4 : vec)
  : vec * vec * vec * vec :=
  let t0 := (mm_blend_epi16 m1 m2 0x0C) in
  let t1 := (mm_slli_si128 m3 4) in
  let t2 := (mm_blend_epi16 t0 t1 0xF0) in
  let buf := (mm_shuffle_epi32 t2 (MM_SHUFFLE 2 1 0 3)) in
  let '(row1, row2, row3, row4) := g1 row1 row2 row3 row4 buf in
  let t0 := (mm_shuffle_epi32 m2 (MM_SHUFFLE 0 0 2 0)) in
  let t1 := (mm_blend_epi16 m1 m3 0xC0) in
  let t2 := (mm_blend_epi16 t0 t1 0xF0) in
  let buf := (mm_shuffle_epi32 t2 (MM_SHUFFLE 2 3 0 1)) in
  let '(row1, row2, row3, row4) := g2 row1 row2 row3 row4 buf in
  let '(row1, row3, row4) := diagonalize row1 row3 row4 in
  let t0 := (mm_slli_si128 m1 4) in
  let t1 := (mm_blend_epi16 m2 t0 0x30) in
  let t2 := (mm_blend_epi16 m0 t1 0xF0) in
  let buf := (mm_shuffle_epi32 t2 (MM_SHUFFLE 3 0 1 2)) in
  let '(row1, row2, row3, row4) := g1 row1 row2 row3 row4 buf in
  let t0 := (mm_unpackhi_epi32 m0 m1) in
  let t1 := (mm_slli_si128 m3 4) in
  let t2 := (mm_blend_epi16 t0 t1 0x0C) in
  let buf := (mm_shuffle_epi32 t2 (MM_SHUFFLE 3 0 1 2)) in
  let '(row1, row2, row3, row4) := g2 row1 row2 row3 row4 buf in
  let '(row1, row3, row4) := undiagonalize row1 row3 row4 in
  (row1, row2, row3, row4).

(* c/baokeshed_avx512.c: the statements under "// round 3", from line 168 *)
Definition c_avx512_row_round3 (m0 m1 m2 m3 row1 row2 row3 row4 : vec)
  : vec * vec * vec * vec :=
  let t0 := (mm_unpackhi_epi32 m2 m3) in
  let t1 := (mm_blend_epi16 m3 m1 0x0C) in
  let t2 := (mm_blend_epi16 t0 t1 0x0F) in
  let buf := (mm_shuffle_epi32 t2 (MM_SHUFFLE 3 1 0 2)) in
  let '(row1, row2, row3, row4) := g1 row1 row2 row3 row4 buf in
  let t0 := (mm_unpacklo_epi32 m2 m0) in
  let t1 := (mm_blend_epi16 t0 m0 0xF0) in
  let t2 := (mm_slli_si128 m3 8) in
  let buf := (mm_blend_epi16 t1 t2 0xC0) in
  let '(row1, row2, row3, row4) := g2 row1 row2 row3 row4 buf in
  let '(row1, row3, row4) := diagonalize row1 row3 row4 in
  let t0 := (mm_blend_epi16 m0 m2 0x3C) in
  let t1 := (mm_srli_si128 m1 12) in
  let t2 := (mm_blend_epi16 t0 t1 0x03) in
  let buf := (mm_shuffle_epi32 t2 (MM_SHUFFLE 0 3 2 1)) in
  let '(row1, row2, row3, row4) := g1 row1 row2 row3 row4 buf in
  let t0 := (mm_slli_si128 m3 4) in
  let t1 := (mm_blend_epi16 m0 m1 0x33) in
  let t2 := (mm_blend_epi16 t1 t0 0xC0) in
  let buf := (mm_shuffle_epi32 t2 (MM_SHUFFLE 1 2 3 0)) in
  let '(row1, row2, row3, row4) := g2 row1 row2 row3 row4 buf in
  let '(row1, row3, row4) := undiagonalize row1 row3 row4 in
  (row1, row2, row3, row4).

(* c/baokeshed_avx512.c: the statements under "// round 4", from line 192 *)
Definition c_avx512_row_round4 (m0 m1 m2 m3 row1 row2 row3 row4 : vec)
  : vec * vec * vec * vec :=
  let t0 := (mm_unpackhi_epi32 m0 m1) in
  let t1 := (mm_unpackhi_epi32 t0 m2) in
  let t2 := (mm_blend_epi16 t1 m3 0x0C) in
  let buf := (mm_shuffle_epi32 t2 (MM_SHUFFLE 3 1 0 2)) in
  let '(row1, row2, row3, row4) := g1 row1 row2 row3 row4 buf in
  let t0 := (mm_slli_si128 m2 8) in
  let t1 := (mm_blend_epi16 m3 m0 0x0C) in
  let t2 := (mm_blend_epi16 t1 t0 0xC0) in
  let buf := (mm_shuffle_epi32 t2 (MM_SHUFFLE 2 0 1 3)) in
  let '(row1, row2, row3, row4) := g2 row1 row2 row3 row4 buf in
  let '(row1, row3, row4) := diagonalize row1 row3 row4 in
  let t0 := (mm_blend_epi16 m0 m1 0x0F) in
  let t1 := (mm_blend_epi16 t0 m3 0xC0) in
  let buf := (mm_shuffle_epi32 t1 (MM_SHUFFLE 0 1 2 3)) in
  let '(row1, row2, row3, row4) := g1 row1 row2 row3 row4 buf in
  let t0 := (mm_alignr_epi8 m0 m1 4) in
  let buf := (mm_blend_epi16 t0 m2 0x33) in
  let '(row1, row2, row3, row4) := g2 row1 row2 row3 row4 buf in
  let '(row1, row3, row4) := undiagonalize row1 row3 row4 in
  (row1, row2, row3, row4).

(* c/baokeshed_avx512.c: the statements under "// round 5", from line 213 *)
Definition c_avx512_row_round5 (m0 m1 m2 m3 row1 row2 row3 row4 : vec)
  : vec * vec * vec * vec :=
  let t0 := (mm_unpacklo_epi64 m1 m2) in
  let t1 := (mm_unpackhi_epi64 m0 m2) in
  let t2 := (mm_blend_epi16 t0 t1 0x33) in
  let buf := (mm_shuffle_epi32 t2 (MM_SHUFFLE 2 0 1 3)) in
  let '(row1, row2, row3, row4) := g1 row1 row2 row3 row4 buf in
  let t0 := (mm_unpackhi_epi64 m1 m3) in
  let t1 := (mm_unpacklo_epi64 m0 m1) in
  let buf := (mm_blend_epi16 t0 t1 0x33) in
  let '(row1, row2, row3, row4) := g2 row1 row2 row3 row4 buf in
  let '(row1, row3, row4) := diagonalize row1 row3 row4 in
  let t0 := (mm_unpackhi_epi64 m3 m1) in
  let t1 := (mm_unpackhi_epi64 m2 m0) in
  let t2 := (mm_blend_epi16 t1 t0 0x33) in
  let buf := (mm_shuffle_epi32 t2 (MM_SHUFFLE 2 1 0 3)) in
  let '(row1, row2, row3, row4) := g1 row1 row2 row3 row4 buf in
  let t0 := (mm_blend_epi16 m0 m2 0x03) in
  let t1 := (mm_slli_si128 t0 8) in
  let t2 := (mm_blend_epi16 t1 m3 0x0F) in
  let buf := (mm_shuffle_epi32 t2 (MM_SHUFFLE 2 0 3 1)) in
  let '(row1, row2, row3, row4) := g2 row1 row2 row3 row4 buf in
  let '(row1, row3, row4) := undiagonalize row1 row3 row4 in
  (row1, row2, row3, row4).

(* c/baokeshed_avx512.c: the statements under "// round 6", from line 236 *)
Definition c_avx512_row_round6 (m0 m1 m2 m3 row1 row2 row3 row4 : vec)
  : vec * vec * vec * vec :=
  let t0 := (mm_unpackhi_epi32 m0 m1) in
  let t1 := (mm_unpacklo_epi32 m0 m2) in
  let buf := (mm_unpacklo_epi64 t0 t1) in
  let '(row1, row2, row3, row4) := g1 row1 row2 row3 row4 buf in
  let t0 := (mm_srli_si128 m2 4) in
  let t1 := (mm_blend_epi16 m0 m3 0x03) in
  let buf := (mm_blend_epi16 t1 t0 0x3C) in
  let '(row1, row2, row3, row4) := g2 row1 row2 row3 row4 buf in
  let '(row1, row3, row4) := diagonalize row1 row3 row4 in
  let t0 := (mm_blend_epi16 m1 m0 0x0C) in
  let t1 := (mm_srli_si128 m3 4) in
  let t2 := (mm_blend_epi16 t0 t1 0x30) in
  let buf := (mm_shuffle_epi32 t2 (MM_SHUFFLE 2 3 0 1)) in
  let '(row1, row2, row3, row4) := g1 row1 row2 row3 row4 buf in
  let t0 := (mm_unpacklo_epi64 m2 m1) in
  let t1 := (mm_shuffle_epi32 m3 (MM_SHUFFLE 2 0 1 0)) in
  let t2 := (mm_srli_si128 t0 4) in
  let buf := (mm_blend_epi16 t1 t2 0x33) in
  let '(row1, row2, row3, row4) := g2 row1 row2 row3 row4 buf in
  let '(row1, row3, row4) := undiagonalize row1 row3 row4 in
  (row1, row2, row3, row4).

(* c/baokeshed_avx512.c: the statements under "// round 7", from line 258 *)
Definition c_avx512_row_round7 (m0 m1 m2 m3 row1 row2 row3 row4 : vec)
  : vec * vec * vec * vec :=
  let t0 := (mm_slli_si128 m1 12) in
  let t1 := (mm_blend_epi16 m0 m3 0x33) in
  let buf := (mm_blend_epi16 t1 t0 0xC0) in
  let '(row1, row2, row3, row4) := g1 row1 row2 row3 row4 buf in
  let t0 := (mm_blend_epi16 m3 m2 0x30) in
  let t1 := (mm_srli_si128 m1 4) in
  let t2 := (mm_blend_epi16 t0 t1 0x03) in
  let buf := (mm_shuffle_epi32 t2 (MM_SHUFFLE 2 1 3 0)) in
  let '(row1, row2, row3, row4) := g2 row1 row2 row3 row4 buf in
  let '(row1, row3, row4) := diagonalize row1 row3 row4 in
  let t0 := (mm_unpacklo_epi64 m0 m2) in
  let t1 := (mm_srli_si128 m1 4) in
  let buf := (mm_shuffle_epi32 (mm_blend_epi16 t0 t1 0x0C) (MM_SHUFFLE 3 1 0 2)) in
  let '(row1, row2, row3, row4) := g1 row1 row2 row3 row4 buf in
  let t0 := (mm_unpackhi_epi32 m1 m2) in
  let t1 := (mm_unpackhi_epi64 m0 t0) in
  let buf := (mm_shuffle_epi32 t1 (MM_SHUFFLE 0 1 2 3)) in
  let '(row1, row2, row3, row4) := g2 row1 row2 row3 row4 buf in
  let '(row1, row3, row4) := undiagonalize row1 row3 row4 in
  (row1, row2, row3, row4).

End Rows.
