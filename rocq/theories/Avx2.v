(* Model of /repo/src/avx2.rs.  Definitions only. *)
From Coq Require Import NArith List Bool.
From Verif Require Import Base Portable Simd SimdGen SimdHash.
From Verif Require Sse41.
Import ListNotations.
Open Scope N_scope.

(* src/avx2.rs:9 *)
Definition DEGREE : N := 8.

(* src/avx2.rs:45-54 *)
Definition rot16 (x : vec) : vec :=
  mm256_shuffle_epi8 x
    (mm_set_epi8 [13; 12; 15; 14; 9; 8; 11; 10; 5; 4; 7; 6; 1; 0; 3; 2;
                  13; 12; 15; 14; 9; 8; 11; 10; 5; 4; 7; 6; 1; 0; 3; 2]).
(* src/avx2.rs:56-59 *)
Definition rot12 (x : vec) : vec := or_si (srli_epi32 x 12) (slli_epi32 x 20).
(* src/avx2.rs:61-70 *)
Definition rot8 (x : vec) : vec :=
  mm256_shuffle_epi8 x
    (mm_set_epi8 [12; 15; 14; 13; 8; 11; 10; 9; 4; 7; 6; 5; 0; 3; 2; 1;
                  12; 15; 14; 13; 8; 11; 10; 9; 4; 7; 6; 5; 0; 3; 2; 1]).
(* src/avx2.rs:72-75 *)
Definition rot7 (x : vec) : vec := or_si (srli_epi32 x 7) (slli_epi32 x 25).

(* add, xor: src/avx2.rs:23-31 *)
Definition ops : vops vec :=
  VOps vec [] add_epi32 xor_si rot16 rot12 rot8 rot7.

Definition row (rows : list vec) (i : nat) : vec := nth i rows [].

(* src/avx2.rs:194-200 *)
Definition interleave128 (a b : vec) : vec * vec :=
  (mm256_permute2x128_si256 a b 0x20, mm256_permute2x128_si256 a b 0x31).

(* src/avx2.rs:208-244 *)
Definition transpose_vecs (v : list vec) : list vec :=
  let ab_0145 := w_unpacklo_epi32 (row v 0) (row v 1) in
  let ab_2367 := w_unpackhi_epi32 (row v 0) (row v 1) in
  let cd_0145 := w_unpacklo_epi32 (row v 2) (row v 3) in
  let cd_2367 := w_unpackhi_epi32 (row v 2) (row v 3) in
  let ef_0145 := w_unpacklo_epi32 (row v 4) (row v 5) in
  let ef_2367 := w_unpackhi_epi32 (row v 4) (row v 5) in
  let gh_0145 := w_unpacklo_epi32 (row v 6) (row v 7) in
  let gh_2367 := w_unpackhi_epi32 (row v 6) (row v 7) in
  let abcd_04 := w_unpacklo_epi64 ab_0145 cd_0145 in
  let abcd_15 := w_unpackhi_epi64 ab_0145 cd_0145 in
  let abcd_26 := w_unpacklo_epi64 ab_2367 cd_2367 in
  let abcd_37 := w_unpackhi_epi64 ab_2367 cd_2367 in
  let efgh_04 := w_unpacklo_epi64 ef_0145 gh_0145 in
  let efgh_15 := w_unpackhi_epi64 ef_0145 gh_0145 in
  let efgh_26 := w_unpacklo_epi64 ef_2367 gh_2367 in
  let efgh_37 := w_unpackhi_epi64 ef_2367 gh_2367 in
  let '(abcdefgh_0, abcdefgh_4) := interleave128 abcd_04 efgh_04 in
  let '(abcdefgh_1, abcdefgh_5) := interleave128 abcd_15 efgh_15 in
  let '(abcdefgh_2, abcdefgh_6) := interleave128 abcd_26 efgh_26 in
  let '(abcdefgh_3, abcdefgh_7) := interleave128 abcd_37 efgh_37 in
  [abcdefgh_0; abcdefgh_1; abcdefgh_2; abcdefgh_3;
   abcdefgh_4; abcdefgh_5; abcdefgh_6; abcdefgh_7].

(* src/avx2.rs:246-270 *)
Definition transpose_msg_vecs (inputs : list (list N)) (block_offset : N) : res (list vec) :=
  let* vecs := load_grid 32 inputs block_offset [0; 32] in
  Ok (transpose_vecs (firstn 8 vecs) ++ transpose_vecs (skipn 8 vecs)).

(* src/avx2.rs:272-296 *)
Definition load_offsets (c : cfg) (offset offset_delta : N) : res (vec * vec) :=
  let* offs := lane_offsets c 8 offset offset_delta in
  Ok (map offset_low offs, map offset_high offs).

(* src/avx2.rs:298-381.  Returns the 256 bytes written to out. *)
Definition hash8 (c : cfg) (inputs : list (list N)) (blocks : N) (key : list N)
  (offset offset_delta flags flags_start flags_end : N) : res (list N) :=
  let h := map (fun i => set1_epi32 8 (get key i)) (seq 0 8) in
  let* (offset_low_vec, offset_high_vec) := load_offsets c offset offset_delta in
  let* h := vec_hash_loop ops avx2_round_code (set1_epi32 8) (transpose_msg_vecs inputs)
              (N.to_nat blocks) 0 blocks h offset_low_vec offset_high_vec
              (N.lor flags flags_start) flags flags_end in
  let h := transpose_vecs h in
  Ok (storeu (row h 0) ++ storeu (row h 1) ++ storeu (row h 2) ++ storeu (row h 3)
      ++ storeu (row h 4) ++ storeu (row h 5) ++ storeu (row h 6) ++ storeu (row h 7)).

(* src/avx2.rs:383-425 *)
Definition hash_many (c : cfg) (cap : N) (inputs : list (list N)) (key : list N)
  (offset offset_delta flags flags_start flags_end : N) (out : list N) : res (list N) :=
  dassert c (len inputs * OUT_LEN <=? len out) ;;
  batch_loop c (length inputs) DEGREE
    (fun eight off => hash8 c eight (cap / BLOCK_LEN) key off offset_delta
                            flags flags_start flags_end)
    (fun inputs off out =>
       Sse41.hash_many c cap inputs key off offset_delta flags flags_start flags_end out)
    inputs offset offset_delta out.
