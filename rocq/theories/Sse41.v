(* Model of /repo/src/sse41.rs.  Definitions only. *)
From Coq Require Import NArith List Bool.
From Verif Require Import Base Portable Simd SimdGen SimdHash.
Import ListNotations.
Open Scope N_scope.

(* src/sse41.rs:9 *)
Definition DEGREE : N := 4.

(* src/sse41.rs:43-49 *)
Definition rot16 (a : vec) : vec :=
  mm_shuffle_epi8 a (mm_set_epi8 [13; 12; 15; 14; 9; 8; 11; 10; 5; 4; 7; 6; 1; 0; 3; 2]).
(* src/sse41.rs:51-54 *)
Definition rot12 (a : vec) : vec := xor_si (srli_epi32 a 12) (slli_epi32 a (32 - 12)).
(* src/sse41.rs:56-62 *)
Definition rot8 (a : vec) : vec :=
  mm_shuffle_epi8 a (mm_set_epi8 [12; 15; 14; 13; 8; 11; 10; 9; 4; 7; 6; 5; 0; 3; 2; 1]).
(* src/sse41.rs:64-67 *)
Definition rot7 (a : vec) : vec := xor_si (srli_epi32 a 7) (slli_epi32 a (32 - 7)).

(* add, xor: src/sse41.rs:23-31 *)
Definition ops : vops vec :=
  VOps vec [] add_epi32 xor_si rot16 rot12 rot8 rot7.

(* src/sse41.rs:126-307.  loadu(cv.as_ptr()...) reads the u32 array as four lanes. *)
Definition compress_inner (cv block : list N) (block_len offset flags : N) : list vec :=
  let row1 := firstn 4 cv in
  let row2 := firstn 4 (skipn 4 cv) in
  let row3 := [get IV 0; get IV 1; get IV 2; get IV 3] in
  let row4 := [offset_low offset; offset_high offset; block_len; flags] in
  let m0 := words_of_bytes (take 16 (drop 0 block)) in
  let m1 := words_of_bytes (take 16 (drop 16 block)) in
  let m2 := words_of_bytes (take 16 (drop 32 block)) in
  let m3 := words_of_bytes (take 16 (drop 48 block)) in
  let '(row1, row2, row3, row4) := sse41_row_round1 ops m0 m1 m2 m3 row1 row2 row3 row4 in
  let '(row1, row2, row3, row4) := sse41_row_round2 ops m0 m1 m2 m3 row1 row2 row3 row4 in
  let '(row1, row2, row3, row4) := sse41_row_round3 ops m0 m1 m2 m3 row1 row2 row3 row4 in
  let '(row1, row2, row3, row4) := sse41_row_round4 ops m0 m1 m2 m3 row1 row2 row3 row4 in
  let '(row1, row2, row3, row4) := sse41_row_round5 ops m0 m1 m2 m3 row1 row2 row3 row4 in
  let '(row1, row2, row3, row4) := sse41_row_round6 ops m0 m1 m2 m3 row1 row2 row3 row4 in
  let '(row1, row2, row3, row4) := sse41_row_round7 ops m0 m1 m2 m3 row1 row2 row3 row4 in
  [row1; row2; row3; row4].

Definition row (rows : list vec) (i : nat) : vec := nth i rows [].

(* src/sse41.rs:310-320; returns the new cv. *)
Definition compress (cv block : list N) (block_len offset flags : N) : list N :=
  let rows := compress_inner cv block block_len offset flags in
  xor_si (row rows 0) (row rows 2) ++ xor_si (row rows 1) (row rows 3).

(* src/sse41.rs:323-336; transmute of the rows is the little-endian byte order. *)
Definition compress_xof (cv block : list N) (block_len offset flags : N) : list N :=
  let rows := compress_inner cv block block_len offset flags in
  let r0 := xor_si (row rows 0) (row rows 2) in
  let r1 := xor_si (row rows 1) (row rows 3) in
  let r2 := xor_si (row rows 2) (firstn 4 cv) in
  let r3 := xor_si (row rows 3) (firstn 4 (skipn 4 cv)) in
  bytes_of_words (r0 ++ r1 ++ r2 ++ r3).

(* src/sse41.rs:456-475 *)
Definition transpose_vecs (v : list vec) : list vec :=
  let ab_01 := mm_unpacklo_epi32 (row v 0) (row v 1) in
  let ab_23 := mm_unpackhi_epi32 (row v 0) (row v 1) in
  let cd_01 := mm_unpacklo_epi32 (row v 2) (row v 3) in
  let cd_23 := mm_unpackhi_epi32 (row v 2) (row v 3) in
  let abcd_0 := mm_unpacklo_epi64 ab_01 cd_01 in
  let abcd_1 := mm_unpackhi_epi64 ab_01 cd_01 in
  let abcd_2 := mm_unpacklo_epi64 ab_23 cd_23 in
  let abcd_3 := mm_unpackhi_epi64 ab_23 cd_23 in
  [abcd_0; abcd_1; abcd_2; abcd_3].

(* src/sse41.rs:478-503 *)
Definition transpose_msg_vecs (inputs : list (list N)) (block_offset : N) : res (list vec) :=
  let* vecs := load_grid 16 inputs block_offset [0; 16; 32; 48] in
  Ok (transpose_vecs (firstn 4 vecs)
      ++ transpose_vecs (firstn 4 (skipn 4 vecs))
      ++ transpose_vecs (firstn 4 (skipn 8 vecs))
      ++ transpose_vecs (firstn 4 (skipn 12 vecs))).

(* src/sse41.rs:506-521 *)
Definition load_offsets (c : cfg) (offset offset_delta : N) : res (vec * vec) :=
  let* offs := lane_offsets c 4 offset offset_delta in
  Ok (map offset_low offs, map offset_high offs).

(* src/sse41.rs:524-610.  Returns the 128 bytes written to out. *)
Definition hash4 (c : cfg) (inputs : list (list N)) (blocks : N) (key : list N)
  (offset offset_delta flags flags_start flags_end : N) : res (list N) :=
  let h := map (fun i => set1_epi32 4 (get key i)) (seq 0 8) in
  let* (offset_low_vec, offset_high_vec) := load_offsets c offset offset_delta in
  let* h := vec_hash_loop ops sse41_round_code (set1_epi32 4) (transpose_msg_vecs inputs)
              (N.to_nat blocks) 0 blocks h offset_low_vec offset_high_vec
              (N.lor flags flags_start) flags flags_end in
  let h := transpose_vecs (firstn 4 h) ++ transpose_vecs (skipn 4 h) in
  Ok (storeu (row h 0) ++ storeu (row h 4) ++ storeu (row h 1) ++ storeu (row h 5)
      ++ storeu (row h 2) ++ storeu (row h 6) ++ storeu (row h 3) ++ storeu (row h 7)).

(* src/sse41.rs:613-641 *)
Definition hash1 (c : cfg) (input key : list N) (offset flags flags_start flags_end : N)
  : res (list N) :=
  dassert c (len input mod BLOCK_LEN =? 0) ;;
  let* cv := hash1_loop compress (length input) key input offset
                        (N.lor flags flags_start) flags flags_end in
  Ok (bytes_of_words cv).

(* src/sse41.rs:644-687.  cap is A::CAPACITY, the length of each input array. *)
Definition hash_many (c : cfg) (cap : N) (inputs : list (list N)) (key : list N)
  (offset offset_delta flags flags_start flags_end : N) (out : list N) : res (list N) :=
  dassert c (len inputs * OUT_LEN <=? len out) ;;
  batch_loop c (length inputs) DEGREE
    (fun four off => hash4 c four (cap / BLOCK_LEN) key off offset_delta
                           flags flags_start flags_end)
    (fun inputs off out =>
       hash_each c (fun input off => hash1 c input key off flags flags_start flags_end)
         inputs off offset_delta out)
    inputs offset offset_delta out.
