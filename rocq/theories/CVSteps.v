(* The compression functions and hash_many functions of /repo/c again, see CSimd.v, this time
   noting the intrinsics executed and the memory accessed; see VOps.v for what is noted.
   Definitions only.

   Where the code evaluates the operands of one expression, or the elements of one array
   expression, they are noted from left to right; C leaves their order open.  The loops of the
   vectorised functions, and the loads of their messages, are those of VSteps.v: the C code
   has the same statements as the Rust code. *)
From Coq Require Import NArith List Bool.
From Verif Require Import Base Portable Simd SimdGen SimdHash Steps VOps VSimdGen VSteps.
From Verif Require Import CSimd CImpl.
Import ListNotations.
Open Scope N_scope.

(* ---- loops ---------------------------------------------------------------------------------- *)

(* The `while (blocks > 0)` loop of hash_one_*: c/baokeshed_portable.c:82-90,
   c/baokeshed_sse41.c:492-500, c/baokeshed_avx512.c:1106-1114, c/baokeshed_neon.c:299-308.
   Input number k; pos is the position of input in it. *)
Fixpoint cv_hash_one_loop (comp : list N -> list N -> N -> N -> N -> vs (list N)) (k : nat)
  (pos : N) (blocks : nat) (state input : list N) (offset block_flags flags flags_end : N)
  : vs (list N) :=
  match blocks with
  | O => vlift (Ok state)
  | S blocks' =>
      let block_flags :=
        match blocks' with O => N.lor block_flags flags_end | S _ => block_flags end in
      let? block := ([Call (PInput k) pos], slice input 0 C_BLOCK_LEN) in
      let? state := comp state block C_BLOCK_LEN offset block_flags in
      cv_hash_one_loop comp k (pos + C_BLOCK_LEN) blocks' state (drop C_BLOCK_LEN input) offset
                       flags flags flags_end
  end.

(* hash_one_*: c/baokeshed_sse41.c:485-502, c/baokeshed_avx512.c:1098-1115,
   c/baokeshed_neon.c:292-310: the key is copied, the loop runs, and the state is copied to
   the 32 bytes of output number k *)
Definition cv_hash_one (comp : list N -> list N -> N -> N -> N -> vs (list N)) (blocks : N)
  (key : list N) (flags flags_start flags_end : N) (k : nat) (input : list N) (offset : N)
  : vs (list N) :=
  ([Load PKey 0 32], Ok tt) ;?
  let? state := cv_hash_one_loop comp k 0 (N.to_nat blocks) key input offset
                  (N.lor flags flags_start) flags flags_end in
  ([Store POut (32 * N.of_nat k) 32], Ok (bytes_of_words state)).

(* The loops of hash_many_*, see CSimd.many_loop; k is the number of the first of the inputs
   left, which is also the number of the first output left *)
Fixpoint cv_many_loop (fuel : nat) (degree : N)
  (hashN : nat -> list (list N) -> N -> vs (list N))
  (rest : nat -> list (list N) -> N -> list N -> vs (list N)) (k : nat)
  (inputs : list (list N)) (offset : N) (deltas out : list N) : vs (list N) :=
  if degree <=? len inputs then
    match fuel with
    | O => vlift NoFuel
    | S fuel' =>
        let? hs := hashN k (take degree inputs) offset in
        let? delta := ([Get PDeltas (N.to_nat degree)], index deltas degree) in
        let offset := (offset + delta) mod W64 in
        let? tl := vlift (slice_from out (degree * C_OUT_LEN)) in
        let? tl := cv_many_loop fuel' degree hashN rest (k + N.to_nat degree)
                     (drop degree inputs) offset deltas tl in
        vlift (Ok (hs ++ tl))
    end
  else rest k inputs offset out.
Definition cv_single_loop (hash_one : nat -> list N -> N -> vs (list N)) (deltas : list N)
  (k : nat) (inputs : list (list N)) (offset : N) (out : list N) : vs (list N) :=
  cv_many_loop (length inputs) 1
    (fun k one off => let? i := vlift (index one 0) in hash_one k i off)
    (fun _ _ _ out => vlift (Ok out)) k inputs offset deltas out.

(* offset + deltas[i] for i = 0 .. n-1 *)
Definition cv_delta_offsets (n : nat) (offset : N) (deltas : list N) : vs (list N) :=
  v_map (fun i => let? d := ([Get PDeltas i], index deltas (N.of_nat i)) in
                  vlift (Ok ((offset + d) mod W64)))
        (seq 0 n).
(* load_offsets: c/baokeshed_sse41.c:412-422, c/baokeshed_avx2.c:220-238,
   c/baokeshed_neon.c:215-223; the deltas are read for the low halves and again for the high
   halves *)
Definition cv_load_offsets (n : nat) (offset : N) (deltas : list N) : vs (vec * vec) :=
  let? offs := cv_delta_offsets n offset deltas in
  let? low := ([Lanes n], Ok (map c_offset_low offs)) in
  let? offs := cv_delta_offsets n offset deltas in
  let? high := ([Lanes n], Ok (map c_offset_high offs)) in
  vlift (Ok (low, high)).

(* transpose_msg_vecs of four inputs: c/baokeshed_sse41.c:388-410,
   c/baokeshed_avx512.c:427-449, c/baokeshed_neon.c:191-213 *)
Definition cv_msg4 (transpose : list vec -> vs (list vec)) (k0 : nat) (inputs : list (list N))
  (block_offset : N) : vs (list vec) :=
  let? v := v_load_grid k0 16 inputs block_offset [0; 16; 32; 48] in
  let? s0 := transpose (firstn 4 v) in
  let? s1 := transpose (firstn 4 (skipn 4 v)) in
  let? s2 := transpose (firstn 4 (skipn 8 v)) in
  let? s3 := transpose (firstn 4 (skipn 12 v)) in
  vlift (Ok (s0 ++ s1 ++ s2 ++ s3)).

(* hash4_*, from the first statement to the last: c/baokeshed_sse41.c:424-483,
   c/baokeshed_avx512.c:459-518, c/baokeshed_neon.c:225-284.  Vector j of the transposed state
   is stored at 16-byte position i of the output. *)
Definition cv_hash4 (O : svops) (code : list instr) (transpose : list vec -> vs (list vec))
  (load_offsets : N -> list N -> vs (vec * vec)) (k0 : nat) (inputs : list (list N)) (blocks : N)
  (key : list N) (offset : N) (deltas : list N) (flags flags_start flags_end : N) : vs (list N) :=
  let? h := v_map (fun i => let? x := word PKey key i in lanes1 4 x) (seq 0 8) in
  let? (lo, hi) := load_offsets offset deltas in
  let? h := v_vec_hash_loop O code 4 (cv_msg4 transpose k0 inputs) (N.to_nat blocks) 0 blocks
              h lo hi (N.lor flags flags_start) flags flags_end in
  let? a := transpose (firstn 4 h) in
  let? b := transpose (skipn 4 h) in
  let h := a ++ b in
  let? bs := v_map (fun ij => store (32 * N.of_nat k0 + 16 * fst ij) 16 (vrow h (snd ij)))
               [(0, 0%nat); (1, 4%nat); (2, 1%nat); (3, 5%nat);
                (4, 2%nat); (5, 6%nat); (6, 3%nat); (7, 7%nat)] in
  vlift (Ok (concat bs)).

(* ---- c/baokeshed_portable.c ----------------------------------------------------------------- *)

(* c/baokeshed_portable.c:33-73: the steps are those of Steps.v *)
Definition cv_compress_portable (state block : list N) (block_len offset flags : N)
  : vs (list N) :=
  (map Scalar (fst (sc_compress_portable state block block_len offset flags)),
   Ok (compress_portable state block block_len offset flags)).

(* c/baokeshed_portable.c:75-92; write_state_bytes (c/baokeshed_impl.h:127-136) writes four
   bytes of each word of the state.  They are noted together, store32 writes them one by
   one. *)
Definition cv_hash_one_portable (blocks : N) (key : list N) (flags flags_start flags_end : N)
  (k : nat) (input : list N) (offset : N) : vs (list N) :=
  ([Load PKey 0 32], Ok tt) ;?
  let? state := cv_hash_one_loop cv_compress_portable k 0 (N.to_nat blocks) key input offset
                  (N.lor flags flags_start) flags flags_end in
  let? bs := v_map (fun i => ([Store POut (32 * N.of_nat k + 4 * N.of_nat i) 4],
                              Ok (store32 (get state i)))) (seq 0 8) in
  vlift (Ok (concat bs)).

(* c/baokeshed_portable.c:94-107 *)
Definition cv_hash_many_portable (k : nat) (inputs : list (list N)) (blocks : N)
  (key : list N) (offset : N) (deltas : list N) (flags flags_start flags_end : N)
  (out : list N) : vs (list N) :=
  cv_single_loop (cv_hash_one_portable blocks key flags flags_start flags_end) deltas
    k inputs offset out.

(* ---- c/baokeshed_sse41.c -------------------------------------------------------------------- *)

(* c/baokeshed_sse41.c:26-42; addv, xorv 15-18 *)
Definition cv_s_rot16 (x : vec) : vs vec :=
  op1 (ShuffleEpi8 (mm_set_epi8 [13; 12; 15; 14; 9; 8; 11; 10; 5; 4; 7; 6; 1; 0; 3; 2])) x.
Definition cv_s_rot12 (x : vec) : vs vec :=
  let? a := op1 (SrliEpi32 12) x in
  let? b := op1 (SlliEpi32 (32 - 12)) x in
  op2 XorSi a b.
Definition cv_s_rot8 (x : vec) : vs vec :=
  op1 (ShuffleEpi8 (mm_set_epi8 [12; 15; 14; 13; 8; 11; 10; 9; 4; 7; 6; 5; 0; 3; 2; 1])) x.
Definition cv_s_rot7 (x : vec) : vs vec :=
  let? a := op1 (SrliEpi32 7) x in
  let? b := op1 (SlliEpi32 (32 - 7)) x in
  op2 XorSi a b.
Definition cv_s_ops : svops :=
  SVOps (op2 AddEpi32) (op2 XorSi) cv_s_rot16 cv_s_rot12 cv_s_rot8 cv_s_rot7.

(* c/baokeshed_sse41.c:79-249 *)
Definition cv_compress_sse41 (state block : list N) (block_len offset flags : N) : vs (list N) :=
  let? row1 := ([Load PCv 0 16], Ok (firstn 4 state)) in
  let? row2 := ([Load PCv 16 16], Ok (firstn 4 (skipn 4 state))) in
  let? iv0 := word PIV C_IV 0 in
  let? iv1 := word PIV C_IV 1 in
  let? iv2 := word PIV C_IV 2 in
  let? iv3 := word PIV C_IV 3 in
  let? row3 := lanes [iv0; iv1; iv2; iv3] in
  let? row4 := lanes [c_offset_low offset; c_offset_high offset; block_len; flags] in
  let? m0 := ([Load PBlock 0 16], Ok (words_of_bytes (take 16 (drop 0 block)))) in
  let? m1 := ([Load PBlock 16 16], Ok (words_of_bytes (take 16 (drop 16 block)))) in
  let? m2 := ([Load PBlock 32 16], Ok (words_of_bytes (take 16 (drop 32 block)))) in
  let? m3 := ([Load PBlock 48 16], Ok (words_of_bytes (take 16 (drop 48 block)))) in
  let? (row1, row2, row3, row4) :=
    v_c_sse41_row_round1 cv_s_ops m0 m1 m2 m3 row1 row2 row3 row4 in
  let? (row1, row2, row3, row4) :=
    v_c_sse41_row_round2 cv_s_ops m0 m1 m2 m3 row1 row2 row3 row4 in
  let? (row1, row2, row3, row4) :=
    v_c_sse41_row_round3 cv_s_ops m0 m1 m2 m3 row1 row2 row3 row4 in
  let? (row1, row2, row3, row4) :=
    v_c_sse41_row_round4 cv_s_ops m0 m1 m2 m3 row1 row2 row3 row4 in
  let? (row1, row2, row3, row4) :=
    v_c_sse41_row_round5 cv_s_ops m0 m1 m2 m3 row1 row2 row3 row4 in
  let? (row1, row2, row3, row4) :=
    v_c_sse41_row_round6 cv_s_ops m0 m1 m2 m3 row1 row2 row3 row4 in
  let? (row1, row2, row3, row4) :=
    v_c_sse41_row_round7 cv_s_ops m0 m1 m2 m3 row1 row2 row3 row4 in
  let? x := op2 XorSi row1 row3 in
  ([Store PCv 0 16], Ok tt) ;?
  let? y := op2 XorSi row2 row4 in
  ([Store PCv 16 16], Ok tt) ;?
  vlift (Ok (x ++ y)).

(* c/baokeshed_sse41.c:367-386 *)
Definition cv_s_transpose (v : list vec) : vs (list vec) :=
  let? ab_01 := op2 UnpackLo32 (vrow v 0) (vrow v 1) in
  let? ab_23 := op2 UnpackHi32 (vrow v 0) (vrow v 1) in
  let? cd_01 := op2 UnpackLo32 (vrow v 2) (vrow v 3) in
  let? cd_23 := op2 UnpackHi32 (vrow v 2) (vrow v 3) in
  let? r0 := op2 UnpackLo64 ab_01 cd_01 in
  let? r1 := op2 UnpackHi64 ab_01 cd_01 in
  let? r2 := op2 UnpackLo64 ab_23 cd_23 in
  let? r3 := op2 UnpackHi64 ab_23 cd_23 in
  vlift (Ok [r0; r1; r2; r3]).

(* c/baokeshed_sse41.c:424-483 *)
Definition cv_hash4_sse41 :=
  cv_hash4 cv_s_ops c_sse41_round_code cv_s_transpose (cv_load_offsets 4).

(* c/baokeshed_sse41.c:504-525; k is the number of the first input *)
Definition cv_hash_many_sse41 (k : nat) (inputs : list (list N)) (blocks : N)
  (key : list N) (offset : N) (deltas : list N) (flags flags_start flags_end : N)
  (out : list N) : vs (list N) :=
  cv_many_loop (length inputs) 4
    (fun k four off => cv_hash4_sse41 k four blocks key off deltas flags flags_start flags_end)
    (cv_single_loop (cv_hash_one cv_compress_sse41 blocks key flags flags_start flags_end) deltas)
    k inputs offset deltas out.

(* ---- c/baokeshed_avx2.c --------------------------------------------------------------------- *)

(* c/baokeshed_avx2.c:28-46; addv, xorv 15-18 *)
Definition cv_a_rot16 (x : vec) : vs vec :=
  op1 (ShuffleEpi8x2
         (mm_set_epi8 [13; 12; 15; 14; 9; 8; 11; 10; 5; 4; 7; 6; 1; 0; 3; 2;
                       13; 12; 15; 14; 9; 8; 11; 10; 5; 4; 7; 6; 1; 0; 3; 2])) x.
Definition cv_a_rot12 (x : vec) : vs vec :=
  let? a := op1 (SrliEpi32 12) x in
  let? b := op1 (SlliEpi32 (32 - 12)) x in
  op2 XorSi a b.
Definition cv_a_rot8 (x : vec) : vs vec :=
  op1 (ShuffleEpi8x2
         (mm_set_epi8 [12; 15; 14; 13; 8; 11; 10; 9; 4; 7; 6; 5; 0; 3; 2; 1;
                       12; 15; 14; 13; 8; 11; 10; 9; 4; 7; 6; 5; 0; 3; 2; 1])) x.
Definition cv_a_rot7 (x : vec) : vs vec :=
  let? a := op1 (SrliEpi32 7) x in
  let? b := op1 (SlliEpi32 (32 - 7)) x in
  op2 XorSi a b.
Definition cv_a_ops : svops :=
  SVOps (op2 AddEpi32) (op2 XorSi) cv_a_rot16 cv_a_rot12 cv_a_rot8 cv_a_rot7.

(* c/baokeshed_avx2.c:164-196 and, the same text, c/baokeshed_avx512.c:642-674 *)
Definition cv_a_transpose (v : list vec) : vs (list vec) :=
  let? ab_0145 := op2 UnpackLo32w (vrow v 0) (vrow v 1) in
  let? ab_2367 := op2 UnpackHi32w (vrow v 0) (vrow v 1) in
  let? cd_0145 := op2 UnpackLo32w (vrow v 2) (vrow v 3) in
  let? cd_2367 := op2 UnpackHi32w (vrow v 2) (vrow v 3) in
  let? ef_0145 := op2 UnpackLo32w (vrow v 4) (vrow v 5) in
  let? ef_2367 := op2 UnpackHi32w (vrow v 4) (vrow v 5) in
  let? gh_0145 := op2 UnpackLo32w (vrow v 6) (vrow v 7) in
  let? gh_2367 := op2 UnpackHi32w (vrow v 6) (vrow v 7) in
  let? abcd_04 := op2 UnpackLo64w ab_0145 cd_0145 in
  let? abcd_15 := op2 UnpackHi64w ab_0145 cd_0145 in
  let? abcd_26 := op2 UnpackLo64w ab_2367 cd_2367 in
  let? abcd_37 := op2 UnpackHi64w ab_2367 cd_2367 in
  let? efgh_04 := op2 UnpackLo64w ef_0145 gh_0145 in
  let? efgh_15 := op2 UnpackHi64w ef_0145 gh_0145 in
  let? efgh_26 := op2 UnpackLo64w ef_2367 gh_2367 in
  let? efgh_37 := op2 UnpackHi64w ef_2367 gh_2367 in
  let? r0 := op2 (Permute2x128 0x20) abcd_04 efgh_04 in
  let? r1 := op2 (Permute2x128 0x20) abcd_15 efgh_15 in
  let? r2 := op2 (Permute2x128 0x20) abcd_26 efgh_26 in
  let? r3 := op2 (Permute2x128 0x20) abcd_37 efgh_37 in
  let? r4 := op2 (Permute2x128 0x31) abcd_04 efgh_04 in
  let? r5 := op2 (Permute2x128 0x31) abcd_15 efgh_15 in
  let? r6 := op2 (Permute2x128 0x31) abcd_26 efgh_26 in
  let? r7 := op2 (Permute2x128 0x31) abcd_37 efgh_37 in
  vlift (Ok [r0; r1; r2; r3; r4; r5; r6; r7]).

(* c/baokeshed_avx2.c:198-218, c/baokeshed_avx512.c:676-696 *)
Definition cv_msg8 (k0 : nat) (inputs : list (list N)) (block_offset : N) : vs (list vec) :=
  let? v := v_load_grid k0 32 inputs block_offset [0; 32] in
  let? s0 := cv_a_transpose (firstn 8 v) in
  let? s1 := cv_a_transpose (skipn 8 v) in
  vlift (Ok (s0 ++ s1)).

(* hash8_*: c/baokeshed_avx2.c:240-296, c/baokeshed_avx512.c:706-762 *)
Definition cv_hash8 (O : svops) (code : list instr)
  (load_offsets : N -> list N -> vs (vec * vec)) (k0 : nat) (inputs : list (list N)) (blocks : N)
  (key : list N) (offset : N) (deltas : list N) (flags flags_start flags_end : N) : vs (list N) :=
  let? h := v_map (fun i => let? x := word PKey key i in lanes1 8 x) (seq 0 8) in
  let? (lo, hi) := load_offsets offset deltas in
  let? h := v_vec_hash_loop O code 8 (cv_msg8 k0 inputs) (N.to_nat blocks) 0 blocks
              h lo hi (N.lor flags flags_start) flags flags_end in
  let? h := cv_a_transpose h in
  let? bs := v_map (fun i => store (32 * N.of_nat k0 + 32 * N.of_nat i) 32 (vrow h i)) (seq 0 8) in
  vlift (Ok (concat bs)).
Definition cv_hash8_avx2 := cv_hash8 cv_a_ops c_avx2_round_code (cv_load_offsets 8).

(* c/baokeshed_avx2.c:298-312 *)
Definition cv_hash_many_avx2 (k : nat) (inputs : list (list N)) (blocks : N)
  (key : list N) (offset : N) (deltas : list N) (flags flags_start flags_end : N)
  (out : list N) : vs (list N) :=
  cv_many_loop (length inputs) 8
    (fun k eight off => cv_hash8_avx2 k eight blocks key off deltas flags flags_start flags_end)
    (fun k inputs off out =>
       cv_hash_many_sse41 k inputs blocks key off deltas flags flags_start flags_end out)
    k inputs offset deltas out.

(* ---- c/baokeshed_avx512.c ------------------------------------------------------------------- *)

(* c/baokeshed_avx512.c:25-69: the operations of any width *)
Definition cv_z_ops : svops :=
  SVOps (op2 AddEpi32) (op2 XorSi) (op1 (RorEpi32 16)) (op1 (RorEpi32 12))
        (op1 (RorEpi32 8)) (op1 (RorEpi32 7)).

(* c/baokeshed_avx512.c:112-282 *)
Definition cv_compress_avx512 (state block : list N) (block_len offset flags : N) : vs (list N) :=
  let? row1 := ([Load PCv 0 16], Ok (firstn 4 state)) in
  let? row2 := ([Load PCv 16 16], Ok (firstn 4 (skipn 4 state))) in
  let? iv0 := word PIV C_IV 0 in
  let? iv1 := word PIV C_IV 1 in
  let? iv2 := word PIV C_IV 2 in
  let? iv3 := word PIV C_IV 3 in
  let? row3 := lanes [iv0; iv1; iv2; iv3] in
  let? row4 := lanes [c_offset_low offset; c_offset_high offset; block_len; flags] in
  let? m0 := ([Load PBlock 0 16], Ok (words_of_bytes (take 16 (drop 0 block)))) in
  let? m1 := ([Load PBlock 16 16], Ok (words_of_bytes (take 16 (drop 16 block)))) in
  let? m2 := ([Load PBlock 32 16], Ok (words_of_bytes (take 16 (drop 32 block)))) in
  let? m3 := ([Load PBlock 48 16], Ok (words_of_bytes (take 16 (drop 48 block)))) in
  let? (row1, row2, row3, row4) :=
    v_c_avx512_row_round1 cv_z_ops m0 m1 m2 m3 row1 row2 row3 row4 in
  let? (row1, row2, row3, row4) :=
    v_c_avx512_row_round2 cv_z_ops m0 m1 m2 m3 row1 row2 row3 row4 in
  let? (row1, row2, row3, row4) :=
    v_c_avx512_row_round3 cv_z_ops m0 m1 m2 m3 row1 row2 row3 row4 in
  let? (row1, row2, row3, row4) :=
    v_c_avx512_row_round4 cv_z_ops m0 m1 m2 m3 row1 row2 row3 row4 in
  let? (row1, row2, row3, row4) :=
    v_c_avx512_row_round5 cv_z_ops m0 m1 m2 m3 row1 row2 row3 row4 in
  let? (row1, row2, row3, row4) :=
    v_c_avx512_row_round6 cv_z_ops m0 m1 m2 m3 row1 row2 row3 row4 in
  let? (row1, row2, row3, row4) :=
    v_c_avx512_row_round7 cv_z_ops m0 m1 m2 m3 row1 row2 row3 row4 in
  let? x := op2 XorSi row1 row3 in
  ([Store PCv 0 16], Ok tt) ;?
  let? y := op2 XorSi row2 row4 in
  ([Store PCv 16 16], Ok tt) ;?
  vlift (Ok (x ++ y)).

(* c/baokeshed_avx512.c:406-425 *)
Definition cv_z_transpose4 (v : list vec) : vs (list vec) :=
  let? ab_01 := op2 UnpackLo32 (vrow v 0) (vrow v 1) in
  let? ab_23 := op2 UnpackHi32 (vrow v 0) (vrow v 1) in
  let? cd_01 := op2 UnpackLo32 (vrow v 2) (vrow v 3) in
  let? cd_23 := op2 UnpackHi32 (vrow v 2) (vrow v 3) in
  let? r0 := op2 UnpackLo64 ab_01 cd_01 in
  let? r1 := op2 UnpackHi64 ab_01 cd_01 in
  let? r2 := op2 UnpackLo64 ab_23 cd_23 in
  let? r3 := op2 UnpackHi64 ab_23 cd_23 in
  vlift (Ok [r0; r1; r2; r3]).

(* c/baokeshed_avx512.c:451-457, 698-704; n is 4 or 8, the deltas are loaded as one vector *)
Definition cv_z_load_offsets (n : nat) (offset : N) (deltas : list N) : vs (vec * vec) :=
  let? o := ([Lanes n], Ok (repeat offset n)) in
  let? d := ([Load PDeltas 0 (8 * N.of_nat n)], slice deltas 0 (N.of_nat n)) in
  let? a := op2 AddEpi64 o d in
  let? low := op1 CvtEpi64Epi32 a in
  let? s := op1 (SrliEpi64 32) a in
  let? high := op1 CvtEpi64Epi32 s in
  vlift (Ok (low, high)).
(* c/baokeshed_avx512.c:459-518, 706-762 *)
Definition cv_hash4_avx512 :=
  cv_hash4 cv_z_ops c_avx512_round4_code cv_z_transpose4 (cv_z_load_offsets 4).
Definition cv_hash8_avx512 := cv_hash8 cv_z_ops c_avx512_round8_code (cv_z_load_offsets 8).

(* c/baokeshed_avx512.c:886-898 *)
Definition v_unpack_lo_128 (a b : vec) : vs vec := op2 (ShuffleI32x4 0x88) a b.
Definition v_unpack_hi_128 (a b : vec) : vs vec := op2 (ShuffleI32x4 0xdd) a b.

(* c/baokeshed_avx512.c:900-980 *)
Definition cv_z_transpose16 (v : list vec) : vs (list vec) :=
  let? ab_0 := op2 UnpackLo32w (vrow v 0) (vrow v 1) in
  let? ab_2 := op2 UnpackHi32w (vrow v 0) (vrow v 1) in
  let? cd_0 := op2 UnpackLo32w (vrow v 2) (vrow v 3) in
  let? cd_2 := op2 UnpackHi32w (vrow v 2) (vrow v 3) in
  let? ef_0 := op2 UnpackLo32w (vrow v 4) (vrow v 5) in
  let? ef_2 := op2 UnpackHi32w (vrow v 4) (vrow v 5) in
  let? gh_0 := op2 UnpackLo32w (vrow v 6) (vrow v 7) in
  let? gh_2 := op2 UnpackHi32w (vrow v 6) (vrow v 7) in
  let? ij_0 := op2 UnpackLo32w (vrow v 8) (vrow v 9) in
  let? ij_2 := op2 UnpackHi32w (vrow v 8) (vrow v 9) in
  let? kl_0 := op2 UnpackLo32w (vrow v 10) (vrow v 11) in
  let? kl_2 := op2 UnpackHi32w (vrow v 10) (vrow v 11) in
  let? mn_0 := op2 UnpackLo32w (vrow v 12) (vrow v 13) in
  let? mn_2 := op2 UnpackHi32w (vrow v 12) (vrow v 13) in
  let? op_0 := op2 UnpackLo32w (vrow v 14) (vrow v 15) in
  let? op_2 := op2 UnpackHi32w (vrow v 14) (vrow v 15) in
  let? abcd_0 := op2 UnpackLo64w ab_0 cd_0 in
  let? abcd_1 := op2 UnpackHi64w ab_0 cd_0 in
  let? abcd_2 := op2 UnpackLo64w ab_2 cd_2 in
  let? abcd_3 := op2 UnpackHi64w ab_2 cd_2 in
  let? efgh_0 := op2 UnpackLo64w ef_0 gh_0 in
  let? efgh_1 := op2 UnpackHi64w ef_0 gh_0 in
  let? efgh_2 := op2 UnpackLo64w ef_2 gh_2 in
  let? efgh_3 := op2 UnpackHi64w ef_2 gh_2 in
  let? ijkl_0 := op2 UnpackLo64w ij_0 kl_0 in
  let? ijkl_1 := op2 UnpackHi64w ij_0 kl_0 in
  let? ijkl_2 := op2 UnpackLo64w ij_2 kl_2 in
  let? ijkl_3 := op2 UnpackHi64w ij_2 kl_2 in
  let? mnop_0 := op2 UnpackLo64w mn_0 op_0 in
  let? mnop_1 := op2 UnpackHi64w mn_0 op_0 in
  let? mnop_2 := op2 UnpackLo64w mn_2 op_2 in
  let? mnop_3 := op2 UnpackHi64w mn_2 op_2 in
  let? abcdefgh_0 := v_unpack_lo_128 abcd_0 efgh_0 in
  let? abcdefgh_1 := v_unpack_lo_128 abcd_1 efgh_1 in
  let? abcdefgh_2 := v_unpack_lo_128 abcd_2 efgh_2 in
  let? abcdefgh_3 := v_unpack_lo_128 abcd_3 efgh_3 in
  let? abcdefgh_4 := v_unpack_hi_128 abcd_0 efgh_0 in
  let? abcdefgh_5 := v_unpack_hi_128 abcd_1 efgh_1 in
  let? abcdefgh_6 := v_unpack_hi_128 abcd_2 efgh_2 in
  let? abcdefgh_7 := v_unpack_hi_128 abcd_3 efgh_3 in
  let? ijklmnop_0 := v_unpack_lo_128 ijkl_0 mnop_0 in
  let? ijklmnop_1 := v_unpack_lo_128 ijkl_1 mnop_1 in
  let? ijklmnop_2 := v_unpack_lo_128 ijkl_2 mnop_2 in
  let? ijklmnop_3 := v_unpack_lo_128 ijkl_3 mnop_3 in
  let? ijklmnop_4 := v_unpack_hi_128 ijkl_0 mnop_0 in
  let? ijklmnop_5 := v_unpack_hi_128 ijkl_1 mnop_1 in
  let? ijklmnop_6 := v_unpack_hi_128 ijkl_2 mnop_2 in
  let? ijklmnop_7 := v_unpack_hi_128 ijkl_3 mnop_3 in
  let? r0 := v_unpack_lo_128 abcdefgh_0 ijklmnop_0 in
  let? r1 := v_unpack_lo_128 abcdefgh_1 ijklmnop_1 in
  let? r2 := v_unpack_lo_128 abcdefgh_2 ijklmnop_2 in
  let? r3 := v_unpack_lo_128 abcdefgh_3 ijklmnop_3 in
  let? r4 := v_unpack_lo_128 abcdefgh_4 ijklmnop_4 in
  let? r5 := v_unpack_lo_128 abcdefgh_5 ijklmnop_5 in
  let? r6 := v_unpack_lo_128 abcdefgh_6 ijklmnop_6 in
  let? r7 := v_unpack_lo_128 abcdefgh_7 ijklmnop_7 in
  let? r8 := v_unpack_hi_128 abcdefgh_0 ijklmnop_0 in
  let? r9 := v_unpack_hi_128 abcdefgh_1 ijklmnop_1 in
  let? r10 := v_unpack_hi_128 abcdefgh_2 ijklmnop_2 in
  let? r11 := v_unpack_hi_128 abcdefgh_3 ijklmnop_3 in
  let? r12 := v_unpack_hi_128 abcdefgh_4 ijklmnop_4 in
  let? r13 := v_unpack_hi_128 abcdefgh_5 ijklmnop_5 in
  let? r14 := v_unpack_hi_128 abcdefgh_6 ijklmnop_6 in
  let? r15 := v_unpack_hi_128 abcdefgh_7 ijklmnop_7 in
  vlift (Ok [r0; r1; r2; r3; r4; r5; r6; r7; r8; r9; r10; r11; r12; r13; r14; r15]).

(* c/baokeshed_avx512.c:982-1001 *)
Definition cv_msg16 (k0 : nat) (inputs : list (list N)) (block_offset : N) : vs (list vec) :=
  let? v := v_load_grid k0 64 inputs block_offset [0] in
  cv_z_transpose16 v.

(* c/baokeshed_avx512.c:1003-1015 *)
Definition cv_z_load_offsets16 (offset : N) (deltas : list N) : vs (vec * vec) :=
  let? o := ([Lanes 8], Ok (repeat offset 8)) in
  let? d0 := ([Load PDeltas 0 64], slice deltas 0 8) in
  let? a := op2 AddEpi64 o d0 in
  let? o := ([Lanes 8], Ok (repeat offset 8)) in
  let? d8 := ([Load PDeltas 64 64], slice deltas 8 8) in
  let? b := op2 AddEpi64 o d8 in
  let? lo_indexes := lanes [0; 2; 4; 6; 8; 10; 12; 14; 16; 18; 20; 22; 24; 26; 28; 30] in
  let? hi_indexes := lanes [1; 3; 5; 7; 9; 11; 13; 15; 17; 19; 21; 23; 25; 27; 29; 31] in
  let? low := op2 (Permutex2var lo_indexes) a b in
  let? high := op2 (Permutex2var hi_indexes) a b in
  vlift (Ok (low, high)).

(* c/baokeshed_avx512.c:1017-1090; _mm512_castsi512_si256 is no operation *)
Definition cv_hash16_avx512 (k0 : nat) (inputs : list (list N)) (blocks : N)
  (key : list N) (offset : N) (deltas : list N) (flags flags_start flags_end : N) : vs (list N) :=
  let? h := v_map (fun i => let? x := word PKey key i in lanes1 16 x) (seq 0 8) in
  let? (lo, hi) := cv_z_load_offsets16 offset deltas in
  let? h := v_vec_hash_loop cv_z_ops c_avx512_round16_code 16 (cv_msg16 k0 inputs)
              (N.to_nat blocks) 0 blocks h lo hi (N.lor flags flags_start) flags flags_end in
  let? zeros := v_map (fun _ => lanes1 16 0) (seq 0 8) in
  let? padded := cv_z_transpose16 (h ++ zeros) in
  let? bs := v_map (fun i => store (32 * N.of_nat k0 + 32 * N.of_nat i) 32
                               (firstn 8 (vrow padded i))) (seq 0 16) in
  vlift (Ok (concat bs)).

(* c/baokeshed_avx512.c:1117-1154 *)
Definition cv_hash_many_avx512 (k : nat) (inputs : list (list N)) (blocks : N)
  (key : list N) (offset : N) (deltas : list N) (flags flags_start flags_end : N)
  (out : list N) : vs (list N) :=
  cv_many_loop (length inputs) 16
    (fun k ins off => cv_hash16_avx512 k ins blocks key off deltas flags flags_start flags_end)
    (fun k inputs off out =>
       cv_many_loop (length inputs) 8
         (fun k ins off =>
            cv_hash8_avx512 k ins blocks key off deltas flags flags_start flags_end)
         (fun k inputs off out =>
            cv_many_loop (length inputs) 4
              (fun k ins off =>
                 cv_hash4_avx512 k ins blocks key off deltas flags flags_start flags_end)
              (cv_single_loop
                 (cv_hash_one cv_compress_avx512 blocks key flags flags_start flags_end) deltas)
              k inputs off deltas out)
         k inputs off deltas out)
    k inputs offset deltas out.

(* ---- c/baokeshed_neon.c --------------------------------------------------------------------- *)

(* c/baokeshed_neon.c:18-47: vaddq_u32, veorq_u32, vorrq_u32, vshrq_n_u32, vshlq_n_u32 *)
Definition cv_n_rot (n : N) (x : vec) : vs vec :=
  let? a := op1 (SrliEpi32 n) x in
  let? b := op1 (SlliEpi32 (32 - n)) x in
  op2 OrSi a b.
Definition cv_n_ops : svops :=
  SVOps (op2 AddEpi32) (op2 XorSi) (cv_n_rot 16) (cv_n_rot 12) (cv_n_rot 8) (cv_n_rot 7).

(* c/baokeshed_neon.c:175-189 *)
Definition cv_n_transpose (v : list vec) : vs (list vec) :=
  let? rows01_0 := op2 Trn1 (vrow v 0) (vrow v 1) in
  let? rows01_1 := op2 Trn2 (vrow v 0) (vrow v 1) in
  let? rows23_0 := op2 Trn1 (vrow v 2) (vrow v 3) in
  let? rows23_1 := op2 Trn2 (vrow v 2) (vrow v 3) in
  let? r0 := op2 CombineLow rows01_0 rows23_0 in
  let? r1 := op2 CombineLow rows01_1 rows23_1 in
  let? r2 := op2 CombineHigh rows01_0 rows23_0 in
  let? r3 := op2 CombineHigh rows01_1 rows23_1 in
  vlift (Ok [r0; r1; r2; r3]).

(* c/baokeshed_neon.c:225-284 *)
Definition cv_hash4_neon :=
  cv_hash4 cv_n_ops c_neon_round_code cv_n_transpose (cv_load_offsets 4).

(* c/baokeshed_neon.c:312-332; hash_one_neon calls compress_portable *)
Definition cv_hash_many_neon (k : nat) (inputs : list (list N)) (blocks : N)
  (key : list N) (offset : N) (deltas : list N) (flags flags_start flags_end : N)
  (out : list N) : vs (list N) :=
  cv_many_loop (length inputs) 4
    (fun k four off => cv_hash4_neon k four blocks key off deltas flags flags_start flags_end)
    (cv_single_loop
       (cv_hash_one cv_compress_portable blocks key flags flags_start flags_end) deltas)
    k inputs offset deltas out.

(* ---- c/baokeshed.c -------------------------------------------------------------------------- *)

(* c/baokeshed.c:63-72 *)
Definition cv_compress (o : copts) : list N -> list N -> N -> N -> N -> vs (list N) :=
  if use_avx512 o then cv_compress_avx512
  else if use_sse41 o then cv_compress_sse41
  else cv_compress_portable.

(* c/baokeshed.c:169-190 *)
Definition cv_hash_many (o : copts) :=
  if use_avx512 o then cv_hash_many_avx512
  else if use_avx2 o then cv_hash_many_avx2
  else if use_sse41 o then cv_hash_many_sse41
  else if use_neon o then cv_hash_many_neon
  else cv_hash_many_portable.
