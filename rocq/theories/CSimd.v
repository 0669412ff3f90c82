(* Model of the compression functions and hash_many functions of /repo/c:
   baokeshed_impl.h, baokeshed_portable.c, baokeshed_sse41.c, baokeshed_avx2.c,
   baokeshed_avx512.c and baokeshed_neon.c.  Definitions only.

   Conventions.  A pointer to readable bytes is the list of the bytes that may be read
   through it; a read or write outside an object is undefined behaviour in C and is a Panic
   here.  uint64_t additions wrap.  The lists of statements of the vectorised rounds and
   the message shuffles of compress_sse41 and compress_avx512 are in SimdGen.v, generated
   from the source text.  The functions that use memcpy between words and bytes (all but
   the portable ones) are modelled on a little-endian machine. *)
From Coq Require Import NArith List Bool.
From Verif Require Import Base Portable Simd SimdGen SimdHash.
Import ListNotations.
Open Scope N_scope.

(* ---- c/baokeshed_impl.h ------------------------------------------------------ *)

(* c/baokeshed_impl.h:13-19 *)
Definition C_BLOCK_LEN : N := 64.
Definition C_CHUNK_LEN : N := 2048.
Definition C_KEY_LEN : N := 32.
Definition C_OUT_LEN : N := 32.
Definition C_MAX_DEPTH : N := 53.
Definition C_MAX_SIMD_DEGREE : N := 16.
(* c/baokeshed_impl.h:21-27 *)
Definition C_CHUNK_START : N := 1.
Definition C_CHUNK_END : N := 2.
Definition C_PARENT : N := 4.
Definition C_ROOT : N := 8.
(* c/baokeshed_impl.h:37-39 *)
Definition C_IV : list N :=
  [0x6A09E667; 0xBB67AE85; 0x3C6EF372; 0xA54FF53A;
   0x510E527F; 0x9B05688C; 0x1F83D9AB; 0x5BE0CD19].
(* c/baokeshed_impl.h:41-49 *)
Definition C_MSG_SCHEDULE : list (list nat) :=
  [[0; 1; 2; 3; 4; 5; 6; 7; 8; 9; 10; 11; 12; 13; 14; 15];
   [14; 10; 4; 8; 9; 15; 13; 6; 1; 12; 0; 2; 11; 7; 5; 3];
   [11; 8; 12; 0; 5; 2; 15; 13; 10; 14; 3; 6; 7; 1; 9; 4];
   [7; 9; 3; 1; 13; 12; 11; 14; 2; 6; 5; 10; 4; 0; 15; 8];
   [9; 0; 5; 7; 2; 4; 10; 15; 14; 1; 11; 12; 6; 8; 3; 13];
   [2; 12; 6; 10; 0; 11; 8; 3; 4; 13; 7; 5; 15; 14; 1; 9];
   [12; 5; 1; 15; 14; 13; 4; 10; 0; 7; 6; 3; 9; 2; 8; 11]]%nat.
Definition c_sched (r i : nat) : nat := nth i (nth r C_MSG_SCHEDULE []) 0%nat.
(* c/baokeshed_impl.h:51-57 *)
Definition CHUNK_OFFSET_DELTAS : list N :=
  [C_CHUNK_LEN * 0; C_CHUNK_LEN * 1; C_CHUNK_LEN * 2; C_CHUNK_LEN * 3;
   C_CHUNK_LEN * 4; C_CHUNK_LEN * 5; C_CHUNK_LEN * 6; C_CHUNK_LEN * 7;
   C_CHUNK_LEN * 8; C_CHUNK_LEN * 9; C_CHUNK_LEN * 10; C_CHUNK_LEN * 11;
   C_CHUNK_LEN * 12; C_CHUNK_LEN * 13; C_CHUNK_LEN * 14; C_CHUNK_LEN * 15;
   C_CHUNK_LEN * 16].

(* c/baokeshed_impl.h:59-63, of the four bytes at p *)
Definition load32 (p : list N) : N :=
  N.lor (N.lor (N.lor (N.shiftl (get p 0) 0 mod W32) (N.shiftl (get p 1) 8 mod W32))
               (N.shiftl (get p 2) 16 mod W32)) (N.shiftl (get p 3) 24 mod W32).
(* c/baokeshed_impl.h:65-71, the four bytes written *)
Definition store32 (w : N) : list N :=
  [N.shiftr w 0 mod 256; N.shiftr w 8 mod 256; N.shiftr w 16 mod 256; N.shiftr w 24 mod 256].
(* c/baokeshed_impl.h:73-75; w is a uint32_t *)
Definition c_rotr32 (w c : N) : N :=
  N.lor (N.shiftr (w mod W32) c) (N.shiftl (w mod W32) (32 - c) mod W32).
(* c/baokeshed_impl.h:82-87: the loop; fuel bounds the number of iterations (a uint64_t
   has 64 bits) *)
Fixpoint popcnt_loop (fuel : nat) (x count : N) : res N :=
  if 0 <? x then
    match fuel with
    | O => NoFuel
    | S fuel' => popcnt_loop fuel' (N.shiftr x 1) ((count + N.land (x mod 256) 1) mod 256)
    end
  else Ok count.
(* c/baokeshed_impl.h:78-89.  insn: whether __POPCNT__ is set; the instruction counts the
   one bits. *)
Definition popcnt (insn : bool) (x : N) : res N :=
  if insn then Ok (popcount x mod 256) else popcnt_loop 64 x 0.
(* c/baokeshed_impl.h:91-95 *)
Definition c_offset_low (offset : N) : N := offset mod W32.
Definition c_offset_high (offset : N) : N := N.shiftr offset 32 mod W32.
(* c/baokeshed_impl.h:97-114 (16 words) and 116-125 (8 words): word i is at byte 4*i *)
Definition load_words (n : nat) (src : list N) : list N :=
  map (fun i => load32 (skipn (4 * i) src)) (seq 0 n).
(* c/baokeshed_impl.h:127-136 *)
Definition write_state_bytes (state : list N) : list N :=
  flat_map (fun i => store32 (get state i)) (seq 0 8).

(* ---- c/baokeshed_portable.c -------------------------------------------------- *)

(* c/baokeshed_portable.c:4-14 *)
Definition c_g (s : list N) (a b c d : nat) (x y : N) : list N :=
  let s := set_nth s a (add32 (add32 (get s a) (get s b)) x) in
  let s := set_nth s d (c_rotr32 (N.lxor (get s d) (get s a)) 16) in
  let s := set_nth s c (add32 (get s c) (get s d)) in
  let s := set_nth s b (c_rotr32 (N.lxor (get s b) (get s c)) 12) in
  let s := set_nth s a (add32 (add32 (get s a) (get s b)) y) in
  let s := set_nth s d (c_rotr32 (N.lxor (get s d) (get s a)) 8) in
  let s := set_nth s c (add32 (get s c) (get s d)) in
  let s := set_nth s b (c_rotr32 (N.lxor (get s b) (get s c)) 7) in
  s.

(* c/baokeshed_portable.c:16-31 *)
Definition c_round (s m : list N) (r : nat) : list N :=
  let x i := get m (c_sched r i) in
  let s := c_g s 0 4 8 12 (x 0%nat) (x 1%nat) in
  let s := c_g s 1 5 9 13 (x 2%nat) (x 3%nat) in
  let s := c_g s 2 6 10 14 (x 4%nat) (x 5%nat) in
  let s := c_g s 3 7 11 15 (x 6%nat) (x 7%nat) in
  let s := c_g s 0 5 10 15 (x 8%nat) (x 9%nat) in
  let s := c_g s 1 6 11 12 (x 10%nat) (x 11%nat) in
  let s := c_g s 2 7 8 13 (x 12%nat) (x 13%nat) in
  let s := c_g s 3 4 9 14 (x 14%nat) (x 15%nat) in
  s.

(* c/baokeshed_portable.c:33-73; the new contents of state.  block is the 64 bytes read. *)
Definition compress_portable (state block : list N) (block_len offset flags : N) : list N :=
  let m := load_words 16 block in
  let f :=
    [get state 0; get state 1; get state 2; get state 3;
     get state 4; get state 5; get state 6; get state 7;
     get C_IV 0; get C_IV 1; get C_IV 2; get C_IV 3;
     c_offset_low offset; c_offset_high offset; block_len; flags] in
  let f := c_round f m 0 in
  let f := c_round f m 1 in
  let f := c_round f m 2 in
  let f := c_round f m 3 in
  let f := c_round f m 4 in
  let f := c_round f m 5 in
  let f := c_round f m 6 in
  [N.lxor (get f 0) (get f 8); N.lxor (get f 1) (get f 9);
   N.lxor (get f 2) (get f 10); N.lxor (get f 3) (get f 11);
   N.lxor (get f 4) (get f 12); N.lxor (get f 5) (get f 13);
   N.lxor (get f 6) (get f 14); N.lxor (get f 7) (get f 15)].

(* The `while (blocks > 0)` loop of hash_one_*: c/baokeshed_portable.c:82-90,
   c/baokeshed_sse41.c:492-500, c/baokeshed_avx512.c:1106-1114, c/baokeshed_neon.c:299-308.
   comp is the compression function called. *)
Fixpoint hash_one_loop (comp : list N -> list N -> N -> N -> N -> list N) (blocks : nat)
  (state input : list N) (offset block_flags flags flags_end : N) : res (list N) :=
  match blocks with
  | O => Ok state
  | S blocks' =>
      let block_flags :=
        match blocks' with O => N.lor block_flags flags_end | S _ => block_flags end in
      let* block := slice input 0 C_BLOCK_LEN in
      let state := comp state block C_BLOCK_LEN offset block_flags in
      hash_one_loop comp blocks' state (drop C_BLOCK_LEN input) offset flags flags flags_end
  end.

(* c/baokeshed_portable.c:75-92; the 32 bytes written to out *)
Definition hash_one_portable (input : list N) (blocks : N) (key : list N)
  (offset flags flags_start flags_end : N) : res (list N) :=
  let* state := hash_one_loop compress_portable (N.to_nat blocks) key input offset
                  (N.lor flags flags_start) flags flags_end in
  Ok (write_state_bytes state).

(* The loops of hash_many_*: `while (num_inputs >= degree)` around hashN, and
   `while (num_inputs > 0)` when degree is 1 (c/baokeshed_portable.c:99-106,
   c/baokeshed_sse41.c:509-516 and 517-524, c/baokeshed_avx2.c:302-309,
   c/baokeshed_avx512.c:1122-1153, c/baokeshed_neon.c:316-331).  inputs is the list of the
   num_inputs pointers, hashN gives the degree*32 bytes written to out, rest is the code
   after the loop.  fuel bounds the number of iterations. *)
Fixpoint many_loop (fuel : nat) (degree : N)
  (hashN : list (list N) -> N -> res (list N))
  (rest : list (list N) -> N -> list N -> res (list N))
  (inputs : list (list N)) (offset : N) (deltas out : list N) : res (list N) :=
  if degree <=? len inputs then
    match fuel with
    | O => NoFuel
    | S fuel' =>
        let* hs := hashN (take degree inputs) offset in
        let* delta := index deltas degree in
        let offset := (offset + delta) mod W64 in
        let* tl := slice_from out (degree * C_OUT_LEN) in
        let* tl := many_loop fuel' degree hashN rest (drop degree inputs) offset deltas tl in
        Ok (hs ++ tl)
    end
  else rest inputs offset out.

(* The last loop, of single inputs. *)
Definition single_loop (hash_one : list N -> N -> res (list N)) (deltas : list N)
  (inputs : list (list N)) (offset : N) (out : list N) : res (list N) :=
  many_loop (length inputs) 1
    (fun one off => let* i := index one 0 in hash_one i off)
    (fun _ _ out => Ok out) inputs offset deltas out.

(* c/baokeshed_portable.c:94-107; the contents of out afterwards *)
Definition hash_many_portable (inputs : list (list N)) (blocks : N) (key : list N) (offset : N)
  (deltas : list N) (flags flags_start flags_end : N) (out : list N) : res (list N) :=
  single_loop (fun i off => hash_one_portable i blocks key off flags flags_start flags_end)
    deltas inputs offset out.

(* ---- c/baokeshed_sse41.c ------------------------------------------------------ *)

Definition vrow (rows : list vec) (i : nat) : vec := nth i rows [].

(* c/baokeshed_sse41.c:26-42; addv, xorv 15-18 *)
Definition s_rot16 (x : vec) : vec :=
  mm_shuffle_epi8 x (mm_set_epi8 [13; 12; 15; 14; 9; 8; 11; 10; 5; 4; 7; 6; 1; 0; 3; 2]).
Definition s_rot12 (x : vec) : vec := xor_si (srli_epi32 x 12) (slli_epi32 x (32 - 12)).
Definition s_rot8 (x : vec) : vec :=
  mm_shuffle_epi8 x (mm_set_epi8 [12; 15; 14; 13; 8; 11; 10; 9; 4; 7; 6; 5; 0; 3; 2; 1]).
Definition s_rot7 (x : vec) : vec := xor_si (srli_epi32 x 7) (slli_epi32 x (32 - 7)).
Definition s_ops : vops vec := VOps vec [] add_epi32 xor_si s_rot16 s_rot12 s_rot8 s_rot7.

(* c/baokeshed_sse41.c:79-249; the new contents of state *)
Definition compress_sse41 (state block : list N) (block_len offset flags : N) : list N :=
  let row1 := firstn 4 state in
  let row2 := firstn 4 (skipn 4 state) in
  let row3 := [get C_IV 0; get C_IV 1; get C_IV 2; get C_IV 3] in
  let row4 := [c_offset_low offset; c_offset_high offset; block_len; flags] in
  let m0 := words_of_bytes (take 16 (drop 0 block)) in
  let m1 := words_of_bytes (take 16 (drop 16 block)) in
  let m2 := words_of_bytes (take 16 (drop 32 block)) in
  let m3 := words_of_bytes (take 16 (drop 48 block)) in
  let '(row1, row2, row3, row4) := c_sse41_row_round1 s_ops m0 m1 m2 m3 row1 row2 row3 row4 in
  let '(row1, row2, row3, row4) := c_sse41_row_round2 s_ops m0 m1 m2 m3 row1 row2 row3 row4 in
  let '(row1, row2, row3, row4) := c_sse41_row_round3 s_ops m0 m1 m2 m3 row1 row2 row3 row4 in
  let '(row1, row2, row3, row4) := c_sse41_row_round4 s_ops m0 m1 m2 m3 row1 row2 row3 row4 in
  let '(row1, row2, row3, row4) := c_sse41_row_round5 s_ops m0 m1 m2 m3 row1 row2 row3 row4 in
  let '(row1, row2, row3, row4) := c_sse41_row_round6 s_ops m0 m1 m2 m3 row1 row2 row3 row4 in
  let '(row1, row2, row3, row4) := c_sse41_row_round7 s_ops m0 m1 m2 m3 row1 row2 row3 row4 in
  xor_si row1 row3 ++ xor_si row2 row4.

(* c/baokeshed_sse41.c:367-386 *)
Definition s_transpose (v : list vec) : list vec :=
  let ab_01 := mm_unpacklo_epi32 (vrow v 0) (vrow v 1) in
  let ab_23 := mm_unpackhi_epi32 (vrow v 0) (vrow v 1) in
  let cd_01 := mm_unpacklo_epi32 (vrow v 2) (vrow v 3) in
  let cd_23 := mm_unpackhi_epi32 (vrow v 2) (vrow v 3) in
  [mm_unpacklo_epi64 ab_01 cd_01; mm_unpackhi_epi64 ab_01 cd_01;
   mm_unpacklo_epi64 ab_23 cd_23; mm_unpackhi_epi64 ab_23 cd_23].

(* transpose of the 4x4 blocks of 16 loaded vectors; see the users below *)
Definition msg4 (transpose : list vec -> list vec) (inputs : list (list N)) (block_offset : N)
  : res (list vec) :=
  let* v := load_grid 16 inputs block_offset [0; 16; 32; 48] in
  Ok (transpose (firstn 4 v) ++ transpose (firstn 4 (skipn 4 v))
      ++ transpose (firstn 4 (skipn 8 v)) ++ transpose (firstn 4 (skipn 12 v))).

(* c/baokeshed_sse41.c:388-410 *)
Definition s_transpose_msg (inputs : list (list N)) (block_offset : N) : res (list vec) :=
  msg4 s_transpose inputs block_offset.

(* offset + deltas[i] for i = 0 .. n-1 *)
Definition delta_offsets (n : nat) (offset : N) (deltas : list N) : res (list N) :=
  seq_res (map (fun i => let* d := index deltas (N.of_nat i) in Ok ((offset + d) mod W64))
               (seq 0 n)).

(* c/baokeshed_sse41.c:412-422 *)
Definition s_load_offsets (offset : N) (deltas : list N) : res (vec * vec) :=
  let* offs := delta_offsets 4 offset deltas in
  Ok (map c_offset_low offs, map c_offset_high offs).

(* The final transposition and stores of hash4_*: the 128 bytes written *)
Definition store4 (transpose : list vec -> list vec) (h : list vec) : list N :=
  let a := transpose (firstn 4 h) in
  let b := transpose (skipn 4 h) in
  let h := a ++ b in
  storeu (vrow h 0) ++ storeu (vrow h 4) ++ storeu (vrow h 1) ++ storeu (vrow h 5)
  ++ storeu (vrow h 2) ++ storeu (vrow h 6) ++ storeu (vrow h 3) ++ storeu (vrow h 7).

(* c/baokeshed_sse41.c:424-483; the 128 bytes written to out *)
Definition hash4_sse41 (inputs : list (list N)) (blocks : N) (key : list N) (offset : N)
  (deltas : list N) (flags flags_start flags_end : N) : res (list N) :=
  let h := map (fun i => set1_epi32 4 (get key i)) (seq 0 8) in
  let* (lo, hi) := s_load_offsets offset deltas in
  let* h := vec_hash_loop s_ops c_sse41_round_code (set1_epi32 4) (s_transpose_msg inputs)
              (N.to_nat blocks) 0 blocks h lo hi (N.lor flags flags_start) flags flags_end in
  Ok (store4 s_transpose h).

(* c/baokeshed_sse41.c:485-502 *)
Definition hash_one_sse41 (input : list N) (blocks : N) (key : list N)
  (offset flags flags_start flags_end : N) : res (list N) :=
  let* state := hash_one_loop compress_sse41 (N.to_nat blocks) key input offset
                  (N.lor flags flags_start) flags flags_end in
  Ok (bytes_of_words state).

(* c/baokeshed_sse41.c:504-525 *)
Definition hash_many_sse41 (inputs : list (list N)) (blocks : N) (key : list N) (offset : N)
  (deltas : list N) (flags flags_start flags_end : N) (out : list N) : res (list N) :=
  many_loop (length inputs) 4
    (fun four off => hash4_sse41 four blocks key off deltas flags flags_start flags_end)
    (single_loop (fun i off => hash_one_sse41 i blocks key off flags flags_start flags_end) deltas)
    inputs offset deltas out.

(* ---- c/baokeshed_avx2.c -------------------------------------------------------- *)

(* c/baokeshed_avx2.c:28-46; addv, xorv 15-18 *)
Definition a_rot16 (x : vec) : vec :=
  mm256_shuffle_epi8 x
    (mm_set_epi8 [13; 12; 15; 14; 9; 8; 11; 10; 5; 4; 7; 6; 1; 0; 3; 2;
                  13; 12; 15; 14; 9; 8; 11; 10; 5; 4; 7; 6; 1; 0; 3; 2]).
Definition a_rot12 (x : vec) : vec := xor_si (srli_epi32 x 12) (slli_epi32 x (32 - 12)).
Definition a_rot8 (x : vec) : vec :=
  mm256_shuffle_epi8 x
    (mm_set_epi8 [12; 15; 14; 13; 8; 11; 10; 9; 4; 7; 6; 5; 0; 3; 2; 1;
                  12; 15; 14; 13; 8; 11; 10; 9; 4; 7; 6; 5; 0; 3; 2; 1]).
Definition a_rot7 (x : vec) : vec := xor_si (srli_epi32 x 7) (slli_epi32 x (32 - 7)).
Definition a_ops : vops vec := VOps vec [] add_epi32 xor_si a_rot16 a_rot12 a_rot8 a_rot7.

(* c/baokeshed_avx2.c:164-196 and, the same text, c/baokeshed_avx512.c:642-674 *)
Definition a_transpose (v : list vec) : list vec :=
  let ab_0145 := w_unpacklo_epi32 (vrow v 0) (vrow v 1) in
  let ab_2367 := w_unpackhi_epi32 (vrow v 0) (vrow v 1) in
  let cd_0145 := w_unpacklo_epi32 (vrow v 2) (vrow v 3) in
  let cd_2367 := w_unpackhi_epi32 (vrow v 2) (vrow v 3) in
  let ef_0145 := w_unpacklo_epi32 (vrow v 4) (vrow v 5) in
  let ef_2367 := w_unpackhi_epi32 (vrow v 4) (vrow v 5) in
  let gh_0145 := w_unpacklo_epi32 (vrow v 6) (vrow v 7) in
  let gh_2367 := w_unpackhi_epi32 (vrow v 6) (vrow v 7) in
  let abcd_04 := w_unpacklo_epi64 ab_0145 cd_0145 in
  let abcd_15 := w_unpackhi_epi64 ab_0145 cd_0145 in
  let abcd_26 := w_unpacklo_epi64 ab_2367 cd_2367 in
  let abcd_37 := w_unpackhi_epi64 ab_2367 cd_2367 in
  let efgh_04 := w_unpacklo_epi64 ef_0145 gh_0145 in
  let efgh_15 := w_unpackhi_epi64 ef_0145 gh_0145 in
  let efgh_26 := w_unpacklo_epi64 ef_2367 gh_2367 in
  let efgh_37 := w_unpackhi_epi64 ef_2367 gh_2367 in
  [mm256_permute2x128_si256 abcd_04 efgh_04 0x20; mm256_permute2x128_si256 abcd_15 efgh_15 0x20;
   mm256_permute2x128_si256 abcd_26 efgh_26 0x20; mm256_permute2x128_si256 abcd_37 efgh_37 0x20;
   mm256_permute2x128_si256 abcd_04 efgh_04 0x31; mm256_permute2x128_si256 abcd_15 efgh_15 0x31;
   mm256_permute2x128_si256 abcd_26 efgh_26 0x31; mm256_permute2x128_si256 abcd_37 efgh_37 0x31].

(* c/baokeshed_avx2.c:198-218, c/baokeshed_avx512.c:676-696 *)
Definition a_transpose_msg (inputs : list (list N)) (block_offset : N) : res (list vec) :=
  let* v := load_grid 32 inputs block_offset [0; 32] in
  Ok (a_transpose (firstn 8 v) ++ a_transpose (skipn 8 v)).

(* c/baokeshed_avx2.c:220-238 *)
Definition a_load_offsets (offset : N) (deltas : list N) : res (vec * vec) :=
  let* offs := delta_offsets 8 offset deltas in
  Ok (map c_offset_low offs, map c_offset_high offs).

(* The final transposition and stores of hash8_*: the 256 bytes written *)
Definition store8 (h : list vec) : list N :=
  let h := a_transpose h in
  storeu (vrow h 0) ++ storeu (vrow h 1) ++ storeu (vrow h 2) ++ storeu (vrow h 3)
  ++ storeu (vrow h 4) ++ storeu (vrow h 5) ++ storeu (vrow h 6) ++ storeu (vrow h 7).

(* c/baokeshed_avx2.c:240-296 *)
Definition hash8_avx2 (inputs : list (list N)) (blocks : N) (key : list N) (offset : N)
  (deltas : list N) (flags flags_start flags_end : N) : res (list N) :=
  let h := map (fun i => set1_epi32 8 (get key i)) (seq 0 8) in
  let* (lo, hi) := a_load_offsets offset deltas in
  let* h := vec_hash_loop a_ops c_avx2_round_code (set1_epi32 8) (a_transpose_msg inputs)
              (N.to_nat blocks) 0 blocks h lo hi (N.lor flags flags_start) flags flags_end in
  Ok (store8 h).

(* c/baokeshed_avx2.c:298-312 *)
Definition hash_many_avx2 (inputs : list (list N)) (blocks : N) (key : list N) (offset : N)
  (deltas : list N) (flags flags_start flags_end : N) (out : list N) : res (list N) :=
  many_loop (length inputs) 8
    (fun eight off => hash8_avx2 eight blocks key off deltas flags flags_start flags_end)
    (fun inputs off out =>
       hash_many_sse41 inputs blocks key off deltas flags flags_start flags_end out)
    inputs offset deltas out.

(* ---- c/baokeshed_avx512.c ------------------------------------------------------ *)

(* c/baokeshed_avx512.c:25-69: the operations of any width *)
Definition z_ops : vops vec :=
  VOps vec [] add_epi32 xor_si (fun x => ror_epi32 x 16) (fun x => ror_epi32 x 12)
       (fun x => ror_epi32 x 8) (fun x => ror_epi32 x 7).

(* c/baokeshed_avx512.c:112-282 *)
Definition compress_avx512 (state block : list N) (block_len offset flags : N) : list N :=
  let row1 := firstn 4 state in
  let row2 := firstn 4 (skipn 4 state) in
  let row3 := [get C_IV 0; get C_IV 1; get C_IV 2; get C_IV 3] in
  let row4 := [c_offset_low offset; c_offset_high offset; block_len; flags] in
  let m0 := words_of_bytes (take 16 (drop 0 block)) in
  let m1 := words_of_bytes (take 16 (drop 16 block)) in
  let m2 := words_of_bytes (take 16 (drop 32 block)) in
  let m3 := words_of_bytes (take 16 (drop 48 block)) in
  let '(row1, row2, row3, row4) := c_avx512_row_round1 z_ops m0 m1 m2 m3 row1 row2 row3 row4 in
  let '(row1, row2, row3, row4) := c_avx512_row_round2 z_ops m0 m1 m2 m3 row1 row2 row3 row4 in
  let '(row1, row2, row3, row4) := c_avx512_row_round3 z_ops m0 m1 m2 m3 row1 row2 row3 row4 in
  let '(row1, row2, row3, row4) := c_avx512_row_round4 z_ops m0 m1 m2 m3 row1 row2 row3 row4 in
  let '(row1, row2, row3, row4) := c_avx512_row_round5 z_ops m0 m1 m2 m3 row1 row2 row3 row4 in
  let '(row1, row2, row3, row4) := c_avx512_row_round6 z_ops m0 m1 m2 m3 row1 row2 row3 row4 in
  let '(row1, row2, row3, row4) := c_avx512_row_round7 z_ops m0 m1 m2 m3 row1 row2 row3 row4 in
  xor_si row1 row3 ++ xor_si row2 row4.

(* c/baokeshed_avx512.c:406-425 *)
Definition z_transpose4 (v : list vec) : list vec :=
  let ab_01 := mm_unpacklo_epi32 (vrow v 0) (vrow v 1) in
  let ab_23 := mm_unpackhi_epi32 (vrow v 0) (vrow v 1) in
  let cd_01 := mm_unpacklo_epi32 (vrow v 2) (vrow v 3) in
  let cd_23 := mm_unpackhi_epi32 (vrow v 2) (vrow v 3) in
  [mm_unpacklo_epi64 ab_01 cd_01; mm_unpackhi_epi64 ab_01 cd_01;
   mm_unpacklo_epi64 ab_23 cd_23; mm_unpackhi_epi64 ab_23 cd_23].
(* c/baokeshed_avx512.c:427-449 *)
Definition z_transpose_msg4 (inputs : list (list N)) (block_offset : N) : res (list vec) :=
  msg4 z_transpose4 inputs block_offset.

(* Vectors of 64-bit lanes, as lists of the lanes: _mm*_set1_epi64*, _mm*_add_epi64,
   _mm*_srli_epi64, _mm*_cvtepi64_epi32, and the same vector seen as 32-bit lanes *)
Definition add_epi64 : list N -> list N -> list N := map2 (fun a b => (a + b) mod W64).
Definition srli_epi64 (a : list N) (n : N) : list N := map (fun x => N.shiftr x n) a.
Definition cvtepi64_epi32 (a : list N) : vec := map (fun x => x mod W32) a.
Definition as_epi32 (a : list N) : vec := flat_map (fun x => [x mod W32; x / W32 mod W32]) a.
(* _mm512_permutex2var_epi32: lane i is lane idx[i] mod 32 of a (16 lanes) and b (16 lanes) *)
Definition permutex2var_epi32 (a idx b : vec) : vec :=
  map (fun k => nth (N.to_nat (k mod 32)) (a ++ b) 0) idx.

(* c/baokeshed_avx512.c:451-457 *)
Definition z_load_offsets4 (offset : N) (deltas : list N) : res (vec * vec) :=
  let* d := slice deltas 0 4 in
  let a := add_epi64 (repeat offset 4) d in
  Ok (cvtepi64_epi32 a, cvtepi64_epi32 (srli_epi64 a 32)).

(* c/baokeshed_avx512.c:459-518 *)
Definition hash4_avx512 (inputs : list (list N)) (blocks : N) (key : list N) (offset : N)
  (deltas : list N) (flags flags_start flags_end : N) : res (list N) :=
  let h := map (fun i => set1_epi32 4 (get key i)) (seq 0 8) in
  let* (lo, hi) := z_load_offsets4 offset deltas in
  let* h := vec_hash_loop z_ops c_avx512_round4_code (set1_epi32 4) (z_transpose_msg4 inputs)
              (N.to_nat blocks) 0 blocks h lo hi (N.lor flags flags_start) flags flags_end in
  Ok (store4 z_transpose4 h).

(* c/baokeshed_avx512.c:698-704 *)
Definition z_load_offsets8 (offset : N) (deltas : list N) : res (vec * vec) :=
  let* d := slice deltas 0 8 in
  let a := add_epi64 (repeat offset 8) d in
  Ok (cvtepi64_epi32 a, cvtepi64_epi32 (srli_epi64 a 32)).

(* c/baokeshed_avx512.c:706-762 *)
Definition hash8_avx512 (inputs : list (list N)) (blocks : N) (key : list N) (offset : N)
  (deltas : list N) (flags flags_start flags_end : N) : res (list N) :=
  let h := map (fun i => set1_epi32 8 (get key i)) (seq 0 8) in
  let* (lo, hi) := z_load_offsets8 offset deltas in
  let* h := vec_hash_loop z_ops c_avx512_round8_code (set1_epi32 8) (a_transpose_msg inputs)
              (N.to_nat blocks) 0 blocks h lo hi (N.lor flags flags_start) flags flags_end in
  Ok (store8 h).

(* _mm512_shuffle_i32x4: 128-bit parts of a, a, b, b selected by the 2-bit fields of imm *)
Definition part128 (a : vec) (k : N) : vec := firstn 4 (skipn (4 * N.to_nat k) a).
Definition mm512_shuffle_i32x4 (a b : vec) (imm : N) : vec :=
  part128 a (imm mod 4) ++ part128 a (imm / 4 mod 4)
  ++ part128 b (imm / 16 mod 4) ++ part128 b (imm / 64 mod 4).
(* c/baokeshed_avx512.c:886-898 *)
Definition unpack_lo_128 (a b : vec) : vec := mm512_shuffle_i32x4 a b 0x88.
Definition unpack_hi_128 (a b : vec) : vec := mm512_shuffle_i32x4 a b 0xdd.

(* c/baokeshed_avx512.c:900-980 *)
Definition z_transpose16 (v : list vec) : list vec :=
  let ab_0 := w_unpacklo_epi32 (vrow v 0) (vrow v 1) in
  let ab_2 := w_unpackhi_epi32 (vrow v 0) (vrow v 1) in
  let cd_0 := w_unpacklo_epi32 (vrow v 2) (vrow v 3) in
  let cd_2 := w_unpackhi_epi32 (vrow v 2) (vrow v 3) in
  let ef_0 := w_unpacklo_epi32 (vrow v 4) (vrow v 5) in
  let ef_2 := w_unpackhi_epi32 (vrow v 4) (vrow v 5) in
  let gh_0 := w_unpacklo_epi32 (vrow v 6) (vrow v 7) in
  let gh_2 := w_unpackhi_epi32 (vrow v 6) (vrow v 7) in
  let ij_0 := w_unpacklo_epi32 (vrow v 8) (vrow v 9) in
  let ij_2 := w_unpackhi_epi32 (vrow v 8) (vrow v 9) in
  let kl_0 := w_unpacklo_epi32 (vrow v 10) (vrow v 11) in
  let kl_2 := w_unpackhi_epi32 (vrow v 10) (vrow v 11) in
  let mn_0 := w_unpacklo_epi32 (vrow v 12) (vrow v 13) in
  let mn_2 := w_unpackhi_epi32 (vrow v 12) (vrow v 13) in
  let op_0 := w_unpacklo_epi32 (vrow v 14) (vrow v 15) in
  let op_2 := w_unpackhi_epi32 (vrow v 14) (vrow v 15) in
  let abcd_0 := w_unpacklo_epi64 ab_0 cd_0 in
  let abcd_1 := w_unpackhi_epi64 ab_0 cd_0 in
  let abcd_2 := w_unpacklo_epi64 ab_2 cd_2 in
  let abcd_3 := w_unpackhi_epi64 ab_2 cd_2 in
  let efgh_0 := w_unpacklo_epi64 ef_0 gh_0 in
  let efgh_1 := w_unpackhi_epi64 ef_0 gh_0 in
  let efgh_2 := w_unpacklo_epi64 ef_2 gh_2 in
  let efgh_3 := w_unpackhi_epi64 ef_2 gh_2 in
  let ijkl_0 := w_unpacklo_epi64 ij_0 kl_0 in
  let ijkl_1 := w_unpackhi_epi64 ij_0 kl_0 in
  let ijkl_2 := w_unpacklo_epi64 ij_2 kl_2 in
  let ijkl_3 := w_unpackhi_epi64 ij_2 kl_2 in
  let mnop_0 := w_unpacklo_epi64 mn_0 op_0 in
  let mnop_1 := w_unpackhi_epi64 mn_0 op_0 in
  let mnop_2 := w_unpacklo_epi64 mn_2 op_2 in
  let mnop_3 := w_unpackhi_epi64 mn_2 op_2 in
  let abcdefgh_0 := unpack_lo_128 abcd_0 efgh_0 in
  let abcdefgh_1 := unpack_lo_128 abcd_1 efgh_1 in
  let abcdefgh_2 := unpack_lo_128 abcd_2 efgh_2 in
  let abcdefgh_3 := unpack_lo_128 abcd_3 efgh_3 in
  let abcdefgh_4 := unpack_hi_128 abcd_0 efgh_0 in
  let abcdefgh_5 := unpack_hi_128 abcd_1 efgh_1 in
  let abcdefgh_6 := unpack_hi_128 abcd_2 efgh_2 in
  let abcdefgh_7 := unpack_hi_128 abcd_3 efgh_3 in
  let ijklmnop_0 := unpack_lo_128 ijkl_0 mnop_0 in
  let ijklmnop_1 := unpack_lo_128 ijkl_1 mnop_1 in
  let ijklmnop_2 := unpack_lo_128 ijkl_2 mnop_2 in
  let ijklmnop_3 := unpack_lo_128 ijkl_3 mnop_3 in
  let ijklmnop_4 := unpack_hi_128 ijkl_0 mnop_0 in
  let ijklmnop_5 := unpack_hi_128 ijkl_1 mnop_1 in
  let ijklmnop_6 := unpack_hi_128 ijkl_2 mnop_2 in
  let ijklmnop_7 := unpack_hi_128 ijkl_3 mnop_3 in
  [unpack_lo_128 abcdefgh_0 ijklmnop_0; unpack_lo_128 abcdefgh_1 ijklmnop_1;
   unpack_lo_128 abcdefgh_2 ijklmnop_2; unpack_lo_128 abcdefgh_3 ijklmnop_3;
   unpack_lo_128 abcdefgh_4 ijklmnop_4; unpack_lo_128 abcdefgh_5 ijklmnop_5;
   unpack_lo_128 abcdefgh_6 ijklmnop_6; unpack_lo_128 abcdefgh_7 ijklmnop_7;
   unpack_hi_128 abcdefgh_0 ijklmnop_0; unpack_hi_128 abcdefgh_1 ijklmnop_1;
   unpack_hi_128 abcdefgh_2 ijklmnop_2; unpack_hi_128 abcdefgh_3 ijklmnop_3;
   unpack_hi_128 abcdefgh_4 ijklmnop_4; unpack_hi_128 abcdefgh_5 ijklmnop_5;
   unpack_hi_128 abcdefgh_6 ijklmnop_6; unpack_hi_128 abcdefgh_7 ijklmnop_7].

(* c/baokeshed_avx512.c:982-1001 *)
Definition z_transpose_msg16 (inputs : list (list N)) (block_offset : N) : res (list vec) :=
  let* v := load_grid 64 inputs block_offset [0] in
  Ok (z_transpose16 v).

(* c/baokeshed_avx512.c:1003-1015 *)
Definition z_load_offsets16 (offset : N) (deltas : list N) : res (vec * vec) :=
  let* d0 := slice deltas 0 8 in
  let* d8 := slice deltas 8 8 in
  let a := add_epi64 (repeat offset 8) d0 in
  let b := add_epi64 (repeat offset 8) d8 in
  let lo_indexes := [0; 2; 4; 6; 8; 10; 12; 14; 16; 18; 20; 22; 24; 26; 28; 30] in
  let hi_indexes := [1; 3; 5; 7; 9; 11; 13; 15; 17; 19; 21; 23; 25; 27; 29; 31] in
  Ok (permutex2var_epi32 (as_epi32 a) lo_indexes (as_epi32 b),
      permutex2var_epi32 (as_epi32 a) hi_indexes (as_epi32 b)).

(* c/baokeshed_avx512.c:1067-1089: pad, transpose, store the lower half of each vector *)
Definition store16 (h : list vec) : list N :=
  let padded := h ++ repeat (set1_epi32 16 0) 8 in
  flat_map (fun i => storeu (firstn 8 (vrow (z_transpose16 padded) i))) (seq 0 16).

(* c/baokeshed_avx512.c:1017-1090 *)
Definition hash16_avx512 (inputs : list (list N)) (blocks : N) (key : list N) (offset : N)
  (deltas : list N) (flags flags_start flags_end : N) : res (list N) :=
  let h := map (fun i => set1_epi32 16 (get key i)) (seq 0 8) in
  let* (lo, hi) := z_load_offsets16 offset deltas in
  let* h := vec_hash_loop z_ops c_avx512_round16_code (set1_epi32 16) (z_transpose_msg16 inputs)
              (N.to_nat blocks) 0 blocks h lo hi (N.lor flags flags_start) flags flags_end in
  Ok (store16 h).

(* c/baokeshed_avx512.c:1098-1115 *)
Definition hash_one_avx512 (input : list N) (blocks : N) (key : list N)
  (offset flags flags_start flags_end : N) : res (list N) :=
  let* state := hash_one_loop compress_avx512 (N.to_nat blocks) key input offset
                  (N.lor flags flags_start) flags flags_end in
  Ok (bytes_of_words state).

(* c/baokeshed_avx512.c:1117-1154 *)
Definition hash_many_avx512 (inputs : list (list N)) (blocks : N) (key : list N) (offset : N)
  (deltas : list N) (flags flags_start flags_end : N) (out : list N) : res (list N) :=
  many_loop (length inputs) 16
    (fun ins off => hash16_avx512 ins blocks key off deltas flags flags_start flags_end)
    (fun inputs off out =>
       many_loop (length inputs) 8
         (fun ins off => hash8_avx512 ins blocks key off deltas flags flags_start flags_end)
         (fun inputs off out =>
            many_loop (length inputs) 4
              (fun ins off => hash4_avx512 ins blocks key off deltas flags flags_start flags_end)
              (single_loop
                 (fun i off => hash_one_avx512 i blocks key off flags flags_start flags_end) deltas)
              inputs off deltas out)
         inputs off deltas out)
    inputs offset deltas out.

(* ---- c/baokeshed_neon.c -------------------------------------------------------- *)

(* c/baokeshed_neon.c:18-47: vaddq_u32, veorq_u32, vorrq_u32, vshrq_n_u32, vshlq_n_u32 *)
Definition n_rot (x : vec) (n : N) : vec := or_si (srli_epi32 x n) (slli_epi32 x (32 - n)).
Definition n_ops : vops vec :=
  VOps vec [] add_epi32 xor_si (fun x => n_rot x 16) (fun x => n_rot x 12)
       (fun x => n_rot x 8) (fun x => n_rot x 7).

(* vtrnq_u32, vget_low_u32, vget_high_u32, vcombine_u32 *)
Definition vtrnq_u32 (a b : vec) : vec * vec :=
  ([lane a 0; lane b 0; lane a 2; lane b 2], [lane a 1; lane b 1; lane a 3; lane b 3]).
Definition vget_low (a : vec) : vec := firstn 2 a.
Definition vget_high (a : vec) : vec := skipn 2 a.

(* c/baokeshed_neon.c:175-189 *)
Definition n_transpose (v : list vec) : list vec :=
  let '(rows01_0, rows01_1) := vtrnq_u32 (vrow v 0) (vrow v 1) in
  let '(rows23_0, rows23_1) := vtrnq_u32 (vrow v 2) (vrow v 3) in
  [vget_low rows01_0 ++ vget_low rows23_0; vget_low rows01_1 ++ vget_low rows23_1;
   vget_high rows01_0 ++ vget_high rows23_0; vget_high rows01_1 ++ vget_high rows23_1].

(* c/baokeshed_neon.c:191-213 *)
Definition n_transpose_msg (inputs : list (list N)) (block_offset : N) : res (list vec) :=
  msg4 n_transpose inputs block_offset.

(* c/baokeshed_neon.c:215-223 *)
Definition n_load_offsets (offset : N) (deltas : list N) : res (vec * vec) :=
  let* offs := delta_offsets 4 offset deltas in
  Ok (map c_offset_low offs, map c_offset_high offs).

(* c/baokeshed_neon.c:225-284 *)
Definition hash4_neon (inputs : list (list N)) (blocks : N) (key : list N) (offset : N)
  (deltas : list N) (flags flags_start flags_end : N) : res (list N) :=
  let h := map (fun i => set1_epi32 4 (get key i)) (seq 0 8) in
  let* (lo, hi) := n_load_offsets offset deltas in
  let* h := vec_hash_loop n_ops c_neon_round_code (set1_epi32 4) (n_transpose_msg inputs)
              (N.to_nat blocks) 0 blocks h lo hi (N.lor flags flags_start) flags flags_end in
  Ok (store4 n_transpose h).

(* c/baokeshed_neon.c:292-310 *)
Definition hash_one_neon (input : list N) (blocks : N) (key : list N)
  (offset flags flags_start flags_end : N) : res (list N) :=
  let* state := hash_one_loop compress_portable (N.to_nat blocks) key input offset
                  (N.lor flags flags_start) flags flags_end in
  Ok (bytes_of_words state).

(* c/baokeshed_neon.c:312-332 *)
Definition hash_many_neon (inputs : list (list N)) (blocks : N) (key : list N) (offset : N)
  (deltas : list N) (flags flags_start flags_end : N) (out : list N) : res (list N) :=
  many_loop (length inputs) 4
    (fun four off => hash4_neon four blocks key off deltas flags flags_start flags_end)
    (single_loop (fun i off => hash_one_neon i blocks key off flags flags_start flags_end) deltas)
    inputs offset deltas out.
