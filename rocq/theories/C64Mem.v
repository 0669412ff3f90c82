(* /repo/c64 again, this time noting the memory accessed: the bytes of the inputs, the output,
   the key, the chaining value and the block that are read or written, and the entries of the
   array of offset deltas.  Definitions only.

   The steps are those of VOps.v.  Accesses to local arrays and to the constant tables are not
   noted, nor are the operations on vectors and words: those are straight-line code, see C64.v,
   whose functions give the values here.  A load64 or store64 is noted as one access of eight
   bytes, a memcpy as one access. *)
From Coq Require Import NArith List Bool.
From Verif Require Import Base VOps VSteps CVSteps Spec64 Simd64 Simd64Gen C64.
Import ListNotations.
Open Scope N_scope.

(* count pieces of n bytes each, from byte pos of p on *)
Definition loads (p : vplace) (pos n : N) (count : nat) : list vstep :=
  map (fun i => Load p (pos + n * N.of_nat i) n) (seq 0 count).
Definition stores (p : vplace) (pos n : N) (count : nat) : list vstep :=
  map (fun i => Store p (pos + n * N.of_nat i) n) (seq 0 count).

(* ---- the compression functions; the block is at byte pos of p -------------------------- *)

(* c64/baokeshed64_portable.c:33-60, with load_msg_words of c64/baokeshed64_impl.h:99-116 *)
Definition m_compress_portable (p : vplace) (pos : N) (state block : list N)
  (block_len offset flags : N) : vs (list N) :=
  (loads p pos 8 16 ++ loads PCv 0 8 4 ++ stores PCv 0 8 4,
   Ok (compress_portable state block block_len offset flags)).
(* c64/baokeshed64_avx2.c:85-276 *)
Definition m_compress_avx2 (p : vplace) (pos : N) (state block : list N)
  (block_len offset flags : N) : vs (list N) :=
  (Load PCv 0 32 :: loads p pos 16 8 ++ [Store PCv 0 32],
   Ok (compress_avx2 state block block_len offset flags)).
(* c64/baokeshed64_avx512.c:119-310 *)
Definition m_compress_avx512 (p : vplace) (pos : N) (state block : list N)
  (block_len offset flags : N) : vs (list N) :=
  (Load PCv 0 32 :: loads p pos 16 8 ++ [Store PCv 0 32],
   Ok (compress_avx512 state block block_len offset flags)).

(* ---- one input -------------------------------------------------------------------------- *)

(* The `while (blocks > 0)` loop of hash_one_*: c64/baokeshed64_portable.c:69-77,
   c64/baokeshed64_avx512.c:1027-1035, c64/baokeshed64_neon.c:286-295.  Input number k; pos is
   the position of input in it. *)
Fixpoint m_hash_one_loop (comp : vplace -> N -> list N -> list N -> N -> N -> N -> vs (list N))
  (k : nat) (pos : N) (blocks : nat) (state input : list N)
  (offset block_flags flags flags_end : N) : vs (list N) :=
  match blocks with
  | O => vlift (Ok state)
  | S blocks' =>
      let block_flags :=
        match blocks' with O => N.lor block_flags flags_end | S _ => block_flags end in
      let? block := vlift (slice input 0 BLOCK_LEN) in
      let? state := comp (PInput k) pos state block BLOCK_LEN offset block_flags in
      m_hash_one_loop comp k (pos + BLOCK_LEN) blocks' state (drop BLOCK_LEN input) offset
                      flags flags flags_end
  end.
(* c64/baokeshed64_portable.c:62-79, with write_state_bytes of
   c64/baokeshed64_impl.h:125-130; the output is number k *)
Definition m_hash_one_portable (blocks : N) (key : list N) (flags flags_start flags_end : N)
  (k : nat) (input : list N) (offset : N) : vs (list N) :=
  ([Load PKey 0 32], Ok tt) ;?
  let? state := m_hash_one_loop m_compress_portable k 0 (N.to_nat blocks) key input offset
                  (N.lor flags flags_start) flags flags_end in
  (stores POut (32 * N.of_nat k) 8 4, Ok (write_state_bytes state)).
(* c64/baokeshed64_avx512.c:1019-1037, c64/baokeshed64_neon.c:279-297 *)
Definition m_hash_one (comp : vplace -> N -> list N -> list N -> N -> N -> N -> vs (list N))
  (blocks : N) (key : list N) (flags flags_start flags_end : N)
  (k : nat) (input : list N) (offset : N) : vs (list N) :=
  ([Load PKey 0 32], Ok tt) ;?
  let? state := m_hash_one_loop comp k 0 (N.to_nat blocks) key input offset
                  (N.lor flags flags_start) flags flags_end in
  ([Store POut (32 * N.of_nat k) 32], Ok (bytes_of_words64 state)).

(* ---- several inputs at once -------------------------------------------------------------- *)

(* one vector of n bytes from each input, k being the number of the first *)
Fixpoint m_load_row (k : nat) (n : N) (inputs : list (list N)) (off : N) : vs (list vec) :=
  match inputs with
  | [] => vlift (Ok [])
  | i :: inputs =>
      let? x := ([Load (PInput k) off n], loadu64 n i off) in
      let? xs := m_load_row (S k) n inputs off in
      vlift (Ok (x :: xs))
  end.
(* the loads of transpose_msg_vecs*, see load_grid64 of C64.v *)
Fixpoint m_load_grid (k : nat) (n : N) (inputs : list (list N)) (block_offset : N)
  (cols : list N) : vs (list vec) :=
  match cols with
  | [] => vlift (Ok [])
  | col :: cols =>
      let? x := m_load_row k n inputs (block_offset + col) in
      let? xs := m_load_grid k n inputs block_offset cols in
      vlift (Ok (x ++ xs))
  end.
(* c64/baokeshed64_sse41.c:170-196, c64/baokeshed64_avx512.c:443-469,
   c64/baokeshed64_neon.c:184-210 *)
Definition m_msg2 (transpose : list vec -> list vec) (k : nat) (inputs : list (list N))
  (block_offset : N) : vs (list vec) :=
  let? v := m_load_grid k 16 inputs block_offset
              [0 * 16; 1 * 16; 2 * 16; 3 * 16; 4 * 16; 5 * 16; 6 * 16; 7 * 16] in
  vlift (Ok (groups 8 2 transpose v)).
(* c64/baokeshed64_avx2.c:409-431, c64/baokeshed64_avx512.c:669-691 *)
Definition m_msg4 (k : nat) (inputs : list (list N)) (block_offset : N) : vs (list vec) :=
  let? v := m_load_grid k 32 inputs block_offset [0 * 32; 1 * 32; 2 * 32; 3 * 32] in
  vlift (Ok (groups 4 4 transpose4 v)).
(* c64/baokeshed64_avx512.c:922-942 *)
Definition m_msg8 (k : nat) (inputs : list (list N)) (block_offset : N) : vs (list vec) :=
  let? v := m_load_grid k 64 inputs block_offset [0 * 64; 1 * 64] in
  vlift (Ok (groups 2 8 transpose8 v)).

(* c64/baokeshed64_sse41.c:198-201, c64/baokeshed64_avx2.c:433-436,
   c64/baokeshed64_avx512.c:471-474, 693-696 and 944-947: a load of n entries *)
Definition m_load_offsets (n : nat) (offset : N) (deltas : list N) : vs vec :=
  ([Load PDeltas 0 (8 * N.of_nat n)], load_offsets n offset deltas).
(* c64/baokeshed64_neon.c:212-215 *)
Definition m_n_load_offsets (offset : N) (deltas : list N) : vs vec :=
  let? d0 := ([Get PDeltas 0], index deltas 0) in
  let? d1 := ([Get PDeltas 1], index deltas 1) in
  vlift (Ok [plus64 offset d0; plus64 offset d1]).

(* `for (size_t block = 0; block < blocks; block++)`, see vec_loop64 of C64.v *)
Fixpoint m_vec_loop (O : ops64 vec) (code : list instr64) (n : nat)
  (load_msgs : N -> vs (list vec)) (todo : nat) (block blocks : N) (h : list vec)
  (offset_vec : vec) (block_flags flags flags_end : N) : vs (list vec) :=
  match todo with
  | 0%nat => vlift (Ok h)
  | S todo' =>
      let block_flags :=
        if block + 1 =? blocks then N.lor block_flags flags_end else block_flags in
      let? msg := load_msgs (block * BLOCK_LEN) in
      let h := vec_compress64 O code (set1_epi64 n) h msg offset_vec
                 (set1_epi64 n BLOCK_LEN) (set1_epi64 n block_flags) in
      m_vec_loop O code n load_msgs todo' (block + 1) blocks h offset_vec flags flags flags_end
  end.
(* hash2, hash4 and hash8: c64/baokeshed64_sse41.c:203-257, c64/baokeshed64_avx2.c:438-489,
   c64/baokeshed64_avx512.c:476-530, 698-749 and 949-1011, c64/baokeshed64_neon.c:217-271.  n
   inputs, number k0 and following; the result is stored in pieces of `piece` bytes. *)
Definition m_hashN (O : ops64 vec) (code : list instr64) (n : nat)
  (load_msgs : nat -> list (list N) -> N -> vs (list vec)) (load_offs : N -> list N -> vs vec)
  (piece : N) (pieces : nat) (result : list vec -> list N)
  (blocks : N) (key : list N) (deltas : list N) (flags flags_start flags_end : N)
  (k0 : nat) (inputs : list (list N)) (offset : N) : vs (list N) :=
  let? h := (loads PKey 0 8 4, Ok (map (fun i => set1_epi64 n (get key i)) (seq 0 4))) in
  let? offset_vec := load_offs offset deltas in
  let? h := m_vec_loop O code n (load_msgs k0 inputs) (N.to_nat blocks) 0 blocks h offset_vec
              (N.lor flags flags_start) flags flags_end in
  (stores POut (32 * N.of_nat k0) piece pieces, Ok (result h)).

Definition m_hash2_sse41 :=
  m_hashN s_ops sse41_code64 2 (m_msg2 transpose2) (m_load_offsets 2) 16 4 (store2 transpose2).
Definition m_hash4_avx2 :=
  m_hashN a_ops avx2_code64 4 m_msg4 (m_load_offsets 4) 32 4 store4.
Definition m_hash2_avx512 :=
  m_hashN z_ops avx512_code64_2 2 (m_msg2 transpose2) (m_load_offsets 2) 16 4 (store2 transpose2).
Definition m_hash4_avx512 :=
  m_hashN z_ops avx512_code64_4 4 m_msg4 (m_load_offsets 4) 32 4 store4.
Definition m_hash8_avx512 :=
  m_hashN z_ops avx512_code64_8 8 m_msg8 (m_load_offsets 8) 32 8 store8.
Definition m_hash2_neon :=
  m_hashN n_ops neon_code64 2 (m_msg2 n_transpose2) m_n_load_offsets 16 4 (store2 n_transpose2).

(* ---- hash_many; the loops are written as those of /repo/c, see CVSteps.v; k is the number
   of the first input ---------------------------------------------------------------------- *)

(* c64/baokeshed64_portable.c:81-96 *)
Definition m_hash_many_portable (k : nat) (inputs : list (list N)) (blocks : N) (key : list N)
  (offset : N) (deltas : list N) (flags flags_start flags_end : N) (out : list N)
  : vs (list N) :=
  cv_single_loop (m_hash_one_portable blocks key flags flags_start flags_end)
    deltas k inputs offset out.
(* c64/baokeshed64_sse41.c:259-276 *)
Definition m_hash_many_sse41 (k : nat) (inputs : list (list N)) (blocks : N) (key : list N)
  (offset : N) (deltas : list N) (flags flags_start flags_end : N) (out : list N)
  : vs (list N) :=
  cv_many_loop (length inputs) 2 (m_hash2_sse41 blocks key deltas flags flags_start flags_end)
    (fun k ins off out =>
       m_hash_many_portable k ins blocks key off deltas flags flags_start flags_end out)
    k inputs offset deltas out.
(* c64/baokeshed64_avx2.c:491-508 *)
Definition m_hash_many_avx2 (k : nat) (inputs : list (list N)) (blocks : N) (key : list N)
  (offset : N) (deltas : list N) (flags flags_start flags_end : N) (out : list N)
  : vs (list N) :=
  cv_many_loop (length inputs) 4 (m_hash4_avx2 blocks key deltas flags flags_start flags_end)
    (fun k ins off out =>
       m_hash_many_sse41 k ins blocks key off deltas flags flags_start flags_end out)
    k inputs offset deltas out.
(* c64/baokeshed64_avx512.c:1039-1077 *)
Definition m_hash_many_avx512 (k : nat) (inputs : list (list N)) (blocks : N) (key : list N)
  (offset : N) (deltas : list N) (flags flags_start flags_end : N) (out : list N)
  : vs (list N) :=
  cv_many_loop (length inputs) 8 (m_hash8_avx512 blocks key deltas flags flags_start flags_end)
    (fun k ins off out =>
       cv_many_loop (length ins) 4 (m_hash4_avx512 blocks key deltas flags flags_start flags_end)
         (fun k ins off out =>
            cv_many_loop (length ins) 2
              (m_hash2_avx512 blocks key deltas flags flags_start flags_end)
              (fun k ins off out =>
                 cv_single_loop
                   (m_hash_one m_compress_avx512 blocks key flags flags_start flags_end)
                   deltas k ins off out)
              k ins off deltas out)
         k ins off deltas out)
    k inputs offset deltas out.
(* c64/baokeshed64_neon.c:299-321 *)
Definition m_hash_many_neon (k : nat) (inputs : list (list N)) (blocks : N) (key : list N)
  (offset : N) (deltas : list N) (flags flags_start flags_end : N) (out : list N)
  : vs (list N) :=
  cv_many_loop (length inputs) 2 (m_hash2_neon blocks key deltas flags flags_start flags_end)
    (fun k ins off out =>
       cv_single_loop (m_hash_one m_compress_portable blocks key flags flags_start flags_end)
         deltas k ins off out)
    k inputs offset deltas out.
