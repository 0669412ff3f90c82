(* The C code on machines of either byte order.  load32 and store32 (c/baokeshed_impl.h:59-71) go
   byte by byte and words are copied to words, so that the byte order only matters where the
   bytes of a word are copied as they lie in memory: in c/baokeshed_neon.c:6-16 (vectors) and
   c/baokeshed_neon.c:309 (an array of uint32_t).  Definitions only. *)
From Coq Require Import NArith List Bool.
From Verif Require Import Base Spec CSimd CImpl.
Import ListNotations.
Open Scope N_scope.

(* The four bytes of a uint32_t in memory, the one with the lowest address first. *)
Definition word_memory (big : bool) (w : N) : list N :=
  if big then rev (bytes32 w) else bytes32 w.

(* c/baokeshed_neon.c:292-310, with the memcpy of line 309 *)
Definition hash_one_neon_on (big : bool) (input : list N) (blocks : N) (key : list N)
  (offset flags flags_start flags_end : N) : res (list N) :=
  let* state := hash_one_loop compress_portable (N.to_nat blocks) key input offset
                  (N.lor flags flags_start) flags flags_end in
  Ok (flat_map (word_memory big) state).

(* What hash4_neon does: inputs, blocks, key, offset, deltas, flags, flags_start, flags_end. *)
Definition hash4_fun : Type := list (list N) -> N -> list N -> N -> list N -> N -> N -> N -> res (list N).

(* c/baokeshed_neon.c:312-332.  How vectors lie in memory on a big-endian machine is not
   modelled: hash4 is anything there. *)
Definition hash_many_neon_on (big : bool) (hash4 : hash4_fun) (inputs : list (list N)) (blocks : N)
  (key : list N) (offset : N) (deltas : list N) (flags flags_start flags_end : N) (out : list N)
  : res (list N) :=
  many_loop (length inputs) 4
    (fun four off => hash4 four blocks key off deltas flags flags_start flags_end)
    (single_loop
       (fun i off => hash_one_neon_on big i blocks key off flags flags_start flags_end) deltas)
    inputs offset deltas out.

(* c/baokeshed.c:169-190.  The first three are for x86, which is little-endian. *)
Definition c_hash_many_on (big : bool) (hash4 : hash4_fun) (o : copts)
  : list (list N) -> N -> list N -> N -> list N -> N -> N -> N -> list N -> res (list N) :=
  if use_avx512 o then hash_many_avx512
  else if use_avx2 o then hash_many_avx2
  else if use_sse41 o then hash_many_sse41
  else if use_neon o then hash_many_neon_on big hash4
  else hash_many_portable.

Section Order.
Variable big : bool.
Variable hash4 : hash4_fun.
Variable o : copts.

(* c/baokeshed.c:224-242, as chunks_loop in CImpl.v *)
Fixpoint chunks_loop_on (fuel : nat) (h : c_hasher) (input out : list N)
  : res (c_hasher * list N) :=
  if C_CHUNK_LEN <=? len input then
    match fuel with
    | O => NoFuel
    | S fuel' =>
        let '(chunks, input) := gather_chunks (N.to_nat C_MAX_SIMD_DEGREE) input in
        let s := c_chunk_of h in
        let* out := c_hash_many_on big hash4 o chunks (C_CHUNK_LEN / C_BLOCK_LEN) (k_key s)
                      (k_offset s) CHUNK_OFFSET_DELTAS (k_flags s) C_CHUNK_START C_CHUNK_END out in
        let* h := push_chunks o (length chunks) 0 h out in
        chunks_loop_on fuel' h input out
    end
  else Ok (h, input).

(* c/baokeshed.c:219-256, as hasher_update_rest in CImpl.v *)
Definition hasher_update_rest_on (junk : list N) (h : c_hasher) (input : list N) : res c_hasher :=
  let* (h, input) := chunks_loop_on (length input) h input junk in
  if 0 <? len input then
    let* h := hasher_merge_all o h (k_offset (c_chunk_of h)) in
    let* s := chunk_state_update o (c_chunk_of h) input in
    Ok (CHasher s (c_stack_len h) (c_stack h))
  else Ok h.
(* c/baokeshed.c:192-256, as hasher_update in CImpl.v *)
Definition hasher_update_on (junk : list N) (h : c_hasher) (input : list N) : res c_hasher :=
  let is_first_chunk := k_offset (c_chunk_of h) =? 0 in
  let maybe_root := is_first_chunk && (len input =? C_CHUNK_LEN) in
  if maybe_root || (0 <? chunk_state_len (c_chunk_of h)) then
    let n := sub_size o C_CHUNK_LEN (chunk_state_len (c_chunk_of h)) in
    let n := if len input <? n then len input else n in
    let* src := slice input 0 n in
    let* s := chunk_state_update o (c_chunk_of h) src in
    let h := CHasher s (c_stack_len h) (c_stack h) in
    let input := drop n input in
    if 0 <? len input then
      let out := chunk_state_finalize o s false in
      let* h := hasher_push_chunk_hash o h out (k_offset s) in
      let s := chunk_state_reset (c_chunk_of h)
                 ((k_offset (c_chunk_of h) + C_CHUNK_LEN) mod W64) in
      hasher_update_rest_on junk (CHasher s (c_stack_len h) (c_stack h)) input
    else Ok h
  else hasher_update_rest_on junk h input.

(* initialise, update any number of times, finalise; as c_updates and c_hash in CSpec.v *)
Fixpoint c_updates_on (h : c_hasher) (us : list (list N * list N)) : res c_hasher :=
  match us with
  | [] => Ok h
  | (input, junk) :: r => let* h := hasher_update_on junk h input in c_updates_on h r
  end.
Definition c_hash_on (memory key : list N) (flags : N) (us : list (list N * list N))
  : res (list N) :=
  let* h := c_updates_on (hasher_init memory key flags) us in hasher_finalize o h.

End Order.

(* For the statements: each group of four bytes reversed. *)
Definition swap_words (l : list N) : list N := concat (map (@rev N) (pieces 4 l)).
