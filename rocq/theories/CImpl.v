(* Model of /repo/c/baokeshed.c: the incremental hasher in C.  Definitions only.

   Conventions as in CSimd.v: reading or writing outside an array is a Panic, a failing
   assert is a Panic, unsigned arithmetic wraps.  uint64_t has 64 bits, size_t 32 or 64.  The
   contents of uninitialised arrays are arguments (junk).  Function arguments declared
   `uint8_t *input, size_t input_len` are one list. *)
From Coq Require Import NArith List Bool.
From Verif Require Import Base CSimd.
Import ListNotations.
Open Scope N_scope.

(* What is decided when the C files are compiled: the backends (BAOKESHED_USE_*, 
   c/baokeshed.c:65-71 and 174-189), the popcnt instruction (c/baokeshed_impl.h:78-89), and
   NDEBUG, which removes assertions, and whether size_t has 32 bits. *)
Record copts : Type := COpts
  { use_avx512 : bool; use_avx2 : bool; use_sse41 : bool; use_neon : bool;
    popcnt_insn : bool; ndebug : bool; size32 : bool }.

(* one more than the largest size_t *)
Definition WS (o : copts) : N := if size32 o then W32 else W64.
(* a - b in size_t *)
Definition sub_size (o : copts) (a b : N) : N := (a + (WS o - b)) mod WS o.

(* c/baokeshed.c:10-18 *)
Record c_chunk : Type := CChunk
  { k_state : list N; k_key : list N; k_offset : N; k_count : N;
    k_buf : list N; k_buf_len : N; k_flags : N }.

(* c/baokeshed.c:21-29 *)
Definition chunk_state_init (key : list N) (flags : N) : c_chunk :=
  CChunk key key 0 0 (zeros C_BLOCK_LEN) 0 flags.
(* c/baokeshed.c:31-37 *)
Definition chunk_state_reset (s : c_chunk) (new_offset : N) : c_chunk :=
  CChunk (k_key s) (k_key s) new_offset 0 (zeros C_BLOCK_LEN) 0 (k_flags s).
(* c/baokeshed.c:39-41 *)
Definition chunk_state_len (s : c_chunk) : N := k_count s + k_buf_len s.
(* c/baokeshed.c:43-53; returns the state and the input after the bytes taken *)
Definition chunk_state_fill_buf (o : copts) (s : c_chunk) (input : list N) : res (c_chunk * list N) :=
  let n := sub_size o C_BLOCK_LEN (k_buf_len s) in
  let n := if len input <? n then len input else n in
  let* src := slice input 0 n in
  let* buf := copy_at (k_buf s) (k_buf_len s) src in
  Ok (CChunk (k_state s) (k_key s) (k_offset s) (k_count s) buf
        ((k_buf_len s + n mod W8) mod W8) (k_flags s), drop n input).
(* c/baokeshed.c:55-61 *)
Definition chunk_state_maybe_start_flag (s : c_chunk) : N :=
  if k_count s =? 0 then C_CHUNK_START else 0.
(* c/baokeshed.c:63-72; the new state *)
Definition c_compress (o : copts) : list N -> list N -> N -> N -> N -> list N :=
  if use_avx512 o then compress_avx512
  else if use_sse41 o then compress_sse41
  else compress_portable.

(* c/baokeshed.c:82-84 and 91-93: compress one whole block and count it *)
Definition chunk_state_block (o : copts) (s : c_chunk) (block : list N) : c_chunk :=
  CChunk (c_compress o (k_state s) block C_BLOCK_LEN (k_offset s)
            (N.lor (k_flags s) (chunk_state_maybe_start_flag s)))
         (k_key s) (k_offset s) ((k_count s + C_BLOCK_LEN) mod 65536)
         (k_buf s) (k_buf_len s) (k_flags s).
(* c/baokeshed.c:90-96; fuel bounds the iterations *)
Fixpoint chunk_state_loop (o : copts) (fuel : nat) (s : c_chunk) (input : list N)
  : res (c_chunk * list N) :=
  if C_BLOCK_LEN <? len input then
    match fuel with
    | O => NoFuel
    | S fuel' =>
        let* block := slice input 0 C_BLOCK_LEN in
        chunk_state_loop o fuel' (chunk_state_block o s block) (drop C_BLOCK_LEN input)
    end
  else Ok (s, input).
(* c/baokeshed.c:75-101 *)
Definition chunk_state_update (o : copts) (s : c_chunk) (input : list N) : res c_chunk :=
  let* (s, input) :=
    (if 0 <? k_buf_len s then
       let* (s, input) := chunk_state_fill_buf o s input in
       if 0 <? len input then
         let s := chunk_state_block o s (k_buf s) in
         Ok (CChunk (k_state s) (k_key s) (k_offset s) (k_count s) (zeros C_BLOCK_LEN) 0
               (k_flags s), input)
       else Ok (s, input)
     else Ok (s, input)) in
  let* (s, input) := chunk_state_loop o (length input) s input in
  let* (s, input) := chunk_state_fill_buf o s input in
  Ok s.
(* c/baokeshed.c:104-115; the 32 bytes written to out *)
Definition chunk_state_finalize (o : copts) (s : c_chunk) (is_root : bool) : list N :=
  let block_flags :=
    N.lor (N.lor (k_flags s) (chunk_state_maybe_start_flag s)) C_CHUNK_END in
  let block_flags := if is_root then N.lor block_flags C_ROOT else block_flags in
  write_state_bytes (c_compress o (k_state s) (k_buf s) (k_buf_len s) (k_offset s) block_flags).

(* c/baokeshed.c:117-128; the 32 bytes written to out *)
Definition c_hash_one_parent (o : copts) (block key : list N) (is_root : bool) (flags : N) : list N :=
  let block_flags := N.lor flags C_PARENT in
  let block_flags := if is_root then N.lor block_flags C_ROOT else block_flags in
  write_state_bytes (c_compress o key block C_BLOCK_LEN 0 block_flags).

(* c/baokeshed.c:130-134; c_stack is the whole array of MAX_DEPTH * OUT_LEN bytes *)
Record c_hasher : Type := CHasher
  { c_chunk_of : c_chunk; c_stack_len : N; c_stack : list N }.

(* c/baokeshed.c:136-141; junk is what the array subtree_hashes contains *)
Definition hasher_init (junk key : list N) (flags : N) : c_hasher :=
  CHasher (chunk_state_init (load_words 8 key) flags) 0 junk.

(* c/baokeshed.c:143-146 *)
Definition hasher_needs_merge (o : copts) (h : c_hasher) (total_bytes : N) : res bool :=
  let total_chunks := total_bytes / C_CHUNK_LEN in
  let* n := popcnt (popcnt_insn o) total_chunks in
  Ok (n <? c_stack_len h).
(* c/baokeshed.c:148-156 *)
Definition hasher_merge_parent (o : copts) (h : c_hasher) : res c_hasher :=
  let parent_block_start := (sub_size o (c_stack_len h) 2 * C_OUT_LEN) mod WS o in
  let* block := slice (c_stack h) parent_block_start C_BLOCK_LEN in
  let out := c_hash_one_parent o block (k_key (c_chunk_of h)) false (k_flags (c_chunk_of h)) in
  let* stack := copy_at (c_stack h) parent_block_start out in
  Ok (CHasher (c_chunk_of h) ((c_stack_len h + 255) mod W8) stack).
(* c/baokeshed.c:161-163 and 251-253; fuel bounds the iterations *)
Fixpoint hasher_merge_loop (o : copts) (fuel : nat) (h : c_hasher) (total_bytes : N)
  : res c_hasher :=
  let* needs := hasher_needs_merge o h total_bytes in
  if needs then
    match fuel with
    | O => NoFuel
    | S fuel' => let* h := hasher_merge_parent o h in hasher_merge_loop o fuel' h total_bytes
    end
  else Ok h.
Definition hasher_merge_all (o : copts) (h : c_hasher) (total_bytes : N) : res c_hasher :=
  hasher_merge_loop o (N.to_nat (c_stack_len h)) h total_bytes.
(* c/baokeshed.c:158-167 *)
Definition hasher_push_chunk_hash (o : copts) (h : c_hasher) (hash : list N) (offset : N)
  : res c_hasher :=
  (if ndebug o then Ok tt else assert_ (c_stack_len h <? C_MAX_DEPTH)) ;;
  let* h := hasher_merge_all o h offset in
  let* stack := copy_at (c_stack h) (c_stack_len h * C_OUT_LEN) hash in
  Ok (CHasher (c_chunk_of h) ((c_stack_len h + 1) mod W8) stack).

(* c/baokeshed.c:169-190 *)
Definition c_hash_many (o : copts)
  : list (list N) -> N -> list N -> N -> list N -> N -> N -> N -> list N -> res (list N) :=
  if use_avx512 o then hash_many_avx512
  else if use_avx2 o then hash_many_avx2
  else if use_sse41 o then hash_many_sse41
  else if use_neon o then hash_many_neon
  else hash_many_portable.

(* c/baokeshed.c:225-230: room is MAX_SIMD_DEGREE - num_chunks; the pointers gathered and
   the input after them *)
Fixpoint gather_chunks (room : nat) (input : list N) : list (list N) * list N :=
  if C_CHUNK_LEN <=? len input then
    match room with
    | O => ([], input)
    | S room' => let '(cs, rest) := gather_chunks room' (drop C_CHUNK_LEN input) in
                 (input :: cs, rest)
    end
  else ([], input).
(* c/baokeshed.c:234-240: n iterations, starting at index chunk_index *)
Fixpoint push_chunks (o : copts) (n : nat) (chunk_index : N) (h : c_hasher) (out : list N)
  : res c_hasher :=
  match n with
  | O => Ok h
  | S n' =>
      let* hash := slice out (chunk_index * C_OUT_LEN) C_OUT_LEN in
      let* h := hasher_push_chunk_hash o h hash (k_offset (c_chunk_of h)) in
      let s := c_chunk_of h in
      let s := CChunk (k_state s) (k_key s) ((k_offset s + C_CHUNK_LEN) mod W64) (k_count s)
                 (k_buf s) (k_buf_len s) (k_flags s) in
      push_chunks o n' (chunk_index + 1) (CHasher s (c_stack_len h) (c_stack h)) out
  end.
(* c/baokeshed.c:224-242; fuel bounds the iterations *)
Fixpoint chunks_loop (o : copts) (fuel : nat) (h : c_hasher) (input out : list N)
  : res (c_hasher * list N) :=
  if C_CHUNK_LEN <=? len input then
    match fuel with
    | O => NoFuel
    | S fuel' =>
        let '(chunks, input) := gather_chunks (N.to_nat C_MAX_SIMD_DEGREE) input in
        let s := c_chunk_of h in
        let* out := c_hash_many o chunks (C_CHUNK_LEN / C_BLOCK_LEN) (k_key s) (k_offset s)
                      CHUNK_OFFSET_DELTAS (k_flags s) C_CHUNK_START C_CHUNK_END out in
        let* h := push_chunks o (length chunks) 0 h out in
        chunks_loop o fuel' h input out
    end
  else Ok (h, input).

(* c/baokeshed.c:219-256, after the partial chunk has been dealt with *)
Definition hasher_update_rest (o : copts) (junk : list N) (h : c_hasher) (input : list N)
  : res c_hasher :=
  let* (h, input) := chunks_loop o (length input) h input junk in
  if 0 <? len input then
    let* h := hasher_merge_all o h (k_offset (c_chunk_of h)) in
    let* s := chunk_state_update o (c_chunk_of h) input in
    Ok (CHasher s (c_stack_len h) (c_stack h))
  else Ok h.
(* c/baokeshed.c:192-256; junk is what the local array out contains *)
Definition hasher_update (o : copts) (junk : list N) (h : c_hasher) (input : list N)
  : res c_hasher :=
  let is_first_chunk := k_offset (c_chunk_of h) =? 0 in
  let maybe_root := is_first_chunk && (len input =? C_CHUNK_LEN) in
  if maybe_root || (0 <? chunk_state_len (c_chunk_of h)) then
    let n := sub_size o C_CHUNK_LEN (chunk_state_len (c_chunk_of h)) in
    let n := if len input <? n then len input else n in
    let* src := slice input 0 n in
    let* s := chunk_state_update o (c_chunk_of h) src in
    let h := CHasher s (c_stack_len h) (c_stack h) in
    let input := drop n input in
    if 0 <? len input then
      let out := chunk_state_finalize o s false in
      let* h := hasher_push_chunk_hash o h out (k_offset s) in
      let s := chunk_state_reset (c_chunk_of h)
                 ((k_offset (c_chunk_of h) + C_CHUNK_LEN) mod W64) in
      hasher_update_rest o junk (CHasher s (c_stack_len h) (c_stack h)) input
    else Ok h
  else hasher_update_rest o junk h input.

(* c/baokeshed.c:280-292; fuel bounds the iterations *)
Fixpoint finalize_up (o : copts) (fuel : nat) (h : c_hasher) (working_hash : list N)
  (next_subtree_start : N) : res (list N) :=
  let is_root := next_subtree_start =? 0 in
  let* subtree := slice (c_stack h) next_subtree_start C_OUT_LEN in
  let block := subtree ++ working_hash in
  let working_hash :=
    c_hash_one_parent o block (k_key (c_chunk_of h)) is_root (k_flags (c_chunk_of h)) in
  if is_root then Ok working_hash
  else
    match fuel with
    | O => NoFuel
    | S fuel' => finalize_up o fuel' h working_hash (sub_size o next_subtree_start C_OUT_LEN)
    end.
(* c/baokeshed.c:258-293; the 32 bytes written to out.  self is const. *)
Definition hasher_finalize (o : copts) (h : c_hasher) : res (list N) :=
  if c_stack_len h =? 0 then Ok (chunk_state_finalize o (c_chunk_of h) true)
  else
    let* (working_hash, next_subtree_start) :=
      (if 0 <? chunk_state_len (c_chunk_of h) then
         Ok (chunk_state_finalize o (c_chunk_of h) false,
             (sub_size o (c_stack_len h) 1 * C_OUT_LEN) mod WS o)
       else
         let last_hash_start := (sub_size o (c_stack_len h) 1 * C_OUT_LEN) mod WS o in
         let* w := slice (c_stack h) last_hash_start C_OUT_LEN in
         Ok (w, (sub_size o (c_stack_len h) 2 * C_OUT_LEN) mod WS o)) in
    finalize_up o (N.to_nat (c_stack_len h)) h working_hash next_subtree_start.
