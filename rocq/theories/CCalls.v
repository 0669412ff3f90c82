(* The functions of /repo/c/baokeshed.c again, this time noting every call of the compression
   function with its arguments, as LibCalls.v does for /repo/src/lib.rs.  Definitions only.

   Each function n_f below is the function f of CImpl.v, statement for statement, with a list
   of calls passed along.  Theorem C43_traced_code in Prop_CCalls says that it returns what f
   returns.

   Simplification: hash_many is noted as a whole.  Its calls are those of
   c/baokeshed_portable.c:73-107, one per block of each input; a vector instruction that works
   on several inputs at once counts as one call for each. *)
From Coq Require Import NArith List Bool.
From Verif Require Import Base Spec LibCalls CSimd CImpl.
Import ListNotations.
Open Scope N_scope.

(* c/baokeshed.c:63-72 *)
Definition n_compress (o : copts) (state block : list N) (block_len offset flags : N)
  : tr (list N) :=
  note [Nd state block block_len offset flags] ;!
  lift (Ok (c_compress o state block block_len offset flags)).

(* the calls of hash_one_portable, c/baokeshed_portable.c:82-90 *)
Definition one_calls (o : copts) (input : list N) (blocks : N) (key : list N)
  (offset flags flags_start flags_end : N) : list node :=
  hash1_calls (c_compress o) (N.to_nat blocks) key (take (blocks * C_BLOCK_LEN) input) offset
    (N.lor flags flags_start) flags flags_end.
(* the calls of hash_many_portable, c/baokeshed_portable.c:99-106: offset_deltas[1] is added
   after each input *)
Fixpoint c_many_calls (o : copts) (inputs : list (list N)) (blocks : N) (key : list N)
  (offset delta flags flags_start flags_end : N) : list node :=
  match inputs with
  | [] => []
  | input :: rest =>
      one_calls o input blocks key offset flags flags_start flags_end
      ++ c_many_calls o rest blocks key ((offset + delta) mod W64) delta flags flags_start flags_end
  end.
(* c/baokeshed.c:169-190 *)
Definition n_hash_many (o : copts) (inputs : list (list N)) (blocks : N) (key : list N) (offset : N)
  (deltas : list N) (flags flags_start flags_end : N) (out : list N) : tr (list N) :=
  note (c_many_calls o inputs blocks key offset (nth 1 deltas 0) flags flags_start flags_end) ;!
  lift (c_hash_many o inputs blocks key offset deltas flags flags_start flags_end out).

(* c/baokeshed.c:82-84 and 91-93 *)
Definition n_chunk_state_block (o : copts) (s : c_chunk) (block : list N) : tr c_chunk :=
  let! state := n_compress o (k_state s) block C_BLOCK_LEN (k_offset s)
                  (N.lor (k_flags s) (chunk_state_maybe_start_flag s)) in
  lift (Ok (CChunk state (k_key s) (k_offset s) ((k_count s + C_BLOCK_LEN) mod 65536)
              (k_buf s) (k_buf_len s) (k_flags s))).
(* c/baokeshed.c:90-96 *)
Fixpoint n_chunk_state_loop (o : copts) (fuel : nat) (s : c_chunk) (input : list N)
  : tr (c_chunk * list N) :=
  if C_BLOCK_LEN <? len input then
    match fuel with
    | O => lift NoFuel
    | S fuel' =>
        let! block := lift (slice input 0 C_BLOCK_LEN) in
        let! s := n_chunk_state_block o s block in
        n_chunk_state_loop o fuel' s (drop C_BLOCK_LEN input)
    end
  else lift (Ok (s, input)).
(* c/baokeshed.c:75-101 *)
Definition n_chunk_state_update (o : copts) (s : c_chunk) (input : list N) : tr c_chunk :=
  let! (s, input) :=
    (if 0 <? k_buf_len s then
       let! (s, input) := lift (chunk_state_fill_buf o s input) in
       if 0 <? len input then
         let! s := n_chunk_state_block o s (k_buf s) in
         lift (Ok (CChunk (k_state s) (k_key s) (k_offset s) (k_count s) (zeros C_BLOCK_LEN) 0
                     (k_flags s), input))
       else lift (Ok (s, input))
     else lift (Ok (s, input))) in
  let! (s, input) := n_chunk_state_loop o (length input) s input in
  let! (s, input) := lift (chunk_state_fill_buf o s input) in
  lift (Ok s).
(* c/baokeshed.c:104-115 *)
Definition n_chunk_state_finalize (o : copts) (s : c_chunk) (is_root : bool) : tr (list N) :=
  let block_flags :=
    N.lor (N.lor (k_flags s) (chunk_state_maybe_start_flag s)) C_CHUNK_END in
  let block_flags := if is_root then N.lor block_flags C_ROOT else block_flags in
  let! state := n_compress o (k_state s) (k_buf s) (k_buf_len s) (k_offset s) block_flags in
  lift (Ok (write_state_bytes state)).

(* c/baokeshed.c:117-128 *)
Definition n_hash_one_parent (o : copts) (block key : list N) (is_root : bool) (flags : N)
  : tr (list N) :=
  let block_flags := N.lor flags C_PARENT in
  let block_flags := if is_root then N.lor block_flags C_ROOT else block_flags in
  let! state := n_compress o key block C_BLOCK_LEN 0 block_flags in
  lift (Ok (write_state_bytes state)).

(* c/baokeshed.c:148-156 *)
Definition n_merge_parent (o : copts) (h : c_hasher) : tr c_hasher :=
  let parent_block_start := (sub_size o (c_stack_len h) 2 * C_OUT_LEN) mod WS o in
  let! block := lift (slice (c_stack h) parent_block_start C_BLOCK_LEN) in
  let! out := n_hash_one_parent o block (k_key (c_chunk_of h)) false (k_flags (c_chunk_of h)) in
  let! stack := lift (copy_at (c_stack h) parent_block_start out) in
  lift (Ok (CHasher (c_chunk_of h) ((c_stack_len h + 255) mod W8) stack)).
(* c/baokeshed.c:161-163 and 251-253 *)
Fixpoint n_merge_loop (o : copts) (fuel : nat) (h : c_hasher) (total_bytes : N) : tr c_hasher :=
  let! needs := lift (hasher_needs_merge o h total_bytes) in
  if needs then
    match fuel with
    | O => lift NoFuel
    | S fuel' => let! h := n_merge_parent o h in n_merge_loop o fuel' h total_bytes
    end
  else lift (Ok h).
Definition n_merge_all (o : copts) (h : c_hasher) (total_bytes : N) : tr c_hasher :=
  n_merge_loop o (N.to_nat (c_stack_len h)) h total_bytes.
(* c/baokeshed.c:158-167 *)
Definition n_push_chunk_hash (o : copts) (h : c_hasher) (hash : list N) (offset : N) : tr c_hasher :=
  lift (if ndebug o then Ok tt else assert_ (c_stack_len h <? C_MAX_DEPTH)) ;!
  let! h := n_merge_all o h offset in
  let! stack := lift (copy_at (c_stack h) (c_stack_len h * C_OUT_LEN) hash) in
  lift (Ok (CHasher (c_chunk_of h) ((c_stack_len h + 1) mod W8) stack)).

(* c/baokeshed.c:234-240 *)
Fixpoint n_push_chunks (o : copts) (n : nat) (chunk_index : N) (h : c_hasher) (out : list N)
  : tr c_hasher :=
  match n with
  | O => lift (Ok h)
  | S n' =>
      let! hash := lift (slice out (chunk_index * C_OUT_LEN) C_OUT_LEN) in
      let! h := n_push_chunk_hash o h hash (k_offset (c_chunk_of h)) in
      let s := c_chunk_of h in
      let s := CChunk (k_state s) (k_key s) ((k_offset s + C_CHUNK_LEN) mod W64) (k_count s)
                 (k_buf s) (k_buf_len s) (k_flags s) in
      n_push_chunks o n' (chunk_index + 1) (CHasher s (c_stack_len h) (c_stack h)) out
  end.
(* c/baokeshed.c:224-242 *)
Fixpoint n_chunks_loop (o : copts) (fuel : nat) (h : c_hasher) (input out : list N)
  : tr (c_hasher * list N) :=
  if C_CHUNK_LEN <=? len input then
    match fuel with
    | O => lift NoFuel
    | S fuel' =>
        let '(chunks, input) := gather_chunks (N.to_nat C_MAX_SIMD_DEGREE) input in
        let s := c_chunk_of h in
        let! out := n_hash_many o chunks (C_CHUNK_LEN / C_BLOCK_LEN) (k_key s) (k_offset s)
                      CHUNK_OFFSET_DELTAS (k_flags s) C_CHUNK_START C_CHUNK_END out in
        let! h := n_push_chunks o (length chunks) 0 h out in
        n_chunks_loop o fuel' h input out
    end
  else lift (Ok (h, input)).

(* c/baokeshed.c:219-256 *)
Definition n_update_rest (o : copts) (junk : list N) (h : c_hasher) (input : list N) : tr c_hasher :=
  let! (h, input) := n_chunks_loop o (length input) h input junk in
  if 0 <? len input then
    let! h := n_merge_all o h (k_offset (c_chunk_of h)) in
    let! s := n_chunk_state_update o (c_chunk_of h) input in
    lift (Ok (CHasher s (c_stack_len h) (c_stack h)))
  else lift (Ok h).
(* c/baokeshed.c:192-256 *)
Definition n_hasher_update (o : copts) (junk : list N) (h : c_hasher) (input : list N) : tr c_hasher :=
  let is_first_chunk := k_offset (c_chunk_of h) =? 0 in
  let maybe_root := is_first_chunk && (len input =? C_CHUNK_LEN) in
  if maybe_root || (0 <? chunk_state_len (c_chunk_of h)) then
    let n := sub_size o C_CHUNK_LEN (chunk_state_len (c_chunk_of h)) in
    let n := if len input <? n then len input else n in
    let! src := lift (slice input 0 n) in
    let! s := n_chunk_state_update o (c_chunk_of h) src in
    let h := CHasher s (c_stack_len h) (c_stack h) in
    let input := drop n input in
    if 0 <? len input then
      let! out := n_chunk_state_finalize o s false in
      let! h := n_push_chunk_hash o h out (k_offset s) in
      let s := chunk_state_reset (c_chunk_of h)
                 ((k_offset (c_chunk_of h) + C_CHUNK_LEN) mod W64) in
      n_update_rest o junk (CHasher s (c_stack_len h) (c_stack h)) input
    else lift (Ok h)
  else n_update_rest o junk h input.

(* c/baokeshed.c:280-292 *)
Fixpoint n_finalize_up (o : copts) (fuel : nat) (h : c_hasher) (working_hash : list N)
  (next_subtree_start : N) : tr (list N) :=
  let is_root := next_subtree_start =? 0 in
  let! subtree := lift (slice (c_stack h) next_subtree_start C_OUT_LEN) in
  let block := subtree ++ working_hash in
  let! working_hash :=
    n_hash_one_parent o block (k_key (c_chunk_of h)) is_root (k_flags (c_chunk_of h)) in
  if is_root then lift (Ok working_hash)
  else
    match fuel with
    | O => lift NoFuel
    | S fuel' => n_finalize_up o fuel' h working_hash (sub_size o next_subtree_start C_OUT_LEN)
    end.
(* c/baokeshed.c:258-293 *)
Definition n_hasher_finalize (o : copts) (h : c_hasher) : tr (list N) :=
  if c_stack_len h =? 0 then n_chunk_state_finalize o (c_chunk_of h) true
  else
    let! (working_hash, next_subtree_start) :=
      (if 0 <? chunk_state_len (c_chunk_of h) then
         let! w := n_chunk_state_finalize o (c_chunk_of h) false in
         lift (Ok (w, (sub_size o (c_stack_len h) 1 * C_OUT_LEN) mod WS o))
       else
         let last_hash_start := (sub_size o (c_stack_len h) 1 * C_OUT_LEN) mod WS o in
         let! w := lift (slice (c_stack h) last_hash_start C_OUT_LEN) in
         lift (Ok (w, (sub_size o (c_stack_len h) 2 * C_OUT_LEN) mod WS o))) in
    n_finalize_up o (N.to_nat (c_stack_len h)) h working_hash next_subtree_start.

(* ---- programs, see CSpec.v ------------------------------------------------------- *)

Fixpoint n_updates (o : copts) (h : c_hasher) (us : list (list N * list N)) : tr c_hasher :=
  match us with
  | [] => lift (Ok h)
  | (input, junk) :: r => let! h := n_hasher_update o junk h input in n_updates o h r
  end.
Definition n_hash (o : copts) (memory key : list N) (flags : N) (us : list (list N * list N))
  : tr (list N) :=
  let! h := n_updates o (hasher_init memory key flags) us in n_hasher_finalize o h.
