(* The functions of /repo/src/lib.rs once more, this time noting every step of the compression
   functions and of hash_many on the given platform: the scalar operations of Steps.v and the
   vector operations and memory accesses of VSteps.v.  Definitions only.

   Each function v_f below is the function f of Lib.v, statement for statement, with a list
   of steps passed along.  Theorem C58_steps_are_of_the_code in Prop_VSteps says that v_f
   returns what f returns, for all arguments.  The steps made before a panic stay in the list.

   Positions: the input of a one-shot function or of update is the place PInput 0.  Functions
   that get a part of it have one argument more than in Lib.v, which says where the part is:
   either the position pos of its first byte, or the position e after its last byte.

   Simplification: of src/lib.rs itself only the reads of the input are noted: a block copied
   from it and a block of it passed to compress.  The other copying of bytes and the arithmetic
   on lengths and offsets in src/lib.rs are not noted. *)
From Coq Require Import NArith List Bool.
From Verif Require Import Base Spec Portable Platform Lib Session LibCalls VOps VSteps.
Import ListNotations.
Open Scope N_scope.

(* n bytes of the input are read, from position pos *)
Definition load_in {A : Type} (pos n : N) (r : res A) : vs A := ([Load (PInput 0) pos n], r).
(* the block of the input at position pos is passed to compress *)
Definition call_in {A : Type} (pos : N) (r : res A) : vs A := ([Call (PInput 0) pos], r).
(* hash_many numbers its inputs.  Here they have size bytes each and lie one after the other in
   the place q, from position pos. *)
Definition lie_in (q : vplace) (pos size : N) (s : vstep) : vstep :=
  match s with
  | Load (PInput k) off n => Load q (pos + size * N.of_nat k + off) n
  | Call (PInput k) off => Call q (pos + size * N.of_nat k + off)
  | _ => s
  end.
Definition lying_in {A : Type} (q : vplace) (pos size : N) (m : vs A) : vs A :=
  (map (lie_in q pos size) (fst m), snd m).

(* ---- Output -------------------------------------------------------------------- *)

(* src/lib.rs:233-243 *)
Definition v_read (c : cfg) (o : output) : vs (list N * output) :=
  let? out := p_compress_xof (o_platform o) (o_cv o) (o_block o) (o_block_len o)
                             (o_offset o) (o_flags o) in
  let? off := vlift (add64 c (o_offset o) (2 * OUT_LEN)) in
  vlift (Ok (out, Output (o_cv o) (o_block o) (o_block_len o) off (o_flags o) (o_platform o))).

(* src/lib.rs:245-254 *)
Definition v_to_hash (o : output) : vs (list N) :=
  let? cv := p_compress (o_platform o) (o_cv o) (o_block o) (o_block_len o) (o_offset o)
                        (o_flags o) in
  vlift (Ok (bytes_from_state_words cv)).

(* ---- the recursive implementation ------------------------------------------------ *)

(* src/lib.rs:290-309 *)
Fixpoint v_hash_one_chunk_loop (c : cfg) (p : platform) (pos : N) (fuel : nat) (chunk cv : list N)
  (offset : N) (r : is_root) (flags block_flags block_offset : N)
  : vs (output + (list N * N * N)) :=
  let? e := vlift (addU c block_offset BLOCK_LEN) in
  if e <=? len chunk then
    match fuel with
    | O => vlift NoFuel
    | S fuel' =>
        let? e' := vlift (addU c block_offset BLOCK_LEN) in
        if e' =? len chunk then
          let? block := load_in (pos + block_offset) BLOCK_LEN (slice chunk block_offset BLOCK_LEN) in
          vlift (Ok (inl (Output cv block BLOCK_LEN offset
                     (N.lor (N.lor block_flags CHUNK_END) (root_flag r)) p)))
        else
          let? block := call_in (pos + block_offset) (slice chunk block_offset BLOCK_LEN) in
          let? cv := p_compress p cv block BLOCK_LEN offset block_flags in
          let? block_offset := vlift (addU c block_offset BLOCK_LEN) in
          v_hash_one_chunk_loop c p pos fuel' chunk cv offset r flags flags block_offset
    end
  else vlift (Ok (inr (cv, block_flags, block_offset))).

(* src/lib.rs:276-327 *)
Definition v_hash_one_chunk (c : cfg) (p : platform) (pos : N) (chunk key : list N) (offset : N)
  (r : is_root) (flags : N) : vs output :=
  vlift (match r with Root => dassert c (offset =? 0) | NotRoot => Ok tt end) ;?
  let? x := v_hash_one_chunk_loop c p pos (length chunk) chunk key offset r flags
              (N.lor flags CHUNK_START) 0 in
  match x with
  | inl o => vlift (Ok o)
  | inr (cv, block_flags, block_offset) =>
      let? block_len := vlift (subU c (len chunk) block_offset) in
      let? src := load_in (pos + block_offset) block_len (slice_from chunk block_offset) in
      let last_block := zeros BLOCK_LEN in
      let? dst := vlift (slice_to last_block block_len) in
      vlift (assert_ (len dst =? len src)) ;?
      let? last_block := vlift (copy_at last_block 0 src) in
      vlift (Ok (Output cv last_block (block_len mod 256) offset
            (N.lor (N.lor block_flags CHUNK_END) (root_flag r)) p))
  end.

(* src/lib.rs:332-377 *)
Definition v_hash_chunks_parallel (c : cfg) (p : platform) (pos : N) (input key : list N)
  (offset flags : N) (out : list N) : vs (list N * N) :=
  vlift (dassert c (negb (len input =? 0))) ;?
  vlift (dassert c (len input <=? MAX_SIMD_DEGREE c * CHUNK_LEN)) ;?
  vlift (dassert c (offset mod CHUNK_LEN =? 0)) ;?
  let '(chunks, remainder) := chunks_exact CHUNK_LEN input in
  let? chunks_array := vlift (push_all (MAX_SIMD_DEGREE c) [] chunks) in
  let? out := lying_in (PInput 0) pos CHUNK_LEN
                (p_hash_many c p CHUNK_LEN chunks_array key offset CHUNK_LEN flags
                             CHUNK_START CHUNK_END out) in
  let chunks_so_far := len chunks_array in
  if negb (len remainder =? 0) then
    let? d := vlift (mul64 c chunks_so_far CHUNK_LEN) in
    let? off := vlift (add64 c offset d) in
    let? output := v_hash_one_chunk c p (pos + chunks_so_far * CHUNK_LEN) remainder key off NotRoot
                                    flags in
    let? h := v_to_hash output in
    let? out := vlift (copy_at out (chunks_so_far * OUT_LEN) h) in
    vlift (Ok (out, chunks_so_far + 1))
  else vlift (Ok (out, chunks_so_far)).

(* src/lib.rs:383-419 *)
Definition v_hash_parents_parallel (c : cfg) (p : platform) (child_hashes key : list N)
  (flags : N) (out : list N) : vs (list N * N) :=
  vlift (dassert c (len child_hashes mod OUT_LEN =? 0)) ;?
  let num_children := len child_hashes / OUT_LEN in
  vlift (dassert c (2 <=? num_children)) ;?
  vlift (dassert c (num_children <=? 2 * MAX_SIMD_DEGREE_OR_2 c)) ;?
  let '(parents, remainder) := chunks_exact BLOCK_LEN child_hashes in
  let? parents_array := vlift (push_all (MAX_SIMD_DEGREE_OR_2 c) [] parents) in
  let? out := lying_in PChildren 0 BLOCK_LEN
                (p_hash_many c p BLOCK_LEN parents_array key 0 0 (N.lor flags PARENT) 0 0 out) in
  let parents_so_far := len parents_array in
  if negb (len remainder =? 0) then
    let? tail := vlift (slice_from out (parents_so_far * OUT_LEN)) in
    let? dst := vlift (slice_to tail OUT_LEN) in
    vlift (assert_ (len dst =? len remainder)) ;?
    let? out := vlift (copy_at out (parents_so_far * OUT_LEN) remainder) in
    vlift (Ok (out, parents_so_far + 1))
  else vlift (Ok (out, parents_so_far)).

(* src/lib.rs:450-512; the left half runs before the right half here *)
Fixpoint v_hash_recurse (c : cfg) (p : platform) (pos : N) (fuel : nat) (input key : list N)
  (offset flags : N) (out : list N) : vs (list N * N) :=
  if len input <=? simd_degree p * CHUNK_LEN
  then v_hash_chunks_parallel c p pos input key offset flags out
  else
    match fuel with
    | O => vlift NoFuel
    | S fuel' =>
        let? ll := vlift (left_len c (len input)) in
        let? (left_in, right_in) := vlift (split_at input ll) in
        let? right_off := vlift (add64 c offset (len left_in)) in
        vlift (dassert c (popcount (simd_degree p) =? 1)) ;?
        let children_array := zeros (2 * MAX_SIMD_DEGREE_OR_2 c * OUT_LEN) in
        let degree := if len left_in =? CHUNK_LEN then 1 else N.max (simd_degree p) 2 in
        let? (left_out, right_out) := vlift (split_at children_array (degree * OUT_LEN)) in
        let? (left_out, left_n) := v_hash_recurse c p pos fuel' left_in key offset flags left_out in
        let? (right_out, right_n) :=
          v_hash_recurse c p (pos + len left_in) fuel' right_in key right_off flags right_out in
        let children_array := left_out ++ right_out in
        vlift (dassert c (left_n =? degree)) ;?
        vlift (dassert c ((1 <=? right_n) && (right_n <=? left_n))) ;?
        if left_n =? 1 then
          let? dst := vlift (slice_to out (2 * OUT_LEN)) in
          let? src := vlift (slice_to children_array (2 * OUT_LEN)) in
          let? out := vlift (copy_at out 0 src) in
          vlift (Ok (out, 2))
        else
          let num_children := left_n + right_n in
          let? children := vlift (slice_to children_array (num_children * OUT_LEN)) in
          v_hash_parents_parallel c p children key flags out
    end.

(* src/lib.rs:514-536 *)
Fixpoint v_condense_loop (c : cfg) (p : platform) (fuel : nat) (children key : list N) (flags : N)
  (out_array : list N) : vs (list N) :=
  if BLOCK_LEN <? len children then
    match fuel with
    | O => vlift NoFuel
    | S fuel' =>
        let? (out_array, out_n) := v_hash_parents_parallel c p children key flags out_array in
        let? dst := vlift (slice_to children (out_n * OUT_LEN)) in
        let? src := vlift (slice_to out_array (out_n * OUT_LEN)) in
        let? children := vlift (copy_at children 0 src) in
        let? children := vlift (slice_to children (out_n * OUT_LEN)) in
        v_condense_loop c p fuel' children key flags out_array
    end
  else vlift (Ok children).
Definition v_condense_root (c : cfg) (p : platform) (children key : list N) (flags : N)
  : vs output :=
  vlift (dassert c (len children mod OUT_LEN =? 0)) ;?
  vlift (dassert c (BLOCK_LEN <=? len children)) ;?
  let out_array := zeros (MAX_SIMD_DEGREE c * OUT_LEN / 2) in
  let? children := v_condense_loop c p (length children) children key flags out_array in
  let? block := vlift (slice children 0 BLOCK_LEN) in
  vlift (Ok (Output key block BLOCK_LEN 0 (N.lor (N.lor flags PARENT) ROOT) p)).

(* src/lib.rs:538-552 *)
Definition v_hash_internal (c : cfg) (p : platform) (input key_words : list N) (flags : N)
  : vs output :=
  if len input <=? CHUNK_LEN
  then v_hash_one_chunk c p 0 input key_words 0 Root flags
  else
    let children_array := zeros (MAX_SIMD_DEGREE_OR_2 c * OUT_LEN) in
    let? (children_array, num_children) :=
      v_hash_recurse c p 0 (depth_fuel input) input key_words 0 flags children_array in
    let? children := vlift (slice_to children_array (num_children * OUT_LEN)) in
    v_condense_root c p children key_words flags.

(* src/lib.rs:555-596 *)
Definition v_oneshot_xof (c : cfg) (p : platform) (m : mode) (input : list N) : vs output :=
  match m with
  | Hashing => v_hash_internal c p input IV 0
  | Keyed key => v_hash_internal c p input (words_from_key_bytes key) KEYED_HASH
  | Deriving key => v_hash_internal c p input (words_from_key_bytes key) DERIVE_KEY
  end.
Definition v_oneshot (c : cfg) (p : platform) (m : mode) (input : list N) : vs (list N) :=
  let? o := v_oneshot_xof c p m input in v_to_hash o.

(* ---- the streaming implementation ------------------------------------------- *)

(* src/lib.rs:642-649 *)
Definition v_fill_buf (c : cfg) (e : N) (s : chunk_state) (input : list N)
  : vs (chunk_state * list N) :=
  let? want := vlift (subU c BLOCK_LEN (cs_buf_len s)) in
  let take_n := N.min want (len input) in
  let? src := load_in (e - len input) take_n (slice_to input take_n) in
  let? buf := vlift (copy_at (cs_buf s) (cs_buf_len s) src) in
  let? buf_len := vlift (addw c W8 (cs_buf_len s) (take_n mod W8)) in
  let? rest := vlift (slice_from input take_n) in
  vlift (Ok (ChunkState (cs_cv s) (cs_key s) (cs_offset s) (cs_count s) buf buf_len (cs_flags s)
        (cs_platform s), rest)).

(* src/lib.rs:664-672 and 679-687 *)
Definition v_cs_compress (c : cfg) (s : chunk_state) (block : list N) : vs chunk_state :=
  let block_flags := N.lor (cs_flags s) (cs_maybe_chunk_start_flag s) in
  let? cv := p_compress (cs_platform s) (cs_cv s) block BLOCK_LEN (cs_offset s) block_flags in
  let? count := vlift (addw c 65536 (cs_count s) BLOCK_LEN) in
  vlift (Ok (ChunkState cv (cs_key s) (cs_offset s) count (cs_buf s) (cs_buf_len s) (cs_flags s)
        (cs_platform s))).

(* src/lib.rs:677-689 *)
Fixpoint v_cs_update_loop (c : cfg) (e : N) (fuel : nat) (s : chunk_state) (input : list N)
  : vs (chunk_state * list N) :=
  if BLOCK_LEN <? len input then
    match fuel with
    | O => vlift NoFuel
    | S fuel' =>
        vlift (dassert c (cs_buf_len s =? 0)) ;?
        let? block := call_in (e - len input) (slice input 0 BLOCK_LEN) in
        let? s := v_cs_compress c s block in
        let? input := vlift (slice_from input BLOCK_LEN) in
        v_cs_update_loop c e fuel' s input
    end
  else vlift (Ok (s, input)).

(* src/lib.rs:659-695 *)
Definition v_cs_update (c : cfg) (e : N) (s : chunk_state) (input : list N) : vs chunk_state :=
  let? (s, input) :=
    (if 0 <? cs_buf_len s then
       let? (s, input) := v_fill_buf c e s input in
       if negb (len input =? 0) then
         vlift (dassert c (cs_buf_len s =? BLOCK_LEN)) ;?
         let? s := v_cs_compress c s (cs_buf s) in
         vlift (Ok (ChunkState (cs_cv s) (cs_key s) (cs_offset s) (cs_count s) (zeros BLOCK_LEN) 0
               (cs_flags s) (cs_platform s), input))
       else vlift (Ok (s, input))
     else vlift (Ok (s, input))) in
  let? (s, input) := v_cs_update_loop c e (length input) s input in
  let? (s, input) := v_fill_buf c e s input in
  vlift (dassert c (len input =? 0)) ;?
  vlift (dassert c (cs_len s <=? CHUNK_LEN)) ;?
  vlift (Ok s).

(* src/lib.rs:805-819 *)
Definition v_merge_parent (c : cfg) (h : hasher) : vs hasher :=
  let num_subtrees := len (h_stack h) in
  vlift (dassert c (2 <=? num_subtrees)) ;?
  let? i2 := vlift (subU c num_subtrees 2) in
  let? i1 := vlift (subU c num_subtrees 1) in
  let? lchild := vlift (index (h_stack h) i2) in
  let? rchild := vlift (index (h_stack h) i1) in
  let? parent_hash :=
    v_to_hash (hash_one_parent (cs_platform (h_chunk h)) lchild rchild (cs_key (h_chunk h)) NotRoot
               (cs_flags (h_chunk h))) in
  vlift (Ok (Hasher (take i1 (set_nth (h_stack h) (N.to_nat i2) parent_hash)) (h_chunk h))).

(* src/lib.rs:824-826 and 914-916 *)
Fixpoint v_merge_loop (c : cfg) (fuel : nat) (h : hasher) (offset : N) : vs hasher :=
  if needs_merge h offset then
    match fuel with
    | O => vlift NoFuel
    | S fuel' => let? h := v_merge_parent c h in v_merge_loop c fuel' h offset
    end
  else vlift (Ok h).

(* src/lib.rs:821-828 *)
Definition v_push_chunk_hash (c : cfg) (h : hasher) (hash : list N) (offset : N) : vs hasher :=
  let? h := v_merge_loop c (length (h_stack h)) h offset in
  let? stack := vlift (push_cap MAX_DEPTH (h_stack h) hash) in
  vlift (Ok (Hasher stack (h_chunk h))).

(* src/lib.rs:892-899 *)
Fixpoint v_push_batch (c : cfg) (h : hasher) (hashes : list (list N)) : vs hasher :=
  match hashes with
  | [] => vlift (Ok h)
  | x :: r =>
      let? h := v_push_chunk_hash c h x (cs_offset (h_chunk h)) in
      let? off := vlift (add64 c (cs_offset (h_chunk h)) CHUNK_LEN) in
      v_push_batch c (Hasher (h_stack h) (set_chunk_offset (h_chunk h) off)) r
  end.

(* src/lib.rs:875-901 *)
Fixpoint v_update_chunks (c : cfg) (e : N) (fuel : nat) (h : hasher) (chunks : list (list N))
  (out_array : list N) : vs hasher :=
  let chunks_array := take (MAX_SIMD_DEGREE c) chunks in
  if len chunks_array =? 0 then vlift (Ok h)
  else
    match fuel with
    | O => vlift NoFuel
    | S fuel' =>
        let s := h_chunk h in
        let? out_array :=
          lying_in (PInput 0) (e - len chunks * CHUNK_LEN) CHUNK_LEN
            (p_hash_many c (cs_platform s) CHUNK_LEN chunks_array (cs_key s) (cs_offset s) CHUNK_LEN
                         (cs_flags s) CHUNK_START CHUNK_END out_array) in
        let? h := v_push_batch c h
                    (take (len chunks_array) (fst (chunks_exact OUT_LEN out_array))) in
        v_update_chunks c e fuel' h (drop (MAX_SIMD_DEGREE c) chunks) out_array
    end.

(* src/lib.rs:836-920 *)
Definition v_update (c : cfg) (h : hasher) (input : list N) : vs hasher :=
  let s := h_chunk h in
  let e := len input in
  let is_first_chunk := cs_offset s =? 0 in
  let maybe_root := is_first_chunk && (len input =? CHUNK_LEN) in
  let? (h, input, return_now) :=
    (if maybe_root || (0 <? cs_len s) then
       let? want := vlift (subU c CHUNK_LEN (cs_len s)) in
       let take_n := N.min want (len input) in
       let? now := vlift (slice_to input take_n) in
       let? s := v_cs_update c take_n s now in
       let? input := vlift (slice_from input take_n) in
       if negb (len input =? 0) then
         vlift (dassert c (cs_len s =? CHUNK_LEN)) ;?
         let? o := vlift (cs_finalize c s NotRoot) in
         let? chunk_hash := v_to_hash o in
         let? h := v_push_chunk_hash c (Hasher (h_stack h) s) chunk_hash (cs_offset s) in
         let? off := vlift (add64 c (cs_offset s) CHUNK_LEN) in
         let? s := vlift (cs_reset c s off) in
         vlift (Ok (Hasher (h_stack h) s, input, false))
       else vlift (Ok (Hasher (h_stack h) s, input, true))
     else vlift (Ok (h, input, false))) in
  if return_now then vlift (Ok h)
  else
    let '(chunks, remainder) := chunks_exact CHUNK_LEN input in
    vlift (dassert c (cs_len (h_chunk h) =? 0)) ;?
    let? h := v_update_chunks c (e - len remainder) (length chunks) h chunks
                (zeros (MAX_SIMD_DEGREE c * OUT_LEN)) in
    vlift (dassert c (cs_len (h_chunk h) =? 0)) ;?
    vlift (dassert c (len remainder <? CHUNK_LEN)) ;?
    if negb (len remainder =? 0) then
      let? h := v_merge_loop c (length (h_stack h)) h (cs_offset (h_chunk h)) in
      let? s := v_cs_update c e (h_chunk h) remainder in
      vlift (Ok (Hasher (h_stack h) s))
    else vlift (Ok h).

(* src/lib.rs:964-983 *)
Fixpoint v_finalize_loop (c : cfg) (fuel : nat) (h : hasher) (working_hash : list N)
  (next_subtree_index : N) : vs output :=
  let r := if next_subtree_index =? 0 then Root else NotRoot in
  let? lchild := vlift (index (h_stack h) next_subtree_index) in
  let s := h_chunk h in
  let o := hash_one_parent (cs_platform s) lchild working_hash (cs_key s) r (cs_flags s) in
  if next_subtree_index =? 0 then vlift (Ok o)
  else
    match fuel with
    | O => vlift NoFuel
    | S fuel' =>
        let? i := vlift (subU c next_subtree_index 1) in
        let? working_hash := v_to_hash o in
        v_finalize_loop c fuel' h working_hash i
    end.

(* src/lib.rs:934-984 *)
Definition v_finalize_xof (c : cfg) (h : hasher) : vs output :=
  let n := len (h_stack h) in
  if n =? 0 then vlift (cs_finalize c (h_chunk h) Root)
  else
    let? (working_hash, next_subtree_index) :=
      (if 0 <? cs_len (h_chunk h) then
         vlift (dassert c (negb (needs_merge h (cs_offset (h_chunk h))))) ;?
         let? o := vlift (cs_finalize c (h_chunk h) NotRoot) in
         let? i := vlift (subU c n 1) in
         let? w := v_to_hash o in
         vlift (Ok (w, i))
       else
         vlift (dassert c (2 <=? n)) ;?
         let? l := vlift (subU c n 1) in
         let? last := vlift (index (h_stack h) l) in
         let? i := vlift (subU c n 2) in
         vlift (Ok (last, i))) in
    v_finalize_loop c (length (h_stack h)) h working_hash next_subtree_index.

(* src/lib.rs:926-928 *)
Definition v_finalize (c : cfg) (h : hasher) : vs (list N) :=
  let? o := v_finalize_xof c h in v_to_hash o.

(* ---- programs, see Session.v --------------------------------------------------- *)

Fixpoint v_feed (c : cfg) (h : hasher) (inputs : list (list N)) : vs hasher :=
  match inputs with
  | [] => vlift (Ok h)
  | x :: r => let? h := v_update c h x in v_feed c h r
  end.

Fixpoint v_reads (c : cfg) (n : nat) (o : output) : vs (list (list N) * output) :=
  match n with
  | O => vlift (Ok ([], o))
  | S n' =>
      let? (b, o) := v_read c o in
      let? (bs, o) := v_reads c n' o in
      vlift (Ok (b :: bs, o))
  end.

(* a whole program: hash the inputs given to update one after the other *)
Definition v_stream_xof (c : cfg) (p : platform) (m : mode) (inputs : list (list N)) : vs output :=
  let? h := v_feed c (start p m) inputs in v_finalize_xof c h.
Definition v_stream (c : cfg) (p : platform) (m : mode) (inputs : list (list N)) : vs (list N) :=
  let? h := v_feed c (start p m) inputs in v_finalize c h.

(* programs, see LibCalls.v *)
Definition v_root (c : cfg) (p : platform) (m : mode) (g : program) : vs output :=
  match g with
  | OneShot x => v_oneshot_xof c p m x
  | Streaming xs => v_stream_xof c p m xs
  end.
Definition v_hash (c : cfg) (p : platform) (m : mode) (g : program) : vs (list N) :=
  match g with
  | OneShot x => v_oneshot c p m x
  | Streaming xs => v_stream c p m xs
  end.
Definition v_xof (c : cfg) (p : platform) (m : mode) (g : program) (n : nat)
  : vs (list (list N) * output) :=
  let? o := v_root c p m g in v_reads c n o.
