(* The functions of /repo/src/lib.rs again, this time noting every call of the compression
   function with its arguments.  Definitions only.

   Each function t_f below is the function f of Lib.v, statement for statement, with a list
   of calls passed along: compress, compress_xof, to_hash and read add one call,
   hash_many adds the calls for its blocks.  Theorem traced_code in Prop_Calls says that
   t_f returns what f returns, for all arguments, so the list is what f does.  The calls
   made before a panic stay in the list.

   Simplification: Platform::hash_many is noted as a whole.  Its calls are those of
   src/portable.rs:127-180, one per block of each input; a vector instruction that works
   on several inputs at once counts as one call for each. *)
From Coq Require Import NArith List Bool.
From Verif Require Import Base Spec Portable Platform Lib Session.
Import ListNotations.
Open Scope N_scope.

(* ---- computations that note calls ------------------------------------------- *)

Definition tr (A : Type) : Type := list node -> list node * res A.
Definition lift {A : Type} (r : res A) : tr A := fun s => (s, r).
Definition tbind {A B : Type} (m : tr A) (f : A -> tr B) : tr B := fun s =>
  match m s with
  | (s', Ok x) => f x s'
  | (s', Panic) => (s', Panic)
  | (s', NoFuel) => (s', NoFuel)
  end.
Definition note (xs : list node) : tr unit := fun s => (s ++ xs, Ok tt).

Notation "'let!' x ':=' e 'in' k" := (tbind e (fun x => k))
  (at level 200, x pattern, e at level 100, k at level 200, right associativity).
Notation "e ';!' k" := (tbind e (fun _ => k))
  (at level 199, right associativity).

(* ---- platform.rs -------------------------------------------------------------- *)

(* src/platform.rs:53-69 *)
Definition t_compress (p : platform) (cv block : list N) (block_len offset flags : N)
  : tr (list N) :=
  note [Nd cv block block_len offset flags] ;!
  lift (Ok (compress p cv block block_len offset flags)).
(* src/platform.rs:71-87 *)
Definition t_compress_xof (p : platform) (cv block : list N) (block_len offset flags : N)
  : tr (list N) :=
  note [Nd cv block block_len offset flags] ;!
  lift (Ok (compress_xof p cv block block_len offset flags)).

(* the calls of the loop of hash1, src/portable.rs:136-153 *)
Fixpoint hash1_calls (comp : list N -> list N -> N -> N -> N -> list N)
  (fuel : nat) (cv slice : list N) (offset block_flags flags flags_end : N) : list node :=
  if BLOCK_LEN <=? len slice then
    match fuel with
    | O => []
    | S fuel' =>
        let block_flags :=
          if len slice =? BLOCK_LEN then N.lor block_flags flags_end else block_flags in
        Nd cv (take BLOCK_LEN slice) BLOCK_LEN offset block_flags
        :: hash1_calls comp fuel' (comp cv (take BLOCK_LEN slice) BLOCK_LEN offset block_flags)
             (drop BLOCK_LEN slice) offset flags flags flags_end
    end
  else [].
(* the calls of src/portable.rs:157-180; in a release build the offset wraps around *)
Fixpoint many_calls (p : platform) (inputs : list (list N)) (key : list N)
  (offset offset_delta flags flags_start flags_end : N) : list node :=
  match inputs with
  | [] => []
  | input :: rest =>
      hash1_calls (compress p) (length input) key input offset (N.lor flags flags_start)
        flags flags_end
      ++ many_calls p rest key ((offset + offset_delta) mod W64) offset_delta flags flags_start
           flags_end
  end.
(* src/platform.rs:89-140 *)
Definition t_hash_many (c : cfg) (p : platform) (cap : N) (inputs : list (list N)) (key : list N)
  (offset offset_delta flags flags_start flags_end : N) (out : list N) : tr (list N) :=
  note (many_calls p inputs key offset offset_delta flags flags_start flags_end) ;!
  lift (hash_many c p cap inputs key offset offset_delta flags flags_start flags_end out).

(* ---- Output -------------------------------------------------------------------- *)

(* src/lib.rs:233-243 *)
Definition t_read (c : cfg) (o : output) : tr (list N * output) :=
  let! out := t_compress_xof (o_platform o) (o_cv o) (o_block o) (o_block_len o)
                             (o_offset o) (o_flags o) in
  let! off := lift (add64 c (o_offset o) (2 * OUT_LEN)) in
  lift (Ok (out, Output (o_cv o) (o_block o) (o_block_len o) off (o_flags o) (o_platform o))).

(* src/lib.rs:245-254 *)
Definition t_to_hash (o : output) : tr (list N) :=
  let! cv := t_compress (o_platform o) (o_cv o) (o_block o) (o_block_len o) (o_offset o)
                        (o_flags o) in
  lift (Ok (bytes_from_state_words cv)).

(* ---- the recursive implementation ------------------------------------------------ *)

(* src/lib.rs:290-309 *)
Fixpoint t_hash_one_chunk_loop (c : cfg) (p : platform) (fuel : nat) (chunk cv : list N)
  (offset : N) (r : is_root) (flags block_flags block_offset : N)
  : tr (output + (list N * N * N)) :=
  let! e := lift (addU c block_offset BLOCK_LEN) in
  if e <=? len chunk then
    match fuel with
    | O => lift NoFuel
    | S fuel' =>
        let! e' := lift (addU c block_offset BLOCK_LEN) in
        if e' =? len chunk then
          let! block := lift (slice chunk block_offset BLOCK_LEN) in
          lift (Ok (inl (Output cv block BLOCK_LEN offset
                     (N.lor (N.lor block_flags CHUNK_END) (root_flag r)) p)))
        else
          let! block := lift (slice chunk block_offset BLOCK_LEN) in
          let! cv := t_compress p cv block BLOCK_LEN offset block_flags in
          let! block_offset := lift (addU c block_offset BLOCK_LEN) in
          t_hash_one_chunk_loop c p fuel' chunk cv offset r flags flags block_offset
    end
  else lift (Ok (inr (cv, block_flags, block_offset))).

(* src/lib.rs:276-327 *)
Definition t_hash_one_chunk (c : cfg) (p : platform) (chunk key : list N) (offset : N)
  (r : is_root) (flags : N) : tr output :=
  lift (match r with Root => dassert c (offset =? 0) | NotRoot => Ok tt end) ;!
  let! x := t_hash_one_chunk_loop c p (length chunk) chunk key offset r flags
              (N.lor flags CHUNK_START) 0 in
  match x with
  | inl o => lift (Ok o)
  | inr (cv, block_flags, block_offset) =>
      let! block_len := lift (subU c (len chunk) block_offset) in
      let! src := lift (slice_from chunk block_offset) in
      let last_block := zeros BLOCK_LEN in
      let! dst := lift (slice_to last_block block_len) in
      lift (assert_ (len dst =? len src)) ;!
      let! last_block := lift (copy_at last_block 0 src) in
      lift (Ok (Output cv last_block (block_len mod 256) offset
            (N.lor (N.lor block_flags CHUNK_END) (root_flag r)) p))
  end.

(* src/lib.rs:332-377 *)
Definition t_hash_chunks_parallel (c : cfg) (p : platform) (input key : list N)
  (offset flags : N) (out : list N) : tr (list N * N) :=
  lift (dassert c (negb (len input =? 0))) ;!
  lift (dassert c (len input <=? MAX_SIMD_DEGREE c * CHUNK_LEN)) ;!
  lift (dassert c (offset mod CHUNK_LEN =? 0)) ;!
  let '(chunks, remainder) := chunks_exact CHUNK_LEN input in
  let! chunks_array := lift (push_all (MAX_SIMD_DEGREE c) [] chunks) in
  let! out := t_hash_many c p CHUNK_LEN chunks_array key offset CHUNK_LEN flags
                          CHUNK_START CHUNK_END out in
  let chunks_so_far := len chunks_array in
  if negb (len remainder =? 0) then
    let! d := lift (mul64 c chunks_so_far CHUNK_LEN) in
    let! off := lift (add64 c offset d) in
    let! output := t_hash_one_chunk c p remainder key off NotRoot flags in
    let! h := t_to_hash output in
    let! out := lift (copy_at out (chunks_so_far * OUT_LEN) h) in
    lift (Ok (out, chunks_so_far + 1))
  else lift (Ok (out, chunks_so_far)).

(* src/lib.rs:383-419 *)
Definition t_hash_parents_parallel (c : cfg) (p : platform) (child_hashes key : list N)
  (flags : N) (out : list N) : tr (list N * N) :=
  lift (dassert c (len child_hashes mod OUT_LEN =? 0)) ;!
  let num_children := len child_hashes / OUT_LEN in
  lift (dassert c (2 <=? num_children)) ;!
  lift (dassert c (num_children <=? 2 * MAX_SIMD_DEGREE_OR_2 c)) ;!
  let '(parents, remainder) := chunks_exact BLOCK_LEN child_hashes in
  let! parents_array := lift (push_all (MAX_SIMD_DEGREE_OR_2 c) [] parents) in
  let! out := t_hash_many c p BLOCK_LEN parents_array key 0 0 (N.lor flags PARENT) 0 0 out in
  let parents_so_far := len parents_array in
  if negb (len remainder =? 0) then
    let! tail := lift (slice_from out (parents_so_far * OUT_LEN)) in
    let! dst := lift (slice_to tail OUT_LEN) in
    lift (assert_ (len dst =? len remainder)) ;!
    let! out := lift (copy_at out (parents_so_far * OUT_LEN) remainder) in
    lift (Ok (out, parents_so_far + 1))
  else lift (Ok (out, parents_so_far)).

(* src/lib.rs:450-512; the left half runs before the right half here *)
Fixpoint t_hash_recurse (c : cfg) (p : platform) (fuel : nat) (input key : list N)
  (offset flags : N) (out : list N) : tr (list N * N) :=
  if len input <=? simd_degree p * CHUNK_LEN
  then t_hash_chunks_parallel c p input key offset flags out
  else
    match fuel with
    | O => lift NoFuel
    | S fuel' =>
        let! ll := lift (left_len c (len input)) in
        let! (left_in, right_in) := lift (split_at input ll) in
        let! right_off := lift (add64 c offset (len left_in)) in
        lift (dassert c (popcount (simd_degree p) =? 1)) ;!
        let children_array := zeros (2 * MAX_SIMD_DEGREE_OR_2 c * OUT_LEN) in
        let degree := if len left_in =? CHUNK_LEN then 1 else N.max (simd_degree p) 2 in
        let! (left_out, right_out) := lift (split_at children_array (degree * OUT_LEN)) in
        let! (left_out, left_n) := t_hash_recurse c p fuel' left_in key offset flags left_out in
        let! (right_out, right_n) :=
          t_hash_recurse c p fuel' right_in key right_off flags right_out in
        let children_array := left_out ++ right_out in
        lift (dassert c (left_n =? degree)) ;!
        lift (dassert c ((1 <=? right_n) && (right_n <=? left_n))) ;!
        if left_n =? 1 then
          let! dst := lift (slice_to out (2 * OUT_LEN)) in
          let! src := lift (slice_to children_array (2 * OUT_LEN)) in
          let! out := lift (copy_at out 0 src) in
          lift (Ok (out, 2))
        else
          let num_children := left_n + right_n in
          let! children := lift (slice_to children_array (num_children * OUT_LEN)) in
          t_hash_parents_parallel c p children key flags out
    end.

(* src/lib.rs:514-536 *)
Fixpoint t_condense_loop (c : cfg) (p : platform) (fuel : nat) (children key : list N) (flags : N)
  (out_array : list N) : tr (list N) :=
  if BLOCK_LEN <? len children then
    match fuel with
    | O => lift NoFuel
    | S fuel' =>
        let! (out_array, out_n) := t_hash_parents_parallel c p children key flags out_array in
        let! dst := lift (slice_to children (out_n * OUT_LEN)) in
        let! src := lift (slice_to out_array (out_n * OUT_LEN)) in
        let! children := lift (copy_at children 0 src) in
        let! children := lift (slice_to children (out_n * OUT_LEN)) in
        t_condense_loop c p fuel' children key flags out_array
    end
  else lift (Ok children).
Definition t_condense_root (c : cfg) (p : platform) (children key : list N) (flags : N)
  : tr output :=
  lift (dassert c (len children mod OUT_LEN =? 0)) ;!
  lift (dassert c (BLOCK_LEN <=? len children)) ;!
  let out_array := zeros (MAX_SIMD_DEGREE c * OUT_LEN / 2) in
  let! children := t_condense_loop c p (length children) children key flags out_array in
  let! block := lift (slice children 0 BLOCK_LEN) in
  lift (Ok (Output key block BLOCK_LEN 0 (N.lor (N.lor flags PARENT) ROOT) p)).

(* src/lib.rs:538-552 *)
Definition t_hash_internal (c : cfg) (p : platform) (input key_words : list N) (flags : N)
  : tr output :=
  if len input <=? CHUNK_LEN
  then t_hash_one_chunk c p input key_words 0 Root flags
  else
    let children_array := zeros (MAX_SIMD_DEGREE_OR_2 c * OUT_LEN) in
    let! (children_array, num_children) :=
      t_hash_recurse c p (depth_fuel input) input key_words 0 flags children_array in
    let! children := lift (slice_to children_array (num_children * OUT_LEN)) in
    t_condense_root c p children key_words flags.

(* src/lib.rs:555-596 *)
Definition t_oneshot_xof (c : cfg) (p : platform) (m : mode) (input : list N) : tr output :=
  match m with
  | Hashing => t_hash_internal c p input IV 0
  | Keyed key => t_hash_internal c p input (words_from_key_bytes key) KEYED_HASH
  | Deriving key => t_hash_internal c p input (words_from_key_bytes key) DERIVE_KEY
  end.
Definition t_oneshot (c : cfg) (p : platform) (m : mode) (input : list N) : tr (list N) :=
  let! o := t_oneshot_xof c p m input in t_to_hash o.

(* ---- the streaming implementation ------------------------------------------- *)

(* src/lib.rs:664-672 and 679-687 *)
Definition t_cs_compress (c : cfg) (s : chunk_state) (block : list N) : tr chunk_state :=
  let block_flags := N.lor (cs_flags s) (cs_maybe_chunk_start_flag s) in
  let! cv := t_compress (cs_platform s) (cs_cv s) block BLOCK_LEN (cs_offset s) block_flags in
  let! count := lift (addw c 65536 (cs_count s) BLOCK_LEN) in
  lift (Ok (ChunkState cv (cs_key s) (cs_offset s) count (cs_buf s) (cs_buf_len s) (cs_flags s)
        (cs_platform s))).

(* src/lib.rs:677-689 *)
Fixpoint t_cs_update_loop (c : cfg) (fuel : nat) (s : chunk_state) (input : list N)
  : tr (chunk_state * list N) :=
  if BLOCK_LEN <? len input then
    match fuel with
    | O => lift NoFuel
    | S fuel' =>
        lift (dassert c (cs_buf_len s =? 0)) ;!
        let! block := lift (slice input 0 BLOCK_LEN) in
        let! s := t_cs_compress c s block in
        let! input := lift (slice_from input BLOCK_LEN) in
        t_cs_update_loop c fuel' s input
    end
  else lift (Ok (s, input)).

(* src/lib.rs:659-695 *)
Definition t_cs_update (c : cfg) (s : chunk_state) (input : list N) : tr chunk_state :=
  let! (s, input) :=
    (if 0 <? cs_buf_len s then
       let! (s, input) := lift (cs_fill_buf c s input) in
       if negb (len input =? 0) then
         lift (dassert c (cs_buf_len s =? BLOCK_LEN)) ;!
         let! s := t_cs_compress c s (cs_buf s) in
         lift (Ok (ChunkState (cs_cv s) (cs_key s) (cs_offset s) (cs_count s) (zeros BLOCK_LEN) 0
               (cs_flags s) (cs_platform s), input))
       else lift (Ok (s, input))
     else lift (Ok (s, input))) in
  let! (s, input) := t_cs_update_loop c (length input) s input in
  let! (s, input) := lift (cs_fill_buf c s input) in
  lift (dassert c (len input =? 0)) ;!
  lift (dassert c (cs_len s <=? CHUNK_LEN)) ;!
  lift (Ok s).

(* src/lib.rs:805-819 *)
Definition t_merge_parent (c : cfg) (h : hasher) : tr hasher :=
  let num_subtrees := len (h_stack h) in
  lift (dassert c (2 <=? num_subtrees)) ;!
  let! i2 := lift (subU c num_subtrees 2) in
  let! i1 := lift (subU c num_subtrees 1) in
  let! lchild := lift (index (h_stack h) i2) in
  let! rchild := lift (index (h_stack h) i1) in
  let! parent_hash :=
    t_to_hash (hash_one_parent (cs_platform (h_chunk h)) lchild rchild (cs_key (h_chunk h)) NotRoot
               (cs_flags (h_chunk h))) in
  lift (Ok (Hasher (take i1 (set_nth (h_stack h) (N.to_nat i2) parent_hash)) (h_chunk h))).

(* src/lib.rs:824-826 and 914-916 *)
Fixpoint t_merge_loop (c : cfg) (fuel : nat) (h : hasher) (offset : N) : tr hasher :=
  if needs_merge h offset then
    match fuel with
    | O => lift NoFuel
    | S fuel' => let! h := t_merge_parent c h in t_merge_loop c fuel' h offset
    end
  else lift (Ok h).

(* src/lib.rs:821-828 *)
Definition t_push_chunk_hash (c : cfg) (h : hasher) (hash : list N) (offset : N) : tr hasher :=
  let! h := t_merge_loop c (length (h_stack h)) h offset in
  let! stack := lift (push_cap MAX_DEPTH (h_stack h) hash) in
  lift (Ok (Hasher stack (h_chunk h))).

(* src/lib.rs:892-899 *)
Fixpoint t_push_batch (c : cfg) (h : hasher) (hashes : list (list N)) : tr hasher :=
  match hashes with
  | [] => lift (Ok h)
  | x :: r =>
      let! h := t_push_chunk_hash c h x (cs_offset (h_chunk h)) in
      let! off := lift (add64 c (cs_offset (h_chunk h)) CHUNK_LEN) in
      t_push_batch c (Hasher (h_stack h) (set_chunk_offset (h_chunk h) off)) r
  end.

(* src/lib.rs:875-901 *)
Fixpoint t_update_chunks (c : cfg) (fuel : nat) (h : hasher) (chunks : list (list N))
  (out_array : list N) : tr hasher :=
  let chunks_array := take (MAX_SIMD_DEGREE c) chunks in
  if len chunks_array =? 0 then lift (Ok h)
  else
    match fuel with
    | O => lift NoFuel
    | S fuel' =>
        let s := h_chunk h in
        let! out_array :=
          t_hash_many c (cs_platform s) CHUNK_LEN chunks_array (cs_key s) (cs_offset s) CHUNK_LEN
                    (cs_flags s) CHUNK_START CHUNK_END out_array in
        let! h := t_push_batch c h
                    (take (len chunks_array) (fst (chunks_exact OUT_LEN out_array))) in
        t_update_chunks c fuel' h (drop (MAX_SIMD_DEGREE c) chunks) out_array
    end.

(* src/lib.rs:836-920 *)
Definition t_update (c : cfg) (h : hasher) (input : list N) : tr hasher :=
  let s := h_chunk h in
  let is_first_chunk := cs_offset s =? 0 in
  let maybe_root := is_first_chunk && (len input =? CHUNK_LEN) in
  let! (h, input, return_now) :=
    (if maybe_root || (0 <? cs_len s) then
       let! want := lift (subU c CHUNK_LEN (cs_len s)) in
       let take_n := N.min want (len input) in
       let! now := lift (slice_to input take_n) in
       let! s := t_cs_update c s now in
       let! input := lift (slice_from input take_n) in
       if negb (len input =? 0) then
         lift (dassert c (cs_len s =? CHUNK_LEN)) ;!
         let! o := lift (cs_finalize c s NotRoot) in
         let! chunk_hash := t_to_hash o in
         let! h := t_push_chunk_hash c (Hasher (h_stack h) s) chunk_hash (cs_offset s) in
         let! off := lift (add64 c (cs_offset s) CHUNK_LEN) in
         let! s := lift (cs_reset c s off) in
         lift (Ok (Hasher (h_stack h) s, input, false))
       else lift (Ok (Hasher (h_stack h) s, input, true))
     else lift (Ok (h, input, false))) in
  if return_now then lift (Ok h)
  else
    let '(chunks, remainder) := chunks_exact CHUNK_LEN input in
    lift (dassert c (cs_len (h_chunk h) =? 0)) ;!
    let! h := t_update_chunks c (length chunks) h chunks
                (zeros (MAX_SIMD_DEGREE c * OUT_LEN)) in
    lift (dassert c (cs_len (h_chunk h) =? 0)) ;!
    lift (dassert c (len remainder <? CHUNK_LEN)) ;!
    if negb (len remainder =? 0) then
      let! h := t_merge_loop c (length (h_stack h)) h (cs_offset (h_chunk h)) in
      let! s := t_cs_update c (h_chunk h) remainder in
      lift (Ok (Hasher (h_stack h) s))
    else lift (Ok h).

(* src/lib.rs:964-983 *)
Fixpoint t_finalize_loop (c : cfg) (fuel : nat) (h : hasher) (working_hash : list N)
  (next_subtree_index : N) : tr output :=
  let r := if next_subtree_index =? 0 then Root else NotRoot in
  let! lchild := lift (index (h_stack h) next_subtree_index) in
  let s := h_chunk h in
  let o := hash_one_parent (cs_platform s) lchild working_hash (cs_key s) r (cs_flags s) in
  if next_subtree_index =? 0 then lift (Ok o)
  else
    match fuel with
    | O => lift NoFuel
    | S fuel' =>
        let! i := lift (subU c next_subtree_index 1) in
        let! working_hash := t_to_hash o in
        t_finalize_loop c fuel' h working_hash i
    end.

(* src/lib.rs:934-984 *)
Definition t_finalize_xof (c : cfg) (h : hasher) : tr output :=
  let n := len (h_stack h) in
  if n =? 0 then lift (cs_finalize c (h_chunk h) Root)
  else
    let! (working_hash, next_subtree_index) :=
      (if 0 <? cs_len (h_chunk h) then
         lift (dassert c (negb (needs_merge h (cs_offset (h_chunk h))))) ;!
         let! o := lift (cs_finalize c (h_chunk h) NotRoot) in
         let! i := lift (subU c n 1) in
         let! w := t_to_hash o in
         lift (Ok (w, i))
       else
         lift (dassert c (2 <=? n)) ;!
         let! l := lift (subU c n 1) in
         let! last := lift (index (h_stack h) l) in
         let! i := lift (subU c n 2) in
         lift (Ok (last, i))) in
    t_finalize_loop c (length (h_stack h)) h working_hash next_subtree_index.

(* src/lib.rs:926-928 *)
Definition t_finalize (c : cfg) (h : hasher) : tr (list N) :=
  let! o := t_finalize_xof c h in t_to_hash o.

(* ---- programs, see Session.v --------------------------------------------------- *)

Fixpoint t_feed (c : cfg) (h : hasher) (inputs : list (list N)) : tr hasher :=
  match inputs with
  | [] => lift (Ok h)
  | x :: r => let! h := t_update c h x in t_feed c h r
  end.

Fixpoint t_reads (c : cfg) (n : nat) (o : output) : tr (list (list N) * output) :=
  match n with
  | O => lift (Ok ([], o))
  | S n' =>
      let! (b, o) := t_read c o in
      let! (bs, o) := t_reads c n' o in
      lift (Ok (b :: bs, o))
  end.

(* a whole program: hash the inputs given to update one after the other *)
Definition t_stream_xof (c : cfg) (p : platform) (m : mode) (inputs : list (list N)) : tr output :=
  let! h := t_feed c (start p m) inputs in t_finalize_xof c h.
Definition t_stream (c : cfg) (p : platform) (m : mode) (inputs : list (list N)) : tr (list N) :=
  let! h := t_feed c (start p m) inputs in t_finalize c h.

(* Programs that hash one input, all at once or piece by piece, and then take the hash
   or n blocks of extended output. *)
Inductive program : Type :=
  | OneShot (input : list N)
  | Streaming (inputs : list (list N)).
Definition data (g : program) : list N :=
  match g with OneShot x => x | Streaming xs => concat xs end.
(* the input is not too long: it exists in memory, or has fewer than 2^64 bytes in all *)
Definition fits (c : cfg) (g : program) : Prop :=
  bytes (data g) /\
  match g with OneShot x => len x < WU c | Streaming xs => len (concat xs) < 2 ^ 64 end.
Definition t_root (c : cfg) (p : platform) (m : mode) (g : program) : tr output :=
  match g with
  | OneShot x => t_oneshot_xof c p m x
  | Streaming xs => t_stream_xof c p m xs
  end.
Definition t_hash (c : cfg) (p : platform) (m : mode) (g : program) : tr (list N) :=
  match g with
  | OneShot x => t_oneshot c p m x
  | Streaming xs => t_stream c p m xs
  end.
Definition t_xof (c : cfg) (p : platform) (m : mode) (g : program) (n : nat)
  : tr (list (list N) * output) :=
  let! o := t_root c p m g in t_reads c n o.
