(* Model of /repo/src/lib.rs: the one-shot functions, Output, Hash, and the
   streaming Hasher.  Definitions only.

   Platform::detect() is replaced by a platform argument p; theorems quantify over
   every p that detection can return.  Products and sums of compile-time constants and
   of counts bounded by MAX_SIMD_DEGREE (such as chunks_so_far * OUT_LEN) are written
   without overflow checks; everything that depends on the input length or on an
   offset is checked. *)
From Coq Require Import NArith List Bool.
From Verif Require Import Base Portable Platform.
Import ListNotations.
Open Scope N_scope.

(* src/lib.rs:63 *)
Definition MAX_DEPTH : N := 53.

(* src/lib.rs:97-106 *)
Definition CHUNK_START : N := N.shiftl 1 0.
Definition CHUNK_END : N := N.shiftl 1 1.
Definition PARENT : N := N.shiftl 1 2.
Definition ROOT : N := N.shiftl 1 3.
Definition KEYED_HASH : N := N.shiftl 1 4.
Definition DERIVE_KEY : N := N.shiftl 1 5.

(* src/lib.rs:108-121 *)
Inductive is_root : Type := NotRoot | Root.
Definition root_flag (r : is_root) : N := match r with NotRoot => 0 | Root => ROOT end.

(* src/lib.rs:123-136; the argument is a [u8; 32] *)
Definition words_from_key_bytes (bytes : list N) : list N := words_of_bytes bytes.

(* ---- Hash ---------------------------------------------------------------- *)

(* src/lib.rs:164: Hash is a newtype of [u8; 32]; it is modelled as its bytes, so
   as_bytes (167-169) and the From conversions (182-192) are the identity. *)
Definition hash_as_bytes (h : list N) : list N := h.
Definition hash_from_bytes (b : list N) : list N := b.

(* b"0123456789abcdef", src/lib.rs:173 *)
Definition hex_table : list N :=
  [48; 49; 50; 51; 52; 53; 54; 55; 56; 57; 97; 98; 99; 100; 101; 102].

(* src/lib.rs:171-179.  ArrayString::push panics when the capacity of 64 is exceeded. *)
Fixpoint to_hex_loop (s : list N) (bs : list N) : res (list N) :=
  match bs with
  | [] => Ok s
  | b :: r =>
      let* hi := index hex_table (N.shiftr b 4) in
      let* s := push_cap (2 * OUT_LEN) s hi in
      let* lo := index hex_table (N.land b 0xf) in
      let* s := push_cap (2 * OUT_LEN) s lo in
      to_hex_loop s r
  end.
Definition to_hex (h : list N) : res (list N) := to_hex_loop [] h.

(* constant_time_eq::constant_time_eq (a dependency, from its documentation): false
   if the lengths differ, otherwise the OR of all byte differences is zero *)
Definition constant_time_eq (a b : list N) : bool :=
  if len a =? len b
  then fold_left (fun tmp p => N.lor tmp (N.lxor (fst p) (snd p))) (combine a b) 0 =? 0
  else false.
(* src/lib.rs:195-206 *)
Definition hash_eq (a b : list N) : bool := constant_time_eq a b.
Definition hash_eq_bytes (a b : list N) : bool := constant_time_eq a b.

(* ---- Output ---------------------------------------------------------------- *)

(* src/lib.rs:222-230 *)
Record output : Type := Output
  { o_cv : list N; o_block : list N; o_block_len : N; o_offset : N; o_flags : N;
    o_platform : platform }.

(* src/lib.rs:233-243; returns the 64 bytes and the advanced output *)
Definition read (c : cfg) (o : output) : res (list N * output) :=
  let out := compress_xof (o_platform o) (o_cv o) (o_block o) (o_block_len o)
                          (o_offset o) (o_flags o) in
  let* off := add64 c (o_offset o) (2 * OUT_LEN) in
  Ok (out, Output (o_cv o) (o_block o) (o_block_len o) off (o_flags o) (o_platform o)).

(* src/lib.rs:245-254 *)
Definition to_hash (o : output) : list N :=
  bytes_from_state_words
    (compress (o_platform o) (o_cv o) (o_block o) (o_block_len o) (o_offset o) (o_flags o)).

(* ---- the recursive implementation ------------------------------------------ *)

(* src/lib.rs:290-309: the while loop of hash_one_chunk.  Returns either the Output
   of the early return, or (cv, block_flags, block_offset) after the loop. *)
Fixpoint hash_one_chunk_loop (c : cfg) (p : platform) (fuel : nat) (chunk cv : list N)
  (offset : N) (r : is_root) (flags block_flags block_offset : N)
  : res (output + (list N * N * N)) :=
  let* e := addU c block_offset BLOCK_LEN in
  if e <=? len chunk then
    match fuel with
    | O => NoFuel
    | S fuel' =>
        let* e' := addU c block_offset BLOCK_LEN in
        if e' =? len chunk then
          let* block := slice chunk block_offset BLOCK_LEN in
          Ok (inl (Output cv block BLOCK_LEN offset
                     (N.lor (N.lor block_flags CHUNK_END) (root_flag r)) p))
        else
          let* block := slice chunk block_offset BLOCK_LEN in
          let cv := compress p cv block BLOCK_LEN offset block_flags in
          let* block_offset := addU c block_offset BLOCK_LEN in
          hash_one_chunk_loop c p fuel' chunk cv offset r flags flags block_offset
    end
  else Ok (inr (cv, block_flags, block_offset)).

(* src/lib.rs:276-327 *)
Definition hash_one_chunk (c : cfg) (p : platform) (chunk key : list N) (offset : N)
  (r : is_root) (flags : N) : res output :=
  (match r with Root => dassert c (offset =? 0) | NotRoot => Ok tt end) ;;
  let* x := hash_one_chunk_loop c p (length chunk) chunk key offset r flags
              (N.lor flags CHUNK_START) 0 in
  match x with
  | inl o => Ok o
  | inr (cv, block_flags, block_offset) =>
      let* block_len := subU c (len chunk) block_offset in
      let* src := slice_from chunk block_offset in
      let last_block := zeros BLOCK_LEN in
      let* dst := slice_to last_block block_len in
      assert_ (len dst =? len src) ;;
      let* last_block := copy_at last_block 0 src in
      Ok (Output cv last_block (block_len mod 256) offset
            (N.lor (N.lor block_flags CHUNK_END) (root_flag r)) p)
  end.

(* Push every element of a list onto an empty ArrayVec of the given capacity. *)
Fixpoint push_all {A : Type} (cap : N) (acc l : list A) : res (list A) :=
  match l with
  | [] => Ok acc
  | x :: r => let* acc := push_cap cap acc x in push_all cap acc r
  end.

(* src/lib.rs:332-377; returns the new out and the number of chunks hashed *)
Definition hash_chunks_parallel (c : cfg) (p : platform) (input key : list N) (offset flags : N)
  (out : list N) : res (list N * N) :=
  dassert c (negb (len input =? 0)) ;;
  dassert c (len input <=? MAX_SIMD_DEGREE c * CHUNK_LEN) ;;
  dassert c (offset mod CHUNK_LEN =? 0) ;;
  let '(chunks, remainder) := chunks_exact CHUNK_LEN input in
  let* chunks_array := push_all (MAX_SIMD_DEGREE c) [] chunks in
  let* out := hash_many c p CHUNK_LEN chunks_array key offset CHUNK_LEN flags
                        CHUNK_START CHUNK_END out in
  let chunks_so_far := len chunks_array in
  if negb (len remainder =? 0) then
    let* d := mul64 c chunks_so_far CHUNK_LEN in
    let* off := add64 c offset d in
    let* output := hash_one_chunk c p remainder key off NotRoot flags in
    let* out := copy_at out (chunks_so_far * OUT_LEN) (to_hash output) in
    Ok (out, chunks_so_far + 1)
  else Ok (out, chunks_so_far).

(* src/lib.rs:383-419; returns the new out and the number of outputs *)
Definition hash_parents_parallel (c : cfg) (p : platform) (child_hashes key : list N) (flags : N)
  (out : list N) : res (list N * N) :=
  dassert c (len child_hashes mod OUT_LEN =? 0) ;;
  let num_children := len child_hashes / OUT_LEN in
  dassert c (2 <=? num_children) ;;
  dassert c (num_children <=? 2 * MAX_SIMD_DEGREE_OR_2 c) ;;
  let '(parents, remainder) := chunks_exact BLOCK_LEN child_hashes in
  let* parents_array := push_all (MAX_SIMD_DEGREE_OR_2 c) [] parents in
  let* out := hash_many c p BLOCK_LEN parents_array key 0 0 (N.lor flags PARENT) 0 0 out in
  let parents_so_far := len parents_array in
  if negb (len remainder =? 0) then
    let* tail := slice_from out (parents_so_far * OUT_LEN) in
    let* dst := slice_to tail OUT_LEN in
    assert_ (len dst =? len remainder) ;;
    let* out := copy_at out (parents_so_far * OUT_LEN) remainder in
    Ok (out, parents_so_far + 1)
  else Ok (out, parents_so_far).

(* usize::next_power_of_two: the smallest power of two >= x; on overflow it panics in
   a debug build and is 0 in a release build *)
Definition next_power_of_two (c : cfg) (x : N) : res N :=
  let q := 2 ^ N.log2_up x in
  if q <? WU c then Ok q else if dbg c then Panic else Ok 0.

(* src/lib.rs:423-425 *)
Definition largest_power_of_two_leq (c : cfg) (n : N) : res N :=
  let* m := addU c (n / 2) 1 in next_power_of_two c m.

(* src/lib.rs:429-434 *)
Definition left_len (c : cfg) (content_len : N) : res N :=
  dassert c (CHUNK_LEN <? content_len) ;;
  let* l := subU c content_len 1 in
  let full_chunks := l / CHUNK_LEN in
  let* q := largest_power_of_two_leq c full_chunks in
  mulU c q CHUNK_LEN.

(* slice::split_at *)
Definition split_at {A : Type} (l : list A) (n : N) : res (list A * list A) :=
  if n <=? len l then Ok (take n l, drop n l) else Panic.

(* src/lib.rs:450-512.  The two halves of the join (436-447) write to disjoint slices and
   are run one after the other here; Schedule.v models them running concurrently. *)
Fixpoint hash_recurse (c : cfg) (p : platform) (fuel : nat) (input key : list N)
  (offset flags : N) (out : list N) : res (list N * N) :=
  if len input <=? simd_degree p * CHUNK_LEN
  then hash_chunks_parallel c p input key offset flags out
  else
    match fuel with
    | O => NoFuel
    | S fuel' =>
        let* ll := left_len c (len input) in
        let* (left_in, right_in) := split_at input ll in
        let* right_off := add64 c offset (len left_in) in
        dassert c (popcount (simd_degree p) =? 1) ;;
        let children_array := zeros (2 * MAX_SIMD_DEGREE_OR_2 c * OUT_LEN) in
        let degree := if len left_in =? CHUNK_LEN then 1 else N.max (simd_degree p) 2 in
        let* (left_out, right_out) := split_at children_array (degree * OUT_LEN) in
        let* (left_out, left_n) := hash_recurse c p fuel' left_in key offset flags left_out in
        let* (right_out, right_n) := hash_recurse c p fuel' right_in key right_off flags right_out in
        let children_array := left_out ++ right_out in
        dassert c (left_n =? degree) ;;
        dassert c ((1 <=? right_n) && (right_n <=? left_n)) ;;
        if left_n =? 1 then
          let* dst := slice_to out (2 * OUT_LEN) in
          let* src := slice_to children_array (2 * OUT_LEN) in
          let* out := copy_at out 0 src in
          Ok (out, 2)
        else
          let num_children := left_n + right_n in
          let* children := slice_to children_array (num_children * OUT_LEN) in
          hash_parents_parallel c p children key flags out
    end.

(* src/lib.rs:514-536: the while loop; out_array keeps its contents between rounds *)
Fixpoint condense_loop (c : cfg) (p : platform) (fuel : nat) (children key : list N) (flags : N)
  (out_array : list N) : res (list N) :=
  if BLOCK_LEN <? len children then
    match fuel with
    | O => NoFuel
    | S fuel' =>
        let* (out_array, out_n) := hash_parents_parallel c p children key flags out_array in
        let* dst := slice_to children (out_n * OUT_LEN) in
        let* src := slice_to out_array (out_n * OUT_LEN) in
        let* children := copy_at children 0 src in
        let* children := slice_to children (out_n * OUT_LEN) in
        condense_loop c p fuel' children key flags out_array
    end
  else Ok children.

(* src/lib.rs:514-536 *)
Definition condense_root (c : cfg) (p : platform) (children key : list N) (flags : N)
  : res output :=
  dassert c (len children mod OUT_LEN =? 0) ;;
  dassert c (BLOCK_LEN <=? len children) ;;
  let out_array := zeros (MAX_SIMD_DEGREE c * OUT_LEN / 2) in
  let* children := condense_loop c p (length children) children key flags out_array in
  let* block := slice children 0 BLOCK_LEN in
  Ok (Output key block BLOCK_LEN 0 (N.lor (N.lor flags PARENT) ROOT) p).

(* Enough recursion depth for any input: the number of bits of its length. *)
Definition depth_fuel (input : list N) : nat := N.to_nat (N.size (len input)).

(* src/lib.rs:538-552 *)
Definition hash_internal (c : cfg) (p : platform) (input key_words : list N) (flags : N)
  : res output :=
  if len input <=? CHUNK_LEN
  then hash_one_chunk c p input key_words 0 Root flags
  else
    let children_array := zeros (MAX_SIMD_DEGREE_OR_2 c * OUT_LEN) in
    let* (children_array, num_children) :=
      hash_recurse c p (depth_fuel input) input key_words 0 flags children_array in
    let* children := slice_to children_array (num_children * OUT_LEN) in
    condense_root c p children key_words flags.

(* src/lib.rs:560-562, 555-557 *)
Definition hash_xof (c : cfg) (p : platform) (input : list N) : res output :=
  hash_internal c p input IV 0.
Definition hash (c : cfg) (p : platform) (input : list N) : res (list N) :=
  let* o := hash_xof c p input in Ok (to_hash o).
(* src/lib.rs:574-577, 567-569 *)
Definition keyed_hash_xof (c : cfg) (p : platform) (key input : list N) : res output :=
  hash_internal c p input (words_from_key_bytes key) KEYED_HASH.
Definition keyed_hash (c : cfg) (p : platform) (key input : list N) : res (list N) :=
  let* o := keyed_hash_xof c p key input in Ok (to_hash o).
(* src/lib.rs:593-596, 584-586 *)
Definition derive_key_xof (c : cfg) (p : platform) (key context : list N) : res output :=
  hash_internal c p context (words_from_key_bytes key) DERIVE_KEY.
Definition derive_key (c : cfg) (p : platform) (key context : list N) : res (list N) :=
  let* o := derive_key_xof c p key context in Ok (to_hash o).

(* ---- the streaming implementation ------------------------------------------- *)

(* src/lib.rs:602-612 *)
Record chunk_state : Type := ChunkState
  { cs_cv : list N; cs_key : list N; cs_offset : N; cs_count : N; cs_buf : list N;
    cs_buf_len : N; cs_flags : N; cs_platform : platform }.

(* src/lib.rs:615-626 *)
Definition cs_new (p : platform) (key : list N) (flags : N) : chunk_state :=
  ChunkState key key 0 0 (zeros BLOCK_LEN) 0 flags p.

(* src/lib.rs:628-635 *)
Definition cs_reset (c : cfg) (s : chunk_state) (new_offset : N) : res chunk_state :=
  dassert c (new_offset mod CHUNK_LEN =? 0) ;;
  Ok (ChunkState (cs_key s) (cs_key s) new_offset 0 (zeros BLOCK_LEN) 0 (cs_flags s)
        (cs_platform s)).

(* src/lib.rs:638-640 *)
Definition cs_len (s : chunk_state) : N := cs_count s + cs_buf_len s.

(* src/lib.rs:642-649; returns the new state and the rest of the input *)
Definition cs_fill_buf (c : cfg) (s : chunk_state) (input : list N)
  : res (chunk_state * list N) :=
  let* want := subU c BLOCK_LEN (cs_buf_len s) in
  let take_n := N.min want (len input) in
  let* src := slice_to input take_n in
  let* buf := copy_at (cs_buf s) (cs_buf_len s) src in
  let* buf_len := addw c W8 (cs_buf_len s) (take_n mod W8) in
  let* rest := slice_from input take_n in
  Ok (ChunkState (cs_cv s) (cs_key s) (cs_offset s) (cs_count s) buf buf_len (cs_flags s)
        (cs_platform s), rest).

(* src/lib.rs:651-657 *)
Definition cs_maybe_chunk_start_flag (s : chunk_state) : N :=
  if cs_count s =? 0 then CHUNK_START else 0.

(* One compression inside update: src/lib.rs:664-672 and 679-687. *)
Definition cs_compress (c : cfg) (s : chunk_state) (block : list N) : res chunk_state :=
  let block_flags := N.lor (cs_flags s) (cs_maybe_chunk_start_flag s) in
  let cv := compress (cs_platform s) (cs_cv s) block BLOCK_LEN (cs_offset s) block_flags in
  let* count := addw c 65536 (cs_count s) BLOCK_LEN in
  Ok (ChunkState cv (cs_key s) (cs_offset s) count (cs_buf s) (cs_buf_len s) (cs_flags s)
        (cs_platform s)).

(* src/lib.rs:677-689 *)
Fixpoint cs_update_loop (c : cfg) (fuel : nat) (s : chunk_state) (input : list N)
  : res (chunk_state * list N) :=
  if BLOCK_LEN <? len input then
    match fuel with
    | O => NoFuel
    | S fuel' =>
        dassert c (cs_buf_len s =? 0) ;;
        let* block := slice input 0 BLOCK_LEN in
        let* s := cs_compress c s block in
        let* input := slice_from input BLOCK_LEN in
        cs_update_loop c fuel' s input
    end
  else Ok (s, input).

(* src/lib.rs:659-695 *)
Definition cs_update (c : cfg) (s : chunk_state) (input : list N) : res chunk_state :=
  let* (s, input) :=
    (if 0 <? cs_buf_len s then
       let* (s, input) := cs_fill_buf c s input in
       if negb (len input =? 0) then
         dassert c (cs_buf_len s =? BLOCK_LEN) ;;
         let* s := cs_compress c s (cs_buf s) in
         Ok (ChunkState (cs_cv s) (cs_key s) (cs_offset s) (cs_count s) (zeros BLOCK_LEN) 0
               (cs_flags s) (cs_platform s), input)
       else Ok (s, input)
     else Ok (s, input)) in
  let* (s, input) := cs_update_loop c (length input) s input in
  let* (s, input) := cs_fill_buf c s input in
  dassert c (len input =? 0) ;;
  dassert c (cs_len s <=? CHUNK_LEN) ;;
  Ok s.

(* src/lib.rs:701-717 *)
Definition cs_finalize (c : cfg) (s : chunk_state) (r : is_root) : res output :=
  (match r with Root => dassert c (cs_offset s =? 0) | NotRoot => Ok tt end) ;;
  let block_flags :=
    N.lor (N.lor (N.lor (cs_flags s) (cs_maybe_chunk_start_flag s)) CHUNK_END) (root_flag r) in
  Ok (Output (cs_cv s) (cs_buf s) (cs_buf_len s) (cs_offset s) block_flags (cs_platform s)).

(* src/lib.rs:726-746 *)
Definition hash_one_parent (p : platform) (left_child right_child key : list N) (r : is_root)
  (flags : N) : output :=
  Output key (left_child ++ right_child) BLOCK_LEN 0
    (N.lor (N.lor flags PARENT) (root_flag r)) p.

(* src/lib.rs:756-759 *)
Record hasher : Type := Hasher { h_stack : list (list N); h_chunk : chunk_state }.

(* src/lib.rs:762-767 *)
Definition new_internal (p : platform) (key_words : list N) (flags : N) : hasher :=
  Hasher [] (cs_new p key_words flags).
(* src/lib.rs:770-788 *)
Definition hasher_new (p : platform) : hasher := new_internal p IV 0.
Definition hasher_new_keyed (p : platform) (key : list N) : hasher :=
  new_internal p (words_from_key_bytes key) KEYED_HASH.
Definition hasher_new_derive_key (p : platform) (key : list N) : hasher :=
  new_internal p (words_from_key_bytes key) DERIVE_KEY.

(* src/lib.rs:798-801 *)
Definition needs_merge (h : hasher) (total_bytes : N) : bool :=
  let total_chunks := total_bytes / CHUNK_LEN in
  popcount total_chunks <? len (h_stack h).

(* src/lib.rs:805-819 *)
Definition merge_parent (c : cfg) (h : hasher) : res hasher :=
  let num_subtrees := len (h_stack h) in
  dassert c (2 <=? num_subtrees) ;;
  let* i2 := subU c num_subtrees 2 in
  let* i1 := subU c num_subtrees 1 in
  let* lchild := index (h_stack h) i2 in
  let* rchild := index (h_stack h) i1 in
  let parent_hash :=
    to_hash (hash_one_parent (cs_platform (h_chunk h)) lchild rchild (cs_key (h_chunk h)) NotRoot
               (cs_flags (h_chunk h))) in
  Ok (Hasher (take i1 (set_nth (h_stack h) (N.to_nat i2) parent_hash)) (h_chunk h)).

(* `while self.needs_merge(offset) { self.merge_parent(); }`:
   src/lib.rs:824-826 and 914-916 *)
Fixpoint merge_loop (c : cfg) (fuel : nat) (h : hasher) (offset : N) : res hasher :=
  if needs_merge h offset then
    match fuel with
    | O => NoFuel
    | S fuel' => let* h := merge_parent c h in merge_loop c fuel' h offset
    end
  else Ok h.

(* src/lib.rs:821-828 *)
Definition push_chunk_hash (c : cfg) (h : hasher) (hash : list N) (offset : N) : res hasher :=
  let* h := merge_loop c (length (h_stack h)) h offset in
  let* stack := push_cap MAX_DEPTH (h_stack h) hash in
  Ok (Hasher stack (h_chunk h)).

Definition set_chunk_offset (s : chunk_state) (offset : N) : chunk_state :=
  ChunkState (cs_cv s) (cs_key s) offset (cs_count s) (cs_buf s) (cs_buf_len s) (cs_flags s)
    (cs_platform s).

(* src/lib.rs:892-899: push the hashes of one batch, moving the offset forward *)
Fixpoint push_batch (c : cfg) (h : hasher) (hashes : list (list N)) : res hasher :=
  match hashes with
  | [] => Ok h
  | x :: r =>
      let* h := push_chunk_hash c h x (cs_offset (h_chunk h)) in
      let* off := add64 c (cs_offset (h_chunk h)) CHUNK_LEN in
      push_batch c (Hasher (h_stack h) (set_chunk_offset (h_chunk h) off)) r
  end.

(* src/lib.rs:875-901: the loop over batches of at most MAX_SIMD_DEGREE whole chunks.
   chunks is what is left in the iterator; out_array keeps its contents. *)
Fixpoint update_chunks (c : cfg) (fuel : nat) (h : hasher) (chunks : list (list N))
  (out_array : list N) : res hasher :=
  let chunks_array := take (MAX_SIMD_DEGREE c) chunks in
  if len chunks_array =? 0 then Ok h
  else
    match fuel with
    | O => NoFuel
    | S fuel' =>
        let s := h_chunk h in
        let* out_array :=
          hash_many c (cs_platform s) CHUNK_LEN chunks_array (cs_key s) (cs_offset s) CHUNK_LEN
                    (cs_flags s) CHUNK_START CHUNK_END out_array in
        let* h := push_batch c h
                    (take (len chunks_array) (fst (chunks_exact OUT_LEN out_array))) in
        update_chunks c fuel' h (drop (MAX_SIMD_DEGREE c) chunks) out_array
    end.

(* src/lib.rs:836-920 *)
Definition update (c : cfg) (h : hasher) (input : list N) : res hasher :=
  let s := h_chunk h in
  let is_first_chunk := cs_offset s =? 0 in
  let maybe_root := is_first_chunk && (len input =? CHUNK_LEN) in
  (* the inner result is (hasher, rest of input, whether we return here) *)
  let* (h, input, return_now) :=
    (if maybe_root || (0 <? cs_len s) then
       let* want := subU c CHUNK_LEN (cs_len s) in
       let take_n := N.min want (len input) in
       let* now := slice_to input take_n in
       let* s := cs_update c s now in
       let* input := slice_from input take_n in
       if negb (len input =? 0) then
         dassert c (cs_len s =? CHUNK_LEN) ;;
         let* o := cs_finalize c s NotRoot in
         let chunk_hash := to_hash o in
         let* h := push_chunk_hash c (Hasher (h_stack h) s) chunk_hash (cs_offset s) in
         let* off := add64 c (cs_offset s) CHUNK_LEN in
         let* s := cs_reset c s off in
         Ok (Hasher (h_stack h) s, input, false)
       else Ok (Hasher (h_stack h) s, input, true)
     else Ok (h, input, false)) in
  if return_now then Ok h
  else
    let '(chunks, remainder) := chunks_exact CHUNK_LEN input in
    dassert c (cs_len (h_chunk h) =? 0) ;;
    let* h := update_chunks c (length chunks) h chunks
                (zeros (MAX_SIMD_DEGREE c * OUT_LEN)) in
    dassert c (cs_len (h_chunk h) =? 0) ;;
    dassert c (len remainder <? CHUNK_LEN) ;;
    if negb (len remainder =? 0) then
      let* h := merge_loop c (length (h_stack h)) h (cs_offset (h_chunk h)) in
      let* s := cs_update c (h_chunk h) remainder in
      Ok (Hasher (h_stack h) s)
    else Ok h.

(* src/lib.rs:964-983: the loop of finalize_xof; fuel bounds the index *)
Fixpoint finalize_loop (c : cfg) (fuel : nat) (h : hasher) (working_hash : list N)
  (next_subtree_index : N) : res output :=
  let r := if next_subtree_index =? 0 then Root else NotRoot in
  let* lchild := index (h_stack h) next_subtree_index in
  let s := h_chunk h in
  let o := hash_one_parent (cs_platform s) lchild working_hash (cs_key s) r (cs_flags s) in
  if next_subtree_index =? 0 then Ok o
  else
    match fuel with
    | O => NoFuel
    | S fuel' =>
        let* i := subU c next_subtree_index 1 in
        finalize_loop c fuel' h (to_hash o) i
    end.

(* src/lib.rs:934-984 *)
Definition finalize_xof (c : cfg) (h : hasher) : res output :=
  let n := len (h_stack h) in
  if n =? 0 then cs_finalize c (h_chunk h) Root
  else
    let* (working_hash, next_subtree_index) :=
      (if 0 <? cs_len (h_chunk h) then
         dassert c (negb (needs_merge h (cs_offset (h_chunk h)))) ;;
         let* o := cs_finalize c (h_chunk h) NotRoot in
         let* i := subU c n 1 in
         Ok (to_hash o, i)
       else
         dassert c (2 <=? n) ;;
         let* l := subU c n 1 in
         let* last := index (h_stack h) l in          (* last().unwrap() *)
         let* i := subU c n 2 in
         Ok (last, i)) in
    finalize_loop c (length (h_stack h)) h working_hash next_subtree_index.

(* src/lib.rs:926-928 *)
Definition finalize (c : cfg) (h : hasher) : res (list N) :=
  let* o := finalize_xof c h in Ok (to_hash o).

(* src/lib.rs:994-1003: io::Write; the error case of the io::Result does not occur *)
Definition write (c : cfg) (h : hasher) (input : list N) : res (hasher * N) :=
  let* h := update c h input in Ok (h, len input).
Definition flush (h : hasher) : res hasher := Ok h.

(* ---- Debug ------------------------------------------------------------------ *)

From Coq Require Import String Ascii.

(* The text written by the Debug implementations, as bytes. *)
Definition text (s : string) : list N := map N_of_ascii (list_ascii_of_string s).
(* src/lib.rs:210-214 *)
Definition debug_hash (h : list N) : res (list N) :=
  let* x := to_hex h in Ok ((text "Hash(0x" ++ x ++ text ")")%list).
(* src/lib.rs:257-262 *)
Definition debug_output (o : output) : list N := text "Output { ... }".
(* src/lib.rs:988-992 *)
Definition debug_hasher (h : hasher) : list N := text "Hasher { ... }".
