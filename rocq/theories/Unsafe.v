(* The raw pointers of /repo/src/sse41.rs and /repo/src/avx2.rs.  Definitions only.

   Two kinds of code read memory through a pointer without a bounds check: the loads of
   transpose_msg_vecs, and the conversion of a slice of references to an array of DEGREE
   pointers in hash_many.  A read outside the object is undefined behaviour.  Sse41.v and
   Avx2.v make it a Panic; here its outcome is an argument, which can be any value or a
   Panic.  The functions below are those of Sse41.v, Avx2.v, Platform.v, Lib.v and Session.v
   with these reads.  (The other raw loads and stores of the two files have constant offsets
   into arrays whose sizes are part of their types.) *)
From Coq Require Import NArith List Bool.
From Verif Require Import Base Spec Portable Simd SimdGen SimdHash Platform Lib SessionSpec Session.
From Verif Require Sse41 Avx2.
Import ListNotations.
Open Scope N_scope.

Section Wild.
Variable wild_vec : res vec.
Variable wild_ptrs : res (list (list N)).

(* src/sse41.rs:12-15, src/avx2.rs:12-15 *)
Definition w_loadu (n : N) (mem : list N) (off : N) : res vec :=
  if off + n <=? len mem then Ok (words_of_bytes (take n (drop off mem))) else wild_vec.
(* src/sse41.rs:658, src/avx2.rs:398 *)
Definition w_ptrs (degree : N) (inputs : list (list N)) : res (list (list N)) :=
  if degree <=? len inputs then Ok (take degree inputs) else wild_ptrs.

(* as load_grid and batch_loop in SimdHash.v *)
Definition w_load_grid (bytes : N) (inputs : list (list N)) (block_offset : N) (cols : list N)
  : res (list vec) :=
  seq_res (flat_map (fun col => map (fun inp => w_loadu bytes inp (block_offset + col)) inputs) cols).
Fixpoint w_batch_loop (c : cfg) (fuel : nat) (degree : N)
  (hashN : list (list N) -> N -> res (list N))
  (rest : list (list N) -> N -> list N -> res (list N))
  (inputs : list (list N)) (offset offset_delta : N) (out : list N) : res (list N) :=
  if (degree <=? len inputs) && (degree * OUT_LEN <=? len out) then
    match fuel with
    | O => NoFuel
    | S fuel' =>
        let* ptrs := w_ptrs degree inputs in
        let* hs := hashN ptrs offset in
        let* inputs := slice_from inputs degree in
        let* d := mul64 c degree offset_delta in
        let* offset := add64 c offset d in
        let* out := slice_from out (degree * OUT_LEN) in
        let* out' := w_batch_loop c fuel' degree hashN rest inputs offset offset_delta out in
        Ok (hs ++ out')
    end
  else rest inputs offset out.

(* ---- src/sse41.rs ---- *)

(* src/sse41.rs:478-503 *)
Definition w_transpose_msg_vecs4 (inputs : list (list N)) (block_offset : N) : res (list vec) :=
  let* vecs := w_load_grid 16 inputs block_offset [0; 16; 32; 48] in
  Ok (Sse41.transpose_vecs (firstn 4 vecs)
      ++ Sse41.transpose_vecs (firstn 4 (skipn 4 vecs))
      ++ Sse41.transpose_vecs (firstn 4 (skipn 8 vecs))
      ++ Sse41.transpose_vecs (firstn 4 (skipn 12 vecs))).
(* src/sse41.rs:524-610 *)
Definition w_hash4 (c : cfg) (inputs : list (list N)) (blocks : N) (key : list N)
  (offset offset_delta flags flags_start flags_end : N) : res (list N) :=
  let h := map (fun i => set1_epi32 4 (get key i)) (seq 0 8) in
  let* (offset_low_vec, offset_high_vec) := Sse41.load_offsets c offset offset_delta in
  let* h := vec_hash_loop Sse41.ops sse41_round_code (set1_epi32 4) (w_transpose_msg_vecs4 inputs)
              (N.to_nat blocks) 0 blocks h offset_low_vec offset_high_vec
              (N.lor flags flags_start) flags flags_end in
  let h := Sse41.transpose_vecs (firstn 4 h) ++ Sse41.transpose_vecs (skipn 4 h) in
  let row := Sse41.row in
  Ok (storeu (row h 0%nat) ++ storeu (row h 4%nat) ++ storeu (row h 1%nat) ++ storeu (row h 5%nat)
      ++ storeu (row h 2%nat) ++ storeu (row h 6%nat) ++ storeu (row h 3%nat) ++ storeu (row h 7%nat)).
(* src/sse41.rs:644-687 *)
Definition w_sse41_hash_many (c : cfg) (cap : N) (inputs : list (list N)) (key : list N)
  (offset offset_delta flags flags_start flags_end : N) (out : list N) : res (list N) :=
  dassert c (len inputs * OUT_LEN <=? len out) ;;
  w_batch_loop c (length inputs) Sse41.DEGREE
    (fun four off => w_hash4 c four (cap / BLOCK_LEN) key off offset_delta
                             flags flags_start flags_end)
    (fun inputs off out =>
       hash_each c (fun input off => Sse41.hash1 c input key off flags flags_start flags_end)
         inputs off offset_delta out)
    inputs offset offset_delta out.

(* ---- src/avx2.rs ---- *)

(* src/avx2.rs:246-270 *)
Definition w_transpose_msg_vecs8 (inputs : list (list N)) (block_offset : N) : res (list vec) :=
  let* vecs := w_load_grid 32 inputs block_offset [0; 32] in
  Ok (Avx2.transpose_vecs (firstn 8 vecs) ++ Avx2.transpose_vecs (skipn 8 vecs)).
(* src/avx2.rs:298-381 *)
Definition w_hash8 (c : cfg) (inputs : list (list N)) (blocks : N) (key : list N)
  (offset offset_delta flags flags_start flags_end : N) : res (list N) :=
  let h := map (fun i => set1_epi32 8 (get key i)) (seq 0 8) in
  let* (offset_low_vec, offset_high_vec) := Avx2.load_offsets c offset offset_delta in
  let* h := vec_hash_loop Avx2.ops avx2_round_code (set1_epi32 8) (w_transpose_msg_vecs8 inputs)
              (N.to_nat blocks) 0 blocks h offset_low_vec offset_high_vec
              (N.lor flags flags_start) flags flags_end in
  let h := Avx2.transpose_vecs h in
  let row := Avx2.row in
  Ok (storeu (row h 0%nat) ++ storeu (row h 1%nat) ++ storeu (row h 2%nat) ++ storeu (row h 3%nat)
      ++ storeu (row h 4%nat) ++ storeu (row h 5%nat) ++ storeu (row h 6%nat) ++ storeu (row h 7%nat)).
(* src/avx2.rs:383-425 *)
Definition w_avx2_hash_many (c : cfg) (cap : N) (inputs : list (list N)) (key : list N)
  (offset offset_delta flags flags_start flags_end : N) (out : list N) : res (list N) :=
  dassert c (len inputs * OUT_LEN <=? len out) ;;
  w_batch_loop c (length inputs) Avx2.DEGREE
    (fun eight off => w_hash8 c eight (cap / BLOCK_LEN) key off offset_delta
                              flags flags_start flags_end)
    (fun inputs off out =>
       w_sse41_hash_many c cap inputs key off offset_delta flags flags_start flags_end out)
    inputs offset offset_delta out.

(* ---- src/platform.rs:89-140 ---- *)

Definition w_hash_many (c : cfg) (p : platform) (cap : N) (inputs : list (list N)) (key : list N)
  (offset offset_delta flags flags_start flags_end : N) (out : list N) : res (list N) :=
  match p with
  | PPortable =>
      Portable.hash_many c inputs key offset offset_delta flags flags_start flags_end out
  | PSSE41 =>
      w_sse41_hash_many c cap inputs key offset offset_delta flags flags_start flags_end out
  | PAVX2 =>
      w_avx2_hash_many c cap inputs key offset offset_delta flags flags_start flags_end out
  end.

(* ---- src/lib.rs, and programs that use it ---- *)

(* src/lib.rs:332-377; returns the new out and the number of chunks hashed *)
Definition w_hash_chunks_parallel (c : cfg) (p : platform) (input key : list N) (offset flags : N)
  (out : list N) : res (list N * N) :=
  dassert c (negb (len input =? 0)) ;;
  dassert c (len input <=? MAX_SIMD_DEGREE c * CHUNK_LEN) ;;
  dassert c (offset mod CHUNK_LEN =? 0) ;;
  let '(chunks, remainder) := chunks_exact CHUNK_LEN input in
  let* chunks_array := push_all (MAX_SIMD_DEGREE c) [] chunks in
  let* out := w_hash_many c p CHUNK_LEN chunks_array key offset CHUNK_LEN flags
                        CHUNK_START CHUNK_END out in
  let chunks_so_far := len chunks_array in
  if negb (len remainder =? 0) then
    let* d := mul64 c chunks_so_far CHUNK_LEN in
    let* off := add64 c offset d in
    let* output := hash_one_chunk c p remainder key off NotRoot flags in
    let* out := copy_at out (chunks_so_far * OUT_LEN) (to_hash output) in
    Ok (out, chunks_so_far + 1)
  else Ok (out, chunks_so_far).

(* src/lib.rs:383-419; returns the new out and the number of outputs *)
Definition w_hash_parents_parallel (c : cfg) (p : platform) (child_hashes key : list N) (flags : N)
  (out : list N) : res (list N * N) :=
  dassert c (len child_hashes mod OUT_LEN =? 0) ;;
  let num_children := len child_hashes / OUT_LEN in
  dassert c (2 <=? num_children) ;;
  dassert c (num_children <=? 2 * MAX_SIMD_DEGREE_OR_2 c) ;;
  let '(parents, remainder) := chunks_exact BLOCK_LEN child_hashes in
  let* parents_array := push_all (MAX_SIMD_DEGREE_OR_2 c) [] parents in
  let* out := w_hash_many c p BLOCK_LEN parents_array key 0 0 (N.lor flags PARENT) 0 0 out in
  let parents_so_far := len parents_array in
  if negb (len remainder =? 0) then
    let* tail := slice_from out (parents_so_far * OUT_LEN) in
    let* dst := slice_to tail OUT_LEN in
    assert_ (len dst =? len remainder) ;;
    let* out := copy_at out (parents_so_far * OUT_LEN) remainder in
    Ok (out, parents_so_far + 1)
  else Ok (out, parents_so_far).

(* src/lib.rs:450-512.  The two halves of the join (436-447) write to disjoint slices and
   are run one after the other here; Schedule.v models them running concurrently. *)
Fixpoint w_hash_recurse (c : cfg) (p : platform) (fuel : nat) (input key : list N)
  (offset flags : N) (out : list N) : res (list N * N) :=
  if len input <=? simd_degree p * CHUNK_LEN
  then w_hash_chunks_parallel c p input key offset flags out
  else
    match fuel with
    | O => NoFuel
    | S fuel' =>
        let* ll := left_len c (len input) in
        let* (left_in, right_in) := split_at input ll in
        let* right_off := add64 c offset (len left_in) in
        dassert c (popcount (simd_degree p) =? 1) ;;
        let children_array := zeros (2 * MAX_SIMD_DEGREE_OR_2 c * OUT_LEN) in
        let degree := if len left_in =? CHUNK_LEN then 1 else N.max (simd_degree p) 2 in
        let* (left_out, right_out) := split_at children_array (degree * OUT_LEN) in
        let* (left_out, left_n) := w_hash_recurse c p fuel' left_in key offset flags left_out in
        let* (right_out, right_n) := w_hash_recurse c p fuel' right_in key right_off flags right_out in
        let children_array := left_out ++ right_out in
        dassert c (left_n =? degree) ;;
        dassert c ((1 <=? right_n) && (right_n <=? left_n)) ;;
        if left_n =? 1 then
          let* dst := slice_to out (2 * OUT_LEN) in
          let* src := slice_to children_array (2 * OUT_LEN) in
          let* out := copy_at out 0 src in
          Ok (out, 2)
        else
          let num_children := left_n + right_n in
          let* children := slice_to children_array (num_children * OUT_LEN) in
          w_hash_parents_parallel c p children key flags out
    end.

(* src/lib.rs:514-536: the while loop; out_array keeps its contents between rounds *)
Fixpoint w_condense_loop (c : cfg) (p : platform) (fuel : nat) (children key : list N) (flags : N)
  (out_array : list N) : res (list N) :=
  if BLOCK_LEN <? len children then
    match fuel with
    | O => NoFuel
    | S fuel' =>
        let* (out_array, out_n) := w_hash_parents_parallel c p children key flags out_array in
        let* dst := slice_to children (out_n * OUT_LEN) in
        let* src := slice_to out_array (out_n * OUT_LEN) in
        let* children := copy_at children 0 src in
        let* children := slice_to children (out_n * OUT_LEN) in
        w_condense_loop c p fuel' children key flags out_array
    end
  else Ok children.

(* src/lib.rs:514-536 *)
Definition w_condense_root (c : cfg) (p : platform) (children key : list N) (flags : N)
  : res output :=
  dassert c (len children mod OUT_LEN =? 0) ;;
  dassert c (BLOCK_LEN <=? len children) ;;
  let out_array := zeros (MAX_SIMD_DEGREE c * OUT_LEN / 2) in
  let* children := w_condense_loop c p (length children) children key flags out_array in
  let* block := slice children 0 BLOCK_LEN in
  Ok (Output key block BLOCK_LEN 0 (N.lor (N.lor flags PARENT) ROOT) p).

(* src/lib.rs:538-552 *)
Definition w_hash_internal (c : cfg) (p : platform) (input key_words : list N) (flags : N)
  : res output :=
  if len input <=? CHUNK_LEN
  then hash_one_chunk c p input key_words 0 Root flags
  else
    let children_array := zeros (MAX_SIMD_DEGREE_OR_2 c * OUT_LEN) in
    let* (children_array, num_children) :=
      w_hash_recurse c p (depth_fuel input) input key_words 0 flags children_array in
    let* children := slice_to children_array (num_children * OUT_LEN) in
    w_condense_root c p children key_words flags.

(* src/lib.rs:560-562, 555-557 *)
Definition w_hash_xof (c : cfg) (p : platform) (input : list N) : res output :=
  w_hash_internal c p input IV 0.
Definition w_hash (c : cfg) (p : platform) (input : list N) : res (list N) :=
  let* o := w_hash_xof c p input in Ok (to_hash o).
(* src/lib.rs:574-577, 567-569 *)
Definition w_keyed_hash_xof (c : cfg) (p : platform) (key input : list N) : res output :=
  w_hash_internal c p input (words_from_key_bytes key) KEYED_HASH.
Definition w_keyed_hash (c : cfg) (p : platform) (key input : list N) : res (list N) :=
  let* o := w_keyed_hash_xof c p key input in Ok (to_hash o).
(* src/lib.rs:593-596, 584-586 *)
Definition w_derive_key_xof (c : cfg) (p : platform) (key context : list N) : res output :=
  w_hash_internal c p context (words_from_key_bytes key) DERIVE_KEY.
Definition w_derive_key (c : cfg) (p : platform) (key context : list N) : res (list N) :=
  let* o := w_derive_key_xof c p key context in Ok (to_hash o).

(* src/lib.rs:875-901: the loop over batches of at most MAX_SIMD_DEGREE whole chunks.
   chunks is what is left in the iterator; out_array keeps its contents. *)
Fixpoint w_update_chunks (c : cfg) (fuel : nat) (h : hasher) (chunks : list (list N))
  (out_array : list N) : res hasher :=
  let chunks_array := take (MAX_SIMD_DEGREE c) chunks in
  if len chunks_array =? 0 then Ok h
  else
    match fuel with
    | O => NoFuel
    | S fuel' =>
        let s := h_chunk h in
        let* out_array :=
          w_hash_many c (cs_platform s) CHUNK_LEN chunks_array (cs_key s) (cs_offset s) CHUNK_LEN
                    (cs_flags s) CHUNK_START CHUNK_END out_array in
        let* h := push_batch c h
                    (take (len chunks_array) (fst (chunks_exact OUT_LEN out_array))) in
        w_update_chunks c fuel' h (drop (MAX_SIMD_DEGREE c) chunks) out_array
    end.

(* src/lib.rs:836-920 *)
Definition w_update (c : cfg) (h : hasher) (input : list N) : res hasher :=
  let s := h_chunk h in
  let is_first_chunk := cs_offset s =? 0 in
  let maybe_root := is_first_chunk && (len input =? CHUNK_LEN) in
  (* the inner result is (hasher, rest of input, whether we return here) *)
  let* (h, input, return_now) :=
    (if maybe_root || (0 <? cs_len s) then
       let* want := subU c CHUNK_LEN (cs_len s) in
       let take_n := N.min want (len input) in
       let* now := slice_to input take_n in
       let* s := cs_update c s now in
       let* input := slice_from input take_n in
       if negb (len input =? 0) then
         dassert c (cs_len s =? CHUNK_LEN) ;;
         let* o := cs_finalize c s NotRoot in
         let chunk_hash := to_hash o in
         let* h := push_chunk_hash c (Hasher (h_stack h) s) chunk_hash (cs_offset s) in
         let* off := add64 c (cs_offset s) CHUNK_LEN in
         let* s := cs_reset c s off in
         Ok (Hasher (h_stack h) s, input, false)
       else Ok (Hasher (h_stack h) s, input, true)
     else Ok (h, input, false)) in
  if return_now then Ok h
  else
    let '(chunks, remainder) := chunks_exact CHUNK_LEN input in
    dassert c (cs_len (h_chunk h) =? 0) ;;
    let* h := w_update_chunks c (length chunks) h chunks
                (zeros (MAX_SIMD_DEGREE c * OUT_LEN)) in
    dassert c (cs_len (h_chunk h) =? 0) ;;
    dassert c (len remainder <? CHUNK_LEN) ;;
    if negb (len remainder =? 0) then
      let* h := merge_loop c (length (h_stack h)) h (cs_offset (h_chunk h)) in
      let* s := cs_update c (h_chunk h) remainder in
      Ok (Hasher (h_stack h) s)
    else Ok h.

(* src/lib.rs:994-1003: io::Write; the error case of the io::Result does not occur *)
Definition w_write (c : cfg) (h : hasher) (input : list N) : res (hasher * N) :=
  let* h := w_update c h input in Ok (h, len input).

(* hash / keyed_hash / derive_key and the _xof variants, src/lib.rs:555-596 *)
Definition w_oneshot (c : cfg) (p : platform) (m : mode) (input : list N) : res (list N) :=
  match m with
  | Hashing => w_hash c p input
  | Keyed key => w_keyed_hash c p key input
  | Deriving key => w_derive_key c p key input
  end.
Definition w_oneshot_xof (c : cfg) (p : platform) (m : mode) (input : list N) : res output :=
  match m with
  | Hashing => w_hash_xof c p input
  | Keyed key => w_keyed_hash_xof c p key input
  | Deriving key => w_derive_key_xof c p key input
  end.
Definition w_step (c : cfg) (p : platform) (w : world) (x : call) : res (world * seen) :=
  let H := w_hashers w in
  let O := w_outputs w in
  let nth {A : Type} (l : list A) (i : nat) : res A :=
    match nth_error l i with Some a => Ok a | None => Panic end in
  match x with
  | CHash m input => let* h := w_oneshot c p m input in Ok (w, SBytes (hash_as_bytes h))
  | CHashXof m input => let* o := w_oneshot_xof c p m input in Ok (World H (O ++ [o]), SNothing)
  | CNew m => Ok (World (H ++ [start p m]) O, SNothing)
  | CClone i => let* h := nth H i in Ok (World (H ++ [h]) O, SNothing)
  | CUpdate i input =>
      let* h := nth H i in
      let* h := w_update c h input in
      Ok (World (replace H i h) O, SNothing)
  | CWrite i input =>
      let* h := nth H i in
      let* (h, n) := w_write c h input in
      Ok (World (replace H i h) O, SCount n)
  | CFlush i =>
      let* h := nth H i in
      let* h := flush h in
      Ok (World (replace H i h) O, SNothing)
  | CFinalize i =>
      let* h := nth H i in
      let* d := finalize c h in
      Ok (w, SBytes (hash_as_bytes d))
  | CFinalizeXof i =>
      let* h := nth H i in
      let* o := finalize_xof c h in
      Ok (World H (O ++ [o]), SNothing)
  | CCloneOutput j => let* o := nth O j in Ok (World H (O ++ [o]), SNothing)
  | CRead j =>
      let* o := nth O j in
      let* (b, o) := read c o in
      Ok (World H (replace O j o), SBytes b)
  | CToHash j =>
      let* o := nth O j in
      Ok (w, SBytes (hash_as_bytes (to_hash o)))
  end.

(* ps n is what CPU detection returns at the n-th call *)
Fixpoint w_run (c : cfg) (ps : nat -> platform) (w : world) (xs : list call)
  : res (world * list seen) :=
  match xs with
  | [] => Ok (w, [])
  | x :: r =>
      let* (w, s) := w_step c (ps O) w x in
      let* (w, ss) := w_run c (fun n => ps (S n)) w r in
      Ok (w, s :: ss)
  end.

End Wild.
