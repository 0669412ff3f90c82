(* Model of /repo/reference_impl/reference_impl.rs.  Definitions only.  Line numbers
   below are in that file.  Nothing of the model of src/ is used, and of the specification only
   the names of the modes (r_start).

   Sums and products of compile-time constants and of values bounded by CHUNK_LEN (as in
   ChunkState::len) are written without overflow checks; u8 counters, the u64 offsets and
   all indices are checked. *)
From Coq Require Import NArith List Bool.
From Verif Require Import Base Spec.
Import ListNotations.
Open Scope N_scope.

(* 4-8 *)
Definition r_OUT_LEN : N := 32.
Definition r_KEY_LEN : N := 32.
Definition r_BLOCK_LEN : N := 64.
Definition r_CHUNK_LEN : N := 2048.
Definition r_ROUNDS : nat := 7.

(* 10-15 *)
Definition r_CHUNK_START : N := N.shiftl 1 0.
Definition r_CHUNK_END : N := N.shiftl 1 1.
Definition r_PARENT : N := N.shiftl 1 2.
Definition r_ROOT : N := N.shiftl 1 3.
Definition r_KEYED_HASH : N := N.shiftl 1 4.
Definition r_DERIVE_KEY : N := N.shiftl 1 5.

(* 17-19 *)
Definition r_IV : list N :=
  [0x6A09E667; 0xBB67AE85; 0x3C6EF372; 0xA54FF53A;
   0x510E527F; 0x9B05688C; 0x1F83D9AB; 0x5BE0CD19].

(* 21-29 *)
Definition r_MSG_SCHEDULE : list (list nat) :=
  [[0; 1; 2; 3; 4; 5; 6; 7; 8; 9; 10; 11; 12; 13; 14; 15];
   [14; 10; 4; 8; 9; 15; 13; 6; 1; 12; 0; 2; 11; 7; 5; 3];
   [11; 8; 12; 0; 5; 2; 15; 13; 10; 14; 3; 6; 7; 1; 9; 4];
   [7; 9; 3; 1; 13; 12; 11; 14; 2; 6; 5; 10; 4; 0; 15; 8];
   [9; 0; 5; 7; 2; 4; 10; 15; 14; 1; 11; 12; 6; 8; 3; 13];
   [2; 12; 6; 10; 0; 11; 8; 3; 4; 13; 7; 5; 15; 14; 1; 9];
   [12; 5; 1; 15; 14; 13; 4; 10; 0; 7; 6; 3; 9; 2; 8; 11]]%nat.

(* 32-41 *)
Definition r_g (state : list N) (a b c d : nat) (mx my : N) : list N :=
  let state := set_nth state a (add32 (add32 (get state a) (get state b)) mx) in
  let state := set_nth state d (rotr32 (xor32 (get state d) (get state a)) 16) in
  let state := set_nth state c (add32 (get state c) (get state d)) in
  let state := set_nth state b (rotr32 (xor32 (get state b) (get state c)) 12) in
  let state := set_nth state a (add32 (add32 (get state a) (get state b)) my) in
  let state := set_nth state d (rotr32 (xor32 (get state d) (get state a)) 8) in
  let state := set_nth state c (add32 (get state c) (get state d)) in
  let state := set_nth state b (rotr32 (xor32 (get state b) (get state c)) 7) in
  state.

(* 43-54 *)
Definition r_round (state m : list N) (schedule : list nat) : list N :=
  let x i := get m (nth i schedule O) in
  let state := r_g state 0 4 8 12 (x 0%nat) (x 1%nat) in
  let state := r_g state 1 5 9 13 (x 2%nat) (x 3%nat) in
  let state := r_g state 2 6 10 14 (x 4%nat) (x 5%nat) in
  let state := r_g state 3 7 11 15 (x 6%nat) (x 7%nat) in
  let state := r_g state 0 5 10 15 (x 8%nat) (x 9%nat) in
  let state := r_g state 1 6 11 12 (x 10%nat) (x 11%nat) in
  let state := r_g state 2 7 8 13 (x 12%nat) (x 13%nat) in
  let state := r_g state 3 4 9 14 (x 14%nat) (x 15%nat) in
  state.

(* 56-89 *)
Definition r_compress (chaining_value block_words : list N) (offset block_len flags : N) : list N :=
  let cv := chaining_value in
  let state :=
    [get cv 0; get cv 1; get cv 2; get cv 3; get cv 4; get cv 5; get cv 6; get cv 7;
     get r_IV 0; get r_IV 1; get r_IV 2; get r_IV 3;
     offset mod W32; N.shiftr offset 32 mod W32; block_len; flags] in
  let state :=
    fold_left (fun state r => r_round state block_words (nth r r_MSG_SCHEDULE []))
      (seq 0 r_ROUNDS) state in
  fold_left
    (fun state i =>
       let state := set_nth state i (xor32 (get state i) (get state (i + 8))) in
       set_nth state (i + 8) (xor32 (get state (i + 8)) (get cv i)))
    (seq 0 8) state.

(* 91-93 *)
Definition r_first_8_words (compression_output : list N) : list N := firstn 8 compression_output.

(* 95-99: words are overwritten as long as there are four bytes for them *)
Fixpoint r_words_from_bytes (bytes words : list N) : list N :=
  match bytes, words with
  | b0 :: b1 :: b2 :: b3 :: bytes, _ :: words =>
      word32 b0 b1 b2 b3 :: r_words_from_bytes bytes words
  | _, _ => words
  end.

(* 104-110 *)
Record r_output : Type := ROutput
  { ro_cv : list N; ro_block_words : list N; ro_offset : N; ro_block_len : N; ro_flags : N }.

(* 113-121 *)
Definition r_chaining_value (o : r_output) : list N :=
  r_first_8_words
    (r_compress (ro_cv o) (ro_block_words o) (ro_offset o) (ro_block_len o) (ro_flags o)).

(* 134-136: the words are copied over the bytes of the block, the last one only as far as
   there is room *)
Fixpoint r_fill (words out_block : list N) : list N :=
  match words, out_block with
  | w :: words, _ :: _ =>
      let n := N.min 4 (len out_block) in
      take n (bytes32 w) ++ r_fill words (drop n out_block)
  | _, _ => out_block
  end.
(* 123-139: returns the new content of out_slice; fuel bounds the number of blocks *)
Fixpoint r_root_loop (c : cfg) (fuel : nat) (o : r_output) (offset : N) (out_slice : list N)
  : res (list N) :=
  match out_slice with
  | [] => Ok []
  | _ =>
      match fuel with
      | O => NoFuel
      | S fuel' =>
          let n := N.min (2 * r_OUT_LEN) (len out_slice) in
          let words := r_compress (ro_cv o) (ro_block_words o) offset (ro_block_len o)
                                  (N.lor (ro_flags o) r_ROOT) in
          let block := r_fill words (take n out_slice) in
          let* offset := add64 c offset (2 * r_OUT_LEN) in
          let* rest := r_root_loop c fuel' o offset (drop n out_slice) in
          Ok (block ++ rest)
      end
  end.
Definition r_root_output_bytes (c : cfg) (o : r_output) (out_slice : list N) : res (list N) :=
  r_root_loop c (length out_slice) o 0 out_slice.

(* 142-149 *)
Record r_chunk : Type := RChunk
  { rc_cv : list N; rc_offset : N; rc_block : list N; rc_block_len : N;
    rc_blocks_compressed : N; rc_flags : N }.

(* 152-161 *)
Definition r_chunk_new (key : list N) (offset flags : N) : r_chunk :=
  RChunk key offset (zeros r_BLOCK_LEN) 0 0 flags.

(* 163-165 *)
Definition r_chunk_len (s : r_chunk) : N :=
  r_BLOCK_LEN * rc_blocks_compressed s + rc_block_len s.

(* 167-173 *)
Definition r_start_flag (s : r_chunk) : N :=
  if rc_blocks_compressed s =? 0 then r_CHUNK_START else 0.

(* 175-198; one iteration of the loop uses one unit of fuel *)
Fixpoint r_chunk_update (c : cfg) (fuel : nat) (s : r_chunk) (input : list N) : res r_chunk :=
  match input with
  | [] => Ok s
  | _ =>
      match fuel with
      | O => NoFuel
      | S fuel' =>
          let* s :=
            (if rc_block_len s =? r_BLOCK_LEN then
               let block_words := r_words_from_bytes (rc_block s) (zeros 16) in
               let cv := r_first_8_words
                           (r_compress (rc_cv s) block_words (rc_offset s) (r_BLOCK_LEN mod W32)
                              (N.lor (rc_flags s) (r_start_flag s))) in
               let* n := addw c W8 (rc_blocks_compressed s) 1 in
               Ok (RChunk cv (rc_offset s) (zeros r_BLOCK_LEN) 0 n (rc_flags s))
             else Ok s) in
          let* want := subU c r_BLOCK_LEN (rc_block_len s) in
          let take_ := N.min want (len input) in
          let* head := slice_to input take_ in
          let* block := copy_at (rc_block s) (rc_block_len s) head in
          let* bl := addw c W8 (rc_block_len s) (take_ mod W8) in
          let* rest := slice_from input take_ in
          r_chunk_update c fuel'
            (RChunk (rc_cv s) (rc_offset s) block bl (rc_blocks_compressed s) (rc_flags s)) rest
      end
  end.

(* 200-210 *)
Definition r_chunk_output (s : r_chunk) : r_output :=
  ROutput (rc_cv s) (r_words_from_bytes (rc_block s) (zeros 16)) (rc_offset s) (rc_block_len s)
          (N.lor (N.lor (rc_flags s) (r_start_flag s)) r_CHUNK_END).

(* 213-229 *)
Definition r_parent_output (left_child_cv right_child_cv key : list N) (flags : N) : r_output :=
  ROutput key (left_child_cv ++ right_child_cv) 0 r_BLOCK_LEN (N.lor r_PARENT flags).

(* 232-237 *)
Record r_hasher : Type := RHasher
  { rh_chunk : r_chunk; rh_key : list N; rh_stack : list (list N); rh_stack_len : N }.

(* 240-247 *)
Definition r_new_internal (key : list N) (flags : N) : r_hasher :=
  RHasher (r_chunk_new key 0 flags) key (repeat (zeros 8) 53) 0.

(* 250-252 *)
Definition r_new : r_hasher := r_new_internal r_IV 0.
(* 255-259 *)
Definition r_new_keyed (key : list N) : r_hasher :=
  r_new_internal (r_words_from_bytes key (zeros 8)) r_KEYED_HASH.
(* 262-266 *)
Definition r_new_derive_key (key : list N) : r_hasher :=
  r_new_internal (r_words_from_bytes key (zeros 8)) r_DERIVE_KEY.

(* 268-271; storing outside the array panics *)
Definition r_push_stack (c : cfg) (h : r_hasher) (cv : list N) : res r_hasher :=
  if rh_stack_len h <? len (rh_stack h) then
    let* n := addw c W8 (rh_stack_len h) 1 in
    Ok (RHasher (rh_chunk h) (rh_key h) (set_nth (rh_stack h) (N.to_nat (rh_stack_len h)) cv) n)
  else Panic.
(* 273-276 *)
Definition r_pop_stack (c : cfg) (h : r_hasher) : res (list N * r_hasher) :=
  let* n := subw c W8 (rh_stack_len h) 1 in
  let* cv := index (rh_stack h) n in
  Ok (cv, RHasher (rh_chunk h) (rh_key h) (rh_stack h) n).

(* 286-289; the loop pops an entry each time, and panics when there is none left (in release
   builds the index is then 255, outside the array) *)
Fixpoint r_merge_loop (c : cfg) (fuel : nat) (h : r_hasher) (cv : list N) (final_stack_len : N)
  : res (list N * r_hasher) :=
  if final_stack_len <=? rh_stack_len h then
    match fuel with
    | O => NoFuel
    | S fuel' =>
        let* (top, h) := r_pop_stack c h in
        r_merge_loop c fuel' h
          (r_chaining_value (r_parent_output top cv (rh_key h) (rc_flags (rh_chunk h))))
          final_stack_len
    end
  else Ok (cv, h).
(* 278-291 *)
Definition r_push_chunk_chaining_value (c : cfg) (h : r_hasher) (cv : list N) (total_bytes : N)
  : res r_hasher :=
  let final_stack_len := popcount total_bytes mod W8 in
  let* (cv, h) := r_merge_loop c (S (N.to_nat (rh_stack_len h))) h cv final_stack_len in
  r_push_stack c h cv.

(* 294-309; one iteration of the loop uses one unit of fuel *)
Fixpoint r_update_loop (c : cfg) (fuel : nat) (h : r_hasher) (input : list N) : res r_hasher :=
  match input with
  | [] => Ok h
  | _ =>
      match fuel with
      | O => NoFuel
      | S fuel' =>
          let* h :=
            (if r_chunk_len (rh_chunk h) =? r_CHUNK_LEN then
               let chunk_cv := r_chaining_value (r_chunk_output (rh_chunk h)) in
               let* new_chunk_offset := add64 c (rc_offset (rh_chunk h)) r_CHUNK_LEN in
               let* h := r_push_chunk_chaining_value c h chunk_cv new_chunk_offset in
               Ok (RHasher (r_chunk_new (rh_key h) new_chunk_offset (rc_flags (rh_chunk h)))
                           (rh_key h) (rh_stack h) (rh_stack_len h))
             else Ok h) in
          let* want := subU c r_CHUNK_LEN (r_chunk_len (rh_chunk h)) in
          let take_ := N.min want (len input) in
          let* head := slice_to input take_ in
          let* s := r_chunk_update c (length head) (rh_chunk h) head in
          let* rest := slice_from input take_ in
          r_update_loop c fuel' (RHasher s (rh_key h) (rh_stack h) (rh_stack_len h)) rest
      end
  end.
Definition r_update (c : cfg) (h : r_hasher) (input : list N) : res r_hasher :=
  r_update_loop c (length input) h input.

(* 318-326 *)
Fixpoint r_finalize_loop (c : cfg) (h : r_hasher) (o : r_output) (remaining : nat) : res r_output :=
  match remaining with
  | O => Ok o
  | S n =>
      let* left_cv := index (rh_stack h) (N.of_nat n) in
      r_finalize_loop c h
        (r_parent_output left_cv (r_chaining_value o) (rh_key h) (rc_flags (rh_chunk h))) n
  end.
(* 312-328; the new content of out_slice *)
Definition r_finalize (c : cfg) (h : r_hasher) (out_slice : list N) : res (list N) :=
  let o := r_chunk_output (rh_chunk h) in
  let* o := r_finalize_loop c h o (N.to_nat (rh_stack_len h)) in
  r_root_output_bytes c o out_slice.

(* the constructors, 250-266 *)
Definition r_start (m : mode) : r_hasher :=
  match m with Hashing => r_new | Keyed k => r_new_keyed k | Deriving k => r_new_derive_key k end.
(* a sequence of updates *)
Fixpoint r_feed (c : cfg) (h : r_hasher) (inputs : list (list N)) : res r_hasher :=
  match inputs with
  | [] => Ok h
  | x :: r => let* h := r_update c h x in r_feed c h r
  end.
