(* Model of /repo/python/baokeshed.py.  Definitions only; line numbers are in that file.

   Python's integers are unbounded and never negative here, so they are N.  An exception is
   Panic.  Slicing clamps (take, drop) and indexing raises IndexError.  bytes and bytearray
   are lists of bytes; the state list mutated by g and round is passed along.  Python's
   recursion limit (the recursion is as deep as the tree) is not modelled. *)
From Coq Require Import NArith List Bool.
From Verif Require Import Base Spec.
Import ListNotations.
Open Scope N_scope.

(* 3-12 *)
Definition y_IV : list N :=
  [0x6A09E667; 0xBB67AE85; 0x3C6EF372; 0xA54FF53A;
   0x510E527F; 0x9B05688C; 0x1F83D9AB; 0x5BE0CD19].

(* 14-22 *)
Definition y_MSG_SCHEDULE : list (list nat) :=
  [[0; 1; 2; 3; 4; 5; 6; 7; 8; 9; 10; 11; 12; 13; 14; 15];
   [14; 10; 4; 8; 9; 15; 13; 6; 1; 12; 0; 2; 11; 7; 5; 3];
   [11; 8; 12; 0; 5; 2; 15; 13; 10; 14; 3; 6; 7; 1; 9; 4];
   [7; 9; 3; 1; 13; 12; 11; 14; 2; 6; 5; 10; 4; 0; 15; 8];
   [9; 0; 5; 7; 2; 4; 10; 15; 14; 1; 11; 12; 6; 8; 3; 13];
   [2; 12; 6; 10; 0; 11; 8; 3; 4; 13; 7; 5; 15; 14; 1; 9];
   [12; 5; 1; 15; 14; 13; 4; 10; 0; 7; 6; 3; 9; 2; 8; 11]]%nat.

(* 24-38 *)
Definition y_BLOCK_LEN : N := 64.
Definition y_CHUNK_LEN : N := 2048.
Definition y_WORD_BITS : N := 32.
Definition y_WORD_BYTES : N := 4.
Definition y_WORD_MAX : N := 2 ^ y_WORD_BITS - 1.
Definition y_CHUNK_START : N := N.shiftl 1 0.
Definition y_CHUNK_END : N := N.shiftl 1 1.
Definition y_PARENT : N := N.shiftl 1 2.
Definition y_ROOT : N := N.shiftl 1 3.
Definition y_KEYED_HASH : N := N.shiftl 1 4.
Definition y_DERIVE_KEY : N := N.shiftl 1 5.

(* 41-42 *)
Definition y_wrapping_add (a b : N) : N := N.land (a + b) y_WORD_MAX.
(* 45-46 *)
Definition y_rotate_right (x n : N) : N :=
  N.land (N.lor (N.shiftr x n) (N.shiftl x (y_WORD_BITS - n))) y_WORD_MAX.

(* 49-57 *)
Definition y_g (state : list N) (a b c d : nat) (x y : N) : list N :=
  let state := set_nth state a (y_wrapping_add (get state a) (y_wrapping_add (get state b) x)) in
  let state := set_nth state d (y_rotate_right (N.lxor (get state d) (get state a)) 16) in
  let state := set_nth state c (y_wrapping_add (get state c) (get state d)) in
  let state := set_nth state b (y_rotate_right (N.lxor (get state b) (get state c)) 12) in
  let state := set_nth state a (y_wrapping_add (get state a) (y_wrapping_add (get state b) y)) in
  let state := set_nth state d (y_rotate_right (N.lxor (get state d) (get state a)) 8) in
  let state := set_nth state c (y_wrapping_add (get state c) (get state d)) in
  let state := set_nth state b (y_rotate_right (N.lxor (get state b) (get state c)) 7) in
  state.

(* 60-70 *)
Definition y_round (state msg_words : list N) (schedule : list nat) : list N :=
  let x i := get msg_words (nth i schedule O) in
  let state := y_g state 0 4 8 12 (x 0%nat) (x 1%nat) in
  let state := y_g state 1 5 9 13 (x 2%nat) (x 3%nat) in
  let state := y_g state 2 6 10 14 (x 4%nat) (x 5%nat) in
  let state := y_g state 3 7 11 15 (x 6%nat) (x 7%nat) in
  let state := y_g state 0 5 10 15 (x 8%nat) (x 9%nat) in
  let state := y_g state 1 6 11 12 (x 10%nat) (x 11%nat) in
  let state := y_g state 2 7 8 13 (x 12%nat) (x 13%nat) in
  let state := y_g state 3 4 9 14 (x 14%nat) (x 15%nat) in
  state.

(* int.from_bytes(_, "little") *)
Fixpoint y_from_bytes (buf : list N) : N :=
  match buf with
  | [] => 0
  | b :: r => b + 256 * y_from_bytes r
  end.

(* 73-78; buf[a:b] is take (b - a) (drop a buf) *)
Definition y_words_from_bytes (buf : list N) : list N :=
  map (fun word_i => let a := N.of_nat word_i * y_WORD_BYTES in
                     let b := (N.of_nat word_i + 1) * y_WORD_BYTES in
                     y_from_bytes (take (b - a) (drop a buf)))
      (seq 0 (N.to_nat (len buf / y_WORD_BYTES))).

(* 81-86; to_bytes raises OverflowError when the word is too big *)
Fixpoint y_bytes_from_words (words : list N) : res (list N) :=
  match words with
  | [] => Ok []
  | w :: r =>
      if w <? 2 ^ (8 * y_WORD_BYTES) then
        let* b := y_bytes_from_words r in Ok (bytes32 w ++ b)
      else Panic
  end.

(* 89-114; the indices that can raise are cv[0..7] and block_words[0..15] *)
Definition y_compress (cv block : list N) (block_len offset flags : N) : res (list N) :=
  let block_words := y_words_from_bytes block in
  if len cv <? 8 then Panic else
  if len block_words <? 16 then Panic else
  let state :=
    [get cv 0; get cv 1; get cv 2; get cv 3; get cv 4; get cv 5; get cv 6; get cv 7;
     get y_IV 0; get y_IV 1; get y_IV 2; get y_IV 3;
     N.land offset y_WORD_MAX; N.land (N.shiftr offset y_WORD_BITS) y_WORD_MAX;
     block_len; flags] in
  let state :=
    fold_left (fun state round_number =>
                 y_round state block_words (nth round_number y_MSG_SCHEDULE []))
      (seq 0 7) state in
  Ok (fold_left
        (fun state i =>
           let state := set_nth state i (N.lxor (get state i) (get state (i + 8))) in
           set_nth state (i + 8) (N.lxor (get state (i + 8)) (get cv i)))
        (seq 0 8) state).

(* 120-126 *)
Record y_output : Type := YOutput
  { yo_cv : list N; yo_block : list N; yo_block_len : N; yo_offset : N; yo_flags : N }.

(* 128-131 *)
Definition y_chaining_value (o : y_output) : res (list N) :=
  let* words := y_compress (yo_cv o) (yo_block o) (yo_block_len o) (yo_offset o) (yo_flags o) in
  y_bytes_from_words (firstn 8 words).

(* l[a:b] = src on a bytearray *)
Definition y_set_slice (l : list N) (a b : N) (src : list N) : list N :=
  take a l ++ src ++ drop (N.max a b) l.

(* 136-142; one iteration of the loop uses one unit of fuel *)
Fixpoint y_root_loop (fuel : nat) (o : y_output) (out_len : N) (buf : list N) (offset : N)
  : res (list N) :=
  if offset <? out_len then
    match fuel with
    | O => NoFuel
    | S fuel' =>
        let* words := y_compress (yo_cv o) (yo_block o) (yo_block_len o) offset
                                 (N.lor (yo_flags o) y_ROOT) in
        let* out_bytes := y_bytes_from_words words in
        let take_ := N.min (len out_bytes) (out_len - offset) in
        let buf := y_set_slice buf offset (offset + take_) (take take_ out_bytes) in
        y_root_loop fuel' o out_len buf (offset + take_)
    end
  else Ok buf.
(* 133-143 *)
Definition y_root_output_bytes (o : y_output) (out_len : N) : res (list N) :=
  y_root_loop (N.to_nat out_len) o out_len (zeros out_len) 0.

(* 150-154 *)
Fixpoint y_chunk_loop (fuel : nat) (chunk cv : list N) (offset flags block_flags position : N)
  : res (list N * N * N) :=
  if y_BLOCK_LEN <? len chunk - position then
    match fuel with
    | O => NoFuel
    | S fuel' =>
        let block := take (position + y_BLOCK_LEN - position) (drop position chunk) in
        let* words := y_compress cv block y_BLOCK_LEN offset block_flags in
        y_chunk_loop fuel' chunk (firstn 8 words) offset flags flags (position + y_BLOCK_LEN)
    end
  else Ok (cv, block_flags, position).
(* 146-159 *)
Definition y_hash_chunk (chunk key_words : list N) (offset flags : N) : res y_output :=
  let block_flags := N.lor flags y_CHUNK_START in
  let* (cv, block_flags, position) :=
    y_chunk_loop (length chunk) chunk key_words offset flags block_flags 0 in
  let block_len := len chunk - position in
  let block := y_set_slice (zeros y_BLOCK_LEN) 0 block_len (drop position chunk) in
  let block_flags := N.lor block_flags y_CHUNK_END in
  Ok (YOutput cv block block_len offset block_flags).

(* 162-164 *)
Definition y_hash_parent (left_child right_child : y_output) (key_words : list N) (flags : N)
  : res y_output :=
  let* l := y_chaining_value left_child in
  let* r := y_chaining_value right_child in
  Ok (YOutput key_words (l ++ r) y_BLOCK_LEN 0 (N.lor y_PARENT flags)).

(* 170-173; without a whole chunk, 2**-1 is the float 0.5, and slicing by a float raises *)
Definition y_left_len (parent_len : N) : res N :=
  let available_chunks := (parent_len - 1) / y_CHUNK_LEN in
  if available_chunks =? 0 then Panic
  else Ok (y_CHUNK_LEN * 2 ^ (N.size available_chunks - 1)).

(* 177-188; fuel bounds the depth of the recursion *)
Fixpoint y_hash_recurse (fuel : nat) (input_bytes key_words : list N) (offset flags : N)
  : res y_output :=
  if len input_bytes <=? y_CHUNK_LEN then y_hash_chunk input_bytes key_words offset flags
  else
    match fuel with
    | O => NoFuel
    | S fuel' =>
        let* n := y_left_len (len input_bytes) in
        let left := take n input_bytes in
        let right := drop (len left) input_bytes in
        let right_offset := offset + len left in
        let* left_output := y_hash_recurse fuel' left key_words offset flags in
        let* right_output := y_hash_recurse fuel' right key_words right_offset flags in
        y_hash_parent left_output right_output key_words flags
    end.

(* 191-193 *)
Definition y_hash_internal (input_bytes key_words : list N) (flags out_len : N) : res (list N) :=
  let* output := y_hash_recurse (length input_bytes) input_bytes key_words 0 flags in
  y_root_output_bytes output out_len.

(* 199-200 *)
Definition y_hash (input_bytes : list N) (out_len : N) : res (list N) :=
  y_hash_internal input_bytes y_IV 0 out_len.
(* 203-205 *)
Definition y_keyed_hash (key_bytes input_bytes : list N) (out_len : N) : res (list N) :=
  y_hash_internal input_bytes (y_words_from_bytes key_bytes) y_KEYED_HASH out_len.
(* 208-210 *)
Definition y_derive_key (key_bytes context_bytes : list N) (out_len : N) : res (list N) :=
  y_hash_internal context_bytes (y_words_from_bytes key_bytes) y_DERIVE_KEY out_len.

(* the public function of a mode *)
Definition y_run (m : mode) (input : list N) (n : N) : res (list N) :=
  match m with
  | Hashing => y_hash input n
  | Keyed key => y_keyed_hash key input n
  | Deriving key => y_derive_key key input n
  end.
