(* Model of /repo/src/portable.rs and of the constants and byte helpers of
   /repo/src/lib.rs that it uses.  Definitions only. *)
From Coq Require Import NArith List Bool.
From Verif Require Import Base.
Import ListNotations.
Open Scope N_scope.

(* src/lib.rs:61, 66, 69, 73, 75 *)
Definition WORD_BYTES : N := 4.
Definition OUT_LEN : N := 32.
Definition KEY_LEN : N := 32.
Definition BLOCK_LEN : N := 64.
Definition CHUNK_LEN : N := 2048.

(* src/lib.rs:79-81 *)
Definition IV : list N :=
  [0x6A09E667; 0xBB67AE85; 0x3C6EF372; 0xA54FF53A;
   0x510E527F; 0x9B05688C; 0x1F83D9AB; 0x5BE0CD19].

(* src/lib.rs:83-91 *)
Definition MSG_SCHEDULE : list (list nat) :=
  [[0; 1; 2; 3; 4; 5; 6; 7; 8; 9; 10; 11; 12; 13; 14; 15];
   [14; 10; 4; 8; 9; 15; 13; 6; 1; 12; 0; 2; 11; 7; 5; 3];
   [11; 8; 12; 0; 5; 2; 15; 13; 10; 14; 3; 6; 7; 1; 9; 4];
   [7; 9; 3; 1; 13; 12; 11; 14; 2; 6; 5; 10; 4; 0; 15; 8];
   [9; 0; 5; 7; 2; 4; 10; 15; 14; 1; 11; 12; 6; 8; 3; 13];
   [2; 12; 6; 10; 0; 11; 8; 3; 4; 13; 7; 5; 15; 14; 1; 9];
   [12; 5; 1; 15; 14; 13; 4; 10; 0; 7; 6; 3; 9; 2; 8; 11]]%nat.

(* src/lib.rs:154-160 *)
Definition offset_low (offset : N) : N := offset mod W32.
Definition offset_high (offset : N) : N := N.shiftr offset 32 mod W32.

(* src/lib.rs:138-152; the argument is a [u32; 8] *)
Definition bytes_from_state_words (words : list N) : list N := bytes_of_words words.

(* src/portable.rs:5-25; the argument is a [u8; 64] *)
Definition words_from_block (bytes : list N) : list N := words_of_bytes bytes.

(* MSG_SCHEDULE[round][i]; both indices are compile-time constants in the code *)
Definition sched (r i : nat) : nat := nth i (nth r MSG_SCHEDULE []) O.

(* msg[schedule[i]] in src/portable.rs:40-55 *)
Definition msg_at (msg : list N) (r i : nat) : N := get msg (sched r i).

(* src/portable.rs:28-37; the eight assignments in order *)
Definition g (state : list N) (a b c d : nat) (x y : N) : list N :=
  let state := set_nth state a (add32 (add32 (get state a) (get state b)) x) in
  let state := set_nth state d (rotr32 (xor32 (get state d) (get state a)) 16) in
  let state := set_nth state c (add32 (get state c) (get state d)) in
  let state := set_nth state b (rotr32 (xor32 (get state b) (get state c)) 12) in
  let state := set_nth state a (add32 (add32 (get state a) (get state b)) y) in
  let state := set_nth state d (rotr32 (xor32 (get state d) (get state a)) 8) in
  let state := set_nth state c (add32 (get state c) (get state d)) in
  let state := set_nth state b (rotr32 (xor32 (get state b) (get state c)) 7) in
  state.

(* src/portable.rs:40-55 *)
Definition round (state msg : list N) (r : nat) : list N :=
  let state := g state 0 4 8 12 (msg_at msg r 0) (msg_at msg r 1) in
  let state := g state 1 5 9 13 (msg_at msg r 2) (msg_at msg r 3) in
  let state := g state 2 6 10 14 (msg_at msg r 4) (msg_at msg r 5) in
  let state := g state 3 7 11 15 (msg_at msg r 6) (msg_at msg r 7) in
  let state := g state 0 5 10 15 (msg_at msg r 8) (msg_at msg r 9) in
  let state := g state 1 6 11 12 (msg_at msg r 10) (msg_at msg r 11) in
  let state := g state 2 7 8 13 (msg_at msg r 12) (msg_at msg r 13) in
  let state := g state 3 4 9 14 (msg_at msg r 14) (msg_at msg r 15) in
  state.

(* src/portable.rs:58-94 *)
Definition compress_inner (cv block : list N) (block_len offset flags : N) : list N :=
  let block_words := words_from_block block in
  let state :=
    [get cv 0; get cv 1; get cv 2; get cv 3; get cv 4; get cv 5; get cv 6; get cv 7;
     get IV 0; get IV 1; get IV 2; get IV 3;
     offset_low offset; offset_high offset; block_len; flags] in
  let state := round state block_words 0 in
  let state := round state block_words 1 in
  let state := round state block_words 2 in
  let state := round state block_words 3 in
  let state := round state block_words 4 in
  let state := round state block_words 5 in
  let state := round state block_words 6 in
  state.

(* src/portable.rs:96-107; returns the new cv. *)
Definition compress (cv block : list N) (block_len offset flags : N) : list N :=
  let state := compress_inner cv block block_len offset flags in
  map (fun i => xor32 (get state i) (get state (i + 8))) (seq 0 8).

(* src/portable.rs:109-125 *)
Definition compress_xof (cv block : list N) (block_len offset flags : N) : list N :=
  let state := compress_inner cv block block_len offset flags in
  flat_map (fun i => bytes32 (xor32 (get state i) (get state (i + 8)))) (seq 0 8)
  ++ flat_map (fun i => bytes32 (xor32 (get state i) (get cv (i - 8)))) (seq 8 8).

(* src/portable.rs:136-153, the loop of hash1, for a given compress.  The same
   loop occurs in src/sse41.rs:624-639.  fuel bounds the number of blocks. *)
Fixpoint hash1_loop (comp : list N -> list N -> N -> N -> N -> list N)
  (fuel : nat) (cv slice : list N) (offset block_flags flags flags_end : N) : res (list N) :=
  if BLOCK_LEN <=? len slice then
    match fuel with
    | O => NoFuel
    | S fuel' =>
        let block_flags :=
          if len slice =? BLOCK_LEN then N.lor block_flags flags_end else block_flags in
        let cv := comp cv (take BLOCK_LEN slice) BLOCK_LEN offset block_flags in
        hash1_loop comp fuel' cv (drop BLOCK_LEN slice) offset flags flags flags_end
    end
  else Ok cv.

(* src/portable.rs:127-155.  The input is an array of A::CAPACITY bytes, so
   A::CAPACITY is its length.  Returns the 32 bytes written to out. *)
Definition hash1 (c : cfg) (input key : list N) (offset flags flags_start flags_end : N)
  : res (list N) :=
  dassert c (len input mod BLOCK_LEN =? 0) ;;
  let* cv := hash1_loop compress (length input) key input offset
                        (N.lor flags flags_start) flags flags_end in
  Ok (bytes_from_state_words cv).

(* The loop `for (&input, output) in inputs.iter().zip(out.chunks_exact_mut(OUT_LEN))`
   of src/portable.rs:168-179 (and src/sse41.rs:675-686) for a given hash1.
   zip stops at the shorter of the two; the last, short piece of out (if any)
   is not written. Returns the new contents of out. *)
Fixpoint hash_each (c : cfg) (h1 : list N -> N -> res (list N)) (inputs : list (list N))
  (offset offset_delta : N) (out : list N) : res (list N) :=
  match inputs with
  | [] => Ok out
  | input :: rest =>
      if OUT_LEN <=? len out then
        let* h := h1 input offset in
        let* offset := add64 c offset offset_delta in
        let* out' := hash_each c h1 rest offset offset_delta (drop OUT_LEN out) in
        Ok (h ++ out')
      else Ok out
  end.

(* src/portable.rs:157-180 *)
Definition hash_many (c : cfg) (inputs : list (list N)) (key : list N)
  (offset offset_delta flags flags_start flags_end : N) (out : list N) : res (list N) :=
  dassert c (len inputs * OUT_LEN <=? len out) ;;
  hash_each c (fun input offset => hash1 c input key offset flags flags_start flags_end)
    inputs offset offset_delta out.
