(* Model of /repo/src/portable64.rs.  Definitions only. *)
From Coq Require Import NArith List Bool.
From Verif Require Import Base Spec64.
Import ListNotations.
Open Scope N_scope.

(* src/portable64.rs:4-5 and src/lib.rs:66 (OUT_LEN) *)
Definition BLOCK_LEN : N := 128.
Definition CHUNK_LEN : N := 4096.
Definition OUT_LEN : N := 32.
(* src/portable64.rs:9-18 *)
Definition IV : list N :=
  [0x6A09E667F3BCC908; 0xBB67AE8584CAA73B; 0x3C6EF372FE94F82B; 0xA54FF53A5F1D36F1;
   0x510E527FADE682D1; 0x9B05688C2B3E6C1F; 0x1F83D9ABFB41BD6B; 0x5BE0CD19137E2179].
(* src/portable64.rs:20-29 *)
Definition MSG_SCHEDULE : list (list nat) :=
  [[0; 1; 2; 3; 4; 5; 6; 7; 8; 9; 10; 11; 12; 13; 14; 15];
   [14; 10; 4; 8; 9; 15; 13; 6; 1; 12; 0; 2; 11; 7; 5; 3];
   [11; 8; 12; 0; 5; 2; 15; 13; 10; 14; 3; 6; 7; 1; 9; 4];
   [7; 9; 3; 1; 13; 12; 11; 14; 2; 6; 5; 10; 4; 0; 15; 8];
   [9; 0; 5; 7; 2; 4; 10; 15; 14; 1; 11; 12; 6; 8; 3; 13];
   [2; 12; 6; 10; 0; 11; 8; 3; 4; 13; 7; 5; 15; 14; 1; 9];
   [12; 5; 1; 15; 14; 13; 4; 10; 0; 7; 6; 3; 9; 2; 8; 11];
   [13; 11; 7; 14; 12; 1; 3; 9; 5; 0; 15; 4; 8; 6; 2; 10]]%nat.
(* MSG_SCHEDULE[round][i]; both indices are compile-time constants in the code *)
Definition sched (r i : nat) : nat := nth i (nth r MSG_SCHEDULE []) 0%nat.

(* wrapping_add and rotate_right on u64 are plus64 and rotr64 of Spec64.v *)

(* src/portable64.rs:31-52; the argument is a [u8; 128] *)
Definition words_from_block (bytes : list N) : list N := words64_of_bytes bytes.

(* src/portable64.rs:54-64; the eight assignments in order *)
Definition g (state : list N) (a b c d : nat) (x y : N) : list N :=
  let state := set_nth state a (plus64 (plus64 (get state a) (get state b)) x) in
  let state := set_nth state d (rotr64 (N.lxor (get state d) (get state a)) 32) in
  let state := set_nth state c (plus64 (get state c) (get state d)) in
  let state := set_nth state b (rotr64 (N.lxor (get state b) (get state c)) 24) in
  let state := set_nth state a (plus64 (plus64 (get state a) (get state b)) y) in
  let state := set_nth state d (rotr64 (N.lxor (get state d) (get state a)) 16) in
  let state := set_nth state c (plus64 (get state c) (get state d)) in
  let state := set_nth state b (rotr64 (N.lxor (get state b) (get state c)) 63) in
  state.

(* src/portable64.rs:66-82 *)
Definition round (state msg : list N) (r : nat) : list N :=
  let x i := get msg (sched r i) in
  let state := g state 0 4 8 12 (x 0%nat) (x 1%nat) in
  let state := g state 1 5 9 13 (x 2%nat) (x 3%nat) in
  let state := g state 2 6 10 14 (x 4%nat) (x 5%nat) in
  let state := g state 3 7 11 15 (x 6%nat) (x 7%nat) in
  let state := g state 0 5 10 15 (x 8%nat) (x 9%nat) in
  let state := g state 1 6 11 12 (x 10%nat) (x 11%nat) in
  let state := g state 2 7 8 13 (x 12%nat) (x 13%nat) in
  let state := g state 3 4 9 14 (x 14%nat) (x 15%nat) in
  state.

(* src/portable64.rs:84-122 *)
Definition compress_inner (cv block : list N) (block_len offset flags : N) : list N :=
  let block_words := words_from_block block in
  let state :=
    [get cv 0; get cv 1; get cv 2; get cv 3;
     get IV 4; get IV 5; get IV 6; get IV 7;
     get IV 0; get IV 1; get IV 2; get IV 3;
     offset; get IV 5; block_len; flags] in
  let state := round state block_words 0 in
  let state := round state block_words 1 in
  let state := round state block_words 2 in
  let state := round state block_words 3 in
  let state := round state block_words 4 in
  let state := round state block_words 5 in
  let state := round state block_words 6 in
  let state := round state block_words 7 in
  state.

(* src/portable64.rs:124-135; returns the new cv *)
Definition compress (cv block : list N) (block_len offset flags : N) : list N :=
  let state := compress_inner cv block block_len offset flags in
  map (fun i => N.lxor (get state i) (get state (i + 4))) (seq 0 4).

(* src/portable64.rs:137-156 *)
Definition compress_xof (cv block : list N) (block_len offset flags : N) : list N :=
  let state := compress_inner cv block block_len offset flags in
  flat_map (fun i => bytes64 (N.lxor (get state i) (get state (i + 4)))) (seq 0 4)
  ++ flat_map (fun i => bytes64 (N.lxor (get state i) (get cv (i - 4)))) (seq 4 4)
  ++ flat_map (fun i => bytes64 (get state i)) (seq 8 8).

(* src/portable64.rs:158-168; the argument is a [u64; 4] *)
Definition bytes_from_state_words (words : list N) : list N := bytes_of_words64 words.

(* src/portable64.rs:182-196, the loop of hash1.  fuel bounds the number of blocks.
   compress is a parameter only to keep the definition small; it is always the function
   above. *)
Fixpoint hash1_loop (comp : list N -> list N -> N -> N -> N -> list N)
  (fuel : nat) (cv slice : list N) (offset block_flags flags flags_end : N) : res (list N) :=
  if BLOCK_LEN <=? len slice then
    match fuel with
    | O => NoFuel
    | S fuel' =>
        let block_flags :=
          if len slice =? BLOCK_LEN then N.lor block_flags flags_end else block_flags in
        let cv := comp cv (take BLOCK_LEN slice) BLOCK_LEN offset block_flags in
        hash1_loop comp fuel' cv (drop BLOCK_LEN slice) offset flags flags flags_end
    end
  else Ok cv.

(* src/portable64.rs:170-198.  A::CAPACITY is the length of the input array.  Returns the
   32 bytes written to out. *)
Definition hash1 (c : cfg) (input key : list N) (offset flags flags_start flags_end : N)
  : res (list N) :=
  dassert c (len input mod BLOCK_LEN =? 0) ;;
  let* cv := hash1_loop compress (length input) key input offset
                        (N.lor flags flags_start) flags flags_end in
  Ok (bytes_from_state_words cv).

(* src/portable64.rs:211-222: the loop over inputs.iter().zip(out.chunks_exact_mut(OUT_LEN)).
   zip stops at the shorter of the two.  Returns the new contents of out. *)
Fixpoint hash_each (c : cfg) (h1 : list N -> N -> res (list N)) (inputs : list (list N))
  (offset offset_delta : N) (out : list N) : res (list N) :=
  match inputs with
  | [] => Ok out
  | input :: rest =>
      if OUT_LEN <=? len out then
        let* h := h1 input offset in
        let* offset := add64 c offset offset_delta in
        let* out' := hash_each c h1 rest offset offset_delta (drop OUT_LEN out) in
        Ok (h ++ out')
      else Ok out
  end.

(* src/portable64.rs:200-223 *)
Definition hash_many (c : cfg) (inputs : list (list N)) (key : list N)
  (offset offset_delta flags flags_start flags_end : N) (out : list N) : res (list N) :=
  dassert c (len inputs * OUT_LEN <=? len out) ;;
  hash_each c (fun input offset => hash1 c input key offset flags flags_start flags_end)
    inputs offset offset_delta out.
