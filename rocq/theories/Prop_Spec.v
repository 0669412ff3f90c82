(* Checks on the specification itself. *)
From Coq Require Import NArith List Bool Lia.
From Verif Require Import Base Spec HexSpec SplitFacts Samples.
Import ListNotations.
Open Scope N_scope.

(* An input of at most one chunk is a chunk node. *)
Theorem tree_chunk : forall F key flags i input, len input <= 2048 ->
  tree F key flags i input = chunk_node F key flags i input.
Proof. exact tree_one. Qed.

(* A longer input is a parent whose left part is the largest power-of-two number of
   chunks that leaves at least one byte on the right. *)
Theorem tree_split : forall F key flags i input k,
  2048 * 2 ^ k < len input -> len input <= 2048 * 2 ^ (k + 1) ->
  tree F key flags i input
  = parent_node key flags (chain F (tree F key flags i (take (2048 * 2 ^ k) input)))
                          (chain F (tree F key flags (i + 2 ^ k) (drop (2048 * 2 ^ k) input))).
Proof. exact tree_halves. Qed.

(* 2049 bytes: one chunk left, one byte right *)
Example tree_split_2049 : 2048 * 2 ^ 0 < len (sample 2049) <= 2048 * 2 ^ (0 + 1).
Proof. rewrite Samples.sample_len. split; vm_compute; congruence. Qed.
(* 5 chunks: four left, one right *)
Example tree_split_5 : 2048 * 2 ^ 2 < len (sample 10240) <= 2048 * 2 ^ (2 + 1).
Proof. rewrite Samples.sample_len. split; vm_compute; congruence. Qed.

(* The round function and the message schedule are those of BLAKE2s: with BLAKE2s's
   parameters, initial state and three remaining schedule rows, "hello world" hashes to
   its BLAKE2s-256 digest (the vector of /repo/python/test_baokeshed.py:86-128). *)
Definition BLAKE2S_ROWS : list (list nat) :=
  SIGMA ++
  [[13; 11; 7; 14; 12; 1; 3; 9; 5; 0; 15; 4; 8; 6; 2; 10];
   [6; 15; 14; 9; 11; 3; 0; 8; 12; 2; 13; 7; 1; 4; 10; 5];
   [10; 2; 8; 4; 7; 6; 1; 5; 15; 11; 9; 14; 3; 12; 13; 0]]%nat.
Definition hello_world : list N := [104; 101; 108; 108; 111; 32; 119; 111; 114; 108; 100].
Definition blake2s_hello : list N :=
  let cv := N.lxor (nth 0 IV 0) (32 + 2 ^ 16 + 2 ^ 24) :: tl IV in
  let state := cv ++ firstn 4 IV ++
    [N.lxor (nth 4 IV 0) 11; nth 5 IV 0; N.lxor (nth 6 IV 0) (2 ^ 32 - 1); nth 7 IV 0] in
  let m := words_of_bytes (pad64 hello_world) in
  let v := fold_left (fun v s => spec_round v (permute s m)) BLAKE2S_ROWS state in
  bytes_of_words (xors (xors (firstn 8 v) (skipn 8 v)) cv).
Example blake2s_vector : unhex
  [57;97;101;99;54;56;48;54;55;57;52;53;54;49;49;48;55;101;53;57;52;98;49;102;54;97;56;97;54;98;48;99;
   57;50;97;48;99;98;97;57;97;99;102;53;101;53;101;57;51;99;99;97;48;54;102;55;56;49;56;49;51;98;48;98]
  = Some blake2s_hello.
Proof. vm_compute. reflexivity. Qed.

Print Assumptions tree_chunk.
Print Assumptions tree_split.
Print Assumptions blake2s_vector.
