(* C61: in the C library, with every backend, portable, SSE4.1, AVX2, AVX-512 and NEON, the vector
   operations and the memory accesses of a compression and of hash_many are the same whatever
   the data; hash_many reads every byte of every input exactly once, writes every byte of its
   output exactly once, and accesses nothing outside its arrays.
   CVSteps.v is the code of the backends with a list of these steps; VOps.v says what a step is,
   VMemSpec.v and CVMemSpec.v which of them access an input, the output or the offset deltas. *)
From Coq Require Import NArith List Bool.
From Verif Require Import Base BaseFacts CImpl Steps VOps VStepsSpec VMemSpec CVSteps CVMemSpec.
From Verif Require Import CVStepsFacts CVMemFacts CVCountFacts Samples.
Import ListNotations.
Open Scope N_scope.

(* The functions that note their steps return what the functions of the model return. *)
Theorem C61_steps_are_of_the_code : forall opts state block block_len offset flags k
  inputs blocks key deltas flags_start flags_end out,
  snd (cv_compress opts state block block_len offset flags) =
    Ok (c_compress opts state block block_len offset flags) /\
  snd (cv_hash_many opts k inputs blocks key offset deltas flags flags_start flags_end out) =
    c_hash_many opts inputs blocks key offset deltas flags flags_start flags_end out.
Proof. exact c_steps_values. Qed.

(* Any two calls of compress, with any arguments: the same steps. *)
Theorem C61_compress_same_steps : forall opts state state' block block' block_len block_len'
  offset offset' flags flags',
  steps_seen (cv_compress opts state block block_len offset flags) =
  steps_seen (cv_compress opts state' block' block_len' offset' flags').
Proof. exact c_compress_seen. Qed.

(* Any two calls of hash_many with as many blocks of as many inputs: the same steps, whatever the
   inputs, the keys, the offsets and their deltas, and the flags. *)
Theorem C61_hash_many_same_steps : forall opts inputs inputs' blocks key key' offset offset'
  deltas deltas' flags flags' flags_start flags_start' flags_end flags_end' out out',
  Forall2 (fun x y => len x = len y) inputs inputs' ->
  len deltas = len deltas' -> len out = len out' ->
  steps_seen (cv_hash_many opts 0 inputs blocks key offset deltas flags flags_start flags_end out) =
  steps_seen (cv_hash_many opts 0 inputs' blocks key' offset' deltas' flags' flags_start' flags_end' out').
Proof. exact c_many_seen. Qed.

(* The pieces read of each input make up its blocks: no gap, no byte twice, nothing after the
   end; and the pieces written are exactly 32 bytes of output for each input. *)
Theorem C61_each_byte_once : forall opts inputs blocks key offset deltas
  flags flags_start flags_end out result,
  let run := cv_hash_many opts 0 inputs blocks key offset deltas flags flags_start flags_end out in
  snd run = Ok result ->
  (forall k, (k < length inputs)%nat -> tiles 0 (pieces_read k (fst run)) (64 * blocks)) /\
  (forall k, (length inputs <= k)%nat -> pieces_read k (fst run) = []) /\
  tiles 0 (pieces_written (fst run)) (32 * len inputs).
Proof. exact c_many_memory. Qed.

(* For any arguments, hash_many stays inside the blocks of its inputs, 32 bytes of output for
   each input, and the offset deltas that its declaration asks for. *)
Theorem C61_inside : forall opts inputs blocks key offset deltas flags flags_start flags_end out,
  forallb (c_inside (deltas_needed opts) (length inputs) (64 * blocks) (32 * len inputs))
    (fst (cv_hash_many opts 0 inputs blocks key offset deltas flags flags_start flags_end out)) = true.
Proof. exact c_many_inside. Qed.

(* compress stays inside the state and the block, and accesses no array of hash_many. *)
Theorem C61_compress_inside : forall opts state block block_len offset flags,
  forallb (c_inside 0 0 0 0) (fst (cv_compress opts state block block_len offset flags)) = true.
Proof. exact c_compress_inside. Qed.

(* The vector operations of a compression. *)
Theorem C61_work_of_compress : forall opts state block block_len offset flags,
  vector_ops (cv_compress opts state block block_len offset flags) =
  if use_avx512 opts then 335 else if use_sse41 opts then 391 else 0.
Proof. exact c_compress_ops. Qed.
(* The vector operations of 4, 8 and 16 inputs at once, of the given number of blocks. *)
Theorem C61_work_of_batches : forall k inputs blocks key offset deltas flags flags_start flags_end,
  let takes hash ops := forall out,
    snd (hash k inputs blocks key offset deltas flags flags_start flags_end) = Ok out ->
    vector_ops (hash k inputs blocks key offset deltas flags flags_start flags_end) = ops in
  takes cv_hash4_sse41 (1048 * blocks + 16) /\
  takes cv_hash8_avx2 (1064 * blocks + 24) /\
  takes cv_hash4_avx512 (824 * blocks + 20) /\
  takes cv_hash8_avx512 (840 * blocks + 28) /\
  takes cv_hash16_avx512 (856 * blocks + 68) /\
  takes cv_hash4_neon (1272 * blocks + 16).
Proof. exact c_batches_ops. Qed.

Definition words : list N := firstn 8 (sample 70).
Definition with_avx512 : copts := COpts true true true false true true false.
Definition with_neon : copts := COpts false false false true false true false.
(* five inputs of one block: four at once, and one more *)
Definition five : list (list N) := [sample 64; sample 64; sample 64; sample 64; sample 64].
Definition five0 : list (list N) := [zeros 64; zeros 64; zeros 64; zeros 64; zeros 64].
Definition run_avx512 : vs (list N) :=
  cv_hash_many with_avx512 0 five 1 words 0 (map N.of_nat (seq 0 17)) 0 1 2 (zeros 160).
Definition run_neon : vs (list N) :=
  cv_hash_many with_neon 0 five 1 words 0 (map N.of_nat (seq 0 17)) 0 1 2 (zeros 160).
Example C61_case :
  Forall2 (fun x y => len x = len y) five five0 /\ five <> five0 /\
  match snd run_avx512 with Ok out => len out = 160 | _ => False end /\
  pieces_read 1 (fst run_avx512) = [(0, 16); (16, 16); (32, 16); (48, 16)] /\
  pieces_read 4 (fst run_avx512) = [(0, 64)] /\
  pieces_written (fst run_avx512) =
    [(0, 16); (16, 16); (32, 16); (48, 16); (64, 16); (80, 16); (96, 16); (112, 16); (128, 32)].
Proof.
  split; [repeat constructor|]. split; [vm_compute; discriminate|].
  split; [vm_compute; reflexivity|]. split; [vm_compute; reflexivity|].
  split; vm_compute; reflexivity.
Qed.
(* the offset deltas accessed: the four of a batch at once with AVX-512, one after the other
   with NEON, and the ones that follow a batch or a single input *)
Definition deltas_read (s : vstep) : bool :=
  match s with Load PDeltas _ _ | Get PDeltas _ => true | _ => false end.
Example C61_deltas :
  filter deltas_read (fst run_avx512) = [Load PDeltas 0 32; Get PDeltas 4; Get PDeltas 1] /\
  filter deltas_read (fst run_neon) =
    [Get PDeltas 0; Get PDeltas 1; Get PDeltas 2; Get PDeltas 3;
     Get PDeltas 0; Get PDeltas 1; Get PDeltas 2; Get PDeltas 3; Get PDeltas 4; Get PDeltas 1].
Proof. split; vm_compute; reflexivity. Qed.
(* an access one delta past the end is not inside *)
Example C61_outside :
  c_inside 5 1 64 32 (Get PDeltas 4) = true /\ c_inside 5 1 64 32 (Get PDeltas 5) = false /\
  c_inside 17 1 64 32 (Load PDeltas 64 64) = true /\ c_inside 15 1 64 32 (Load PDeltas 64 64) = false.
Proof. vm_compute. repeat split. Qed.
(* sixteen inputs at once: a block takes less than three times the work of one compression *)
Example C61_work :
  match snd (cv_hash16_avx512 0 (repeat (zeros 64) 16) 1 words 0 (map N.of_nat (seq 0 17)) 0 1 2) with
  | Ok out => len out = 512 | _ => False
  end /\ 856 + 68 < 3 * 335.
Proof. split; vm_compute; reflexivity. Qed.

Print Assumptions C61_steps_are_of_the_code.
Print Assumptions C61_compress_same_steps.
Print Assumptions C61_hash_many_same_steps.
Print Assumptions C61_each_byte_once.
Print Assumptions C61_inside.
Print Assumptions C61_compress_inside.
Print Assumptions C61_work_of_compress.
Print Assumptions C61_work_of_batches.
