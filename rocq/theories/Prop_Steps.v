(* C57: the portable compression functions make the same array accesses and the same
   arithmetic operations in the same order whatever the data.
   Steps.v is the code with a list of these steps; StepsSpec.v counts them and puts the steps
   of the calls of a run together. *)
From Coq Require Import NArith List Bool.
From Verif Require Import Base BaseFacts Spec LibCalls Platform Session CImpl CCalls CSpec.
From Verif Require Import Portable CSimd Steps StepsSpec SecretSpec StepsFacts Samples.
Import ListNotations.
Open Scope N_scope.

(* The functions that note their steps return what the functions of the model return. *)
Theorem C57_steps_are_of_the_code : forall cv block block_len offset flags,
  length cv = 8%nat -> length block = 64%nat ->
  snd (s_compress cv block block_len offset flags) =
    Portable.compress cv block block_len offset flags /\
  snd (s_compress_xof cv block block_len offset flags) =
    Portable.compress_xof cv block block_len offset flags /\
  snd (sc_compress_portable cv block block_len offset flags) =
    compress_portable cv block block_len offset flags.
Proof. exact steps_value. Qed.

(* Any two calls, with any chaining values, blocks, block lengths, offsets and flags: the same
   steps.  So no branch, no index and no shift count depends on any of them. *)
Theorem C57_same_steps : forall cv cv' block block' block_len block_len' offset offset' flags flags',
  fst (s_compress cv block block_len offset flags) =
    fst (s_compress cv' block' block_len' offset' flags') /\
  fst (s_compress_xof cv block block_len offset flags) =
    fst (s_compress_xof cv' block' block_len' offset' flags') /\
  fst (sc_compress_portable cv block block_len offset flags) =
    fst (sc_compress_portable cv' block' block_len' offset' flags').
Proof. exact steps_same. Qed.

(* Two programs that use the same mode with any two keys, and inputs of the same lengths with
   any contents, on the portable platform: the same steps in all their compression calls. *)
Theorem C57_whole_runs : forall c m m' g g' n,
  mode_ok m -> mode_ok m' -> same_kind m m' ->
  bytes (data g) -> bytes (data g') -> same_lengths g g' ->
  run_steps (fst (t_hash c PPortable m g [])) = run_steps (fst (t_hash c PPortable m' g' [])) /\
  xof_run_steps (fst (t_xof c PPortable m g n [])) =
    xof_run_steps (fst (t_xof c PPortable m' g' n [])).
Proof. exact program_steps. Qed.

(* The same for the C hasher, built without vector code. *)
Theorem C57_c_whole_runs : forall o memory memory' key key' flags us us',
  length key = 32%nat -> bytes key -> length key' = 32%nat -> bytes key' ->
  len memory = len memory' -> bytes memory -> bytes memory' ->
  c_updates_ok us -> c_updates_ok us' ->
  Forall (fun u => bytes (snd u)) us -> Forall (fun u => bytes (snd u)) us' ->
  map (fun u => len (fst u)) us = map (fun u => len (fst u)) us' ->
  c_run_steps (fst (n_hash o memory key flags us [])) =
    c_run_steps (fst (n_hash o memory' key' flags us' [])).
Proof. exact c_program_steps. Qed.

(* A compression does 792 additions, exclusive ors and rotations, and reads each byte of the
   block once; an output block takes 800. *)
Theorem C57_work_of_a_call : forall cv block block_len offset flags,
  count arithmetic (fst (s_compress cv block block_len offset flags)) = 792 /\
  count arithmetic (fst (s_compress_xof cv block block_len offset flags)) = 800 /\
  block_reads (fst (s_compress cv block block_len offset flags)) = seq 0 64 /\
  block_reads (fst (s_compress_xof cv block block_len offset flags)) = seq 0 64 /\
  block_reads (fst (sc_compress_portable cv block block_len offset flags)) = seq 0 64.
Proof. exact work_of_a_call. Qed.

(* A hash: 792 of them for each block of 64 bytes and for each chunk of 2048 bytes but one. *)
Theorem C57_work_of_a_hash : forall c m g, mode_ok m -> fits c g ->
  count arithmetic (run_steps (fst (t_hash c PPortable m g []))) =
  792 * (N.max 1 ((len (data g) + 63) / 64) + (N.max 1 ((len (data g) + 2047) / 2048) - 1)).
Proof. exact work_of_a_hash. Qed.

Definition words : list N := firstn 8 (sample 70).
(* the first steps of a compression, after the message words and the state have been loaded:
   the first two message words are read and the first column is mixed *)
Example C57_first_steps :
  firstn 13 (skipn 77 (fst (s_compress words (sample 64) 64 0 0))) =
  [ReadSchedule 0 0; Read AtMsg 0; ReadSchedule 0 1; Read AtMsg 1;
   Read AtState 0; Read AtState 4; Add; Add; Write AtState 0;
   Read AtState 12; Read AtState 0; Xor; Rotate 16]%nat.
Proof. vm_compute. reflexivity. Qed.
(* the hypotheses of the theorems about runs *)
Example C57_case :
  length words = 8%nat /\ length (sample 64) = 64%nat /\
  mode_ok (Keyed sample_key) /\ mode_ok (Keyed (zeros 32)) /\
  same_kind (Keyed sample_key) (Keyed (zeros 32)) /\
  bytes (data (OneShot (sample 3000))) /\ bytes (data (OneShot (zeros 3000))) /\
  same_lengths (OneShot (sample 3000)) (OneShot (zeros 3000)) /\
  fits (Cfg true false true) (OneShot (sample 3000)) /\
  sample 3000 <> zeros 3000.
Proof.
  split; [reflexivity|]. split; [reflexivity|]. split; [apply sample_key_ok|].
  split; [split; [reflexivity|apply bytes_zeros]|]. split; [exact I|].
  split; [apply sample_bytes|]. split; [apply bytes_zeros|].
  split; [unfold same_lengths; now rewrite sample_len, len_zeros|].
  split; [split; [apply sample_bytes|rewrite sample_len; vm_compute; reflexivity]|].
  vm_compute. discriminate.
Qed.
(* a function that looks something up at an index taken from the data makes steps that
   depend on it *)
Example C57_lookup :
  fst (do k <- rd AtBlock [5] 0;; rd AtMsg [] (N.to_nat k))
  <> fst (do k <- rd AtBlock [6] 0;; rd AtMsg [] (N.to_nat k)).
Proof. vm_compute. discriminate. Qed.

Print Assumptions C57_steps_are_of_the_code.
Print Assumptions C57_same_steps.
Print Assumptions C57_whole_runs.
Print Assumptions C57_c_whole_runs.
Print Assumptions C57_work_of_a_call.
Print Assumptions C57_work_of_a_hash.
