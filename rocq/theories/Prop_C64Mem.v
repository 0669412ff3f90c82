(* C65: in the C code of the 64-bit variant, with every backend, the memory that hash_many
   accesses is the same whatever the data; it reads every byte of every input exactly once,
   writes every byte of its output exactly once, and accesses nothing outside its arrays.
   C64Mem.v is the code with a list of these accesses; VOps.v says what they are, VMemSpec.v and
   C64MemSpec.v which of them belong to an input or to the output, and the sizes of the arrays. *)
From Coq Require Import NArith List Bool.
From Verif Require Import Base BaseFacts VOps VStepsSpec VMemSpec Spec64 C64 C64Mem C64MemSpec.
From Verif Require Import C64MemFacts Samples.
Import ListNotations.
Open Scope N_scope.

(* The functions that note their accesses return what the functions of the model return. *)
Theorem C65_steps_are_of_the_code : forall backend inputs blocks key offset deltas
  flags flags_start flags_end out,
  snd (run_hash_many64 backend inputs blocks key offset deltas flags flags_start flags_end out) =
  hash_many64 backend inputs blocks key offset deltas flags flags_start flags_end out.
Proof. exact m_many_values. Qed.

(* Any two calls with as many blocks of as many inputs: the same accesses in the same order,
   whatever the inputs, the keys, the offsets and their deltas, and the flags. *)
Theorem C65_same_steps : forall backend inputs inputs' blocks key key' offset offset'
  deltas deltas' flags flags' flags_start flags_start' flags_end flags_end' out out',
  Forall2 (fun x y => len x = len y) inputs inputs' ->
  len deltas = len deltas' -> len out = len out' ->
  steps_seen (run_hash_many64 backend inputs blocks key offset deltas
                flags flags_start flags_end out) =
  steps_seen (run_hash_many64 backend inputs' blocks key' offset' deltas'
                flags' flags_start' flags_end' out').
Proof. exact m_many_seen. Qed.

(* The pieces read of each input make up its blocks: no gap, no byte twice, nothing after the
   end; and the pieces written are exactly 32 bytes of output for each input. *)
Theorem C65_each_byte_once : forall backend inputs blocks key offset deltas
  flags flags_start flags_end out result,
  let run := run_hash_many64 backend inputs blocks key offset deltas
               flags flags_start flags_end out in
  snd run = Ok result ->
  (forall k, (k < length inputs)%nat -> tiles 0 (pieces_read k (fst run)) (128 * blocks)) /\
  (forall k, (length inputs <= k)%nat -> pieces_read k (fst run) = []) /\
  tiles 0 (pieces_written (fst run)) (32 * len inputs).
Proof. exact m_many_memory. Qed.

(* For any arguments, hash_many stays inside the blocks of its inputs, 32 bytes of output for
   each input, the key, and the offset deltas that its declaration asks for. *)
Theorem C65_inside : forall backend inputs blocks key offset deltas
  flags flags_start flags_end out,
  forallb (inside64 (deltas_needed64 backend) (length inputs) (128 * blocks) (32 * len inputs))
    (fst (run_hash_many64 backend inputs blocks key offset deltas
            flags flags_start flags_end out)) = true.
Proof. exact m_many_inside. Qed.

(* The three compression functions read each byte of the block and of the chaining value once,
   write each byte of the chaining value once, and access no other array. *)
Theorem C65_compress : forall state block block_len offset flags,
  let good run :=
    forallb (inside64 0 0 0 0) (fst run) = true /\
    tiles 0 (pieces_loaded is_block (fst run)) 128 /\
    tiles 0 (pieces_loaded is_cv (fst run)) 32 /\
    tiles 0 (pieces_stored is_cv (fst run)) 32 in
  good (m_compress_portable PBlock 0 state block block_len offset flags) /\
  good (m_compress_avx2 PBlock 0 state block block_len offset flags) /\
  good (m_compress_avx512 PBlock 0 state block block_len offset flags).
Proof. exact m_compress_memory. Qed.

(* Three inputs of one block with SSE4.1: two at once in pieces of 16 bytes, then one by the
   portable code in pieces of 8.  The same accesses for other inputs. *)
Definition three : list (list N) := [sample 128; repeat 9 128; zeros 128].
Definition three_run := run_hash_many64 Sse41_64 three 1 (firstn 4 IV64) 0
                          (firstn 3 CHUNK_OFFSET_DELTAS) 0 1 2 (zeros 96).
Example C65_each_byte_once_case :
  (exists result, snd three_run = Ok result /\ len result = 96) /\
  pieces_read 1 (fst three_run) = map (fun i => (16 * i, 16)) [0; 1; 2; 3; 4; 5; 6; 7] /\
  pieces_read 2 (fst three_run) =
    map (fun i => (8 * i, 8)) [0; 1; 2; 3; 4; 5; 6; 7; 8; 9; 10; 11; 12; 13; 14; 15] /\
  pieces_written (fst three_run) =
    [(0, 16); (16, 16); (32, 16); (48, 16); (64, 8); (72, 8); (80, 8); (88, 8)].
Proof.
  split; [|vm_compute; repeat split].
  exists (match snd three_run with Ok r => r | _ => [] end). vm_compute. split; reflexivity.
Qed.
Example C65_same_steps_case :
  Forall2 (fun x y => len x = len y) three [zeros 128; sample 128; sample 128] /\
  three <> [zeros 128; sample 128; sample 128].
Proof. split; [repeat constructor|vm_compute; discriminate]. Qed.
(* One offset delta fewer than the declaration asks for is not enough for the accesses. *)
Example C65_inside_case :
  forallb (inside64 2 3 128 96) (fst three_run) = false /\
  forallb (inside64 3 3 127 96) (fst three_run) = false /\
  forallb (inside64 3 3 128 95) (fst three_run) = false.
Proof. vm_compute. repeat split. Qed.

Print Assumptions C65_steps_are_of_the_code.
Print Assumptions C65_same_steps.
Print Assumptions C65_each_byte_once.
Print Assumptions C65_inside.
Print Assumptions C65_compress.
