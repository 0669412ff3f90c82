(* C59: hash_many, on every platform of the Rust library, reads every byte of every input
   exactly once and in order, writes every byte of its output exactly once and in order, and
   never accesses anything outside its arrays.
   VSteps.v is the code with a list of its memory accesses; VMemSpec.v picks those of an input
   and those of the output, and has the sizes of the arrays. *)
From Coq Require Import NArith List Bool.
From Verif Require Import Base BaseFacts Spec Platform Steps VOps VSteps VMemSpec VMemFacts Samples.
Import ListNotations.
Open Scope N_scope.

(* The pieces read of each input make up the input: no gap, no byte twice, nothing after its
   end; and the pieces written are exactly the first 32 bytes of output for each input. *)
Theorem C59_each_byte_once : forall c p cap inputs key offset offset_delta
  flags flags_start flags_end out result,
  cap mod 64 = 0 -> Forall (fun input => len input = cap) inputs -> len inputs * 32 <= len out ->
  let run := p_hash_many c p cap inputs key offset offset_delta flags flags_start flags_end out in
  snd run = Ok result ->
  (forall k, (k < length inputs)%nat -> tiles 0 (pieces_read k (fst run)) cap) /\
  (forall k, (length inputs <= k)%nat -> pieces_read k (fst run) = []) /\
  tiles 0 (pieces_written (fst run)) (32 * len inputs).
Proof. exact many_memory. Qed.

(* Nothing outside the arrays is accessed, also in a run that panics, also with an output that
   is too short, a length that is not a multiple of the block length or offsets that
   overflow. *)
Theorem C59_inside : forall c p cap inputs key offset offset_delta flags flags_start flags_end out,
  Forall (fun input => len input = cap) inputs ->
  forallb (inside (length inputs) cap (len out))
    (fst (p_hash_many c p cap inputs key offset offset_delta flags flags_start flags_end out)) = true.
Proof. exact many_inside. Qed.

(* The compression functions stay inside the chaining value and the block for any arguments,
   and access no input and no output of hash_many. *)
Theorem C59_compress_inside : forall p cv block block_len offset flags,
  forallb (inside 0 0 0) (fst (p_compress p cv block block_len offset flags)) = true /\
  forallb (inside 0 0 0) (fst (p_compress_xof p cv block block_len offset flags)) = true.
Proof. exact compress_inside. Qed.

(* five inputs of two blocks: four at once, read by rows of 16 bytes, and one more *)
Definition words : list N := firstn 8 (sample 70).
Definition five : list (list N) :=
  [sample 128; sample 128; sample 128; sample 128; sample 128].
Definition run5 : vs (list N) :=
  p_hash_many (Cfg true true true) PSSE41 128 five words 0 1 0 1 2 (zeros 160).
Example C59_case :
  128 mod 64 = 0 /\ Forall (fun input => len input = 128) five /\ len five * 32 <= len (zeros 160) /\
  match snd run5 with Ok out => len out = 160 | _ => False end /\
  pieces_read 1 (fst run5) =
    [(0, 16); (16, 16); (32, 16); (48, 16); (64, 16); (80, 16); (96, 16); (112, 16)] /\
  pieces_read 4 (fst run5) = [(0, 64); (64, 64)] /\
  pieces_written (fst run5) =
    [(0, 16); (16, 16); (32, 16); (48, 16); (64, 16); (80, 16); (96, 16); (112, 16); (128, 32)].
Proof.
  split; [reflexivity|]. split; [repeat constructor|]. split; [vm_compute; discriminate|].
  split; [vm_compute; reflexivity|]. split; [vm_compute; reflexivity|].
  split; vm_compute; reflexivity.
Qed.
(* a store one byte past the end of the output is not inside *)
Example C59_outside :
  inside 1 64 32 (Store POut 16 16) = true /\ inside 1 64 32 (Store POut 17 16) = false /\
  inside 1 64 32 (Load (PInput 0) 48 16) = true /\ inside 1 64 32 (Load (PInput 0) 48 32) = false /\
  inside 1 64 32 (Load (PInput 1) 0 16) = false.
Proof. vm_compute. repeat split. Qed.
(* two loads of the same bytes do not tile *)
Example C59_tiles : tiles 0 [(0, 16); (16, 16)] 32 /\ ~ tiles 0 [(0, 16); (0, 16)] 32.
Proof. cbn. intuition discriminate. Qed.

Print Assumptions C59_each_byte_once.
Print Assumptions C59_inside.
Print Assumptions C59_compress_inside.
