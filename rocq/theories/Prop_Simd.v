(* C22, C23: the Rust SIMD backends. *)
From Coq Require Import NArith List Bool Lia.
From Verif Require Import Base Spec ManySpec ManyFacts SimdProps Samples.
From Verif Require Portable Sse41 Avx2 Platform.
Import ListNotations.
Open Scope N_scope.

(* ---- C22 ------------------------------------------------------------------------ *)

(* SSE4.1 and portable compression agree with each other and with the specification. *)
Theorem C22_sse41_compress : forall cv block block_len offset flags,
  length cv = 8%nat -> words cv -> length block = 64%nat -> bytes block -> offset < 2 ^ 64 ->
  Sse41.compress cv block block_len offset flags
    = Portable.compress cv block block_len offset flags /\
  Sse41.compress_xof cv block block_len offset flags
    = Portable.compress_xof cv block block_len offset flags /\
  Portable.compress cv block block_len offset flags
    = firstn 8 (blake_compress cv block block_len offset flags) /\
  Portable.compress_xof cv block block_len offset flags
    = bytes_of_words (blake_compress cv block block_len offset flags).
Proof. exact compress_agree. Qed.

Example C22_example :
  length IV = 8%nat /\ words IV /\ length (sample 64) = 64%nat /\ bytes (sample 64) /\
  Sse41.compress IV (sample 64) 64 (2 ^ 64 - 2048) 11
  = Portable.compress IV (sample 64) 64 (2 ^ 64 - 2048) 11.
Proof.
  split; [reflexivity|]. split; [repeat constructor|]. split; [reflexivity|].
  split; [apply sample_bytes|]. vm_compute. reflexivity.
Qed.

(* ---- C23 ------------------------------------------------------------------------ *)

(* Any number of inputs of any equal number of whole blocks: the three hash_many write
   the 32-byte result of each input in turn and leave the rest of the buffer alone. *)
Theorem C23_hash_many : forall c p cap inputs key offset delta flags fs fe out,
  cap mod 64 = 0 -> Forall (fun i => len i = cap /\ bytes i) inputs ->
  length key = 8%nat -> words key ->
  32 * len inputs <= len out -> offset + len inputs * delta < 2 ^ 64 ->
  Platform.hash_many c p cap inputs key offset delta flags fs fe out
  = Ok (concat (hash_all blake_compress key flags fs fe offset delta inputs)
        ++ drop (32 * len inputs) out).
Proof. exact hash_many_ok. Qed.

Theorem C23_backends_agree : forall c cap inputs key offset delta flags fs fe out,
  cap mod 64 = 0 -> Forall (fun i => len i = cap /\ bytes i) inputs ->
  length key = 8%nat -> words key ->
  32 * len inputs <= len out -> offset + len inputs * delta < 2 ^ 64 ->
  Sse41.hash_many c cap inputs key offset delta flags fs fe out
    = Portable.hash_many c inputs key offset delta flags fs fe out /\
  Avx2.hash_many c cap inputs key offset delta flags fs fe out
    = Portable.hash_many c inputs key offset delta flags fs fe out.
Proof. exact hash_many_agree. Qed.

(* 13 inputs of two blocks: one AVX2 batch, one SSE4.1 batch, one single input *)
Definition many_inputs : list (list N) := map (fun i => repeat (N.of_nat i) 128) (seq 0 13).
Example C23_example :
  128 mod 64 = 0 /\ Forall (fun i => len i = 128 /\ bytes i) many_inputs /\
  len many_inputs = 13 /\ 32 * 13 <= len (zeros 500) /\ 2 ^ 40 + 13 * 2048 < 2 ^ 64.
Proof.
  split; [reflexivity|]. split; [|split; [reflexivity|split; [discriminate|reflexivity]]].
  apply Forall_forall. intros x Hx. apply in_map_iff in Hx. destruct Hx as (i & <- & Hi).
  unfold many_inputs in *. apply in_seq in Hi. split; [reflexivity|].
  apply Forall_forall. intros y Hy. apply repeat_spec in Hy. subst. unfold byte. lia.
Qed.

Print Assumptions C22_sse41_compress.
Print Assumptions C23_hash_many.
Print Assumptions C23_backends_agree.
