(* C58: on every platform of the Rust library, portable, SSE4.1 and AVX2, the vector
   operations and the memory accesses are the same whatever the data.
   VSteps.v is the code of the platforms and LibSteps.v the code of the library with a list of
   these steps; VOps.v says what a step is. *)
From Coq Require Import NArith List Bool.
From Verif Require Import Base BaseFacts Spec LibCalls Platform Lib Session.
From Verif Require Import SecretSpec Steps VOps VSteps LibSteps VStepsSpec.
From Verif Require Import LibStepsFacts VCountFacts Samples.
Import ListNotations.
Open Scope N_scope.

(* The functions that note their steps return what the functions of the model return. *)
Theorem C58_steps_are_of_the_code : forall c p cap cv block block_len offset flags
  inputs key delta flags_start flags_end out m g n,
  snd (p_compress p cv block block_len offset flags) =
    Ok (Platform.compress p cv block block_len offset flags) /\
  snd (p_compress_xof p cv block block_len offset flags) =
    Ok (Platform.compress_xof p cv block block_len offset flags) /\
  snd (p_hash_many c p cap inputs key offset delta flags flags_start flags_end out) =
    Platform.hash_many c p cap inputs key offset delta flags flags_start flags_end out /\
  snd (v_hash c p m g) =
    match g with
    | OneShot x => oneshot c p m x
    | Streaming xs => let* h := feed c (start p m) xs in finalize c h
    end /\
  snd (v_xof c p m g n) =
    let* o := match g with
              | OneShot x => oneshot_xof c p m x
              | Streaming xs => let* h := feed c (start p m) xs in finalize_xof c h
              end in
    reads c n o.
Proof. exact steps_values. Qed.

(* Any two calls of compress, with any arguments: the same steps. *)
Theorem C58_compress_same_steps : forall p cv cv' block block' block_len block_len'
  offset offset' flags flags',
  steps_seen (p_compress p cv block block_len offset flags) =
    steps_seen (p_compress p cv' block' block_len' offset' flags') /\
  steps_seen (p_compress_xof p cv block block_len offset flags) =
    steps_seen (p_compress_xof p cv' block' block_len' offset' flags').
Proof. exact calls_seen. Qed.

(* Any two calls of hash_many with inputs of the same lengths: the same steps, whatever the
   inputs, the keys and the flags. *)
Theorem C58_hash_many_same_steps : forall c p cap inputs inputs' key key' offset delta
  flags flags' flags_start flags_start' flags_end flags_end' out out',
  Forall2 (fun x y => len x = len y) inputs inputs' -> len out = len out' ->
  steps_seen (p_hash_many c p cap inputs key offset delta flags flags_start flags_end out) =
  steps_seen (p_hash_many c p cap inputs' key' offset delta flags' flags_start' flags_end' out').
Proof. exact many_seen. Qed.

(* Two programs that use the same mode with any two keys, and inputs of the same lengths with
   any contents, on any platform: the same steps, and the same way to end, for hashes and for
   n reads of extended output. *)
Theorem C58_whole_runs : forall c p m m' g g' n,
  mode_ok m -> mode_ok m' -> same_kind m m' ->
  bytes (data g) -> bytes (data g') -> same_lengths g g' ->
  steps_seen (v_hash c p m g) = steps_seen (v_hash c p m' g') /\
  steps_seen (v_xof c p m g n) = steps_seen (v_xof c p m' g' n).
Proof. exact program_seen. Qed.

(* The vector operations of the SSE4.1 compression. *)
Theorem C58_work_of_compress : forall cv block block_len offset flags,
  vector_ops (sse41_v_compress cv block block_len offset flags) = 391 /\
  vector_ops (sse41_v_compress_xof cv block block_len offset flags) = 393.
Proof. intros. split; [apply sse41_compress_ops|apply sse41_xof_ops]. Qed.
(* Four inputs at once, and eight inputs at once, of the given number of blocks: less than
   three times as many as one input takes. *)
Theorem C58_work_of_hash4 : forall c k inputs blocks key offset delta flags flags_start flags_end out,
  snd (sse41_v_hash4 c k inputs blocks key offset delta flags flags_start flags_end) = Ok out ->
  vector_ops (sse41_v_hash4 c k inputs blocks key offset delta flags flags_start flags_end) =
  1048 * blocks + 16.
Proof. exact hash4_ops. Qed.
Theorem C58_work_of_hash8 : forall c k inputs blocks key offset delta flags flags_start flags_end out,
  snd (avx2_v_hash8 c k inputs blocks key offset delta flags flags_start flags_end) = Ok out ->
  vector_ops (avx2_v_hash8 c k inputs blocks key offset delta flags flags_start flags_end) =
  1064 * blocks + 24.
Proof. exact hash8_ops. Qed.

Definition words : list N := firstn 8 (sample 70).
(* the first vector operations of a compression *)
Example C58_first_steps :
  firstn 18 (fst (p_compress PSSE41 words (sample 64) 64 0 0)) =
  [Load PCv 0 16; Load PCv 16 16; Get PIV 0; Get PIV 1; Get PIV 2; Get PIV 3; Lanes 4; Lanes 4;
   Load PBlock 0 16; Load PBlock 16 16; Load PBlock 32 16; Load PBlock 48 16;
   Op2 (ShufflePs 136); Op2 AddEpi32; Op2 AddEpi32; Op2 XorSi;
   Op1 (ShuffleEpi8 [2; 3; 0; 1; 6; 7; 4; 5; 10; 11; 8; 9; 14; 15; 12; 13]); Op2 AddEpi32].
Proof. vm_compute. reflexivity. Qed.
(* the hypotheses of the theorem about hash_many, and of those about one call *)
Definition four : list (list N) := [sample 64; sample 64; sample 64; sample 64].
Example C58_many_case :
  Forall2 (fun x y => len x = len y) four [zeros 64; zeros 64; zeros 64; zeros 64] /\
  match snd (sse41_v_hash4 (Cfg true true true) 0 four 1 words 0 1 0 1 2) with
  | Ok out => len out = 128 | _ => False
  end /\
  match snd (avx2_v_hash8 (Cfg true true true) 0 (four ++ four) 1 words 0 1 0 1 2) with
  | Ok out => len out = 256 | _ => False
  end.
Proof. split; [repeat constructor|]. split; vm_compute; reflexivity. Qed.
(* the hypotheses of the theorem about runs *)
Example C58_case :
  mode_ok (Keyed sample_key) /\ mode_ok (Keyed (zeros 32)) /\
  same_kind (Keyed sample_key) (Keyed (zeros 32)) /\
  bytes (data (OneShot (sample 2100))) /\ bytes (data (OneShot (zeros 2100))) /\
  same_lengths (OneShot (sample 2100)) (OneShot (zeros 2100)) /\
  sample 2100 <> zeros 2100.
Proof.
  split; [apply sample_key_ok|]. split; [split; [reflexivity|apply bytes_zeros]|]. split; [exact I|].
  split; [apply sample_bytes|]. split; [apply bytes_zeros|].
  split; [unfold same_lengths; now rewrite sample_len, len_zeros|].
  vm_compute. discriminate.
Qed.
(* a shift whose count is taken from the data makes steps that depend on it *)
Example C58_lookup :
  let shift (v : list N) := op1 (SrliEpi32 (get v 0)) v in
  steps_seen (shift [5; 0; 0; 0]) <> steps_seen (shift [6; 0; 0; 0]).
Proof. vm_compute. discriminate. Qed.

Print Assumptions C58_steps_are_of_the_code.
Print Assumptions C58_compress_same_steps.
Print Assumptions C58_hash_many_same_steps.
Print Assumptions C58_whole_runs.
Print Assumptions C58_work_of_compress.
Print Assumptions C58_work_of_hash4.
Print Assumptions C58_work_of_hash8.
