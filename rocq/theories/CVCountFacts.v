(* The number of vector operations in the C backends. *)
From Coq Require Import NArith List Bool Lia ZArith.
From Coq Require Import ZifyBool ZifyNat ZifyN.
From Verif Require Import Base BaseFacts Portable Simd SimdGen SimdHash SecretSpec SecretFacts Steps StepsFacts VOps.
From Verif Require Import VSimdGen VSteps VStepsFacts VStepsSpec LibStepsFacts VCountFacts.
From Verif Require Import CSimd CImpl CVSteps CVStepsFacts.
Import ListNotations.
Open Scope N_scope.

Lemma c_sse41_ops : forall st b n o f, vector_ops (cv_compress_sse41 st b n o f) = 391.
Proof. intros. erewrite ops_same by apply (same_sse41_comp _ _ _ _ _ [] [] 0 0 0). vm_compute. reflexivity. Qed.
Lemma c_avx512_ops : forall st b n o f, vector_ops (cv_compress_avx512 st b n o f) = 335.
Proof. intros. erewrite ops_same by apply (same_avx512_comp _ _ _ _ _ [] [] 0 0 0). vm_compute. reflexivity. Qed.
Lemma c_compress_ops : forall opt st b n o f,
  vector_ops (cv_compress opt st b n o f) =
  if use_avx512 opt then 335 else if use_sse41 opt then 391 else 0.
Proof.
  intros. unfold cv_compress. destruct (use_avx512 opt); [apply c_avx512_ops|].
  destruct (use_sse41 opt); [apply c_sse41_ops|].
  erewrite ops_same by apply (same_c_portable _ _ _ _ _ [] [] 0 0 0). vm_compute. reflexivity.
Qed.

Ltac vec_ops same :=
  intros; erewrite ops_same by apply (same_vec _ same _ _ _ _ _ _ _ _ [] [] [] [] [] []);
  vm_compute; reflexivity.
Lemma s_vec_ops : forall h m lo hi bl bf,
  vector_ops (v_vec_compress cv_s_ops c_sse41_round_code 4 h m lo hi bl bf) = 1016.
Proof. vec_ops s_same. Qed.
Lemma a_vec_ops : forall h m lo hi bl bf,
  vector_ops (v_vec_compress cv_a_ops c_avx2_round_code 8 h m lo hi bl bf) = 1016.
Proof. vec_ops a_same. Qed.
Lemma z4_vec_ops : forall h m lo hi bl bf,
  vector_ops (v_vec_compress cv_z_ops c_avx512_round4_code 4 h m lo hi bl bf) = 792.
Proof. vec_ops z_same. Qed.
Lemma z8_vec_ops : forall h m lo hi bl bf,
  vector_ops (v_vec_compress cv_z_ops c_avx512_round8_code 8 h m lo hi bl bf) = 792.
Proof. vec_ops z_same. Qed.
Lemma z16_vec_ops : forall h m lo hi bl bf,
  vector_ops (v_vec_compress cv_z_ops c_avx512_round16_code 16 h m lo hi bl bf) = 792.
Proof. vec_ops z_same. Qed.
Lemma n_vec_ops : forall h m lo hi bl bf,
  vector_ops (v_vec_compress cv_n_ops c_neon_round_code 4 h m lo hi bl bf) = 1240.
Proof. vec_ops n_same. Qed.

Lemma deltas_does : forall n o d, does (cv_delta_offsets n o d) 0.
Proof.
  intros. unfold cv_delta_offsets. induction (seq 0 n) as [|i is IH]; cbn [v_map]; [now apply does_const|].
  apply (does_bind _ _ _ _ 0 0).
  - apply (does_bind _ _ _ _ 0 0); [now apply does_const|]. intros. now apply does_const.
  - intros. apply (does_bind _ _ _ _ 0 0); [exact IH|]. intros. now apply does_const.
Qed.
Lemma c_offsets_does : forall n o d, does (cv_load_offsets n o d) 0.
Proof.
  intros. unfold cv_load_offsets. apply (does_bind _ _ _ _ 0 0); [apply deltas_does|]. intros.
  apply (does_bind _ _ _ _ 0 0); [now apply does_const|]. intros.
  apply (does_bind _ _ _ _ 0 0); [apply deltas_does|]. intros. now apply does_const.
Qed.
Lemma z_offsets_does : forall n o d, does (cv_z_load_offsets n o d) 4.
Proof.
  intros. unfold cv_z_load_offsets. apply (does_bind _ _ _ _ 0 4); [now apply does_const|]. intros.
  apply (does_bind _ _ _ _ 0 4); [now apply does_const|]. intros. now apply does_const.
Qed.
Lemma c_msg4_does : forall t, (forall v, does (t v) 8) -> forall k xs bo, does (cv_msg4 t k xs bo) 32.
Proof.
  intros t T *. unfold cv_msg4. apply (does_bind _ _ _ _ 0 32); [apply load_grid_does|]. intros.
  apply (does_bind _ _ _ _ 8 24); [apply T|]. intros. apply (does_bind _ _ _ _ 8 16); [apply T|]. intros.
  apply (does_bind _ _ _ _ 8 8); [apply T|]. intros. apply (does_bind _ _ _ _ 8 0); [apply T|]. intros.
  now apply does_const.
Qed.
Lemma c_hash4_does : forall S code t lo a b,
  (forall h m lo hi bl bf, vector_ops (v_vec_compress S code 4 h m lo hi bl bf) = b) ->
  (forall v, does (t v) 8) -> (forall o d, does (lo o d) a) ->
  forall k xs blocks key o d fl fs fe,
  does (cv_hash4 S code t lo k xs blocks key o d fl fs fe) (a + (32 + b) * blocks + 16).
Proof.
  intros S code t lo a b V T L *. unfold cv_hash4. eapply does_eq.
  - eapply does_bind; [apply (does_const _ _ 0); reflexivity|]. intros.
    eapply does_bind; [apply L|]. intros [va vb].
    eapply does_bind; [apply loop_does; [intros; apply c_msg4_does, T|apply V]|]. intros.
    eapply does_bind; [apply T|]. intros. eapply does_bind; [apply T|]. intros. cbv zeta.
    apply (does_const _ _ 0). reflexivity.
  - lia.
Qed.
Lemma c_hash8_does : forall S code lo a b,
  (forall h m lo hi bl bf, vector_ops (v_vec_compress S code 8 h m lo hi bl bf) = b) ->
  (forall o d, does (lo o d) a) ->
  forall k xs blocks key o d fl fs fe,
  does (cv_hash8 S code lo k xs blocks key o d fl fs fe) (a + (48 + b) * blocks + 24).
Proof.
  intros S code lo a b V L *. unfold cv_hash8. eapply does_eq.
  - eapply does_bind; [apply (does_const _ _ 0); reflexivity|]. intros.
    eapply does_bind; [apply L|]. intros [va vb].
    eapply does_bind; [apply loop_does; [intros; unfold cv_msg8|apply V]|].
    { apply (does_bind _ _ _ _ 0 48); [apply load_grid_does|]. intros. now apply does_const. }
    intros. apply (does_const _ _ 24). reflexivity.
  - lia.
Qed.
Lemma c_hash16_does : forall k xs blocks key o d fl fs fe,
  does (cv_hash16_avx512 k xs blocks key o d fl fs fe) (856 * blocks + 68).
Proof.
  intros. unfold cv_hash16_avx512. eapply does_eq.
  - eapply does_bind; [apply (does_const _ _ 0); reflexivity|]. intros.
    eapply does_bind.
    { unfold cv_z_load_offsets16. apply (does_bind _ _ _ _ 0 4); [now apply does_const|]. intros.
      apply (does_bind _ _ _ _ 0 4); [now apply does_const|]. intros.
      apply (does_bind _ _ _ _ 1 3); [now apply does_const|]. intros.
      apply (does_bind _ _ _ _ 0 3); [now apply does_const|]. intros.
      apply (does_bind _ _ _ _ 0 3); [now apply does_const|]. intros. now apply does_const. }
    intros [va vb].
    eapply does_bind; [apply loop_does; [intros; unfold cv_msg16|apply z16_vec_ops]|].
    { apply (does_bind _ _ _ _ 0 64); [apply load_grid_does|]. intros. now apply does_const. }
    intros. apply (does_const _ _ 64). reflexivity.
  - lia.
Qed.

Lemma c_batches_ops : forall k inputs blocks key o d fl fs fe,
  does (cv_hash4_sse41 k inputs blocks key o d fl fs fe) (1048 * blocks + 16) /\
  does (cv_hash8_avx2 k inputs blocks key o d fl fs fe) (1064 * blocks + 24) /\
  does (cv_hash4_avx512 k inputs blocks key o d fl fs fe) (824 * blocks + 20) /\
  does (cv_hash8_avx512 k inputs blocks key o d fl fs fe) (840 * blocks + 28) /\
  does (cv_hash16_avx512 k inputs blocks key o d fl fs fe) (856 * blocks + 68) /\
  does (cv_hash4_neon k inputs blocks key o d fl fs fe) (1272 * blocks + 16).
Proof.
  intros. split; [|split; [|split; [|split; [|split]]]].
  - eapply does_eq; [apply c_hash4_does; [apply s_vec_ops| |apply c_offsets_does]|lia].
    intros. now apply does_const.
  - eapply does_eq; [apply c_hash8_does; [apply a_vec_ops|apply c_offsets_does]|lia].
  - eapply does_eq; [apply c_hash4_does; [apply z4_vec_ops| |apply z_offsets_does]|lia].
    intros. now apply does_const.
  - eapply does_eq; [apply c_hash8_does; [apply z8_vec_ops|apply z_offsets_does]|lia].
  - apply c_hash16_does.
  - eapply does_eq; [apply c_hash4_does; [apply n_vec_ops| |apply c_offsets_does]|lia].
    intros. now apply does_const.
Qed.

Lemma c_compress_seen : forall opt state state' block block' block_len block_len' offset offset' flags flags',
  steps_seen (cv_compress opt state block block_len offset flags) =
  steps_seen (cv_compress opt state' block' block_len' offset' flags').
Proof. intros. eapply vrel_seen. apply same_c_compress. Qed.
Lemma c_many_seen : forall opt inputs inputs' blocks key key' offset offset' deltas deltas'
  flags flags' flags_start flags_start' flags_end flags_end' out out',
  Forall2 (fun x y => len x = len y) inputs inputs' ->
  len deltas = len deltas' -> len out = len out' ->
  steps_seen (cv_hash_many opt 0 inputs blocks key offset deltas flags flags_start flags_end out) =
  steps_seen (cv_hash_many opt 0 inputs' blocks key' offset' deltas' flags' flags_start' flags_end' out').
Proof.
  intros * F D L. eapply vrel_seen. apply same_c_many; [|exact D|exact L].
  induction F; constructor; assumption.
Qed.
