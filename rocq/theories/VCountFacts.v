(* Counting the vector operations of the functions of VSteps.v. *)
From Coq Require Import NArith List Bool Lia ZArith.
From Coq Require Import ZifyBool ZifyNat ZifyN.
From Verif Require Import Base BaseFacts Portable Simd SimdGen SimdHash SecretFacts.
From Verif Require Import Steps VOps VSimdGen VSteps VStepsSpec VStepsFacts.
From Verif Require Sse41 Avx2 Platform.
Import ListNotations.
Open Scope N_scope.

Lemma ops_same : forall A A' (R : A -> A' -> Prop) (m : vs A) (m' : vs A'),
  vrel R m m' -> vector_ops m = vector_ops m'.
Proof. intros * [E _]. unfold vector_ops. now rewrite E. Qed.

Lemma sse41_compress_ops : forall cv b n o f, vector_ops (sse41_v_compress cv b n o f) = 391.
Proof. intros. erewrite ops_same by apply (same_sse41_compress _ _ _ _ _ [] [] 0 0 0). vm_compute. reflexivity. Qed.
Lemma sse41_xof_ops : forall cv b n o f, vector_ops (sse41_v_compress_xof cv b n o f) = 393.
Proof. intros. erewrite ops_same by apply (same_sse41_xof _ _ _ _ _ [] [] 0 0 0). vm_compute. reflexivity. Qed.
Lemma vec4_ops : forall h m lo hi bl bf,
  vector_ops (v_vec_compress sse41_vops sse41_round_code 4 h m lo hi bl bf) = 1016.
Proof.
  intros. erewrite ops_same by apply (same_vec _ sse41_same _ _ _ _ _ _ _ _ [] [] [] [] [] []).
  vm_compute. reflexivity.
Qed.
Lemma vec8_ops : forall h m lo hi bl bf,
  vector_ops (v_vec_compress avx2_vops avx2_round_code 8 h m lo hi bl bf) = 1016.
Proof.
  intros. erewrite ops_same by apply (same_vec _ avx2_same _ _ _ _ _ _ _ _ [] [] [] [] [] []).
  vm_compute. reflexivity.
Qed.

(* a run that returns, with so many vector operations *)
Definition does {A : Type} (m : vs A) (n : N) : Prop :=
  forall x, snd m = Ok x -> vector_ops m = n.
Lemma does_bind : forall A B (m : vs A) (f : A -> vs B) a b,
  does m a -> (forall x, does (f x) b) -> does (vbind m f) (a + b).
Proof.
  intros A B [l r] f a b Hm Hf y. unfold vbind. destruct r as [x| |]; try discriminate.
  specialize (Hm x eq_refl). specialize (Hf x).
  destruct (f x) as [l' r'] eqn:E. cbn [snd]. intros ->. specialize (Hf y eq_refl).
  unfold vector_ops in *. cbn [fst] in *. rewrite filter_app, len_app. lia.
Qed.
Lemma does_eq : forall A (m : vs A) a b, does m a -> a = b -> does m b.
Proof. intros * H <-. exact H. Qed.
Lemma does_const : forall A (m : vs A) n, vector_ops m = n -> does m n.
Proof. intros * H x _. exact H. Qed.

Lemma load_row_does : forall n xs k off, does (v_load_row k n xs off) 0.
Proof.
  intros n. induction xs as [|x xs IH]; intros; cbn [v_load_row]; [now apply does_const|].
  eapply does_eq; [apply does_bind|].
  - apply does_const. reflexivity.
  - intros. eapply does_bind; [apply IH|]. intros. now apply (does_const _ _ 0).
  - reflexivity.
Qed.
Lemma load_grid_does : forall k n xs bo cols, does (v_load_grid k n xs bo cols) 0.
Proof.
  intros k n xs bo. induction cols as [|col cols IH]; cbn [v_load_grid]; [now apply does_const|].
  eapply does_eq; [apply does_bind|].
  - apply load_row_does.
  - intros. eapply does_bind; [apply IH|]. intros. now apply (does_const _ _ 0).
  - reflexivity.
Qed.
Lemma msgs4_does : forall k xs bo, does (sse41_v_transpose_msg_vecs k xs bo) 32.
Proof.
  intros. unfold sse41_v_transpose_msg_vecs.
  eapply does_eq; [apply does_bind; [apply load_grid_does|]|].
  - intros. apply (does_const _ _ 32). reflexivity.
  - reflexivity.
Qed.
Lemma msgs8_does : forall k xs bo, does (avx2_v_transpose_msg_vecs k xs bo) 48.
Proof.
  intros. unfold avx2_v_transpose_msg_vecs.
  eapply does_eq; [apply does_bind; [apply load_grid_does|]|].
  - intros. apply (does_const _ _ 48). reflexivity.
  - reflexivity.
Qed.
Lemma loop_does : forall S code n lm a b,
  (forall off, does (lm off) a) ->
  (forall h m lo hi bl bf, vector_ops (v_vec_compress S code n h m lo hi bl bf) = b) ->
  forall todo block blocks h lo hi bf fl fe,
  does (v_vec_hash_loop S code n lm todo block blocks h lo hi bf fl fe) (N.of_nat todo * (a + b)).
Proof.
  intros S code n lm a b Ha Hb. induction todo as [|todo IH]; intros; cbn [v_vec_hash_loop].
  - now apply does_const.
  - cbv zeta. eapply does_eq.
    + eapply does_bind; [apply does_const; reflexivity|]. intros.
      eapply does_bind; [apply does_const; reflexivity|]. intros.
      eapply does_bind; [apply Ha|]. intros.
      eapply does_bind; [apply does_const; apply Hb|]. intros. apply IH.
    + unfold vector_ops, lanes1. cbn [fst filter vector_op]. unfold len. cbn [length]. lia.
Qed.
Lemma load_offsets_does : forall c n off d, does (v_load_offsets c n off d) 0.
Proof.
  intros. unfold v_load_offsets. eapply does_eq; [apply does_bind|].
  - apply does_const. reflexivity.
  - intros. apply (does_const _ _ 0). reflexivity.
  - reflexivity.
Qed.

Lemma hash4_ops : forall c k xs blocks key off d fl fs fe out,
  snd (sse41_v_hash4 c k xs blocks key off d fl fs fe) = Ok out ->
  vector_ops (sse41_v_hash4 c k xs blocks key off d fl fs fe) = 1048 * blocks + 16.
Proof.
  intros c k xs blocks key off d fl fs fe. change (does (sse41_v_hash4 c k xs blocks key off d fl fs fe) (1048 * blocks + 16)).
  unfold sse41_v_hash4. eapply does_eq.
  - eapply does_bind; [apply (does_const _ _ 0); reflexivity|]. intros.
    eapply does_bind; [apply load_offsets_does|]. intros [lo hi].
    eapply does_bind; [apply loop_does; [intros; apply msgs4_does|apply vec4_ops]|]. intros.
    apply (does_const _ _ 16). reflexivity.
  - lia.
Qed.
Lemma hash8_ops : forall c k xs blocks key off d fl fs fe out,
  snd (avx2_v_hash8 c k xs blocks key off d fl fs fe) = Ok out ->
  vector_ops (avx2_v_hash8 c k xs blocks key off d fl fs fe) = 1064 * blocks + 24.
Proof.
  intros c k xs blocks key off d fl fs fe. change (does (avx2_v_hash8 c k xs blocks key off d fl fs fe) (1064 * blocks + 24)).
  unfold avx2_v_hash8. eapply does_eq.
  - eapply does_bind; [apply (does_const _ _ 0); reflexivity|]. intros.
    eapply does_bind; [apply load_offsets_does|]. intros [lo hi].
    eapply does_bind; [apply loop_does; [intros; apply msgs8_does|apply vec8_ops]|]. intros.
    apply (does_const _ _ 24). reflexivity.
  - lia.
Qed.
