(* Proofs of the statements in Prop_Hasher.v. *)
From Coq Require Import NArith List Bool Lia ZArith.
From Coq Require Import ZifyBool ZifyNat ZifyN.
From Verif Require Import Base BaseFacts Spec TreeFacts CompressFacts SpecFacts.
From Verif Require Import Portable Platform Lib ChunkFacts LibFacts HasherFacts.
From Verif Require Import SessionSpec Session ApiFacts OneShotFacts.
Import ListNotations.
Open Scope N_scope.

Lemma stream_stream : forall c p m inputs n,
  platform_ok c p -> mode_ok m -> Forall bytes inputs -> len (concat inputs) < W64 ->
  N.of_nat n < MAX_BLOCKS ->
  exists h o bs o',
    feed c (start p m) inputs = Ok h /\
    finalize c h = Ok (spec_hash blake_compress m (concat inputs)) /\
    finalize_xof c h = Ok o /\ reads c n o = Ok (bs, o') /\
    concat bs = spec_xof blake_compress m (concat inputs) (64 * N.of_nat n).
Proof.
  intros c p m inputs n P M B L Hn.
  destruct (streaming_ok c p m inputs P M B L) as (h & E & D & X).
  assert (Bc : bytes (concat inputs)) by now apply bytes_concat.
  exists h. do 3 eexists. split; [exact E|]. split; [exact D|]. split; [exact X|].
  rewrite reads_ok by (auto; now apply spec_root_wf). split; [reflexivity|].
  now rewrite xof_blocks by auto.
Qed.

Lemma stream_equals_oneshot : forall c p m inputs,
  platform_ok c p -> mode_ok m -> Forall bytes inputs ->
  len (concat inputs) < WU c ->
  (let* h := feed c (start p m) inputs in finalize c h) = oneshot c p m (concat inputs) /\
  (let* h := feed c (start p m) inputs in finalize_xof c h) = oneshot_xof c p m (concat inputs).
Proof.
  intros c p m inputs P M B L.
  assert (L' : len (concat inputs) < W64) by (unfold WU in L; destruct (w64 c); unfold W32, W64 in *; lia).
  destruct (streaming_ok c p m inputs P M B L') as (h & E & D & X).
  assert (Bc : bytes (concat inputs)) by now apply bytes_concat.
  rewrite E, oneshot_ok, oneshot_xof_ok by auto. cbn [bind]. auto.
Qed.

Lemma stream_never_panics : forall c p m inputs,
  platform_ok c p -> mode_ok m -> Forall bytes inputs -> len (concat inputs) < W64 ->
  exists h d o, feed c (start p m) inputs = Ok h /\ finalize c h = Ok d /\ finalize_xof c h = Ok o.
Proof.
  intros c p m inputs P M B L.
  destruct (streaming_ok c p m inputs P M B L) as (h & E & D & X). eauto 6.
Qed.

Lemma stream_split : forall c p m xs ys,
  platform_ok c p -> mode_ok m -> Forall bytes xs -> Forall bytes ys ->
  len (concat xs) < W64 -> concat xs = concat ys ->
  (let* h := feed c (start p m) xs in finalize_xof c h)
  = (let* h := feed c (start p m) ys in finalize_xof c h).
Proof.
  intros c p m xs ys P M Bx By L E.
  destruct (streaming_ok c p m xs P M Bx L) as (h & E1 & _ & X1).
  destruct (streaming_ok c p m ys P M By) as (h2 & E2 & _ & X2); [now rewrite <- E|].
  rewrite E1, E2. cbn [bind]. now rewrite X1, X2, E.
Qed.

Lemma history_start : forall c p m es,
  platform_ok c p -> mode_ok m -> Forall event_ok es -> len (fed es) < W64 ->
  history c (start p m) es = Ok (expected m [] es).
Proof.
  intros c p m es P M E L. apply history_ok; auto. now apply start_rel.
Qed.

Lemma history_platforms : forall c1 c2 avx2_1 sse41_1 avx2_2 sse41_2 m es,
  mode_ok m -> Forall event_ok es -> len (fed es) < W64 ->
  history c1 (start (detect c1 avx2_1 sse41_1) m) es
  = history c2 (start (detect c2 avx2_2 sse41_2) m) es.
Proof.
  intros. rewrite !history_start; auto; apply detect_ok; eauto.
Qed.
