(* Proofs of the statements in Prop_Simd.v. *)
From Coq Require Import NArith List Bool Lia.
From Verif Require Import Base BaseFacts Spec CompressFacts RowCompress ManyFacts.
From Verif Require Portable Sse41 Avx2 Platform.
Import ListNotations.
Open Scope N_scope.

Lemma compress_agree : forall cv block block_len offset flags,
  length cv = 8%nat -> words cv -> length block = 64%nat -> bytes block -> offset < W64 ->
  Sse41.compress cv block block_len offset flags
    = Portable.compress cv block block_len offset flags /\
  Sse41.compress_xof cv block block_len offset flags
    = Portable.compress_xof cv block block_len offset flags /\
  Portable.compress cv block block_len offset flags
    = firstn 8 (blake_compress cv block block_len offset flags) /\
  Portable.compress_xof cv block block_len offset flags
    = bytes_of_words (blake_compress cv block block_len offset flags).
Proof.
  intros cv block bl off flags L W Lb B Ho.
  rewrite sse41_compress, sse41_compress_xof, portable_compress, portable_compress_xof by auto.
  auto.
Qed.

Lemma hash_many_agree : forall c cap inputs key offset delta flags fs fe out,
  cap mod 64 = 0 -> Forall (fun i => len i = cap /\ bytes i) inputs ->
  length key = 8%nat -> words key ->
  32 * len inputs <= len out -> offset + len inputs * delta < W64 ->
  Sse41.hash_many c cap inputs key offset delta flags fs fe out
    = Portable.hash_many c inputs key offset delta flags fs fe out /\
  Avx2.hash_many c cap inputs key offset delta flags fs fe out
    = Portable.hash_many c inputs key offset delta flags fs fe out.
Proof.
  intros c cap inputs key off delta flags fs fe out H1 H2 H3 H4 H5 H6.
  rewrite (portable_hash_many_ok c cap) by auto.
  rewrite sse41_hash_many_ok, avx2_hash_many_ok by auto. auto.
Qed.
