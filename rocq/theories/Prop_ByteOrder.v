(* C55: the C code on machines of either byte order. *)
From Coq Require Import NArith List Bool Lia.
From Verif Require Import Base BaseFacts Spec CSimd CImpl CSpec CByteOrder CByteOrderFacts Samples.
Import ListNotations.
Open Scope N_scope.

(* big: the machine is big-endian.  hash4: what hash4_neon does there, which is not modelled.
   swap_words reverses each group of four bytes. *)

(* On a machine of either byte order, the C hasher gives the specified hash of at most 2^63
   bytes if it is built without NEON, or if no update has 2048 bytes or more; built with NEON,
   it does so on a little-endian machine. *)
Theorem C55_byte_order : forall big hash4 o memory key flags us,
  use_neon o = false \/ (big = false /\ hash4 = hash4_neon) \/
    Forall (fun u => len (fst u) < 2048) us ->
  length key = 32%nat -> bytes key -> c_updates_ok us ->
  len memory = 53 * 32 -> len (c_data us) <= 2 ^ 63 ->
  c_hash_on big hash4 o memory key flags us
  = Ok (take 32 (root_block blake_compress
                   (root_node blake_compress (words_of_bytes key) flags (c_data us)) 0)).
Proof. exact order_ok. Qed.

(* hash_many_neon with fewer than four inputs on a big-endian machine writes what
   hash_many_portable writes, with each word's bytes in reverse. *)
Theorem C55_neon_few_inputs : forall hash4 inputs blocks key offset deltas delta flags fs fe out,
  len inputs < 4 -> length key = 8%nat -> words key -> offset < W64 ->
  Forall (fun i => 64 * blocks <= len i /\ bytes i) inputs -> nth_error deltas 1 = Some delta ->
  len out = 32 * len inputs ->
  exists r, hash_many_portable inputs blocks key offset deltas flags fs fe out = Ok r /\
    hash_many_neon_on true hash4 inputs blocks key offset deltas flags fs fe out
    = Ok (swap_words r).
Proof. exact neon_few. Qed.

(* So an update with one whole chunk and a part of another has, on a big-endian machine, the
   first chunk's hash with its words reversed in the tree. *)
Theorem C55_two_chunks : forall hash4 o memory key flags input junk,
  use_avx512 o = false -> use_avx2 o = false -> use_sse41 o = false -> use_neon o = true ->
  length key = 32%nat -> bytes key -> c_updates_ok [(input, junk)] -> len memory = 53 * 32 ->
  2048 < len input < 4096 ->
  let k := words_of_bytes key in
  let first := chain blake_compress (chunk_node blake_compress k flags 0 (take 2048 input)) in
  let second := chain blake_compress (chunk_node blake_compress k flags 1 (drop 2048 input)) in
  c_hash_on true hash4 o memory key flags [(input, junk)]
  = Ok (take 32 (root_block blake_compress (parent_node k flags (swap_words first) second) 0)) /\
  c_hash_on false hash4_neon o memory key flags [(input, junk)]
  = Ok (take 32 (root_block blake_compress (parent_node k flags first second) 0)).
Proof. exact two_chunks. Qed.

(* Built with NEON, the C hasher does not give the specified hash on big-endian machines:
   whatever hash4_neon does there, this message is hashed wrongly. *)
Theorem C55_big_endian_wrong : forall hash4 o memory junk,
  use_avx512 o = false -> use_avx2 o = false -> use_sse41 o = false -> use_neon o = true ->
  len memory = 53 * 32 -> len junk = 512 ->
  exists h, c_hash_on true hash4 o memory (bytes_of_words IV) 0 [(sample 2049, junk)] = Ok h /\
            h <> spec_hash blake_compress Hashing (sample 2049).
Proof. exact big_wrong. Qed.

(* The claim that the C hasher gives the specified hash on machines of either byte order, with
   every choice of backends, is false. *)
Theorem C55_any_byte_order_refuted : ~ (forall big o, exists hash4, forall memory m us,
  mode_ok m -> c_updates_ok us -> len memory = 53 * 32 -> len (c_data us) <= 2 ^ 63 ->
  c_hash_on big hash4 o memory (bytes_of_words (mode_key m)) (mode_flags m) us
  = Ok (spec_hash blake_compress m (c_data us))).
Proof. exact order_refuted. Qed.

(* the same 2049 bytes in two updates are hashed correctly *)
Example C55_two_updates : forall hash4 o memory, len memory = 53 * 32 ->
  c_hash_on true hash4 o memory (bytes_of_words IV) 0
    [(take 2047 (sample 2049), zeros 512); (drop 2047 (sample 2049), sample 512)]
  = Ok (spec_hash blake_compress Hashing (sample 2049)).
Proof.
  intros hash4 o memory Lm. rewrite hashing_hash.
  assert (D : c_data [(take 2047 (sample 2049), zeros 512); (drop 2047 (sample 2049), sample 512)]
              = sample 2049).
  { unfold c_data. cbn [map concat fst]. now rewrite app_nil_r, take_drop. }
  assert (K : words_of_bytes (bytes_of_words IV) = IV) by reflexivity.
  rewrite C55_byte_order; [now rewrite D, K| | | | | |].
  - right. right. constructor; [cbn [fst]; rewrite len_take, sample_len; reflexivity|].
    constructor; [cbn [fst]; rewrite len_drop, sample_len; reflexivity|constructor].
  - reflexivity.
  - apply bytes_of_words_bytes.
  - constructor; [split; [apply bytes_take; apply sample_bytes|apply len_zeros]|].
    constructor; [split; [apply bytes_drop; apply sample_bytes|apply sample_len]|constructor].
  - exact Lm.
  - rewrite D, sample_len. discriminate.
Qed.

(* two parents' worth of input for hash_many_neon *)
Example C55_few_case :
  let inputs := [sample 64; sample 65] in
  len inputs < 4 /\ length IV = 8%nat /\ words IV /\
  Forall (fun i => 64 * 1 <= len i /\ bytes i) inputs /\
  nth_error CHUNK_OFFSET_DELTAS 1 = Some 2048 /\ len (zeros 64) = 32 * len inputs.
Proof.
  cbv zeta. split; [reflexivity|]. split; [reflexivity|].
  split. { repeat constructor. }
  split.
  { constructor; [split; [rewrite sample_len; discriminate|apply sample_bytes]|].
    constructor; [split; [rewrite sample_len; discriminate|apply sample_bytes]|constructor]. }
  split; reflexivity.
Qed.
Example C55_swap : swap_words [1; 2; 3; 4; 5; 6; 7; 8] = [4; 3; 2; 1; 8; 7; 6; 5].
Proof. reflexivity. Qed.

Print Assumptions C55_byte_order.
Print Assumptions C55_neon_few_inputs.
Print Assumptions C55_two_chunks.
Print Assumptions C55_big_endian_wrong.
Print Assumptions C55_any_byte_order_refuted.
