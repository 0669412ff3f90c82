(* C60: the Rust library, the reference implementation, the Python code and the C hasher are
   one function, with the lengths each of them declares. *)
From Coq Require Import NArith List Bool Lia.
From Verif Require Import Base BaseFacts Spec AgreeSpec Portable Platform Lib SessionSpec Session.
From Verif Require Import RefImpl PyImpl CSimd CImpl CSpec AgreeFacts Samples.
From Verif Require Portable64 C64.
Import ListNotations.
Open Scope N_scope.

(* Take a key of the length any of them declares, and an input of at most 2^63 bytes.  The
   one-shot functions, the streaming hasher, the reference hasher filling a buffer of its
   OUT_LEN, the Python functions asked for 32 bytes, and the C hasher with any
   backends all return the same bytes, whatever pieces the input is given in, and as many as
   each of them declares. *)
Theorem C60_one_function : forall c p o n m input inputs buffer memory us,
  In n [KEY_LEN; r_KEY_LEN; C_KEY_LEN] -> key_of_len n m ->
  platform_ok c p -> bytes input -> len input <= 2 ^ 63 -> len input < WU c ->
  concat inputs = input -> Forall bytes inputs ->
  len buffer = r_OUT_LEN ->
  c_updates_ok us -> c_data us = input -> len memory = C_MAX_DEPTH * C_OUT_LEN ->
  exists hash,
    (len hash = OUT_LEN /\ len hash = r_OUT_LEN /\ len hash = C_OUT_LEN) /\
    oneshot c p m input = Ok hash /\
    (let* h := feed c (start p m) inputs in finalize c h) = Ok hash /\
    (let* h := r_feed c (r_start m) inputs in r_finalize c h buffer) = Ok hash /\
    y_run m input 32 = Ok hash /\
    c_hash o memory (bytes_of_words (mode_key m)) (mode_flags m) us = Ok hash.
Proof. exact all_agree. Qed.

(* The constants the source files declare separately: library and C, library and reference,
   library and Python, the two 64-bit variants, and the 64-bit variant with blocks and chunks
   twice as long. *)
Theorem C60_declared_sizes :
  [OUT_LEN; KEY_LEN; BLOCK_LEN; CHUNK_LEN; MAX_DEPTH] =
    [C_OUT_LEN; C_KEY_LEN; C_BLOCK_LEN; C_CHUNK_LEN; C_MAX_DEPTH] /\
  [OUT_LEN; KEY_LEN; BLOCK_LEN; CHUNK_LEN] = [r_OUT_LEN; r_KEY_LEN; r_BLOCK_LEN; r_CHUNK_LEN] /\
  [BLOCK_LEN; CHUNK_LEN] = [y_BLOCK_LEN; y_CHUNK_LEN] /\
  [Portable64.OUT_LEN; Portable64.BLOCK_LEN; Portable64.CHUNK_LEN] =
    [C64.OUT_LEN; C64.BLOCK_LEN; C64.CHUNK_LEN] /\
  [Portable64.OUT_LEN; C64.KEY_LEN; Portable64.BLOCK_LEN; Portable64.CHUNK_LEN] =
    [OUT_LEN; KEY_LEN; 2 * BLOCK_LEN; 2 * CHUNK_LEN].
Proof. exact sizes_agree. Qed.

(* The tables and flags that the source files declare separately, also the entries that the code
   of one of them does not use (the C code uses half of its IV). *)
Theorem C60_declared_tables :
  Portable.IV = C_IV /\ Portable.IV = r_IV /\ Portable.IV = y_IV /\
  Portable.MSG_SCHEDULE = C_MSG_SCHEDULE /\ Portable.MSG_SCHEDULE = r_MSG_SCHEDULE /\
  Portable.MSG_SCHEDULE = y_MSG_SCHEDULE /\
  Portable64.IV = C64.IV /\ Portable64.MSG_SCHEDULE = C64.MSG_SCHEDULE /\
  [Lib.CHUNK_START; Lib.CHUNK_END; Lib.PARENT; Lib.ROOT] =
    [C_CHUNK_START; C_CHUNK_END; C_PARENT; C_ROOT] /\
  [Lib.CHUNK_START; Lib.CHUNK_END; Lib.PARENT; Lib.ROOT; Lib.KEYED_HASH; Lib.DERIVE_KEY] =
    [r_CHUNK_START; r_CHUNK_END; r_PARENT; r_ROOT; r_KEYED_HASH; r_DERIVE_KEY] /\
  [Lib.CHUNK_START; Lib.CHUNK_END; Lib.PARENT; Lib.ROOT; Lib.KEYED_HASH; Lib.DERIVE_KEY] =
    [y_CHUNK_START; y_CHUNK_END; y_PARENT; y_ROOT; y_KEYED_HASH; y_DERIVE_KEY].
Proof. exact tables_agree. Qed.

(* the hypotheses are met: a keyed hash of 5001 bytes, given to the Rust hashers in three pieces
   and to the C hasher in two *)
Example C60_case :
  let input := sample 1000 ++ sample 4000 ++ [7] in
  let inputs := [sample 1000; sample 4000; [7]] in
  let us := [(sample 1000, zeros 512); (sample 4000 ++ [7], zeros 512)] in
  key_of_len r_KEY_LEN (Keyed sample_key) /\ platform_ok (Cfg true true true) PAVX2 /\
  bytes input /\ len input <= 2 ^ 63 /\ len input < WU (Cfg true true true) /\
  concat inputs = input /\ Forall bytes inputs /\ len (zeros 32) = r_OUT_LEN /\
  c_updates_ok us /\ c_data us = input /\ len (zeros (53 * 32)) = C_MAX_DEPTH * C_OUT_LEN.
Proof.
  cbv zeta.
  assert (B : bytes (sample 1000) /\ bytes (sample 4000) /\ bytes [7]).
  { split; [apply sample_bytes|]. split; [apply sample_bytes|]. repeat constructor. }
  destruct B as (B1 & B2 & B3).
  assert (L : len (sample 1000 ++ sample 4000 ++ [7]) = 5001)
    by (rewrite !len_app, !sample_len; reflexivity).
  split; [split; [reflexivity|apply sample_key_ok]|]. split; [reflexivity|].
  split; [rewrite !bytes_app; exact (conj B1 (conj B2 B3))|]. rewrite L.
  split; [vm_compute; discriminate|]. split; [reflexivity|].
  split; [cbn [concat]; now rewrite app_nil_r|].
  split; [repeat (constructor; [assumption|]); constructor|]. split; [reflexivity|].
  split; [constructor; [split; [exact B1|reflexivity]|constructor; [|constructor]]|].
  { split; [cbn [fst]; rewrite bytes_app; exact (conj B2 B3)|reflexivity]. }
  split; [unfold c_data; cbn [map fst concat]; now rewrite app_nil_r|]. reflexivity.
Qed.

Print Assumptions C60_one_function.
Print Assumptions C60_declared_sizes.
Print Assumptions C60_declared_tables.
