(* C52: the C hasher and memory outside its objects. *)
From Coq Require Import NArith List Bool Lia.
From Verif Require Import Base BaseFacts Spec SessionSpec CSimd CImpl CSpec CImplProps.
From Verif Require Import CSessionSpec CSession CSafe CSafeFacts Samples.
Import ListNotations.
Open Scope N_scope.

(* The model of the hasher that tells the ways of stopping apart is the one of CImpl, which
   has a single Panic for both. *)
Theorem outcome_is_of_code :
  (forall o memory key flags us,
     c_hash o memory key flags us
     = match u_hash o memory key flags us with
       | Done hash => Ok hash | Abort | Undefined => Panic | Endless => NoFuel end) /\
  (forall o w xs,
     c_run o w xs
     = match u_run o w xs with
       | Done r => Ok r | Abort | Undefined => Panic | Endless => NoFuel end).
Proof. exact outcome_agrees. Qed.

(* With assertions compiled in, no program that uses C hashers ever reads or writes outside
   an object, whatever the order of its calls and the lengths of its inputs: it runs to its
   end, or an assertion stops it. *)
Theorem C52_no_access_outside : forall o xs, ndebug o = false -> Forall c_call_typed xs ->
  u_run o [] xs = Abort \/ exists w answers, u_run o [] xs = Done (w, answers).
Proof. exact program_safe. Qed.

(* Without them, this holds as long as no hasher gets 2^64 bytes or more; nothing stops. *)
Theorem C52_without_assertions : forall o xs a ss, ndebug o = true ->
  c_abstract_run (53 * 32) (2 ^ 64 - 1) [] xs = Some (a, ss) -> exists w, u_run o [] xs = Done (w, ss).
Proof. exact program_done_ndebug. Qed.

(* Beyond that, the claim is false: a hasher that gets more than 2^64 bytes always accesses
   memory outside it. *)
Theorem C52_without_assertions_refuted : forall o memory key flags us, ndebug o = true ->
  length key = 32%nat -> bytes key -> c_updates_ok us -> len memory = 53 * 32 ->
  2 ^ 64 < len (c_data us) -> u_hash o memory key flags us = Undefined.
Proof. exact hash_undefined_ndebug. Qed.

(* The assertion never fails below 2^63 + 2048 bytes. *)
Theorem C52_assertion : forall o memory key flags us,
  length key = 32%nat -> bytes key -> c_updates_ok us -> len memory = 53 * 32 ->
  u_hash o memory key flags us = Abort -> ndebug o = false /\ 2 ^ 63 + 2048 <= len (c_data us).
Proof. exact hash_abort. Qed.

(* The shorter objects of the Rust wrapper: no access outside them below 2^63 bytes. *)
Theorem C52_wrapper : forall o cap xs a ss, RUST_SUBTREE_HASHES <= cap ->
  c_abstract_run cap (2 ^ 63 - 1) [] xs = Some (a, ss) -> exists w, u_run o [] xs = Done (w, ss).
Proof. exact program_done_wrapper. Qed.

(* With 2^63 bytes the assertion does not help: in every build, whole groups of 16 chunks lead
   to an access outside the object. *)
Theorem C52_wrapper_refuted : forall o memory key flags us, length key = 32%nat -> bytes key ->
  RUST_SUBTREE_HASHES <= len memory <= RUST_SUBTREE_HASHES + RUST_PADDING ->
  c_updates_ok us -> Forall (fun u => len (fst u) mod 32768 = 0) us -> len (c_data us) = 2 ^ 63 ->
  u_hash o memory key flags us = Undefined.
Proof. exact wrapper_undefined. Qed.

(* a program with 2^65 bytes, a copy, a second initialisation and uninitialised memory *)
Example C52_case :
  Forall c_call_typed
    [DNew (sample 1696) sample_key 16; DUpdate 0 (zeros (2 ^ 64)) (sample 512); DCopy 0;
     DUpdate 1 (zeros (2 ^ 64)) (zeros 512); DFinalize 1; DInit 1 sample_key 0; DFinalize 0].
Proof.
  apply Forall_cons; [split; [apply sample_len|split; [reflexivity|apply sample_bytes]]|].
  apply Forall_cons; [split; [apply bytes_zeros|apply sample_len]|].
  apply Forall_cons; [exact I|].
  apply Forall_cons; [split; [apply bytes_zeros|apply len_zeros]|].
  apply Forall_cons; [exact I|].
  apply Forall_cons; [split; [reflexivity|apply sample_bytes]|].
  apply Forall_cons; [exact I|]. apply Forall_nil.
Qed.
(* more than 2^64 bytes; 2^63 bytes for the wrapper *)
Example C52_long_case :
  let us := map (fun n => (zeros n, zeros 512)) [2 ^ 63; 2 ^ 63; 1] in
  let vs := map (fun n => (zeros n, zeros 512)) [2 ^ 62; 2 ^ 62] in
  length sample_key = 32%nat /\ bytes sample_key /\ c_updates_ok us /\ 2 ^ 64 < len (c_data us) /\
  c_updates_ok vs /\ Forall (fun u => len (fst u) mod 32768 = 0) vs /\ len (c_data vs) = 2 ^ 63.
Proof.
  cbv zeta. split; [reflexivity|]. split; [apply sample_bytes|]. split; [apply zeros_ok|].
  split; [unfold c_data; cbn [map concat fst]; rewrite !len_app, !len_zeros, len_nil; reflexivity|].
  split; [apply zeros_ok|]. split.
  - cbn [map]. repeat (apply Forall_cons; [cbn [fst]; rewrite len_zeros; reflexivity|]). constructor.
  - unfold c_data. cbn [map concat fst]. rewrite !len_app, !len_zeros, len_nil. reflexivity.
Qed.
(* the three ways to end: a hash; the assertion, for a stack that is full; and, with memory
   for no hash at all, an access outside it *)
Example C52_run :
  let o := COpts false false true false true false false in
  let full := CHasher (c_chunk_of (hasher_init (sample 1696) sample_key 0)) 53 (sample 1696) in
  u_hash o (sample 1696) sample_key 0 [(sample 65, zeros 512)]
  = Done (flags_hash sample_key 0 (sample 65)) /\
  u_push_chunk_hash o full (sample 32) 0 = Abort /\
  u_push_chunk_hash o (hasher_init (sample 31) sample_key 0) (sample 32) 0 = Undefined.
Proof. vm_compute. auto. Qed.

Print Assumptions outcome_is_of_code.
Print Assumptions C52_no_access_outside.
Print Assumptions C52_without_assertions.
Print Assumptions C52_without_assertions_refuted.
Print Assumptions C52_assertion.
Print Assumptions C52_wrapper.
Print Assumptions C52_wrapper_refuted.
