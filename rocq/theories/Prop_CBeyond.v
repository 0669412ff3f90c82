(* C45: the hasher in C, whatever the number of bytes. *)
From Coq Require Import NArith List Bool Lia.
From Verif Require Import Base BaseFacts Spec SessionSpec CSimd CImpl CSpec CBeyondFacts Samples.
Import ListNotations.
Open Scope N_scope.

(* For every choice of backends, with or without assertions, for every number of updates with
   any number of bytes: initialising, updating and finalising the C hasher either stops, at a
   failed assertion or at a write past the end of its array, or gives the specified hash of
   the concatenation.  The array may also be shorter than declared in C, as in the wrapper in
   Rust. *)
Theorem C45_stops_or_tree_hash : forall o memory m us,
  mode_ok m -> c_updates_ok us -> len memory <= 53 * 32 ->
  c_hash o memory (bytes_of_words (mode_key m)) (mode_flags m) us = Panic \/
  c_hash o memory (bytes_of_words (mode_key m)) (mode_flags m) us
  = Ok (spec_hash blake_compress m (c_data us)).
Proof. exact c_panic_or_hash. Qed.

(* So two runs that give hashes give the same hash for the same bytes, whatever the cuts, the
   backends, the build and the uninitialised memory. *)
Theorem C45_runs_agree : forall o1 o2 memory1 memory2 m us1 us2 hash1 hash2,
  mode_ok m -> c_updates_ok us1 -> c_updates_ok us2 ->
  len memory1 <= 53 * 32 -> len memory2 <= 53 * 32 -> c_data us1 = c_data us2 ->
  c_hash o1 memory1 (bytes_of_words (mode_key m)) (mode_flags m) us1 = Ok hash1 ->
  c_hash o2 memory2 (bytes_of_words (mode_key m)) (mode_flags m) us2 = Ok hash2 ->
  hash1 = hash2.
Proof. exact c_runs_agree. Qed.

(* With more than 2^64 bytes in total it never gets to a hash, for every key and flags. *)
Theorem C45_too_long_stops : forall o memory key flags us,
  length key = 32%nat -> bytes key -> c_updates_ok us -> len memory <= 53 * 32 ->
  2 ^ 64 < len (c_data us) -> c_hash o memory key flags us = Panic.
Proof. exact c_too_long. Qed.

(* Nor with a single update of 2^64 bytes. *)
Theorem C45_long_update_stops : forall o memory key flags junk input,
  length key = 32%nat -> bytes key -> bytes input -> len junk = 16 * 32 -> len memory <= 53 * 32 ->
  2 ^ 64 <= len input -> hasher_update o junk (hasher_init memory key flags) input = Panic.
Proof. exact c_one_update. Qed.

Example C45_case :
  let us := [(zeros (2 ^ 63), sample 512); (sample 100, zeros 512); (zeros (2 ^ 63), zeros 512)] in
  mode_ok (Keyed sample_key) /\ c_updates_ok us /\ len (sample 1696) <= 53 * 32 /\
  2 ^ 64 < len (c_data us).
Proof.
  cbv zeta. split; [apply sample_key_ok|]. split; [|split].
  - repeat (apply Forall_cons; [cbn [fst snd]; split;
      [first [apply bytes_zeros|apply sample_bytes]|first [apply len_zeros|apply sample_len]]|]).
    constructor.
  - rewrite sample_len. discriminate.
  - unfold c_data. cbn [map concat fst]. rewrite !len_app, !len_zeros, sample_len, len_nil.
    reflexivity.
Qed.

(* a run that stops: memory for no hash at all, and a second chunk *)
Example C45_run :
  c_hash (COpts false false true false true true false) (sample 31)
    (bytes_of_words (mode_key Hashing)) (mode_flags Hashing)
    [(sample 2048, zeros 512); (sample 1, zeros 512)] = Panic.
Proof. vm_compute. reflexivity. Qed.

Print Assumptions C45_stops_or_tree_hash.
Print Assumptions C45_runs_agree.
Print Assumptions C45_too_long_stops.
Print Assumptions C45_long_update_stops.
