(* C20, C21, C37: the hasher in C. *)
From Coq Require Import NArith List Bool Lia.
From Verif Require Import Base BaseFacts Spec Platform Lib SessionSpec Session.
From Verif Require Import CSimd CImpl CSpec CImplProps Samples.
Import ListNotations.
Open Scope N_scope.

(* For every choice of backends, with or without assertions, with a size_t of 32 or 64 bits,
   whatever is in uninitialised memory: initialising the C hasher with the key and flags of a mode, updating it any number
   of times with at most 2^63 bytes in total, and finalising it, gives the specified hash of
   the concatenation. *)
Theorem C20_c_hasher_is_tree_hash : forall o memory m us,
  mode_ok m -> c_updates_ok us -> len memory = 53 * 32 -> len (c_data us) <= 2 ^ 63 ->
  c_hash o memory (bytes_of_words (mode_key m)) (mode_flags m) us
  = Ok (spec_hash blake_compress m (c_data us)).
Proof. exact c_hasher_ok. Qed.

(* The same for every 32-byte key and every flags. *)
Theorem C20_c_hasher_any_key : forall o memory key flags us,
  length key = 32%nat -> bytes key -> c_updates_ok us ->
  len memory = 53 * 32 -> len (c_data us) <= 2 ^ 63 ->
  c_hash o memory key flags us
  = Ok (take 32 (root_block blake_compress
                   (root_node blake_compress (words_of_bytes key) flags (c_data us)) 0)).
Proof. exact c_hasher_any_key. Qed.

(* It is what the library's Hasher gives, however either input is cut. *)
Theorem C20_c_hasher_is_library : forall o memory us c p m,
  platform_ok c p -> mode_ok m -> c_updates_ok us ->
  len memory = 53 * 32 -> len (c_data us) <= 2 ^ 63 ->
  forall inputs, concat inputs = c_data us -> Forall bytes inputs ->
  c_hash o memory (bytes_of_words (mode_key m)) (mode_flags m) us
  = (let* h := feed c (start p m) inputs in finalize c h).
Proof. exact c_lib. Qed.

(* Compiled with NDEBUG, every total below 2^64 bytes works. *)
Theorem C20_c_hasher_without_assertions : forall o memory m us,
  ndebug o = true -> mode_ok m -> c_updates_ok us -> len memory = 53 * 32 ->
  len (c_data us) < 2 ^ 64 ->
  c_hash o memory (bytes_of_words (mode_key m)) (mode_flags m) us
  = Ok (spec_hash blake_compress m (c_data us)).
Proof. exact c_hasher_no_assertions. Qed.

(* the largest total *)
Example C20_largest :
  let us := [(zeros (2 ^ 62), zeros 512); (sample 2047, sample 512);
             (zeros (2 ^ 62 - 2047), zeros 512)] in
  mode_ok (Keyed sample_key) /\ c_updates_ok us /\ len (sample 1696) = 53 * 32 /\
  len (c_data us) = 2 ^ 63.
Proof.
  cbv zeta. split; [apply sample_key_ok|]. split; [|split].
  - repeat (apply Forall_cons; [cbn [fst snd]; split;
      [first [apply bytes_zeros|apply sample_bytes]|first [apply len_zeros|apply sample_len]]|]).
    constructor.
  - apply sample_len.
  - unfold c_data. cbn [map concat fst]. rewrite !len_app, !len_zeros, sample_len, len_nil.
    reflexivity.
Qed.

(* the model run on two chunks, cut unevenly, and on one with another backend and size_t *)
Example C20_run :
  c_hash (COpts false false false false true false false) (sample 1696)
    (bytes_of_words (mode_key (Keyed sample_key))) (mode_flags (Keyed sample_key))
    [(sample 100, zeros 512); ([], zeros 512); (sample 1949, sample 512)]
  = Ok (spec_hash blake_compress (Keyed sample_key) (sample 100 ++ sample 1949)).
Proof. vm_compute. reflexivity. Qed.
Example C20_run_sse41 :
  c_hash (COpts false false true false false false true) (sample 1696)
    (bytes_of_words (mode_key Hashing)) (mode_flags Hashing) [(sample 129, sample 512)]
  = Ok (spec_hash blake_compress Hashing (sample 129)).
Proof. vm_compute. reflexivity. Qed.

(* With assertions compiled in, the claim that every total below 2^64 bytes can be hashed is
   false: the stack depth is checked before merging. *)
Theorem C21_every_length_refuted :
  ~ (forall o memory key flags us,
       length key = 32%nat -> bytes key -> len memory = 53 * 32 -> c_updates_ok us ->
       len (c_data us) < 2 ^ 64 -> exists hash, c_hash o memory key flags us = Ok hash).
Proof. exact c_every_length_refuted. Qed.

(* Every single update of 2^63 + 2048 bytes or more aborts, for every input and key. *)
Theorem C21_long_update_aborts : forall o memory key flags junk input,
  ndebug o = false -> length key = 32%nat -> bytes key -> len memory = 53 * 32 ->
  len junk = 16 * 32 -> bytes input -> 2 ^ 63 + 2048 <= len input < 2 ^ 64 ->
  hasher_update o junk (hasher_init memory key flags) input = Panic.
Proof. exact c_aborts_one. Qed.

(* So does every sequence of updates by multiples of 16 chunks with more than 2^63 bytes. *)
Theorem C21_long_updates_abort : forall o memory key flags us,
  ndebug o = false -> length key = 32%nat -> bytes key -> len memory = 53 * 32 ->
  c_updates_ok us -> Forall (fun u => len (fst u) mod 32768 = 0) us ->
  2 ^ 63 < len (c_data us) < 2 ^ 64 ->
  c_hash o memory key flags us = Panic.
Proof. exact c_aborts. Qed.

Example C21_case :
  let us := map (fun n => (zeros n, zeros 512)) [2 ^ 62; 32768; 2 ^ 62] in
  ndebug (COpts true true true false true false false) = false /\ length sample_key = 32%nat /\
  bytes sample_key /\ len (zeros 1696) = 53 * 32 /\ c_updates_ok us /\
  Forall (fun u => len (fst u) mod 32768 = 0) us /\ 2 ^ 63 < len (c_data us) < 2 ^ 64.
Proof.
  cbv zeta. split; [reflexivity|]. split; [reflexivity|]. split; [apply sample_bytes|].
  split; [apply len_zeros|]. split; [apply zeros_ok|]. split.
  - cbn [map]. repeat (apply Forall_cons; [cbn [fst]; rewrite len_zeros; reflexivity|]). constructor.
  - unfold c_data. cbn [map concat fst]. rewrite !len_app, !len_zeros, len_nil. split; reflexivity.
Qed.

(* The Rust wrapper of the C hasher gives it 1664 bytes for an array of 1696.  That is enough
   below 2^63 bytes. *)
Theorem C37_wrapper_below_limit : forall o memory m us,
  mode_ok m -> c_updates_ok us -> RUST_SUBTREE_HASHES <= len memory -> len (c_data us) < 2 ^ 63 ->
  c_hash o memory (bytes_of_words (mode_key m)) (mode_flags m) us
  = Ok (spec_hash blake_compress m (c_data us)).
Proof. exact c_wrapper_ok. Qed.

(* It is not enough for 2^63 bytes, which the C hasher itself can hash (C20). *)
Theorem C37_wrapper_memory_suffices_refuted :
  ~ (forall o memory key flags us,
       length key = 32%nat -> bytes key -> RUST_SUBTREE_HASHES <= len memory -> c_updates_ok us ->
       Forall (fun u => len (fst u) < 2 ^ 63) us -> len (c_data us) <= 2 ^ 63 ->
       exists hash, c_hash o memory key flags us = Ok hash).
Proof. exact c_wrapper_refuted. Qed.

(* Every sequence of updates by multiples of 16 chunks with 2^63 bytes or more writes outside
   the wrapper's object, padding included. *)
Theorem C37_wrapper_written_outside : forall o memory key flags us,
  length key = 32%nat -> bytes key ->
  RUST_SUBTREE_HASHES <= len memory <= RUST_SUBTREE_HASHES + RUST_PADDING ->
  c_updates_ok us -> Forall (fun u => len (fst u) mod 32768 = 0) us ->
  2 ^ 63 <= len (c_data us) < 2 ^ 64 ->
  c_hash o memory key flags us = Panic.
Proof. exact c_writes_outside. Qed.

Example C37_case :
  let us := map (fun n => (zeros n, zeros 512)) [2 ^ 62; 2 ^ 62] in
  RUST_SUBTREE_HASHES <= len (zeros 1671) <= RUST_SUBTREE_HASHES + RUST_PADDING /\
  c_updates_ok us /\ Forall (fun u => len (fst u) mod 32768 = 0) us /\
  len (c_data us) = 2 ^ 63 /\
  len (c_data [(zeros (2 ^ 62), zeros 512); (zeros (2 ^ 62 - 1), zeros 512)]) = 2 ^ 63 - 1.
Proof.
  cbv zeta. rewrite len_zeros. split; [split; discriminate|]. split; [apply zeros_ok|]. split.
  - cbn [map]. repeat (apply Forall_cons; [cbn [fst]; rewrite len_zeros; reflexivity|]). constructor.
  - unfold c_data. cbn [map concat fst]. rewrite !len_app, !len_zeros, len_nil. split; reflexivity.
Qed.

Print Assumptions C20_c_hasher_is_tree_hash.
Print Assumptions C20_c_hasher_any_key.
Print Assumptions C20_c_hasher_is_library.
Print Assumptions C20_c_hasher_without_assertions.
Print Assumptions C21_every_length_refuted.
Print Assumptions C21_long_update_aborts.
Print Assumptions C21_long_updates_abort.
Print Assumptions C37_wrapper_below_limit.
Print Assumptions C37_wrapper_memory_suffices_refuted.
Print Assumptions C37_wrapper_written_outside.
