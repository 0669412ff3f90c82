(* C19: the Python implementation. *)
From Coq Require Import NArith List Bool Lia.
From Verif Require Import Base BaseFacts Spec Platform Lib SessionSpec Session.
From Verif Require Import PyImpl PyFacts Samples.
Import ListNotations.
Open Scope N_scope.

(* hash, keyed_hash and derive_key of baokeshed.py return the first n bytes of the specified
   output, for any input of up to 2^64 bytes, any 32-byte key and any n up to 2^64, and raise no
   exception. *)
Theorem C19_python_is_tree_hash : forall m input n,
  mode_ok m -> bytes input -> len input <= 2 ^ 64 -> n <= 2 ^ 64 ->
  y_run m input n = Ok (spec_xof blake_compress m input n).
Proof. exact python_run_small. Qed.

(* Those are the first n bytes of what the library's *_xof functions give, read in blocks. *)
Theorem C19_python_is_library : forall c p m input n k,
  platform_ok c p -> mode_ok m -> bytes input -> len input < WU c ->
  N.of_nat k < MAX_BLOCKS -> n <= 64 * N.of_nat k ->
  exists o bs o',
    oneshot_xof c p m input = Ok o /\ reads c k o = Ok (bs, o') /\
    y_run m input n = Ok (take n (concat bs)).
Proof. exact python_lib. Qed.

(* The Python functions do not check the key's length.  A longer key is used as its first 32
   bytes, silently; *)
Theorem C19_python_long_key : forall key input n,
  bytes key -> 32 <= len key -> bytes input -> len input <= 2 ^ 64 -> n <= 2 ^ 64 ->
  y_keyed_hash key input n = Ok (spec_xof blake_compress (Keyed (take 32 key)) input n) /\
  y_derive_key key input n = Ok (spec_xof blake_compress (Deriving (take 32 key)) input n).
Proof. exact python_keyed_small. Qed.

(* a shorter one raises an exception as soon as one byte of output is wanted. *)
Theorem C19_python_short_key : forall key input n,
  len key < 32 -> 1 <= n ->
  y_keyed_hash key input n = Panic /\ y_derive_key key input n = Panic.
Proof. exact python_short_key. Qed.

(* 2^64 bytes in, 2^64 out *)
Example C19_largest :
  mode_ok (Keyed sample_key) /\ bytes (zeros (2 ^ 64)) /\ len (zeros (2 ^ 64)) <= 2 ^ 64 /\
  2 ^ 64 <= 2 ^ 64.
Proof.
  split; [apply sample_key_ok|]. split; [apply bytes_zeros|]. rewrite len_zeros. split; discriminate.
Qed.

Example C19_library_meets :
  platform_ok (Cfg true true true) PAVX2 /\ mode_ok (Deriving sample_key) /\ bytes (sample 5000) /\
  len (sample 5000) < WU (Cfg true true true) /\ N.of_nat 5 < MAX_BLOCKS /\ 303 <= 64 * N.of_nat 5.
Proof.
  split; [reflexivity|]. split; [apply sample_derive_ok|]. split; [apply sample_bytes|].
  rewrite sample_len. split; [reflexivity|]. split; [reflexivity|discriminate].
Qed.

(* two chunks and an output that is not a multiple of 4 *)
Example C19_run :
  y_run (Keyed sample_key) (sample 2100) 70
  = Ok (spec_xof blake_compress (Keyed sample_key) (sample 2100) 70).
Proof. vm_compute. reflexivity. Qed.

(* keys of 33 and 31 bytes *)
Example C19_keys :
  y_keyed_hash (sample 33) [1; 2; 3] 40 = y_keyed_hash (sample 32) [1; 2; 3] 40 /\
  y_keyed_hash (sample 31) [1; 2; 3] 40 = Panic.
Proof. vm_compute. split; reflexivity. Qed.

Print Assumptions C19_python_is_tree_hash.
Print Assumptions C19_python_is_library.
Print Assumptions C19_python_long_key.
Print Assumptions C19_python_short_key.
