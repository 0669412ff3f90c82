(* C46: programs that use the C hasher in any order of calls. *)
From Coq Require Import NArith List Bool Lia.
From Verif Require Import Base BaseFacts Spec SessionSpec CSimd CImpl CSpec.
From Verif Require Import CSessionSpec CSession CSessionFacts Samples.
Import ListNotations.
Open Scope N_scope.

(* A program creates any number of C hashers, initialises them again, copies and overwrites
   them, updates and finalises them, in any order, and no hasher gets more than 2^63 bytes
   after it was last initialised.  Then for every choice of backends nothing stops, and every hasher_finalize
   gives the hash, under the key and flags of that hasher, of exactly the bytes fed to it (and, if it is a
   copy, to the original before that). *)
Theorem C46_c_programs : forall o xs a ss,
  c_abstract_run (53 * 32) (2 ^ 63) [] xs = Some (a, ss) ->
  exists w, c_run o [] xs = Ok (w, ss).
Proof. exact c_program_ok. Qed.

(* Compiled with NDEBUG, up to 2^64 - 1 bytes. *)
Theorem C46_c_programs_without_assertions : forall o xs a ss, ndebug o = true ->
  c_abstract_run (53 * 32) (2 ^ 64 - 1) [] xs = Some (a, ss) ->
  exists w, c_run o [] xs = Ok (w, ss).
Proof. exact c_program_no_assertions. Qed.

(* The same for objects of the Rust wrapper, which are shorter, below 2^63 bytes. *)
Theorem C46_wrapper_programs : forall o cap xs a ss, RUST_SUBTREE_HASHES <= cap ->
  c_abstract_run cap (2 ^ 63 - 1) [] xs = Some (a, ss) ->
  exists w, c_run o [] xs = Ok (w, ss).
Proof. exact c_wrapper_program_ok. Qed.

(* With the key and flags of a mode, the hash is the one specified for that mode. *)
Theorem C46_modes : forall m data, mode_ok m ->
  flags_hash (bytes_of_words (mode_key m)) (mode_flags m) data = spec_hash blake_compress m data.
Proof. exact flags_hash_mode. Qed.

(* A copy made in the middle, a finalize before more input, an assignment and a second
   initialisation of a hasher in use. *)
Definition sample_program (memory : list N) : list c_call :=
  [DNew memory sample_key 16;
   DUpdate 0 (sample 60) (zeros 512);
   DCopy 0;
   DUpdate 1 (sample 3) (sample 512);
   DFinalize 0;
   DUpdate 0 (sample 4) (zeros 512);
   DAssign 0 1;
   DInit 1 sample_key 32;
   DFinalize 1; DFinalize 0].

Definition sample_seen : list (list N) :=
  [flags_hash sample_key 16 (sample 60);
   flags_hash sample_key 32 [];
   flags_hash sample_key 16 (sample 60 ++ sample 3)].

Example C46_allowed :
  c_abstract_run (53 * 32) (2 ^ 63) [] (sample_program (sample 1696))
  = Some ([(sample_key, 16, sample 60 ++ sample 3); (sample_key, 32, [])], sample_seen).
Proof. reflexivity. Qed.
(* the wrapper, with an array of 1664 bytes *)
Example C46_wrapper_allowed :
  c_abstract_run 1664 (2 ^ 63 - 1) [] (sample_program (sample 1664))
  = Some ([(sample_key, 16, sample 60 ++ sample 3); (sample_key, 32, [])], sample_seen).
Proof. reflexivity. Qed.
Example C46_run :
  (let* (w, ss) := c_run (COpts false false true false true false false) []
                     (sample_program (sample 1696)) in Ok ss)
  = Ok sample_seen.
Proof. vm_compute. reflexivity. Qed.

Print Assumptions C46_c_programs.
Print Assumptions C46_c_programs_without_assertions.
Print Assumptions C46_wrapper_programs.
Print Assumptions C46_modes.
