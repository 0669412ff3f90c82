(* The 64-bit variant's code for NEON on machines of either byte order.  The other c64 files that
   may run on a big-endian machine (baokeshed64_portable.c) convert words byte by byte
   (c64/baokeshed64_impl.h); the bytes of a word are copied as they lie in memory in
   c64/baokeshed64_neon.c:6-16 (vectors) and c64/baokeshed64_neon.c:296 (an array of uint64_t).
   Definitions only. *)
From Coq Require Import NArith List Bool.
From Verif Require Import Base Spec Spec64 C64.
Import ListNotations.
Open Scope N_scope.

(* The eight bytes of a uint64_t in memory, the one with the lowest address first. *)
Definition word_memory64 (big : bool) (w : N) : list N :=
  if big then rev (bytes64 w) else bytes64 w.

(* c64/baokeshed64_neon.c:279-297, with the memcpy of line 296 *)
Definition hash_one_neon_on64 (big : bool) (input : list N) (blocks : N) (key : list N)
  (offset flags flags_start flags_end : N) : res (list N) :=
  let* state := hash_one_loop compress_portable (N.to_nat blocks) key input offset
                  (N.lor flags flags_start) flags flags_end in
  Ok (flat_map (word_memory64 big) state).

(* What hash2_neon does: inputs, blocks, key, offset, deltas, flags, flags_start, flags_end. *)
Definition hash2_fun : Type := list (list N) -> N -> list N -> N -> list N -> N -> N -> N -> res (list N).

(* c64/baokeshed64_neon.c:299-321.  How vectors lie in memory on a big-endian machine is not
   modelled: hash2 is anything there. *)
Definition hash_many_neon_on64 (big : bool) (hash2 : hash2_fun) (inputs : list (list N)) (blocks : N)
  (key : list N) (offset : N) (deltas : list N) (flags flags_start flags_end : N) (out : list N)
  : res (list N) :=
  many_loop (length inputs) 2
    (fun ins off => hash2 ins blocks key off deltas flags flags_start flags_end)
    (fun ins off out =>
       single_loop
         (fun i off => hash_one_neon_on64 big i blocks key off flags flags_start flags_end)
         deltas ins off out)
    inputs offset deltas out.

(* For the statements: each group of eight bytes reversed. *)
Definition swap_words64 (l : list N) : list N := concat (map (@rev N) (pieces 8 l)).
