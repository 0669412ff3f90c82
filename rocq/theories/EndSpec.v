(* What it means that a call ends, and which states of a hasher of the reference implementation
   have the types the code declares.  Definitions only. *)
From Coq Require Import NArith List.
From Verif Require Import Base RefImpl.
Import ListNotations.
Open Scope N_scope.

(* The call returns a value or panics (in Python: raises an exception); no loop and no recursion
   in it goes on for ever. *)
Definition ends {A : Type} (r : res A) : Prop := (exists a, r = Ok a) \/ r = Panic.

(* reference_impl/reference_impl.rs:142-149 and 232-237: block is a [u8; 64], block_len and
   blocks_compressed are u8, subtree_stack is an array of 53 chaining
   values, subtree_stack_len is a u8 *)
Definition r_typed (h : r_hasher) : Prop :=
  len (rc_block (rh_chunk h)) = 64 /\ rc_block_len (rh_chunk h) < 256 /\
  rc_blocks_compressed (rh_chunk h) < 256 /\ len (rh_stack h) = 53 /\ rh_stack_len h < 256.
