(* How the C hasher is driven: initialise, update any number of times, finalise.
   Each update comes with what happens to be in its uninitialised local array. *)
From Coq Require Import NArith List Bool.
From Verif Require Import Base CSimd CImpl.
Import ListNotations.
Open Scope N_scope.

Fixpoint c_updates (o : copts) (h : c_hasher) (us : list (list N * list N)) : res c_hasher :=
  match us with
  | [] => Ok h
  | (input, junk) :: r => let* h := hasher_update o junk h input in c_updates o h r
  end.

(* memory is the memory at self->subtree_hashes *)
Definition c_hash (o : copts) (memory key : list N) (flags : N) (us : list (list N * list N))
  : res (list N) :=
  let* h := c_updates o (hasher_init memory key flags) us in hasher_finalize o h.

(* Inputs are bytes, the local array has MAX_SIMD_DEGREE * OUT_LEN bytes. *)
Definition c_updates_ok (us : list (list N * list N)) : Prop :=
  Forall (fun u => bytes (fst u) /\ len (snd u) = 16 * 32) us.
Definition c_data (us : list (list N * list N)) : list N := concat (map fst us).

(* The wrapper c::Hasher in Rust, src/c.rs:23-29, declares subtree_hashes with 1664 bytes, and
   repr(C) puts the array at byte 145 of a struct whose size is a multiple of 8, so at most 7
   bytes of padding follow it. *)
Definition RUST_SUBTREE_HASHES : N := 1664.
Definition RUST_PADDING : N := 7.
