(* Counting the steps of a run and putting the steps of its compression calls together. *)
From Coq Require Import NArith List Bool.
From Verif Require Import Base Spec LibCalls Platform Session CImpl CCalls Portable CSimd Steps.
Import ListNotations.
Open Scope N_scope.

(* additions, exclusive ors and rotations: the arithmetic of the specification *)
Definition arithmetic (x : step) : bool :=
  match x with Add | Xor | Rotate _ => true | _ => false end.
(* the indices of the bytes of the block that are read, in order *)
Definition block_reads (l : list step) : list nat :=
  flat_map (fun x => match x with Read AtBlock i => [i] | _ => [] end) l.
Definition count (f : step -> bool) (l : list step) : N := len (filter f l).

(* the steps of one compression call of a run *)
Definition call_steps (x : node) : list step :=
  fst (s_compress (nd_cv x) (nd_block x) (nd_blen x) (nd_off x) (nd_flags x)).
Definition c_call_steps (x : node) : list step :=
  fst (sc_compress_portable (nd_cv x) (nd_block x) (nd_blen x) (nd_off x) (nd_flags x)).
(* all of them, in the order of the calls: hashing with the portable Rust code, and with the
   C code when it has no vector instructions *)
Definition run_steps (calls : list node) : list step := flat_map call_steps calls.
Definition c_run_steps (calls : list node) : list step := flat_map c_call_steps calls.

(* the flag ROOT marks the calls whose 64 bytes are output *)
Definition xof_call_steps (x : node) : list step :=
  if N.testbit (nd_flags x) 3
  then fst (s_compress_xof (nd_cv x) (nd_block x) (nd_blen x) (nd_off x) (nd_flags x))
  else call_steps x.
Definition xof_run_steps (calls : list node) : list step := flat_map xof_call_steps calls.
