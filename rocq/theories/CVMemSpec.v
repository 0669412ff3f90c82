(* Bounds of the memory that hash_many in C accesses: those of VMemSpec.v and the array of
   offset deltas. *)
From Coq Require Import NArith List Bool.
From Verif Require Import Base Steps VOps VMemSpec CImpl.
Import ListNotations.
Open Scope N_scope.

(* nd is the number of offset deltas, of eight bytes each *)
Definition c_inside (nd n : nat) (cap out : N) (s : vstep) : bool :=
  match s with
  | Load PDeltas off b => off + b <=? 8 * N.of_nat nd
  | Get PDeltas i => Nat.ltb i nd
  | _ => inside n cap out s
  end.

(* The number of offset deltas that hash_many declares (c/baokeshed_impl.h): 2 in the portable
   code, 5 for SSE4.1, 9 for AVX2, 17 for AVX-512.  For NEON it declares 17, but 5 are
   enough. *)
Definition deltas_needed (o : copts) : nat :=
  if use_avx512 o then 17
  else if use_avx2 o then 9
  else if use_sse41 o then 5
  else if use_neon o then 5
  else 2.
