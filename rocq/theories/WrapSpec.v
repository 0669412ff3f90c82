(* Specification of hash_many when the offsets pass 2^64.

   An offset is a 64-bit counter.  A release build lets it wrap around; a debug
   build panics as soon as the offset after the last input would not fit. *)
From Coq Require Import NArith List Bool.
From Verif Require Import Base Spec ManySpec.
Open Scope N_scope.

(* The compression function, with the offset taken modulo 2^64. *)
Definition wrapped (F : cfun) : cfun := fun cv block blen off flags =>
  F cv block blen (off mod 2 ^ 64) flags.

(* What hash_many does to its output buffer `out`. *)
Definition many_result (c : cfg) (key : list N) (flags fs fe off delta : N)
  (inputs : list (list N)) (out : list N) : res (list N) :=
  if dbg c && (2 ^ 64 <=? off + len inputs * delta) then Panic
  else Ok (concat (hash_all (wrapped blake_compress) key flags fs fe off delta inputs)
           ++ drop (32 * len inputs) out).

(* Which sequences of updates a Hasher accepts, given only their lengths: `total` bytes
   came before.  An update must leave the total below 2^64, or bring it to exactly 2^64
   if it begins strictly inside the last possible chunk of 2048 bytes. *)
Fixpoint accepts (total : N) (lengths : list N) : bool :=
  match lengths with
  | nil => true
  | cons n rest =>
      ((total + n <? 2 ^ 64) || ((total + n =? 2 ^ 64) && (2 ^ 64 - 2048 <? total)))
      && accepts (total + n) rest
  end.
