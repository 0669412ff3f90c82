(* What a program that uses the C hasher should see: an abstract machine over variables of
   type hasher.  No reference to the model of the code.

   A variable holds the key and the flags it was initialised with last and the bytes fed to
   it since. *)
From Coq Require Import NArith List Bool.
From Verif Require Import Base Spec SessionSpec.
Import ListNotations.
Open Scope N_scope.

(* One step of the program.  Variables are numbered in order of creation.  memory is what
   the array subtree_hashes of a new variable contains, junk what the local array of
   hasher_update contains. *)
Inductive c_call : Type :=
| DNew (memory key : list N) (flags : N)     (* a new variable, and hasher_init *)
| DInit (i : nat) (key : list N) (flags : N) (* hasher_init on a variable in use *)
| DCopy (i : nat)                            (* a new variable, a copy of variable i *)
| DAssign (i j : nat)                        (* variable i = variable j *)
| DUpdate (i : nat) (input junk : list N)    (* hasher_update *)
| DFinalize (i : nat).                       (* hasher_finalize *)

Definition c_abstract : Type := list (list N * N * list N).

(* the hash of data under a key and flags *)
Definition flags_hash (key : list N) (flags : N) (data : list N) : list N :=
  take 32 (root_block blake_compress (root_node blake_compress (words_of_bytes key) flags data) 0).

Definition key_okb (key : list N) : bool := (len key =? 32) && bytesb key.

(* None: a variable that does not exist, or a total above max.  cap is the size of the array
   subtree_hashes.  What the step shows is the 32 bytes written by hasher_finalize. *)
Definition c_abstract_step (cap max : N) (a : c_abstract) (x : c_call)
  : option (c_abstract * list (list N)) :=
  match x with
  | DNew memory key flags =>
      if (len memory =? cap) && key_okb key then Some (a ++ [(key, flags, [])], []) else None
  | DInit i key flags =>
      match nth_error a i with
      | Some _ => if key_okb key then Some (replace a i (key, flags, []), []) else None
      | None => None
      end
  | DCopy i =>
      match nth_error a i with Some v => Some (a ++ [v], []) | None => None end
  | DAssign i j =>
      match nth_error a i, nth_error a j with
      | Some _, Some v => Some (replace a i v, [])
      | _, _ => None
      end
  | DUpdate i input junk =>
      match nth_error a i with
      | Some (key, flags, data) =>
          if bytesb input && (len junk =? 16 * 32) && (len data + len input <=? max)
          then Some (replace a i (key, flags, data ++ input), [])
          else None
      | None => None
      end
  | DFinalize i =>
      match nth_error a i with
      | Some (key, flags, data) => Some (a, [flags_hash key flags data])
      | None => None
      end
  end.

(* All hashes shown, in order. *)
Fixpoint c_abstract_run (cap max : N) (a : c_abstract) (xs : list c_call)
  : option (c_abstract * list (list N)) :=
  match xs with
  | [] => Some (a, [])
  | x :: r =>
      match c_abstract_step cap max a x with
      | Some (a', s) =>
          match c_abstract_run cap max a' r with
          | Some (a'', ss) => Some (a'', s ++ ss)
          | None => None
          end
      | None => None
      end
  end.
