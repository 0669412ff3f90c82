(* Bounds of the memory that the C hasher accesses, and which bytes its steps overwrite. *)
From Coq Require Import NArith List Bool.
From Verif Require Import Base Steps VOps VMemSpec CVMemSpec CSessionSpec.
Import ListNotations.
Open Scope N_scope.

(* Steps inside the arrays, for an input of n bytes: the buffer of 64 bytes, the array
   subtree_hashes of 53 * 32 bytes, the local array out of 16 * 32 bytes, the local array block
   of 64 bytes, the 17 offset deltas, and the tables and arrays of the compression function
   (inside in VMemSpec.v). *)
Definition hasher_inside (n : N) (s : vstep) : bool :=
  match s with
  | Load (PInput _) off b => off + b <=? n
  | Call (PInput _) off => off + 64 <=? n
  | Load PBuf off b | Store PBuf off b => off + b <=? 64
  | Call PBuf off => off + 64 <=? 64
  | Load PStack off b | Store PStack off b => off + b <=? 53 * 32
  | Call PStack off => off + 64 <=? 53 * 32
  | Load POut off b => off + b <=? 16 * 32
  | Call PBlock off => off + 64 <=? 64
  | _ => c_inside 17 0 0 (16 * 32) s
  end.

(* the step stores to byte i of the buffer, of subtree_hashes *)
Definition to_buf (i : N) (s : vstep) : bool :=
  match s with Store PBuf off n => (off <=? i) && (i <? off + n) | _ => false end.
Definition to_stack (i : N) (s : vstep) : bool :=
  match s with Store PStack off n => (off <=? i) && (i <? off + n) | _ => false end.

(* A call of a program: memory for a new hasher has the size of subtree_hashes, and an input
   has at most n bytes. *)
Definition fits (n : N) (x : c_call) : Prop :=
  match x with
  | DNew memory _ _ => len memory = 53 * 32
  | DUpdate _ input _ => len input <= n
  | _ => True
  end.
