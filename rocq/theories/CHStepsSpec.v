(* How often a byte of an input is read. *)
From Coq Require Import NArith List Bool.
From Verif Require Import Base VOps.
Import ListNotations.
Open Scope N_scope.

(* the step reads the byte at position i of an input: a load of n bytes from off, or a call of
   compress on the 64 bytes from off *)
Definition reads_at (i : N) (s : vstep) : bool :=
  match s with
  | Load (PInput _) off n => (off <=? i) && (i <? off + n)
  | Call (PInput _) off => (off <=? i) && (i <? off + 64)
  | _ => false
  end.
Definition times_read (i : N) (l : list vstep) : N := len (filter (reads_at i) l).
