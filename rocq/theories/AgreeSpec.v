(* The lengths the interfaces declare. *)
From Coq Require Import NArith List Bool.
From Verif Require Import Base Spec.
Open Scope N_scope.

(* the key of a mode, if it has one, is n bytes *)
Definition key_of_len (n : N) (m : mode) : Prop :=
  match m with
  | Hashing => True
  | Keyed key => len key = n /\ bytes key
  | Deriving key => len key = n /\ bytes key
  end.
