(* What an observer may learn from a run without seeing the data: the calls of the
   compression function in the order they are made, each without the contents of its
   chaining value and its block, and whether the run ends normally or in a panic. *)
From Coq Require Import NArith List Bool.
From Verif Require Import Base Spec LibCalls.
Import ListNotations.
Open Scope N_scope.

(* the parts of a call that are not data: the sizes of the two operands, the block length,
   the offset and the flags *)
Definition public (x : node) : N * N * N * N * N :=
  (len (nd_cv x), len (nd_block x), nd_blen x, nd_off x, nd_flags x).

Inductive ending : Type := Returns | Panics | Unfinished.
Definition ending_of {A : Type} (r : res A) : ending :=
  match r with Ok _ => Returns | Panic => Panics | NoFuel => Unfinished end.

(* what is observed of a run: a list of calls and a result *)
Definition observed {A : Type} (run : list node * res A) : list (N * N * N * N * N) * ending :=
  (map public (fst run), ending_of (snd run)).

(* the same mode, with keys that may differ *)
Definition same_kind (m m' : mode) : Prop :=
  match m, m' with
  | Hashing, Hashing => True
  | Keyed _, Keyed _ => True
  | Deriving _, Deriving _ => True
  | _, _ => False
  end.
(* the same calls of the API with inputs of the same lengths *)
Definition same_lengths (g g' : program) : Prop :=
  match g, g' with
  | OneShot x, OneShot y => len x = len y
  | Streaming xs, Streaming ys => map len xs = map len ys
  | _, _ => False
  end.
