(* What is seen of a run when every step is seen but not the values, and counting vector
   operations. *)
From Coq Require Import NArith List Bool.
From Verif Require Import Base SecretSpec Steps VOps.
Import ListNotations.
Open Scope N_scope.

(* all steps with their positions and constants, and how the run ends *)
Definition steps_seen {A : Type} (run : vs A) : list vstep * ending :=
  (fst run, ending_of (snd run)).

(* arithmetic, shuffles, blends and permutations of whole vectors *)
Definition vector_op (s : vstep) : bool :=
  match s with Op1 _ | Op2 _ => true | _ => false end.
Definition vector_ops {A : Type} (run : vs A) : N := len (filter vector_op (fst run)).
