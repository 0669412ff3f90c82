(* C42: what the code does depends on keys and inputs only through their lengths.
   LibCalls.v is the code with a list of its compression calls; SecretSpec.v says what is
   observed of a run. *)
From Coq Require Import NArith List Bool.
From Verif Require Import Base BaseFacts Spec Portable Platform Lib Session LibCalls.
From Verif Require Import SecretSpec SecretFacts Samples.
Import ListNotations.
Open Scope N_scope.

(* Two programs that use the same mode with any two keys, and inputs of the same lengths
   with any contents: the code makes the same compression calls in the same order, with the
   same operand sizes, block lengths, offsets and flags, and both return or both panic.
   There is no limit on the lengths, and it holds for every build and platform. *)
Theorem C42_secret_independence : forall c p m m' g g' n,
  mode_ok m -> mode_ok m' -> same_kind m m' ->
  bytes (data g) -> bytes (data g') -> same_lengths g g' ->
  observed (t_hash c p m g []) = observed (t_hash c p m' g' []) /\
  observed (t_xof c p m g n []) = observed (t_xof c p m' g' n []).
Proof. exact program_observed. Qed.

Definition other_key : list N := repeat 255 32.
Definition pieces : program := Streaming [sample 70; sample 2000; []; sample 4000].
Definition other_pieces : program := Streaming [zeros 70; zeros 2000; []; zeros 4000].
Example C42_example :
  mode_ok (Keyed sample_key) /\ mode_ok (Keyed other_key) /\
  same_kind (Keyed sample_key) (Keyed other_key) /\
  bytes (data pieces) /\ bytes (data other_pieces) /\ same_lengths pieces other_pieces /\
  sample_key <> other_key /\ data pieces <> data other_pieces.
Proof.
  split; [apply sample_key_ok|]. split.
  { split; [reflexivity|]. apply Forall_forall. intros x Hx. apply repeat_spec in Hx. now subst. }
  split; [exact I|]. split; [|split; [|split; [|split]]].
  - cbn [data pieces concat]. rewrite !bytes_app. repeat split; try apply sample_bytes; constructor.
  - cbn [data other_pieces concat]. rewrite !bytes_app. repeat split; try apply bytes_zeros; constructor.
  - vm_compute. reflexivity.
  - vm_compute. discriminate.
  - vm_compute. discriminate.
Qed.
(* a run: what is observed when 70 bytes are hashed with a key, then three more bytes; the
   length of the input, in contrast to its contents, does show *)
Example C42_run :
  observed (t_hash (Cfg true false true) PPortable (Keyed sample_key)
              (Streaming [sample 70; sample 3]) [])
  = ([(8, 64, 64, 0, 17); (8, 64, 9, 0, 26)], Returns) /\
  observed (t_hash (Cfg true false true) PPortable (Keyed sample_key)
              (Streaming [sample 70; sample 4]) [])
  = ([(8, 64, 64, 0, 17); (8, 64, 10, 0, 26)], Returns).
Proof. vm_compute. split; reflexivity. Qed.

Print Assumptions C42_secret_independence.
