(* C44: what the C hasher does depends on keys and inputs only through their lengths.
   CCalls.v is the code with a list of its compression calls; SecretSpec.v says what is
   observed of a run. *)
From Coq Require Import NArith List Bool.
From Verif Require Import Base BaseFacts Spec LibCalls CSimd CImpl CSpec CCalls SecretSpec CSecretFacts Samples.
Import ListNotations.
Open Scope N_scope.

(* Two runs with any two keys and the same flags, on updates of the same lengths with any
   contents, and with anything in uninitialised memory: the C hasher makes the same
   compression calls in the same order, with the same operand sizes, block lengths, offsets
   and flags, and both runs return or both abort.  There is no limit on the lengths or on the
   size of the array of hashes, and it holds for every choice of backends. *)
Theorem C44_c_secret_independence : forall o memory memory' key key' flags us us',
  length key = 32%nat -> bytes key -> length key' = 32%nat -> bytes key' ->
  len memory = len memory' -> bytes memory -> bytes memory' ->
  c_updates_ok us -> c_updates_ok us' ->
  Forall (fun u => bytes (snd u)) us -> Forall (fun u => bytes (snd u)) us' ->
  map (fun u => len (fst u)) us = map (fun u => len (fst u)) us' ->
  observed (n_hash o memory key flags us []) = observed (n_hash o memory' key' flags us' []).
Proof. exact c_observed. Qed.

Definition other_key : list N := repeat 255 32.
Definition updates : list (list N * list N) :=
  [(sample 70, sample 512); (sample 5000, zeros 512); ([], sample 512); (sample 40000, sample 512)].
Definition other_updates : list (list N * list N) :=
  [(zeros 70, zeros 512); (zeros 5000, sample 512); ([], zeros 512); (zeros 40000, zeros 512)].
Example C44_case :
  length sample_key = 32%nat /\ bytes sample_key /\ length other_key = 32%nat /\ bytes other_key /\
  len (sample 1696) = len (zeros 1696) /\ bytes (sample 1696) /\ bytes (zeros 1696) /\
  c_updates_ok updates /\ c_updates_ok other_updates /\
  Forall (fun u => bytes (snd u)) updates /\ Forall (fun u => bytes (snd u)) other_updates /\
  map (fun u => len (fst u)) updates = map (fun u => len (fst u)) other_updates /\
  sample_key <> other_key /\ sample 70 <> zeros 70.
Proof.
  split; [reflexivity|]. split; [apply sample_bytes|]. split; [reflexivity|]. split.
  { apply Forall_forall. intros x Hx. apply repeat_spec in Hx. now subst. }
  split; [now rewrite sample_len, len_zeros|]. split; [apply sample_bytes|]. split; [apply bytes_zeros|].
  split; [|split; [|split; [|split; [|split; [|split]]]]].
  - repeat (apply Forall_cons; [cbn [fst snd]; split;
      [first [apply bytes_zeros|apply sample_bytes|constructor]|first [apply len_zeros|apply sample_len]]|]).
    constructor.
  - repeat (apply Forall_cons; [cbn [fst snd]; split;
      [first [apply bytes_zeros|apply sample_bytes|constructor]|first [apply len_zeros|apply sample_len]]|]).
    constructor.
  - repeat (apply Forall_cons; [cbn [snd]; first [apply bytes_zeros|apply sample_bytes]|]). constructor.
  - repeat (apply Forall_cons; [cbn [snd]; first [apply bytes_zeros|apply sample_bytes]|]). constructor.
  - unfold updates, other_updates. cbn [map fst]. rewrite !sample_len, !len_zeros. reflexivity.
  - vm_compute. discriminate.
  - vm_compute. discriminate.
Qed.
(* what is observed when 70 bytes are hashed with a key, then three more *)
Example C44_run :
  observed (n_hash (COpts false false true false true false false) (sample 1696) sample_key 16
              [(sample 70, zeros 512); (sample 3, zeros 512)] [])
  = ([(8, 64, 64, 0, 17); (8, 64, 9, 0, 26)], Returns).
Proof. vm_compute. reflexivity. Qed.

Print Assumptions C44_c_secret_independence.
