(* C54: blocks of extended output that are certain to differ.  These rest on no assumption
   about the strength of the hash: the seven rounds are a permutation of the state. *)
From Coq Require Import NArith List Bool Lia.
From Verif Require Import Base BaseFacts Spec Platform Lib SessionSpec Session.
From Verif Require Import PermFacts Samples.
Import ListNotations.
Open Scope N_scope.

(* The compression of one block with one chaining value, for different offsets, block lengths or
   flags, gives different outputs of 64 bytes. *)
Theorem C54_compression : forall cv block blen off flags blen' off' flags',
  length cv = 8%nat -> words cv -> off < 2 ^ 64 -> off' < 2 ^ 64 ->
  blen < 2 ^ 32 -> flags < 2 ^ 32 -> blen' < 2 ^ 32 -> flags' < 2 ^ 32 ->
  blake_compress cv block blen off flags = blake_compress cv block blen' off' flags' ->
  blen = blen' /\ off = off' /\ flags = flags'.
Proof. exact compress_inj. Qed.

(* No block of 64 bytes comes twice in the output of hash_xof, keyed_hash_xof or derive_key_xof, ... *)
Theorem C54_no_repetition : forall c p m input n,
  platform_ok c p -> mode_ok m -> bytes input -> len input < WU c -> N.of_nat n < 2 ^ 58 ->
  exists o bs o', oneshot_xof c p m input = Ok o /\ reads c n o = Ok (bs, o') /\ length bs = n /\ NoDup bs.
Proof. exact oneshot_nodup. Qed.

(* ... nor in that of a Hasher, ... *)
Theorem C54_no_repetition_hasher : forall c p m inputs n,
  platform_ok c p -> mode_ok m -> Forall bytes inputs -> len (concat inputs) < 2 ^ 64 -> N.of_nat n < 2 ^ 58 ->
  exists h o bs o', feed c (start p m) inputs = Ok h /\ finalize_xof c h = Ok o /\
    reads c n o = Ok (bs, o') /\ length bs = n /\ NoDup bs.
Proof. exact stream_nodup. Qed.

(* ... except that a release build starts again after 2^58 blocks (C11): 2^58 is the exact period. *)
Theorem C54_period : forall c p m input n,
  platform_ok c p -> mode_ok m -> bytes input -> len input < WU c -> dbg c = false ->
  exists o bs o', oneshot_xof c p m input = Ok o /\ reads c n o = Ok (bs, o') /\ length bs = n /\
    forall k l, (k < n)%nat -> (l < n)%nat ->
      (nth_error bs k = nth_error bs l <-> N.of_nat k mod 2 ^ 58 = N.of_nat l mod 2 ^ 58).
Proof. exact release_period. Qed.

(* The last block of a chunk is padded with zeros.  An input of one chunk and the same input with
   zeros appended that only take the place of this padding have no block of output in common. *)
Theorem C54_padding : forall c p m x k o o' b b' r r' n n' bs bs', platform_ok c p -> mode_ok m -> bytes x -> 0 < k ->
  len x + k <= 2048 -> (len x - 1) / 64 = (len x + k - 1) / 64 ->
  N.of_nat n < 2 ^ 58 -> N.of_nat n' < 2 ^ 58 ->
  oneshot_xof c p m x = Ok o -> oneshot_xof c p m (x ++ zeros k) = Ok o' ->
  reads c n o = Ok (bs, r) -> reads c n' o' = Ok (bs', r') -> In b bs -> In b' bs' -> b <> b'.
Proof. exact padding_api. Qed.

(* For one key and an input of one block, keyed_hash_xof and derive_key_xof have no block in common. *)
Theorem C54_modes : forall c p key x o o' b b' r r' n n' bs bs', platform_ok c p ->
  bytes key -> len key = 32 -> bytes x -> len x <= 64 -> N.of_nat n < 2 ^ 58 -> N.of_nat n' < 2 ^ 58 ->
  oneshot_xof c p (Keyed key) x = Ok o -> oneshot_xof c p (Deriving key) x = Ok o' ->
  reads c n o = Ok (bs, r) -> reads c n' o' = Ok (bs', r') -> In b bs -> In b' bs' -> b <> b'.
Proof. exact keyed_derive_api. Qed.

(* the longest outputs, 100 kB of input *)
Example C54_case :
  platform_ok (Cfg true true true) (detect (Cfg true true true) true true) /\
  mode_ok (Keyed sample_key) /\ bytes (sample 100000) /\ len (sample 100000) < WU (Cfg true true true) /\
  N.of_nat (N.to_nat (2 ^ 58 - 1)) < 2 ^ 58 /\
  (2 ^ 58 + 3) mod 2 ^ 58 = 3 mod 2 ^ 58.
Proof.
  split; [reflexivity|]. split; [apply sample_key_ok|]. split; [apply sample_bytes|].
  rewrite sample_len, N2Nat.id. repeat split.
Qed.
(* inputs of 70 and 128 bytes; the empty input and a zero byte *)
Example C54_padding_case :
  bytes (sample 70) /\ len (sample 70) + 58 <= 2048 /\
  (len (sample 70) - 1) / 64 = (len (sample 70) + 58 - 1) / 64 /\
  (len (@nil N) - 1) / 64 = (len (@nil N) + 1 - 1) / 64.
Proof. split; [apply sample_bytes|]. rewrite sample_len. repeat split. discriminate. Qed.
(* two blocks of each of two streams of the model *)
Example C54_run :
  let run m x := (let* o := oneshot_xof (Cfg true true true) PPortable m x in
                  let* (bs, _) := reads (Cfg true true true) 2 o in Ok (map (take 4) bs)) in
  run (Keyed sample_key) (sample 3) <> run (Deriving sample_key) (sample 3) /\
  run Hashing [] <> run Hashing [0] /\ exists x y, run Hashing [] = Ok [x; y] /\ x <> y.
Proof. vm_compute. split; [discriminate|]. split; [discriminate|]. do 2 eexists. split; [reflexivity|discriminate]. Qed.

Print Assumptions C54_compression.
Print Assumptions C54_no_repetition.
Print Assumptions C54_no_repetition_hasher.
Print Assumptions C54_period.
Print Assumptions C54_padding.
Print Assumptions C54_modes.
