(* C66: the 64-bit variant's NEON code on machines of either byte order. *)
From Coq Require Import NArith List Bool Lia.
From Verif Require Import Base BaseFacts Spec64 C64 C64Order C64OrderFacts Samples.
Import ListNotations.
Open Scope N_scope.

(* big: the machine is big-endian.  hash2: what hash2_neon does there, which is not modelled.
   swap_words64 reverses each group of eight bytes. *)

(* On a little-endian machine this is the function that C36 is about. *)
Theorem C66_little_endian : forall inputs blocks key offset deltas flags fs fe out,
  hash_many_neon_on64 false hash2_neon inputs blocks key offset deltas flags fs fe out
  = hash_many_neon inputs blocks key offset deltas flags fs fe out.
Proof. exact order64_little. Qed.

(* An odd number of inputs: whatever hash2_neon does with the others, the hash of the last one
   is the specified one, with the bytes of each word in reverse on a big-endian machine. *)
Theorem C66_odd_number : forall big hash2 inputs input blocks key offset delta deltas flags fs fe out,
  (forall ins off, len ins = 2 -> Forall (fun i => 128 * blocks <= len i /\ bytes i) ins ->
     off < 2 ^ 64 ->
     exists h, hash2 ins blocks key off deltas flags fs fe = Ok h /\ len h = 64) ->
  length key = 4%nat -> len inputs mod 2 = 0 ->
  Forall (fun i => 128 * blocks <= len i /\ bytes i) (inputs ++ [input]) ->
  32 * (len inputs + 1) <= len out -> offset < 2 ^ 64 -> firstn 3 deltas = deltas64 3 delta ->
  let h := one64 key flags fs fe ((offset + len inputs * delta) mod 2 ^ 64)
             (take (128 * blocks) input) in
  exists hs, len hs = 32 * len inputs /\
    hash_many_neon_on64 big hash2 (inputs ++ [input]) blocks key offset deltas flags fs fe out
    = Ok (hs ++ (if big then swap_words64 h else h) ++ drop (32 * (len inputs + 1)) out).
Proof. exact order64_odd. Qed.

(* One input, next to hash_many_portable. *)
Theorem C66_one_input : forall big hash2 input blocks key offset delta deltas flags fs fe out,
  length key = 4%nat -> 128 * blocks <= len input -> bytes input -> len out = 32 ->
  offset < 2 ^ 64 -> firstn 3 deltas = deltas64 3 delta ->
  let h := one64 key flags fs fe offset (take (128 * blocks) input) in
  hash_many_neon_on64 big hash2 [input] blocks key offset deltas flags fs fe out
  = Ok (if big then swap_words64 h else h) /\
  hash_many_portable [input] blocks key offset deltas flags fs fe out = Ok h.
Proof. exact order64_single. Qed.

(* An even number of inputs: all hashes are right on either machine if hash2_neon is right. *)
Theorem C66_even_number : forall big hash2 inputs blocks key offset delta deltas flags fs fe out,
  (forall ins off, len ins = 2 -> Forall (fun i => 128 * blocks <= len i /\ bytes i) ins ->
     off < 2 ^ 64 ->
     hash2 ins blocks key off deltas flags fs fe
     = Ok (concat (all64 key flags fs fe off delta (map (take (128 * blocks)) ins)))) ->
  length key = 4%nat -> len inputs mod 2 = 0 ->
  Forall (fun i => 128 * blocks <= len i /\ bytes i) inputs ->
  32 * len inputs <= len out -> offset < 2 ^ 64 -> firstn 3 deltas = deltas64 3 delta ->
  hash_many_neon_on64 big hash2 inputs blocks key offset deltas flags fs fe out
  = Ok (concat (all64 key flags fs fe offset delta (map (take (128 * blocks)) inputs))
        ++ drop (32 * len inputs) out).
Proof. exact order64_even. Qed.

(* The claim that the NEON code gives the portable code's hashes on machines of either byte
   order is false, whatever hash2_neon does. *)
Theorem C66_any_byte_order_refuted :
  ~ (forall big, exists hash2, forall inputs blocks key offset flags fs fe out,
  length key = 4%nat -> Forall (fun i => 128 * blocks <= len i /\ bytes i) inputs ->
  32 * len inputs <= len out -> offset < 2 ^ 64 ->
  hash_many_neon_on64 big hash2 inputs blocks key offset CHUNK_OFFSET_DELTAS flags fs fe out
  = hash_many_portable inputs blocks key offset CHUNK_OFFSET_DELTAS flags fs fe out).
Proof. exact order64_refuted. Qed.

(* hash2_neon on a little-endian machine is one choice of hash2 *)
Example C66_hash2 : forall ins off, len ins = 2 ->
  Forall (fun i => 128 * 1 <= len i /\ bytes i) ins -> off < 2 ^ 64 ->
  hash2_neon ins 1 (firstn 4 IV64) off CHUNK_OFFSET_DELTAS 0 1 2
  = Ok (concat (all64 (firstn 4 IV64) 0 1 2 off 4096 (map (take (128 * 1)) ins))).
Proof.
  intros ins off L F O. apply C64Facts.hash2_neon_ok; auto; reflexivity.
Qed.

(* three inputs, the last at offset 0 after the wrap-around, and 5 bytes to spare *)
Example C66_three_inputs :
  let first := [sample 128; sample 200] in
  length (firstn 4 IV64) = 4%nat /\ len first mod 2 = 0 /\
  Forall (fun i => 128 * 1 <= len i /\ bytes i) (first ++ [sample 130]) /\
  32 * (len first + 1) <= len (zeros 101) /\ 2 ^ 64 - 2 * 4096 < 2 ^ 64 /\
  (2 ^ 64 - 2 * 4096 + len first * 4096) mod 2 ^ 64 = 0 /\
  firstn 3 CHUNK_OFFSET_DELTAS = deltas64 3 4096.
Proof.
  cbv zeta. split; [reflexivity|]. split; [reflexivity|]. split.
  { repeat (constructor; [split; [rewrite sample_len; discriminate|apply sample_bytes]|]). constructor. }
  split; [discriminate|]. split; [reflexivity|]. split; reflexivity.
Qed.
Example C66_swap : swap_words64 [1; 2; 3; 4; 5; 6; 7; 8; 9; 10; 11; 12; 13; 14; 15; 16]
  = [8; 7; 6; 5; 4; 3; 2; 1; 16; 15; 14; 13; 12; 11; 10; 9].
Proof. reflexivity. Qed.
(* the first eight bytes of a hash, right and wrong *)
Example C66_wrong_hash :
  let h := one64 (firstn 4 IV64) 0 1 2 0 (sample 128) in
  take 8 h = [79; 59; 191; 172; 252; 182; 153; 30] /\
  take 8 (swap_words64 h) = [30; 153; 182; 252; 172; 191; 59; 79].
Proof. vm_compute. split; reflexivity. Qed.

Print Assumptions C66_little_endian.
Print Assumptions C66_odd_number.
Print Assumptions C66_one_input.
Print Assumptions C66_even_number.
Print Assumptions C66_any_byte_order_refuted.
