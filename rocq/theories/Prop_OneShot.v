(* C01, C02, C07 (one-shot part), C32, C33: the one-shot functions. *)
From Coq Require Import NArith List Bool Lia.
From Verif Require Import Base Spec Portable Platform Lib SessionSpec Session.
From Verif Require Import LibFacts ApiFacts HashFacts OneShotFacts Samples.
Import ListNotations.
Open Scope N_scope.

(* ---- C01 ------------------------------------------------------------------------ *)

(* hash, keyed_hash and derive_key return the specified tree hash. *)
Theorem C01_one_shot_is_tree_hash : forall c p, platform_ok c p ->
  forall input, bytes input -> len input < WU c ->
  hash c p input = Ok (spec_hash blake_compress Hashing input) /\
  forall key, length key = 32%nat -> bytes key ->
    keyed_hash c p key input = Ok (spec_hash blake_compress (Keyed key) input) /\
    derive_key c p key input = Ok (spec_hash blake_compress (Deriving key) input).
Proof. exact one_shot_tree_hash. Qed.

(* a release build on a 64-bit x86 machine with AVX2, and a debug build for a 32-bit
   machine without SIMD; 9 chunks and one byte *)
Definition avx2_cfg : cfg := Cfg false true true.
Definition small_cfg : cfg := Cfg true false false.
Example C01_example :
  platform_ok avx2_cfg PAVX2 /\ platform_ok small_cfg PPortable /\
  bytes (sample 18433) /\ len (sample 18433) < WU avx2_cfg /\ len (sample 18433) < WU small_cfg /\
  length sample_key = 32%nat /\ bytes sample_key.
Proof.
  rewrite sample_len. repeat split; try reflexivity; apply sample_bytes.
Qed.
(* the value of a small case, by running the model *)
Example C01_run :
  hash small_cfg PPortable [] = Ok (spec_hash blake_compress Hashing []) /\
  keyed_hash avx2_cfg PSSE41 sample_key (sample 100)
  = Ok (spec_hash blake_compress (Keyed sample_key) (sample 100)).
Proof. split; vm_compute; reflexivity. Qed.

(* ---- C02 ------------------------------------------------------------------------ *)

(* None of the six one-shot functions panics or runs out of fuel, and what they return
   has the right size. *)
Theorem C02_one_shot_never_panics : forall c p, platform_ok c p ->
  forall m input, mode_ok m -> bytes input -> len input < WU c ->
  (exists h, oneshot c p m input = Ok h /\ len h = 32 /\ bytes h) /\
  (exists o, oneshot_xof c p m input = Ok o /\
     forall n, N.of_nat n < MAX_BLOCKS ->
       exists bs o', reads c n o = Ok (bs, o') /\ Forall (fun b => len b = 64 /\ bytes b) bs).
Proof. exact one_shot_total. Qed.

Example C02_example : mode_ok (Deriving sample_key) /\ mode_ok (Keyed sample_key) /\ mode_ok Hashing.
Proof. exact (conj sample_derive_ok (conj sample_key_ok I)). Qed.

(* ---- C07, one-shot ----------------------------------------------------------------- *)

(* Whatever the CPU detection returns, on every kind of build, the hash and every block
   of the extended output are the same. *)
Theorem C07_platform_independent : forall c1 c2 avx2_1 sse41_1 avx2_2 sse41_2 m input n,
  mode_ok m -> bytes input -> len input < WU c1 -> len input < WU c2 ->
  N.of_nat n < MAX_BLOCKS ->
  let p1 := detect c1 avx2_1 sse41_1 in
  let p2 := detect c2 avx2_2 sse41_2 in
  oneshot c1 p1 m input = oneshot c2 p2 m input /\
  (let* o := oneshot_xof c1 p1 m input in let* (bs, _) := reads c1 n o in Ok bs)
  = (let* o := oneshot_xof c2 p2 m input in let* (bs, _) := reads c2 n o in Ok bs).
Proof. exact one_shot_platforms. Qed.

Example C07_example :
  detect avx2_cfg true true = PAVX2 /\ detect avx2_cfg false true = PSSE41 /\
  detect avx2_cfg false false = PPortable /\ detect small_cfg true true = PPortable.
Proof. repeat split. Qed.

(* The platforms the other theorems quantify over are exactly those detection can return. *)
Theorem C07_detect : forall c p,
  platform_ok c p <-> exists avx2 sse41, detect c avx2 sse41 = p.
Proof. exact detect_ok. Qed.

(* ---- C32 ------------------------------------------------------------------------ *)

(* left_len is the largest power-of-two number of chunks that leaves at least one byte. *)
Theorem C32_left_len : forall c n, 2048 < n -> n < WU c ->
  exists k, left_len c n = Ok (2048 * 2 ^ k) /\ 2048 * 2 ^ k < n /\
    forall j, 2048 * 2 ^ j < n -> j <= k.
Proof. exact left_len_largest. Qed.

Example C32_example :
  left_len small_cfg 2049 = Ok 2048 /\ left_len small_cfg 4096 = Ok 2048 /\
  left_len small_cfg 4097 = Ok 4096 /\
  left_len avx2_cfg (2 ^ 63 + 1) = Ok (2 ^ 63) /\ left_len avx2_cfg (2 ^ 63) = Ok (2 ^ 62).
Proof. vm_compute. repeat split. Qed.

(* ---- C33 ------------------------------------------------------------------------ *)

Theorem C33_keys_in_full : forall a b,
  bytes a -> bytes b -> len a = 32 -> len b = 32 ->
  (words_from_key_bytes a = words_from_key_bytes b -> a = b) /\
  bytes_from_state_words (words_from_key_bytes a) = a /\
  length (words_from_key_bytes a) = 8%nat.
Proof. exact key_in_full. Qed.

Example C33_example :
  let a := sample_key in let b := 1 :: tl sample_key in
  bytes a /\ bytes b /\ len a = 32 /\ len b = 32 /\ words_from_key_bytes a <> words_from_key_bytes b.
Proof.
  cbv zeta. split; [apply sample_bytes|]. split; [|split; [reflexivity|split; [reflexivity|]]].
  - pose proof (sample_bytes 32) as B. constructor; [reflexivity|].
    now inversion B.
  - vm_compute. discriminate.
Qed.

Print Assumptions C01_one_shot_is_tree_hash.
Print Assumptions C02_one_shot_never_panics.
Print Assumptions C07_platform_independent.
Print Assumptions C07_detect.
Print Assumptions C32_left_len.
Print Assumptions C33_keys_in_full.
