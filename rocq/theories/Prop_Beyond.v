(* C38: the streaming Hasher at and beyond 2^64 bytes; C23 at every offset. *)
From Coq Require Import NArith List Bool Lia.
From Verif Require Import Base BaseFacts Spec Portable Platform Lib SessionSpec Session.
From Verif Require Import ManySpec ApiFacts WrapSpec WrapFacts BeyondFacts Samples.
Import ListNotations.
Open Scope N_scope.

(* a debug build and a release build on a 64-bit x86 machine *)
Definition debug_cfg : cfg := Cfg true true true.
Definition release_cfg : cfg := Cfg false true true.

(* ---- C38 ------------------------------------------------------------------------ *)

(* Whether a sequence of updates succeeds depends on their lengths only.  If it does, the
   hash and the output are those of the concatenation; otherwise the Hasher panics, in
   debug and in release builds alike. *)
Theorem C38_any_length : forall c p m inputs n,
  platform_ok c p -> mode_ok m -> Forall bytes inputs -> N.of_nat n < MAX_BLOCKS ->
  if accepts 0 (map len inputs) then
    exists h o bs o',
      feed c (start p m) inputs = Ok h /\
      finalize c h = Ok (spec_hash blake_compress m (concat inputs)) /\
      finalize_xof c h = Ok o /\ reads c n o = Ok (bs, o') /\
      concat bs = spec_xof blake_compress m (concat inputs) (64 * N.of_nat n)
  else feed c (start p m) inputs = Panic.
Proof. exact stream_any. Qed.

(* In particular: no wrong hash, whatever the length ... *)
Theorem C38_no_wrong_hash : forall c p m inputs h,
  platform_ok c p -> mode_ok m -> Forall bytes inputs ->
  feed c (start p m) inputs = Ok h ->
  len (concat inputs) <= 2 ^ 64 /\ finalize c h = Ok (spec_hash blake_compress m (concat inputs)).
Proof. exact stream_right. Qed.

(* ... and more than 2^64 bytes are always refused. *)
Theorem C38_beyond_panics : forall c p m inputs,
  platform_ok c p -> mode_ok m -> Forall bytes inputs -> 2 ^ 64 < len (concat inputs) ->
  feed c (start p m) inputs = Panic.
Proof. exact stream_beyond. Qed.

(* At exactly 2^64 bytes it depends on how the input is cut. *)
Theorem C38_split_matters_at_2_64 : forall c p m, platform_ok c p -> mode_ok m ->
  exists xs ys, Forall bytes xs /\ Forall bytes ys /\ concat xs = concat ys /\
    len (concat xs) = 2 ^ 64 /\
    (exists h, feed c (start p m) xs = Ok h) /\ feed c (start p m) ys = Panic.
Proof. exact split_matters. Qed.

(* So "every total of up to 2^64 bytes is accepted" is false. *)
Theorem C38_limit_refuted : ~ (forall c p m inputs,
  platform_ok c p -> mode_ok m -> Forall bytes inputs -> len (concat inputs) <= 2 ^ 64 ->
  exists h, feed c (start p m) inputs = Ok h).
Proof. exact limit_refuted. Qed.

(* accepted and refused sequences around the limit *)
Example C38_accepts :
  accepts 0 [70001; 0; 2 ^ 63] = true /\
  accepts 0 [2 ^ 64 - 1] = true /\
  accepts 0 [2 ^ 64 - 1; 1] = true /\
  accepts 0 [2 ^ 64 - 2048; 1; 2047; 0] = true /\
  accepts 0 [2 ^ 64 - 2048; 2048] = false /\
  accepts 0 [2 ^ 64] = false /\
  accepts 0 [2 ^ 64 - 1; 1; 1] = false /\
  accepts 0 [2 ^ 64 - 1; 2; 0] = false.
Proof. vm_compute. repeat split. Qed.

Example C38_example :
  let inputs := [zeros (2 ^ 64 - 1); [7]; [8]] in
  platform_ok debug_cfg PAVX2 /\ platform_ok release_cfg PPortable /\ mode_ok (Keyed sample_key) /\
  Forall bytes inputs /\ 2 ^ 64 < len (concat inputs).
Proof.
  cbv zeta. split; [reflexivity|]. split; [exact I|]. split; [exact sample_key_ok|]. split.
  - constructor; [apply bytes_zeros|]. repeat constructor.
  - cbn [concat]. rewrite !len_app, len_zeros. reflexivity.
Qed.

(* ---- C23, every offset ----------------------------------------------------------- *)

(* On every platform hash_many hashes each input at its own offset, taken modulo 2^64 in
   a release build; a debug build panics exactly if the offset after the last input does
   not fit into 64 bits. *)
Theorem C23_every_offset : forall c p cap inputs key off delta flags fs fe out,
  cap mod 64 = 0 -> Forall (fun i => len i = cap /\ bytes i) inputs ->
  length key = 8%nat -> words key -> 32 * len inputs <= len out -> off < 2 ^ 64 ->
  Platform.hash_many c p cap inputs key off delta flags fs fe out
  = many_result c key flags fs fe off delta inputs out.
Proof. exact hash_many_any. Qed.

(* the same for two inputs of one block each, below and above the limit *)
Example C23_limit_example :
  let run c off := Platform.hash_many c PSSE41 64 [sample 64; sample 64] IV off 2048 0 1 2 (zeros 70) in
  run debug_cfg (2 ^ 64 - 4096) = Panic /\
  (exists out, run debug_cfg (2 ^ 64 - 4097) = Ok out) /\
  (exists out, run release_cfg (2 ^ 64 - 4096) = Ok out).
Proof. vm_compute. repeat split; eexists; reflexivity. Qed.

Print Assumptions C38_any_length.
Print Assumptions C38_no_wrong_hash.
Print Assumptions C38_beyond_panics.
Print Assumptions C38_split_matters_at_2_64.
Print Assumptions C38_limit_refuted.
Print Assumptions C23_every_offset.
