(* C40: which input lengths the three implementations accept. *)
From Coq Require Import NArith List Bool Lia.
From Verif Require Import Base BaseFacts Spec Platform Lib SessionSpec Session WrapSpec.
From Verif Require Import RefImpl PyImpl PyFacts LimitFacts Samples.
Import ListNotations.
Open Scope N_scope.

(* The reference implementation accepts exactly the inputs of up to 2^64 bytes, however they
   are cut, and panics on the update that goes beyond, in debug and release builds. *)
Theorem C40_reference_limit : forall c m inputs out,
  mode_ok m -> Forall bytes inputs -> len out + 63 < 2 ^ 64 ->
  (let* h := r_feed c (r_start m) inputs in r_finalize c h out)
  = if len (concat inputs) <=? 2 ^ 64
    then Ok (spec_xof blake_compress m (concat inputs) (len out)) else Panic.
Proof. exact reference_limit. Qed.

(* The Python functions accept every input and every output length, and take offsets modulo
   2^64 (up to 2^64 bytes of both, that makes no difference: C19_python_is_tree_hash). *)
Theorem C40_python_no_limit : forall m input n, mode_ok m -> bytes input ->
  y_run m input n = Ok (spec_xof (wrapped blake_compress) m input n).
Proof. exact python_run. Qed.

(* "The implementations agree on every input" is false at 2^64 bytes: there the reference and
   Python give the specified hash of an input on which the library's Hasher panics. *)
Theorem C40_same_limit_refuted : forall c p m, platform_ok c p -> mode_ok m ->
  exists inputs, Forall bytes inputs /\ len (concat inputs) = 2 ^ 64 /\
    feed c (start p m) inputs = Panic /\
    (let* h := r_feed c (r_start m) inputs in r_finalize c h (zeros 32))
      = Ok (spec_xof blake_compress m (concat inputs) 32) /\
    y_run m (concat inputs) 32 = Ok (spec_xof blake_compress m (concat inputs) 32).
Proof. exact limits_differ. Qed.

(* one byte below, at and above the limit *)
Example C40_lengths :
  let total l := len (concat (map zeros l)) <=? 2 ^ 64 in
  mode_ok (Keyed sample_key) /\ bytes (zeros (2 ^ 65)) /\ len (zeros 70) + 63 < 2 ^ 64 /\
  total [2 ^ 63; 2 ^ 63 - 1] = true /\ total [2 ^ 63; 2 ^ 63] = true /\
  total [2 ^ 64; 1] = false /\ platform_ok (Cfg false true true) PAVX2.
Proof.
  cbv zeta. split; [apply sample_key_ok|]. split; [apply bytes_zeros|].
  split; [rewrite len_zeros; reflexivity|]. cbn [map concat].
  rewrite !len_app, !len_zeros, len_nil. repeat split.
Qed.

(* the model, run at an offset of 2^64 *)
Example C40_wraps :
  y_compress IV (sample 64) 64 (2 ^ 64 + 2048) 0 = y_compress IV (sample 64) 64 2048 0.
Proof. vm_compute. reflexivity. Qed.

Print Assumptions C40_reference_limit.
Print Assumptions C40_python_no_limit.
Print Assumptions C40_same_limit_refuted.
