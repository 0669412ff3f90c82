(* C18: the reference implementation. *)
From Coq Require Import NArith List Bool Lia.
From Verif Require Import Base BaseFacts Spec Platform Lib SessionSpec Session.
From Verif Require Import RefImpl RefFacts Samples.
Import ListNotations.
Open Scope N_scope.

(* The reference Hasher of any mode, given any sequence of updates of up to 2^64 bytes in total,
   fills a buffer of any length n (up to 2^64 - 64 bytes, and Rust's slices have less than
   2^63) with the first n bytes of the specified output of the concatenation, without
   panicking, in debug and release builds. *)
Theorem C18_reference_is_tree_hash : forall c m inputs out,
  mode_ok m -> Forall bytes inputs -> len (concat inputs) <= 2 ^ 64 -> len out + 63 < 2 ^ 64 ->
  exists h, r_feed c (r_start m) inputs = Ok h /\
            r_finalize c h out = Ok (spec_xof blake_compress m (concat inputs) (len out)).
Proof. exact reference_ok. Qed.

(* Those are the first bytes of what the library's Hasher produces, read block by block. *)
Theorem C18_reference_is_library : forall c p m inputs out n,
  platform_ok c p -> mode_ok m -> Forall bytes inputs -> len (concat inputs) < 2 ^ 64 ->
  N.of_nat n < MAX_BLOCKS -> len out <= 64 * N.of_nat n ->
  exists hr h o bs o',
    r_feed c (r_start m) inputs = Ok hr /\ feed c (start p m) inputs = Ok h /\
    finalize_xof c h = Ok o /\ reads c n o = Ok (bs, o') /\
    r_finalize c hr out = Ok (take (len out) (concat bs)).
Proof. exact reference_lib. Qed.

(* 2^64 - 1 bytes, 2^63 - 1 bytes of output *)
Example C18_largest :
  let inputs := [zeros (2 ^ 63); sample 2047; zeros (2 ^ 63 - 2048)] in
  mode_ok (Keyed sample_key) /\ Forall bytes inputs /\ len (concat inputs) = 2 ^ 64 - 1 /\
  len (zeros (2 ^ 63 - 1)) + 63 < 2 ^ 64 /\ N.of_nat 1000 < MAX_BLOCKS.
Proof.
  cbv zeta. split; [apply sample_key_ok|]. split; [|split; [|split]].
  - repeat (apply Forall_cons; [first [apply bytes_zeros|apply sample_bytes]|]). constructor.
  - cbn [concat]. rewrite !len_app, !len_zeros, sample_len, len_nil. reflexivity.
  - rewrite len_zeros. reflexivity.
  - reflexivity.
Qed.

(* the model run on two chunks, cut unevenly, against the specification *)
Example C18_run :
  (let* h := r_feed (Cfg true true true) (r_start (Deriving sample_key))
               [sample 100; sample 1990; []; sample 30] in
   r_finalize (Cfg true true true) h (zeros 70))
  = Ok (spec_xof blake_compress (Deriving sample_key)
          (sample 100 ++ sample 1990 ++ sample 30) 70).
Proof. vm_compute. reflexivity. Qed.

Print Assumptions C18_reference_is_tree_hash.
Print Assumptions C18_reference_is_library.
