(* C03, C04, C05, C06 and the streaming part of C07. *)
From Coq Require Import NArith List Bool Lia.
From Verif Require Import Base BaseFacts Spec Portable Platform Lib SessionSpec Session.
From Verif Require Import ApiFacts StreamFacts Samples.
Import ListNotations.
Open Scope N_scope.

(* a debug build on a 64-bit x86 machine *)
Definition debug_cfg : cfg := Cfg true true true.

(* ---- C03 ------------------------------------------------------------------------ *)

(* Any sequence of updates below 2^64 bytes in total succeeds, and finalize and
   finalize_xof give the specified hash and output of the concatenation. *)
Theorem C03_streaming_is_tree_hash : forall c p m inputs n,
  platform_ok c p -> mode_ok m -> Forall bytes inputs -> len (concat inputs) < 2 ^ 64 ->
  N.of_nat n < MAX_BLOCKS ->
  exists h o bs o',
    feed c (start p m) inputs = Ok h /\
    finalize c h = Ok (spec_hash blake_compress m (concat inputs)) /\
    finalize_xof c h = Ok o /\ reads c n o = Ok (bs, o') /\
    concat bs = spec_xof blake_compress m (concat inputs) (64 * N.of_nat n).
Proof. exact stream_stream. Qed.

(* It is the same as the one-shot function on the concatenation, for every length that
   can be passed to the one-shot function. *)
Theorem C03_streaming_is_one_shot : forall c p m inputs,
  platform_ok c p -> mode_ok m -> Forall bytes inputs -> len (concat inputs) < WU c ->
  (let* h := feed c (start p m) inputs in finalize c h) = oneshot c p m (concat inputs) /\
  (let* h := feed c (start p m) inputs in finalize_xof c h) = oneshot_xof c p m (concat inputs).
Proof. exact stream_equals_oneshot. Qed.

(* Two ways of cutting the same input give the same output. *)
Theorem C03_split_does_not_matter : forall c p m xs ys,
  platform_ok c p -> mode_ok m -> Forall bytes xs -> Forall bytes ys ->
  len (concat xs) < 2 ^ 64 -> concat xs = concat ys ->
  (let* h := feed c (start p m) xs in finalize_xof c h)
  = (let* h := feed c (start p m) ys in finalize_xof c h).
Proof. exact stream_split. Qed.

(* empty pieces, pieces of one byte, a whole number of chunks, and a long one *)
Example C03_example :
  let inputs := [[]; sample 1; sample 2047; []; sample 8192; sample 70001] in
  Forall bytes inputs /\ len (concat inputs) < WU debug_cfg /\ platform_ok debug_cfg PAVX2.
Proof.
  cbv zeta. split.
  - repeat (apply Forall_cons; [first [apply sample_bytes|constructor]|]). constructor.
  - cbn [concat]. rewrite !len_app, !sample_len, len_nil. split; reflexivity.
Qed.

(* ---- C04 ------------------------------------------------------------------------ *)

Theorem C04_hasher_never_panics : forall c p m inputs,
  platform_ok c p -> mode_ok m -> Forall bytes inputs -> len (concat inputs) < 2 ^ 64 ->
  exists h d o, feed c (start p m) inputs = Ok h /\ finalize c h = Ok d /\ finalize_xof c h = Ok o.
Proof. exact stream_never_panics. Qed.

(* the largest case: 2^64 - 1 bytes in one or in three updates *)
Example C04_largest :
  let one := [zeros (2 ^ 64 - 1)] in
  let three := [zeros (2 ^ 63); zeros (2 ^ 63 - 2048); zeros 2047] in
  Forall bytes one /\ Forall bytes three /\
  len (concat one) = 2 ^ 64 - 1 /\ len (concat three) = 2 ^ 64 - 1.
Proof.
  cbv zeta. split; [|split; [|split]].
  - constructor; [apply bytes_zeros|constructor].
  - repeat (apply Forall_cons; [apply bytes_zeros|]). constructor.
  - cbn [concat]. rewrite len_app, len_zeros, len_nil. reflexivity.
  - cbn [concat]. rewrite !len_app, !len_zeros, len_nil. reflexivity.
Qed.

(* ---- C05 ------------------------------------------------------------------------ *)

(* In every interleaving of updates with finalize and finalize_xof, each result is that
   of the bytes fed so far, as if no finalize had happened in between. *)
Theorem C05_finalize_is_pure : forall c p m es,
  platform_ok c p -> mode_ok m -> Forall event_ok es -> len (fed es) < 2 ^ 64 ->
  history c (start p m) es = Ok (expected m [] es).
Proof. exact history_start. Qed.

Example C05_example :
  let es := [EFinalize; EUpdate (sample 3000); EFinalize; EFinalize; EXof 3;
             EUpdate (sample 1096); EXof 1; EUpdate []; EFinalize] in
  Forall event_ok es /\ len (fed es) = 4096 /\ length (expected Hashing [] es) = 6%nat.
Proof.
  cbv zeta. split; [|split].
  - repeat (apply Forall_cons; [first [apply sample_bytes|exact I|reflexivity|constructor]|]).
    constructor.
  - unfold fed. cbn [flat_map]. rewrite !len_app, !sample_len, !len_nil. reflexivity.
  - reflexivity.
Qed.

(* ---- C06 ------------------------------------------------------------------------ *)

(* Every program over any number of hashers and outputs, with clones at any time, sees
   what the abstract machine of SessionSpec.v shows.  The platform may be detected
   differently at each call.  Slices are at most isize::MAX bytes long. *)
Theorem C06_handles_are_independent : forall c ps xs a ss,
  (forall n, platform_ok c (ps n)) ->
  abstract_run (WU c / 2 - 1) (Abstract [] []) xs = Some (a, ss) ->
  exists w, run c ps (World [] []) xs = Ok (w, ss).
Proof. exact program_ok. Qed.

(* a program with two modes, a clone that diverges, and reads from two outputs *)
Example C06_example :
  exists a ss, abstract_run (WU debug_cfg / 2 - 1) (Abstract [] [])
    [CNew Hashing; CNew (Keyed sample_key); CUpdate 0 (sample 70); CClone 0;
     CWrite 2 (sample 5); CFinalize 0; CFinalize 2; CUpdate 1 (sample 1); CFinalizeXof 1;
     CRead 0; CCloneOutput 0; CRead 1; CToHash 0; CHash (Deriving sample_key) []; CFlush 2]
    = Some (a, ss) /\ length ss = 15%nat.
Proof. do 2 eexists. split; vm_compute; reflexivity. Qed.

(* ---- C07, streaming -------------------------------------------------------------- *)

Theorem C07_streaming_platform_independent :
  forall c1 c2 avx2_1 sse41_1 avx2_2 sse41_2 m es,
  mode_ok m -> Forall event_ok es -> len (fed es) < 2 ^ 64 ->
  history c1 (start (detect c1 avx2_1 sse41_1) m) es
  = history c2 (start (detect c2 avx2_2 sse41_2) m) es.
Proof. exact history_platforms. Qed.

Example C07_streaming_example :
  start (detect debug_cfg true true) Hashing <> start (detect debug_cfg false false) Hashing.
Proof. discriminate. Qed.

Print Assumptions C03_streaming_is_tree_hash.
Print Assumptions C03_streaming_is_one_shot.
Print Assumptions C03_split_does_not_matter.
Print Assumptions C04_hasher_never_panics.
Print Assumptions C05_finalize_is_pure.
Print Assumptions C06_handles_are_independent.
Print Assumptions C07_streaming_platform_independent.
