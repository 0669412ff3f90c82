(* C50: how deep the recursion goes, and how long hashing takes with enough threads. *)
From Coq Require Import NArith List Bool Lia.
From Verif Require Import Base BaseFacts Spec Portable Platform Lib Session LibCalls PyImpl Span SpanFacts Samples.
Import ListNotations.
Open Scope N_scope.

(* The functions with times return what the functions of the library return, *)
Theorem time_is_of_code : forall jn c p m input, snd (s_oneshot jn c p m input) = oneshot c p m input.
Proof. exact snd_oneshot. Qed.

(* and their time is the number of calls if the halves of a join run one after the other. *)
Theorem sequential_time : forall c p m input,
  fst (s_oneshot N.add c p m input) = len (fst (t_oneshot c p m input [])).
Proof. exact seq_oneshot. Qed.

(* If the halves run at the same time, then hash, keyed_hash and derive_key of n bytes take
   the time of at most 265 + 8 log2 (n / 2048) calls of the compression function, the number
   of chunks and the logarithm rounded up: *)
Theorem C50_parallel_time : forall c p m input,
  platform_ok c p -> mode_ok m -> bytes input -> len input < WU c ->
  fst (s_oneshot N.max c p m input) <= 265 + 8 * N.log2_up ((len input + 2047) / 2048).
Proof. exact oneshot_span. Qed.

(* at most 689, whatever the length. *)
Theorem C50_parallel_time_bounded : forall c p m input,
  platform_ok c p -> mode_ok m -> bytes input -> len input < WU c ->
  fst (s_oneshot N.max c p m input) <= 689.
Proof. exact oneshot_span_max. Qed.

(* The recursion of the one-shot functions (entered if there is more than one chunk) is no
   deeper than log2 of the number of chunks: allowed only d nested calls, it returns the same. *)
Theorem C50_depth : forall c p m input d,
  platform_ok c p -> mode_ok m -> bytes input -> 2048 < len input -> len input < WU c ->
  (len input + 2047) / 2048 <= 2 ^ N.of_nat d ->
  exists r,
    hash_recurse c p d input (mode_key m) 0 (mode_flags m)
      (zeros (MAX_SIMD_DEGREE_OR_2 c * OUT_LEN)) = Ok r /\
    hash_recurse c p (depth_fuel input) input (mode_key m) 0 (mode_flags m)
      (zeros (MAX_SIMD_DEGREE_OR_2 c * OUT_LEN)) = Ok r.
Proof. exact depth_ok. Qed.

(* The same for the Python implementation; so Python's limit of 1000 nested calls is not
   reached by any input that fits into a computer. *)
Theorem C50_python_depth : forall key_words flags input d,
  8 <= len key_words -> words key_words -> flags = 0 \/ flags = KEYED_HASH \/ flags = DERIVE_KEY ->
  bytes input -> (len input + 2047) / 2048 <= 2 ^ N.of_nat d ->
  exists o, y_hash_recurse d input key_words 0 flags = Ok o /\
            y_hash_recurse (length input) input key_words 0 flags = Ok o.
Proof. exact y_depth_ok. Qed.

(* 100000 bytes: at least 1563 calls in all, but no more than 313 one after the other *)
Example C50_example :
  fst (s_oneshot N.max (Cfg true true true) PAVX2 (Keyed sample_key) (sample 100000)) <= 313.
Proof.
  pose proof (C50_parallel_time (Cfg true true true) PAVX2 (Keyed sample_key) (sample 100000)
    eq_refl sample_key_ok (sample_bytes _)) as T.
  rewrite sample_len in T. apply T. reflexivity.
Qed.
(* 2^64 - 1 bytes: no more than 53 nested calls *)
Example C50_example_depth : exists r,
  hash_recurse (Cfg false false true) PPortable 53 (zeros (2 ^ 64 - 1)) (mode_key Hashing) 0
    (mode_flags Hashing) (zeros 64) = Ok r.
Proof.
  assert (L : len (zeros (2 ^ 64 - 1)) = 2 ^ 64 - 1) by apply len_zeros.
  destruct (C50_depth (Cfg false false true) PPortable Hashing (zeros (2 ^ 64 - 1)) 53) as (r & E & _).
  - exact I.
  - exact I.
  - apply bytes_zeros.
  - rewrite L. reflexivity.
  - rewrite L. reflexivity.
  - rewrite L. discriminate.
  - exists r. exact E.
Qed.
Example C50_example_python : exists o,
  y_hash_recurse 31 (zeros (2 ^ 40)) y_IV 0 0 = Ok o.
Proof.
  destruct (C50_python_depth y_IV 0 (zeros (2 ^ 40)) 31) as (o & E & _).
  - discriminate.
  - repeat constructor.
  - now left.
  - apply bytes_zeros.
  - rewrite len_zeros. discriminate.
  - exists o. exact E.
Qed.

Print Assumptions time_is_of_code.
Print Assumptions sequential_time.
Print Assumptions C50_parallel_time.
Print Assumptions C50_parallel_time_bounded.
Print Assumptions C50_depth.
Print Assumptions C50_python_depth.
