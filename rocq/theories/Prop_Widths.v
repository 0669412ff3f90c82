(* C49: how many chunks Hasher::update hashes side by side (src/lib.rs:830-835 and
   src/copy.rs:7-24: buffers that are a multiple of WIDE_BUF_LEN occupy all the SIMD lanes,
   and copy_wide takes care of this). *)
From Coq Require Import NArith List Bool Lia.
From Verif Require Import Base Spec Portable Platform Lib Session Io Widths WidthFacts BaseFacts ApiFacts Samples.
Import ListNotations.
Open Scope N_scope.

(* The functions that note the numbers return what update returns. *)
Theorem widths_are_of_update : forall c h input, snd (w_update c h input) = update c h input.
Proof. exact snd_update. Qed.

(* Buffers that are multiples of WIDE_BUF_LEN, on x86: every call of hash_many is given as
   many chunks as there are lanes (8), and the input is hashed by these calls alone: there
   are len / WIDE_BUF_LEN of them, and nothing is copied into the chunk state. *)
Theorem C49_wide_buffers : forall c p m inputs, x86 c = true -> platform_ok c p -> mode_ok m ->
  Forall bytes inputs -> Forall (fun x => len x mod WIDE_BUF_LEN c = 0) inputs ->
  len (concat inputs) < 2 ^ 64 ->
  exists h, w_feed c (start p m) inputs
    = (repeat (MAX_SIMD_DEGREE c) (N.to_nat (len (concat inputs) / WIDE_BUF_LEN c)), Ok h) /\
    cs_len (h_chunk h) = 0.
Proof. exact wide_feed. Qed.

(* Any update of any state: at most one call is given fewer chunks than there are lanes,
   and it is the last one. *)
Theorem C49_every_update : forall c h input, exists k w,
  fst (w_update c h input) = repeat (MAX_SIMD_DEGREE c) k ++ w /\
  (w = [] \/ exists j, w = [j] /\ 0 < j < MAX_SIMD_DEGREE c) /\
  N.of_nat k <= len input / WIDE_BUF_LEN c.
Proof. exact every_update. Qed.

(* So an update with less than WIDE_BUF_LEN bytes never occupies all lanes. *)
Theorem C49_small_buffers : forall c h input, len input < WIDE_BUF_LEN c ->
  Forall (fun k => k < MAX_SIMD_DEGREE c) (fst (w_update c h input)).
Proof. exact small_update. Qed.

(* copy_wide from a reader that fills the buffer, on x86: all calls but at most one, the
   last, occupy all the lanes. *)
Theorem C49_copy_wide : forall c p m data, x86 c = true -> platform_ok c p -> mode_ok m ->
  bytes data -> len data < 2 ^ 64 ->
  exists w h', (w = [] \/ exists k, w = [k] /\ k < MAX_SIMD_DEGREE c) /\
    forall fuel wfuel, (length data < fuel)%nat -> (1 <= wfuel)%nat ->
    copy_wide c slice_read (w_write c) fuel wfuel data ([], start p m)
    = Ok (IoOk (len data), [],
          (repeat (MAX_SIMD_DEGREE c) (N.to_nat (len data / WIDE_BUF_LEN c)) ++ w, h')).
Proof. exact copy_lanes. Qed.

(* The claim that copy_wide takes care of this does not hold for every reader: it hands
   over what one read returns, without filling its buffer first.  From a reader that
   returns at most k < WIDE_BUF_LEN bytes at a time, such as a pipe, it copies everything,
   whatever the length, and no call at all occupies all the lanes. *)
Theorem C49_copy_wide_refuted : forall c p m k data, platform_ok c p -> mode_ok m -> bytes data ->
  len data < 2 ^ 64 -> 0 < k < WIDE_BUF_LEN c ->
  exists l h, Forall (fun j => j < MAX_SIMD_DEGREE c) l /\
    forall fuel wfuel, (length data < fuel)%nat -> (1 <= wfuel)%nat ->
    copy_wide c (pipe_read k) (w_write c) fuel wfuel data ([], start p m)
    = Ok (IoOk (len data), [], (l, h)).
Proof. exact pipe_copies. Qed.

(* The same for any reader with short answers. *)
Theorem C49_short_reads : forall R (rd : R -> N -> read_result * R) c p m,
  (forall r n data r', rd r n = (ReadOk data, r') -> len data < WIDE_BUF_LEN c) ->
  forall fuel wfuel r x r' l h,
  copy_wide c rd (w_write c) fuel wfuel r ([], start p m) = Ok (x, r', (l, h)) ->
  Forall (fun k => k < MAX_SIMD_DEGREE c) l.
Proof. exact short_reads_copy. Qed.

(* The sizes, and hypotheses met: three buffers of 16384, 49152 and 0 bytes give four calls. *)
Example C49_sizes : MAX_SIMD_DEGREE (Cfg true true true) = 8 /\ WIDE_BUF_LEN (Cfg true true true) = 16384.
Proof. split; reflexivity. Qed.
Example C49_example : exists h,
  w_feed (Cfg true true true) (start PAVX2 (Keyed sample_key)) [sample 16384; sample 49152; []]
  = ([8; 8; 8; 8], Ok h).
Proof.
  assert (L : len (concat [sample 16384; sample 49152; []]) = 65536).
  { cbn [concat]. rewrite !len_app, !sample_len. reflexivity. }
  destruct (C49_wide_buffers (Cfg true true true) PAVX2 (Keyed sample_key)
    [sample 16384; sample 49152; []]) as (h & E & _).
  - reflexivity.
  - cbv; auto.
  - exact sample_key_ok.
  - apply Forall_cons; [apply sample_bytes|]. apply Forall_cons; [apply sample_bytes|].
    apply Forall_cons; [apply (sample_bytes 0)|apply Forall_nil].
  - apply Forall_cons; [rewrite sample_len; reflexivity|].
    apply Forall_cons; [rewrite sample_len; reflexivity|].
    apply Forall_cons; [reflexivity|apply Forall_nil].
  - rewrite L. reflexivity.
  - rewrite L in E. exists h. exact E.
Qed.
(* 20000 bytes: one full call and then one chunk; from a pipe of 8192 bytes, no full call. *)
Example C49_example_copy : exists w h', (w = [] \/ exists k, w = [k] /\ k < 8) /\
  forall fuel, 20000 < N.of_nat fuel ->
    copy_wide (Cfg false true true) slice_read (w_write (Cfg false true true)) fuel 1 (sample 20000)
      ([], start PAVX2 Hashing) = Ok (IoOk 20000, [], (8 :: w, h')).
Proof.
  destruct (C49_copy_wide (Cfg false true true) PAVX2 Hashing (sample 20000)) as (w & h' & W & E).
  - reflexivity.
  - cbv; auto.
  - exact I.
  - apply sample_bytes.
  - rewrite sample_len. reflexivity.
  - pose proof (sample_len 20000) as L. rewrite L in E. exists w, h'. split; [exact W|].
    intros fuel Hf. apply E; [|lia]. unfold len in L. lia.
Qed.
Example C49_example_pipe : exists l h, Forall (fun j => j < 8) l /\
  forall fuel, 20000 < N.of_nat fuel ->
    copy_wide (Cfg false true true) (pipe_read 8192) (w_write (Cfg false true true)) fuel 1 (sample 20000)
      ([], start PAVX2 Hashing) = Ok (IoOk 20000, [], (l, h)).
Proof.
  destruct (C49_copy_wide_refuted (Cfg false true true) PAVX2 Hashing 8192 (sample 20000)) as (l & h & W & E).
  - cbv; auto.
  - exact I.
  - apply sample_bytes.
  - rewrite sample_len. reflexivity.
  - split; reflexivity.
  - pose proof (sample_len 20000) as L. rewrite L in E. exists l, h. split; [exact W|].
    intros fuel Hf. apply E; [|lia]. unfold len in L. lia.
Qed.

Print Assumptions widths_are_of_update.
Print Assumptions C49_wide_buffers.
Print Assumptions C49_every_update.
Print Assumptions C49_small_buffers.
Print Assumptions C49_copy_wide.
Print Assumptions C49_copy_wide_refuted.
Print Assumptions C49_short_reads.
