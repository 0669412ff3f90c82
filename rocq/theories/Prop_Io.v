(* C25, C26: copy_wide and io::Write. *)
From Coq Require Import NArith List Bool Lia.
From Verif Require Import Base Spec Portable Platform Lib Session Io IoSpec.
From Verif Require Import IoFacts Samples.
Import ListNotations.
Open Scope N_scope.

(* ---- C25 ------------------------------------------------------------------------ *)

(* Whatever the reader and the writer do: if copy_wide returns, then the reader delivered
   some bytes bs and
   - on success it was at its end, the writer has taken exactly bs, and the number
     returned is their number (2^64 bytes or more: a debug build panics, a release build
     wraps);
   - on an error of the reader, the writer has taken exactly the bytes delivered before;
   - on an error of the writer, it has taken a prefix of them. *)
Theorem C25_copy_wide : forall R W (rd : R -> N -> read_result * R)
  (wr : W -> list N -> res (write_result * W)) c fuel wfuel r w x r' w',
  copy_wide c rd wr fuel wfuel r w = Ok (x, r', w') ->
  exists bs r1, delivers rd (COPY_BUF_LEN c) r bs r1 /\
    match x with
    | IoOk n => at_eof rd (COPY_BUF_LEN c) r1 r' /\ accepts wr w bs w' /\
        n = len bs mod 2 ^ 64 /\ (dbg c = true -> n = len bs)
    | IoErr e =>
        (at_error rd (COPY_BUF_LEN c) e r1 r' /\ accepts wr w bs w') \/
        (r1 = r' /\ exists taken rest w1, bs = taken ++ rest /\ accepts wr w taken w1 /\ fails wr e w1 w')
    end.
Proof. exact copy_sound. Qed.

(* And it does return, and retries interrupted reads: copying from any reader that
   delivers bs and then ends or fails, into a vector, appends bs. *)
Theorem C25_copy_wide_to_vec : forall R (rd : R -> N -> read_result * R) c r bs r1 r' v,
  delivers rd (COPY_BUF_LEN c) r bs r1 -> len bs < 2 ^ 64 ->
  (at_eof rd (COPY_BUF_LEN c) r1 r' ->
   exists fuel0, forall fuel wfuel, (fuel0 <= fuel)%nat -> (1 <= wfuel)%nat ->
     copy_wide c rd vec_write fuel wfuel r v = Ok (IoOk (len bs), r', v ++ bs)) /\
  (forall e, at_error rd (COPY_BUF_LEN c) e r1 r' ->
   exists fuel0, forall fuel wfuel, (fuel0 <= fuel)%nat -> (1 <= wfuel)%nat ->
     copy_wide c rd vec_write fuel wfuel r v = Ok (IoErr e, r', v ++ bs)).
Proof. exact copy_to_vec. Qed.

(* The same for every writer that never fails, however little it takes at a time and however
   often it is interrupted.  And if the reader claims to have filled more than the buffer,
   which no correct reader does, copy_wide panics and does not go on with wrong data. *)
Theorem C25_copy_wide_ends : forall R W (rd : R -> N -> read_result * R)
  (wr : W -> list N -> res (write_result * W)) c r bs r1 w,
  steady wr -> delivers rd (COPY_BUF_LEN c) r bs r1 -> len bs < 2 ^ 64 ->
  exists w' fuel0, accepts wr w bs w' /\ forall fuel wfuel, (fuel0 <= fuel)%nat -> (fuel0 <= wfuel)%nat ->
    (forall r', at_eof rd (COPY_BUF_LEN c) r1 r' ->
       copy_wide c rd wr fuel wfuel r w = Ok (IoOk (len bs), r', w')) /\
    (forall e r', at_error rd (COPY_BUF_LEN c) e r1 r' ->
       copy_wide c rd wr fuel wfuel r w = Ok (IoErr e, r', w')) /\
    (claims_too_much rd (COPY_BUF_LEN c) r1 -> copy_wide c rd wr fuel wfuel r w = Panic).
Proof. exact copy_ends. Qed.

(* The buffer is a multiple of the widest SIMD batch and not below std's. *)
Theorem C25_buffer_sizes : forall c,
  STD_DEFAULT_BUF_LEN <= COPY_BUF_LEN c /\ COPY_BUF_LEN c mod WIDE_BUF_LEN c = 0 /\
  WIDE_BUF_LEN c <= COPY_BUF_LEN c.
Proof. exact buffer_sizes. Qed.
(* The sizes promised in the documentation of WIDE_BUF_LEN. *)
Theorem C25_documented_sizes : forall c,
  (x86 c = true -> WIDE_BUF_LEN c = 16384) /\ WIDE_BUF_LEN c <= 65536.
Proof. exact documented_sizes. Qed.

(* a reader that plays a script, and one that fails *)
Definition play (s : list read_result) (n : N) : read_result * list read_result :=
  match s with [] => (ReadOk [], []) | x :: r => (x, r) end.
Definition script : list read_result :=
  [ReadOk [1; 2]; ReadInterrupted; ReadInterrupted; ReadOk [3]; ReadOk (sample 5000)].
Example script_delivers : forall c,
  delivers play (COPY_BUF_LEN c) script ([1; 2] ++ [3] ++ sample 5000 ++ []) [] /\
  at_eof play (COPY_BUF_LEN c) [] [] /\
  delivers play (COPY_BUF_LEN c) (script ++ [ReadErr 5])
    ([1; 2] ++ [3] ++ sample 5000 ++ []) [ReadErr 5] /\
  at_error play (COPY_BUF_LEN c) 5 [ReadErr 5] [].
Proof.
  intros c.
  assert (L : forall n, n <= 5000 -> n <= COPY_BUF_LEN c).
  { intros n H. destruct (buffer_sizes c) as [B _]. unfold STD_DEFAULT_BUF_LEN in B. lia. }
  assert (Ns : sample 5000 <> []).
  { intros E. apply (f_equal len) in E. rewrite sample_len in E. discriminate. }
  assert (D : forall last, delivers play (COPY_BUF_LEN c) (script ++ last)
    ([1; 2] ++ [3] ++ sample 5000 ++ []) last).
  { intros last.
    eapply del_data; [reflexivity|discriminate|apply L; cbn; lia|].
    eapply del_interrupted; [reflexivity|].
    eapply del_interrupted; [reflexivity|].
    eapply del_data; [reflexivity|discriminate|apply L; cbn; lia|].
    eapply del_data; [reflexivity|exact Ns|rewrite sample_len; apply L; lia|].
    constructor. }
  split; [|split; [reflexivity|split; [apply D|reflexivity]]].
  specialize (D []). rewrite app_nil_r in D. exact D.
Qed.
(* a writer that takes at most two bytes at a time, is sometimes interrupted, and breaks
   when it has ten *)
Definition slow (w : bool * list N) (buf : list N) : res (write_result * (bool * list N)) :=
  if fst w then Ok (WriteInterrupted, (false, snd w))
  else if 10 <=? len (snd w) then Ok (WriteErr 28, w)
  else let k := N.min 2 (len buf) in Ok (WriteOk k, (true, snd w ++ take k buf)).
Example C25_run :
  copy_wide (Cfg true true true) play slow 20 20
    [ReadOk [1; 2; 3]; ReadInterrupted; ReadOk [4]] (false, [])
  = Ok (IoOk 4, [], (true, [1; 2; 3; 4])) /\
  copy_wide (Cfg true true true) play slow 20 20
    [ReadOk [1; 2; 3]; ReadErr 7; ReadOk [4]] (false, [])
  = Ok (IoErr 7, [ReadOk [4]], (true, [1; 2; 3])) /\
  copy_wide (Cfg true true true) play slow 20 20
    [ReadOk [1; 2; 3; 4; 5; 6; 7]; ReadOk [8; 9; 10; 11; 12; 13]; ReadOk [14]] (false, [])
  = Ok (IoErr 28, [ReadOk [14]], (false, [1; 2; 3; 4; 5; 6; 7; 8; 9; 10; 11])).
Proof. repeat split. Qed.

(* a writer that takes one byte at every second call and is interrupted at the others *)
Definition lazy_writer (w : bool * list N) (buf : list N) : res (write_result * (bool * list N)) :=
  if fst w then Ok (WriteInterrupted, (false, snd w)) else Ok (WriteOk 1, (true, snd w ++ take 1 buf)).
Example lazy_writer_steady : steady lazy_writer.
Proof.
  exists (fun w : bool * list N => if fst w then 1%nat else 0%nat). intros [b got] buf Nb. unfold lazy_writer. cbn [fst snd].
  destruct b; [right|left].
  - eexists. split; [reflexivity|]. cbn. lia.
  - exists 1. eexists. split; [reflexivity|]. destruct buf; [contradiction|]. unfold len. cbn [length]. lia.
Qed.
Example C25_ends_run :
  copy_wide (Cfg true true true) play lazy_writer 20 20
    [ReadOk [1; 2; 3]; ReadInterrupted; ReadOk [4]] (true, [])
  = Ok (IoOk 4, [], (true, [1; 2; 3; 4])) /\
  claims_too_much (fun (_ : unit) n => (ReadOk (repeat 7 (S (N.to_nat n))), tt)) 16384 tt.
Proof.
  split; [reflexivity|]. eexists. exists tt. split; [reflexivity|]. unfold len. rewrite repeat_length. lia.
Qed.

(* ---- C26 ------------------------------------------------------------------------ *)

(* A hasher that has been fed inputs, then copied to from any reader that delivers bs,
   then finalized, gives the hash of all the bytes; also if the reader failed after bs. *)
Theorem C26_copy_into_hasher : forall R (rd : R -> N -> read_result * R) c p m inputs r bs r1 r' z,
  platform_ok c p -> mode_ok m -> Forall bytes inputs -> bytes bs ->
  len (concat inputs) + len bs < 2 ^ 64 ->
  delivers rd (COPY_BUF_LEN c) r bs r1 ->
  (at_eof rd (COPY_BUF_LEN c) r1 r' /\ z = IoOk (len bs)) \/
  (exists e, at_error rd (COPY_BUF_LEN c) e r1 r' /\ z = IoErr e) ->
  exists h h' fuel0, feed c (start p m) inputs = Ok h /\
    (forall fuel wfuel, (fuel0 <= fuel)%nat -> (1 <= wfuel)%nat ->
      copy_wide c rd (hasher_write c) fuel wfuel r h = Ok (z, r', h')) /\
    finalize c h' = Ok (spec_hash blake_compress m (concat inputs ++ bs)).
Proof. exact copy_hashes. Qed.

(* write takes the whole buffer, as update does, and flush does nothing. *)
Theorem C26_write : forall c h buf,
  (forall h', update c h buf = Ok h' -> write c h buf = Ok (h', len buf)) /\ flush h = Ok h.
Proof. exact write_is_update. Qed.

Example C26_example :
  platform_ok (Cfg true true true) PSSE41 /\ mode_ok Hashing /\ Forall bytes [sample 3; []] /\
  bytes ([1; 2] ++ [3] ++ sample 5000 ++ []) /\
  len (concat [sample 3; []]) + len ([1; 2] ++ [3] ++ sample 5000 ++ []) < 2 ^ 64.
Proof.
  split; [reflexivity|]. split; [exact I|]. split.
  - repeat constructor; try apply sample_bytes; reflexivity.
  - split.
    + repeat (apply Forall_app; split); try apply sample_bytes; repeat constructor; reflexivity.
    + cbn [concat]. unfold len. rewrite !app_length.
      pose proof (sample_len 3) as L3. pose proof (sample_len 5000) as L5. unfold len in *.
      cbn [length]. lia.
Qed.

Print Assumptions C25_copy_wide.
Print Assumptions C25_copy_wide_to_vec.
Print Assumptions C25_copy_wide_ends.
Print Assumptions C25_buffer_sizes.
Print Assumptions C25_documented_sizes.
Print Assumptions C26_copy_into_hasher.
Print Assumptions C26_write.
