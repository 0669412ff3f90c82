(* C24: the C compression functions and the C hash_many functions. *)
From Coq Require Import NArith List Bool Lia.
From Verif Require Import Base Spec ManySpec WrapSpec CSimd CSimdProps Samples.
From Verif Require Portable Platform.
Import ListNotations.
Open Scope N_scope.

(* The three C compression functions, the Rust portable one and the specification agree. *)
Theorem C24_compress : forall cv block block_len offset flags,
  length cv = 8%nat -> length block = 64%nat -> bytes block -> offset < 2 ^ 64 ->
  compress_sse41 cv block block_len offset flags
    = compress_portable cv block block_len offset flags /\
  compress_avx512 cv block block_len offset flags
    = compress_portable cv block block_len offset flags /\
  compress_portable cv block block_len offset flags
    = Portable.compress cv block block_len offset flags /\
  compress_portable cv block block_len offset flags
    = firstn 8 (blake_compress cv block block_len offset flags).
Proof. exact c_compress_agree. Qed.

Example C24_compress_example :
  length IV = 8%nat /\ length (sample 64) = 64%nat /\ bytes (sample 64) /\
  compress_avx512 IV (sample 64) 61 (2 ^ 64 - 2048) 11
  = compress_portable IV (sample 64) 61 (2 ^ 64 - 2048) 11 /\
  compress_sse41 IV (sample 64) 61 (2 ^ 64 - 2048) 11
  = compress_portable IV (sample 64) 61 (2 ^ 64 - 2048) 11.
Proof.
  split; [reflexivity|]. split; [reflexivity|]. split; [apply sample_bytes|].
  split; vm_compute; reflexivity.
Qed.

(* Any number of pointers to at least 64*blocks readable bytes: each of the five hash_many
   reads only those bytes (anything else would be a Panic), writes the 32-byte result of
   each input in turn, and leaves the rest of the buffer alone.  The table of offset deltas
   needs 2, 5, 9, 17 or 5 correct entries (as declared for each function, except that NEON
   declares 17), and whatever follows them is not used.  The offsets are
   64-bit: those past 2^64 wrap around. *)
Theorem C24_hash_many_wraps : forall inputs blocks key offset delta deltas flags fs fe out,
  length key = 8%nat -> words key ->
  Forall (fun i => 64 * blocks <= len i /\ bytes i) inputs ->
  32 * len inputs <= len out ->
  offset < 2 ^ 64 ->
  let table k := firstn k deltas = map (fun i => (N.of_nat i * delta) mod 2 ^ 64) (seq 0 k) in
  let result := concat (hash_all (wrapped blake_compress) key flags fs fe offset delta
                          (map (take (64 * blocks)) inputs))
                ++ drop (32 * len inputs) out in
  (table 2%nat -> hash_many_portable inputs blocks key offset deltas flags fs fe out = Ok result) /\
  (table 5%nat -> hash_many_sse41 inputs blocks key offset deltas flags fs fe out = Ok result) /\
  (table 9%nat -> hash_many_avx2 inputs blocks key offset deltas flags fs fe out = Ok result) /\
  (table 17%nat -> hash_many_avx512 inputs blocks key offset deltas flags fs fe out = Ok result) /\
  (table 5%nat -> hash_many_neon inputs blocks key offset deltas flags fs fe out = Ok result).
Proof. exact c_hash_many_any. Qed.

(* As long as the last offset is a 64-bit number, nothing wraps. *)
Theorem C24_hash_many : forall inputs blocks key offset delta deltas flags fs fe out,
  length key = 8%nat -> words key ->
  Forall (fun i => 64 * blocks <= len i /\ bytes i) inputs ->
  32 * len inputs <= len out ->
  offset < 2 ^ 64 -> (0 < len inputs -> offset + (len inputs - 1) * delta < 2 ^ 64) ->
  let table k := firstn k deltas = map (fun i => (N.of_nat i * delta) mod 2 ^ 64) (seq 0 k) in
  let result := concat (hash_all blake_compress key flags fs fe offset delta
                          (map (take (64 * blocks)) inputs))
                ++ drop (32 * len inputs) out in
  (table 2%nat -> hash_many_portable inputs blocks key offset deltas flags fs fe out = Ok result) /\
  (table 5%nat -> hash_many_sse41 inputs blocks key offset deltas flags fs fe out = Ok result) /\
  (table 9%nat -> hash_many_avx2 inputs blocks key offset deltas flags fs fe out = Ok result) /\
  (table 17%nat -> hash_many_avx512 inputs blocks key offset deltas flags fs fe out = Ok result) /\
  (table 5%nat -> hash_many_neon inputs blocks key offset deltas flags fs fe out = Ok result).
Proof. exact c_hash_many_all. Qed.

(* The table the hasher passes has that form. *)
Theorem C24_chunk_deltas : CHUNK_OFFSET_DELTAS = map (fun i => N.of_nat i * 2048) (seq 0 17).
Proof. exact c_chunk_deltas. Qed.

(* 31 inputs of one block (16 + 8 + 4 + 3), the last at the largest 64-bit multiple of
   2048, and a buffer with 5 bytes to spare *)
Definition c_inputs : list (list N) := map (fun i => repeat (N.of_nat i) 64) (seq 0 31).
Example C24_hash_many_example :
  let off := 2 ^ 64 - 31 * 2048 in
  let deltas := CHUNK_OFFSET_DELTAS in
  let out := repeat 7 997 in
  Forall (fun i => 64 * 1 <= len i /\ bytes i) c_inputs /\ len c_inputs = 31 /\
  32 * 31 <= len out /\ off < 2 ^ 64 /\ off + (31 - 1) * 2048 < 2 ^ 64 /\
  firstn 17 deltas = map (fun i => (N.of_nat i * 2048) mod 2 ^ 64) (seq 0 17) /\
  hash_many_avx512 c_inputs 1 C_IV off deltas 0 1 2 out
  = hash_many_portable c_inputs 1 C_IV off deltas 0 1 2 out.
Proof.
  cbv zeta. split.
  - apply Forall_forall. intros x Hx. apply in_map_iff in Hx. destruct Hx as (i & <- & Hi).
    apply in_seq in Hi. split; [reflexivity|]. apply Forall_forall. intros b Hb.
    apply repeat_spec in Hb. subst b. unfold byte. lia.
  - split; [reflexivity|]. split; [vm_compute; discriminate|]. split; [reflexivity|].
    split; [reflexivity|]. split; [reflexivity|]. vm_compute. reflexivity.
Qed.

(* 7 inputs (4 + 3), the third at offset 0 after the wrap-around: the table of deltas may
   itself wrap around *)
Example C24_hash_many_wraps_example :
  let off := 2 ^ 64 - 2 in
  let delta := 2 ^ 64 - 1 in
  let deltas := [0; 2 ^ 64 - 1; 2 ^ 64 - 2; 2 ^ 64 - 3; 2 ^ 64 - 4] in
  let ins := firstn 7 c_inputs in
  firstn 5 deltas = map (fun i => (N.of_nat i * delta) mod 2 ^ 64) (seq 0 5) /\
  hash_many_sse41 ins 1 C_IV off deltas 0 1 2 (zeros 224)
  = Ok (concat (hash_all (wrapped blake_compress) C_IV 0 1 2 off delta ins)) /\
  hash_many_sse41 ins 1 C_IV 5 deltas 0 1 2 (zeros 224)
  = Ok (concat (hash_all (wrapped blake_compress) C_IV 0 1 2 5 delta ins)).
Proof. cbv zeta. split; [reflexivity|]. split; vm_compute; reflexivity. Qed.

(* Each of the five C functions does the same as the Rust function on every platform, at
   every offset where that does not panic: a debug build of the Rust code panics when the
   offset after the last input does not fit in 64 bits. *)
Theorem C24_rust_hash_many : forall c p f inputs blocks key offset delta deltas flags fs fe out,
  In f [hash_many_portable; hash_many_sse41; hash_many_avx2; hash_many_avx512; hash_many_neon] ->
  length key = 8%nat -> words key ->
  Forall (fun i => len i = 64 * blocks /\ bytes i) inputs ->
  32 * len inputs <= len out -> offset < 2 ^ 64 ->
  firstn 17 deltas = map (fun i => (N.of_nat i * delta) mod 2 ^ 64) (seq 0 17) ->
  (dbg c = true -> offset + len inputs * delta < 2 ^ 64) ->
  f inputs blocks key offset deltas flags fs fe out
  = Platform.hash_many c p (64 * blocks) inputs key offset delta flags fs fe out.
Proof. exact c_hash_many_rust. Qed.

Example C24_rust_hash_many_example :
  let ins := [sample 128; repeat 9 128] in
  let off := 2 ^ 64 - 2048 in
  let release := Cfg false true true in
  Forall (fun i => len i = 64 * 2 /\ bytes i) ins /\ 32 * len ins <= len (zeros 64) /\
  off < 2 ^ 64 /\ dbg release = false /\
  hash_many_neon ins 2 C_IV off CHUNK_OFFSET_DELTAS 0 1 2 (zeros 64)
  = Platform.hash_many release Platform.PPortable 128 ins C_IV off 2048 0 1 2 (zeros 64).
Proof.
  cbv zeta. split.
  - repeat constructor.
  - split; [vm_compute; discriminate|]. split; [reflexivity|]. split; [reflexivity|]. vm_compute. reflexivity.
Qed.

(* The bit counter, with the instruction or with the loop. *)
Theorem C24_popcnt : forall insn x, x < 2 ^ 64 -> popcnt insn x = Ok (popcount x).
Proof. exact popcnt_ok. Qed.
Example C24_popcnt_example :
  2 ^ 64 - 2 < 2 ^ 64 /\ popcnt false (2 ^ 64 - 2) = Ok 63 /\ popcnt true (2 ^ 64 - 2) = Ok 63.
Proof. repeat split. Qed.

Print Assumptions C24_compress.
Print Assumptions C24_hash_many.
Print Assumptions C24_hash_many_wraps.
Print Assumptions C24_chunk_deltas.
Print Assumptions C24_rust_hash_many.
Print Assumptions C24_popcnt.
