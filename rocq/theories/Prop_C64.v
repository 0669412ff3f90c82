(* C36: the 64-bit variant (Rust portable64.rs and all of c64). *)
From Coq Require Import NArith List Bool Lia.
From Verif Require Import Base Spec64 C64 C64Facts C64KeyFacts Samples.
From Verif Require Portable64.
Import ListNotations.
Open Scope N_scope.

(* A check of Spec64.v: its rounds and message schedule are those of BLAKE2b.  With BLAKE2b's
   parameters, initial state and twelve rounds, "hello world" hashes to its BLAKE2b-512
   digest. *)
Definition BLAKE2B_ROWS : list (list nat) :=
  SIGMA64 ++
  [[6; 15; 14; 9; 11; 3; 0; 8; 12; 2; 13; 7; 1; 4; 10; 5];
   [10; 2; 8; 4; 7; 6; 1; 5; 15; 11; 9; 14; 3; 12; 13; 0]]%nat ++ firstn 2 SIGMA64.
Definition hello_world : list N := [104; 101; 108; 108; 111; 32; 119; 111; 114; 108; 100].
Definition blake2b_hello : list N :=
  let cv := N.lxor (nth 0 IV64 0) (64 + 2 ^ 16 + 2 ^ 24) :: tl IV64 in
  let state := cv ++ firstn 4 IV64 ++
    [N.lxor (nth 4 IV64 0) 11; nth 5 IV64 0; N.lxor (nth 6 IV64 0) (2 ^ 64 - 1); nth 7 IV64 0] in
  let m := words64_of_bytes (hello_world ++ zeros 117) in
  let v := fold_left (fun v s => round64 v (map (fun i => nth i m 0) s)) BLAKE2B_ROWS state in
  bytes_of_words64 (map (fun i => N.lxor (N.lxor (nth i v 0) (nth (i + 8) v 0)) (nth i cv 0)) (seq 0 8)).
Example blake2b_vector : blake2b_hello =
  [2; 28; 237; 135; 153; 41; 108; 236; 165; 87; 131; 42; 185; 65; 165; 11;
   74; 17; 248; 52; 120; 207; 20; 31; 81; 249; 51; 246; 83; 171; 159; 188;
   192; 90; 3; 124; 221; 190; 208; 110; 48; 155; 243; 52; 148; 44; 78; 88;
   205; 241; 164; 110; 35; 121; 17; 204; 215; 252; 249; 120; 124; 188; 127; 208].
Proof. vm_compute. reflexivity. Qed.

(* The three C compression functions and the Rust one are the function written in
   Spec64.v, for every chaining value, block, block length, offset and flags; the extended
   output of the Rust code is all sixteen words of it. *)
Theorem C36_compress : forall cv block block_len offset flags,
  length cv = 4%nat -> length block = 128%nat -> bytes block ->
  let spec := compress64 cv block block_len offset flags in
  compress_portable cv block block_len offset flags = firstn 4 spec /\
  compress_avx2 cv block block_len offset flags = firstn 4 spec /\
  compress_avx512 cv block block_len offset flags = firstn 4 spec /\
  Portable64.compress cv block block_len offset flags = firstn 4 spec /\
  Portable64.compress_xof cv block block_len offset flags = bytes_of_words64 spec.
Proof. exact c64_compress_all. Qed.

Example C36_compress_example :
  let cv := firstn 4 IV64 in
  length cv = 4%nat /\ length (sample 128) = 128%nat /\ bytes (sample 128) /\
  compress_avx2 cv (sample 128) 61 (2 ^ 64 - 4096) 11
  = Portable64.compress cv (sample 128) 61 (2 ^ 64 - 4096) 11 /\
  compress_avx512 cv (sample 128) 61 (2 ^ 64 - 4096) 11
  = compress_portable cv (sample 128) 61 (2 ^ 64 - 4096) 11 /\
  compress_portable cv (sample 128) 61 (2 ^ 64 - 4096) 11 <> cv.
Proof.
  cbv zeta. split; [reflexivity|]. split; [reflexivity|]. split; [apply sample_bytes|].
  split; [vm_compute; reflexivity|]. split; [vm_compute; reflexivity|]. vm_compute. discriminate.
Qed.

(* Any number of pointers to at least 128*blocks readable bytes: each of the five
   hash_many reads only those bytes (anything else would be a Panic), writes the 32-byte
   result of each input in turn, and leaves the rest of the buffer alone.  The table of
   offset deltas needs 2, 3, 5, 9 or 3 correct entries, as declared for each function, and
   whatever follows them is not used.  The offsets are 64-bit: those past 2^64 wrap around. *)
Theorem C36_hash_many : forall inputs blocks key offset delta deltas flags fs fe out,
  length key = 4%nat ->
  Forall (fun i => 128 * blocks <= len i /\ bytes i) inputs ->
  32 * len inputs <= len out ->
  offset < 2 ^ 64 ->
  let table k := firstn k deltas = deltas64 k delta in
  let result := concat (all64 key flags fs fe offset delta (map (take (128 * blocks)) inputs))
                ++ drop (32 * len inputs) out in
  (table 2%nat -> hash_many_portable inputs blocks key offset deltas flags fs fe out = Ok result) /\
  (table 3%nat -> hash_many_sse41 inputs blocks key offset deltas flags fs fe out = Ok result) /\
  (table 5%nat -> hash_many_avx2 inputs blocks key offset deltas flags fs fe out = Ok result) /\
  (table 9%nat -> hash_many_avx512 inputs blocks key offset deltas flags fs fe out = Ok result) /\
  (table 3%nat -> hash_many_neon inputs blocks key offset deltas flags fs fe out = Ok result).
Proof. exact c64_hash_many_all. Qed.

(* 15 inputs of one block (8 + 4 + 2 + 1), the third at offset 0 after the wrap-around,
   and a buffer with 5 bytes to spare *)
Definition inputs64 : list (list N) := map (fun i => repeat (N.of_nat i) 128) (seq 0 15).
Example C36_hash_many_example :
  let off := 2 ^ 64 - 2 * 4096 in
  let deltas := CHUNK_OFFSET_DELTAS in
  let out := repeat 7 485 in
  let key := firstn 4 IV64 in
  Forall (fun i => 128 * 1 <= len i /\ bytes i) inputs64 /\ len inputs64 = 15 /\
  32 * 15 <= len out /\ off < 2 ^ 64 /\ (off + 2 * 4096) mod 2 ^ 64 = 0 /\
  firstn 9 deltas = deltas64 9 4096 /\
  (* a run on the first three *)
  hash_many_sse41 (firstn 3 inputs64) 1 key off (firstn 3 deltas) 0 1 2 out
  = hash_many_portable (firstn 3 inputs64) 1 key off (firstn 2 deltas) 0 1 2 out.
Proof.
  cbv zeta. split.
  - apply Forall_forall. intros x Hx. apply in_map_iff in Hx. destruct Hx as (i & <- & Hi).
    apply in_seq in Hi. split; [vm_compute; discriminate|]. apply Forall_forall. intros b Hb.
    apply repeat_spec in Hb. subst b. unfold byte. lia.
  - split; [reflexivity|]. split; [vm_compute; discriminate|]. split; [reflexivity|].
    split; [reflexivity|]. split; [reflexivity|]. vm_compute. reflexivity.
Qed.

(* The table that the header defines has that form. *)
Theorem C36_chunk_deltas : CHUNK_OFFSET_DELTAS = deltas64 17 4096.
Proof. exact c64_chunk_deltas. Qed.

(* The header's load_key_words gives the little-endian words of a key, and write_state_bytes
   turns them back into the key. *)
Theorem C36_key_words : forall key, bytes key -> len key = 32 ->
  load_key_words key = words64_of_bytes key /\ write_state_bytes (load_key_words key) = key.
Proof. exact c64_key_words. Qed.
Example C36_key_words_example :
  let key := map N.of_nat (seq 1 32) in
  load_key_words key = [578437695752307201; 1157159078456920585; 1735880461161533969; 2314601843866147353].
Proof. reflexivity. Qed.

(* The Rust hash_many gives the specified result for inputs of whole blocks; the only panic
   is that of a debug build when the offset after the last input does not fit in 64 bits. *)
Theorem C36_rust_hash_many : forall c inputs key offset delta flags fs fe out,
  length key = 4%nat -> Forall (fun i => len i mod 128 = 0) inputs ->
  32 * len inputs <= len out -> offset < 2 ^ 64 ->
  Portable64.hash_many c inputs key offset delta flags fs fe out
  = if dbg c && (2 ^ 64 <=? offset + len inputs * delta) then Panic
    else Ok (concat (all64 key flags fs fe offset delta inputs) ++ drop (32 * len inputs) out).
Proof. exact rust64_hash_many. Qed.

(* So each of the five C functions gives the same result as the Rust one, at every offset
   where that does not panic. *)
Theorem C36_c_is_rust : forall c f inputs blocks key offset delta deltas flags fs fe out,
  In f [hash_many_portable; hash_many_sse41; hash_many_avx2; hash_many_avx512; hash_many_neon] ->
  length key = 4%nat -> Forall (fun i => len i = 128 * blocks /\ bytes i) inputs ->
  32 * len inputs <= len out -> offset < 2 ^ 64 ->
  firstn 9 deltas = deltas64 9 delta ->
  (dbg c = true -> offset + len inputs * delta < 2 ^ 64) ->
  f inputs blocks key offset deltas flags fs fe out
  = Portable64.hash_many c inputs key offset delta flags fs fe out.
Proof. exact c64_hash_many_rust. Qed.

Example C36_c_is_rust_example :
  let ins := [sample 256; repeat 9 256] in
  let key := firstn 4 IV64 in
  let off := 2 ^ 64 - 4096 in
  let release := Cfg false true true in
  let debug := Cfg true true true in
  Forall (fun i => len i = 128 * 2 /\ bytes i) ins /\ 32 * len ins <= len (zeros 64) /\
  off < 2 ^ 64 /\ firstn 9 CHUNK_OFFSET_DELTAS = deltas64 9 4096 /\ dbg release = false /\
  hash_many_sse41 ins 2 key off CHUNK_OFFSET_DELTAS 0 1 2 (zeros 64)
  = Portable64.hash_many release ins key off 4096 0 1 2 (zeros 64) /\
  Portable64.hash_many debug ins key off 4096 0 1 2 (zeros 64) = Panic.
Proof.
  cbv zeta. split.
  - repeat constructor.
  - split; [vm_compute; discriminate|]. split; [reflexivity|]. split; [reflexivity|].
    split; [reflexivity|]. split; vm_compute; reflexivity.
Qed.

Print Assumptions C36_compress.
Print Assumptions C36_hash_many.
Print Assumptions C36_chunk_deltas.
Print Assumptions C36_key_words.
Print Assumptions C36_rust_hash_many.
Print Assumptions C36_c_is_rust.
