(* Model of /repo/c64: the C code of the 64-bit variant, all backends.  Definitions only.

   As in CSimd.v: a pointer is the list of bytes readable through it, a read outside it is
   a Panic, and functions return what they write to out.  The vector loads and memcpy
   calls are those of a little-endian machine.  src/c64.rs only declares these functions
   and tests them. *)
From Coq Require Import NArith List Bool.
From Verif Require Import Base Spec64 Simd64 Simd64Gen.
Import ListNotations.
Open Scope N_scope.

(* ---- c64/baokeshed64_impl.h --------------------------------------------------- *)

(* c64/baokeshed64_impl.h:14-19 *)
Definition BLOCK_LEN : N := 128.
Definition CHUNK_LEN : N := 4096.
Definition KEY_LEN : N := 32.
Definition OUT_LEN : N := 32.
(* c64/baokeshed64_impl.h:37-40 *)
Definition IV : list N :=
  [0x6A09E667F3BCC908; 0xBB67AE8584CAA73B; 0x3C6EF372FE94F82B; 0xA54FF53A5F1D36F1;
   0x510E527FADE682D1; 0x9B05688C2B3E6C1F; 0x1F83D9ABFB41BD6B; 0x5BE0CD19137E2179].
(* c64/baokeshed64_impl.h:42-51 *)
Definition MSG_SCHEDULE : list (list nat) :=
  [[0; 1; 2; 3; 4; 5; 6; 7; 8; 9; 10; 11; 12; 13; 14; 15];
   [14; 10; 4; 8; 9; 15; 13; 6; 1; 12; 0; 2; 11; 7; 5; 3];
   [11; 8; 12; 0; 5; 2; 15; 13; 10; 14; 3; 6; 7; 1; 9; 4];
   [7; 9; 3; 1; 13; 12; 11; 14; 2; 6; 5; 10; 4; 0; 15; 8];
   [9; 0; 5; 7; 2; 4; 10; 15; 14; 1; 11; 12; 6; 8; 3; 13];
   [2; 12; 6; 10; 0; 11; 8; 3; 4; 13; 7; 5; 15; 14; 1; 9];
   [12; 5; 1; 15; 14; 13; 4; 10; 0; 7; 6; 3; 9; 2; 8; 11];
   [13; 11; 7; 14; 12; 1; 3; 9; 5; 0; 15; 4; 8; 6; 2; 10]]%nat.
Definition sched (r i : nat) : nat := nth i (nth r MSG_SCHEDULE []) 0%nat.
(* c64/baokeshed64_impl.h:53-59 *)
Definition CHUNK_OFFSET_DELTAS : list N :=
  [CHUNK_LEN * 0; CHUNK_LEN * 1; CHUNK_LEN * 2; CHUNK_LEN * 3;
   CHUNK_LEN * 4; CHUNK_LEN * 5; CHUNK_LEN * 6; CHUNK_LEN * 7;
   CHUNK_LEN * 8; CHUNK_LEN * 9; CHUNK_LEN * 10; CHUNK_LEN * 11;
   CHUNK_LEN * 12; CHUNK_LEN * 13; CHUNK_LEN * 14; CHUNK_LEN * 15;
   CHUNK_LEN * 16].

(* c64/baokeshed64_impl.h:61-67, of the eight bytes at p *)
Definition load64 (p : list N) : N :=
  N.lor (N.lor (N.lor (N.lor (N.lor (N.lor (N.lor
    (N.shiftl (get p 0) 0 mod W64) (N.shiftl (get p 1) 8 mod W64))
    (N.shiftl (get p 2) 16 mod W64)) (N.shiftl (get p 3) 24 mod W64))
    (N.shiftl (get p 4) 32 mod W64)) (N.shiftl (get p 5) 40 mod W64))
    (N.shiftl (get p 6) 48 mod W64)) (N.shiftl (get p 7) 56 mod W64).
(* c64/baokeshed64_impl.h:69-79, the eight bytes written *)
Definition store64 (w : N) : list N :=
  [N.shiftr w 0 mod 256; N.shiftr w 8 mod 256; N.shiftr w 16 mod 256; N.shiftr w 24 mod 256;
   N.shiftr w 32 mod 256; N.shiftr w 40 mod 256; N.shiftr w 48 mod 256; N.shiftr w 56 mod 256].
(* c64/baokeshed64_impl.h:81-83; w is a uint64_t *)
Definition rot (w c : N) : N :=
  N.lor (N.shiftr (w mod W64) c) (N.shiftl (w mod W64) (64 - c) mod W64).
(* + on uint64_t is plus64 of Spec64.v *)
(* c64/baokeshed64_impl.h:99-116 (16 words): word i is at byte 8*i *)
Definition load_msg_words (src : list N) : list N :=
  map (fun i => load64 (skipn (8 * i) src)) (seq 0 16).
(* c64/baokeshed64_impl.h:118-123 *)
Definition load_key_words (src : list N) : list N :=
  map (fun i => load64 (skipn (8 * i) src)) (seq 0 4).
(* c64/baokeshed64_impl.h:125-130 *)
Definition write_state_bytes (state : list N) : list N :=
  flat_map (fun i => store64 (get state i)) (seq 0 4).

(* ---- c64/baokeshed64_portable.c ----------------------------------------------- *)

(* c64/baokeshed64_portable.c:4-14 *)
Definition g (state : list N) (a b c d : nat) (x y : N) : list N :=
  let state := set_nth state a (plus64 (plus64 (get state a) (get state b)) x) in
  let state := set_nth state d (rot (N.lxor (get state d) (get state a)) 32) in
  let state := set_nth state c (plus64 (get state c) (get state d)) in
  let state := set_nth state b (rot (N.lxor (get state b) (get state c)) 24) in
  let state := set_nth state a (plus64 (plus64 (get state a) (get state b)) y) in
  let state := set_nth state d (rot (N.lxor (get state d) (get state a)) 16) in
  let state := set_nth state c (plus64 (get state c) (get state d)) in
  let state := set_nth state b (rot (N.lxor (get state b) (get state c)) 63) in
  state.

(* c64/baokeshed64_portable.c:16-31 *)
Definition round (state msg : list N) (r : nat) : list N :=
  let x i := get msg (sched r i) in
  let state := g state 0 4 8 12 (x 0%nat) (x 1%nat) in
  let state := g state 1 5 9 13 (x 2%nat) (x 3%nat) in
  let state := g state 2 6 10 14 (x 4%nat) (x 5%nat) in
  let state := g state 3 7 11 15 (x 6%nat) (x 7%nat) in
  let state := g state 0 5 10 15 (x 8%nat) (x 9%nat) in
  let state := g state 1 6 11 12 (x 10%nat) (x 11%nat) in
  let state := g state 2 7 8 13 (x 12%nat) (x 13%nat) in
  let state := g state 3 4 9 14 (x 14%nat) (x 15%nat) in
  state.

(* c64/baokeshed64_portable.c:33-60; the new contents of state.  block is the 128 bytes
   read. *)
Definition compress_portable (state block : list N) (block_len offset flags : N) : list N :=
  let m := load_msg_words block in
  let f :=
    [get state 0; get state 1; get state 2; get state 3;
     get IV 4; get IV 5; get IV 6; get IV 7;
     get IV 0; get IV 1; get IV 2; get IV 3;
     offset; get IV 5; block_len; flags] in
  let f := round f m 0 in
  let f := round f m 1 in
  let f := round f m 2 in
  let f := round f m 3 in
  let f := round f m 4 in
  let f := round f m 5 in
  let f := round f m 6 in
  let f := round f m 7 in
  [N.lxor (get f 0) (get f 4); N.lxor (get f 1) (get f 5);
   N.lxor (get f 2) (get f 6); N.lxor (get f 3) (get f 7)].

(* The `while (blocks > 0)` loop of hash_one_*: c64/baokeshed64_portable.c:69-77,
   c64/baokeshed64_avx512.c:1027-1035, c64/baokeshed64_neon.c:286-295.  comp is the
   compression function called. *)
Fixpoint hash_one_loop (comp : list N -> list N -> N -> N -> N -> list N) (blocks : nat)
  (state input : list N) (offset block_flags flags flags_end : N) : res (list N) :=
  match blocks with
  | O => Ok state
  | S blocks' =>
      let block_flags :=
        match blocks' with O => N.lor block_flags flags_end | S _ => block_flags end in
      let* block := slice input 0 BLOCK_LEN in
      let state := comp state block BLOCK_LEN offset block_flags in
      hash_one_loop comp blocks' state (drop BLOCK_LEN input) offset flags flags flags_end
  end.

(* c64/baokeshed64_portable.c:62-79; the 32 bytes written to out *)
Definition hash_one_portable (input : list N) (blocks : N) (key : list N)
  (offset flags flags_start flags_end : N) : res (list N) :=
  let* state := hash_one_loop compress_portable (N.to_nat blocks) key input offset
                  (N.lor flags flags_start) flags flags_end in
  Ok (write_state_bytes state).

(* The loops of hash_many_*: `while (num_inputs >= degree)` around hashN, and
   `while (num_inputs > 0)` when degree is 1 (c64/baokeshed64_portable.c:88-95,
   c64/baokeshed64_sse41.c:265-272, c64/baokeshed64_avx2.c:497-504,
   c64/baokeshed64_avx512.c:1045-1076, c64/baokeshed64_neon.c:305-320).  inputs is the
   list of the num_inputs pointers, hashN gives the degree*32 bytes written to out, rest
   is the code after the loop.  fuel bounds the number of iterations. *)
Fixpoint many_loop (fuel : nat) (degree : N)
  (hashN : list (list N) -> N -> res (list N))
  (rest : list (list N) -> N -> list N -> res (list N))
  (inputs : list (list N)) (offset : N) (deltas out : list N) : res (list N) :=
  if degree <=? len inputs then
    match fuel with
    | O => NoFuel
    | S fuel' =>
        let* hs := hashN (take degree inputs) offset in
        let* delta := index deltas degree in
        let offset := (offset + delta) mod W64 in
        let* tl := slice_from out (degree * OUT_LEN) in
        let* tl := many_loop fuel' degree hashN rest (drop degree inputs) offset deltas tl in
        Ok (hs ++ tl)
    end
  else rest inputs offset out.

(* The last loop, of single inputs. *)
Definition single_loop (hash_one : list N -> N -> res (list N)) (deltas : list N)
  (inputs : list (list N)) (offset : N) (out : list N) : res (list N) :=
  many_loop (length inputs) 1
    (fun one off => let* i := index one 0 in hash_one i off)
    (fun _ _ out => Ok out) inputs offset deltas out.

(* c64/baokeshed64_portable.c:81-96; the contents of out afterwards *)
Definition hash_many_portable (inputs : list (list N)) (blocks : N) (key : list N) (offset : N)
  (deltas : list N) (flags flags_start flags_end : N) (out : list N) : res (list N) :=
  single_loop (fun i off => hash_one_portable i blocks key off flags flags_start flags_end)
    deltas inputs offset out.

(* ---- what hash2, hash4 and hash8 have in common --------------------------------- *)

(* One statement of a vectorised round; see Simd64Gen.v *)
Definition exec64 {V : Type} (O : ops64 V) (m : list V) (r : nat) (v : list V) (i : instr64)
  : list V :=
  let at_ k := nth k v (o_nil O) in
  match i with
  | MAdd d k => set_nth v d (o_add O (at_ d) (nth (sched r k) m (o_nil O)))
  | VAdd d s => set_nth v d (o_add O (at_ d) (at_ s))
  | VXor d s => set_nth v d (o_xor O (at_ d) (at_ s))
  | VRot32 d => set_nth v d (o_rot32 O (at_ d))
  | VRot24 d => set_nth v d (o_rot24 O (at_ d))
  | VRot16 d => set_nth v d (o_rot16 O (at_ d))
  | VRot63 d => set_nth v d (o_rot63 O (at_ d))
  end.
(* round_fn(v, m, r) *)
Definition run64 {V : Type} (O : ops64 V) (code : list instr64) (v m : list V) (r : nat)
  : list V := fold_left (exec64 O m r) code v.

(* The body of the loop from `v[16] = {` to the assignments of h_vecs:
   c64/baokeshed64_sse41.c:227-246, c64/baokeshed64_avx2.c:462-481,
   c64/baokeshed64_avx512.c:500-519, 722-741 and 973-992, c64/baokeshed64_neon.c:241-260 *)
Definition vec_compress64 {V : Type} (O : ops64 V) (code : list instr64) (set1 : N -> V)
  (h msg : list V) (offset_vec block_len_vec block_flags_vec : V) : list V :=
  let at_ (l : list V) k := nth k l (o_nil O) in
  let v :=
    [at_ h 0%nat; at_ h 1%nat; at_ h 2%nat; at_ h 3%nat;
     set1 (get IV 4); set1 (get IV 5); set1 (get IV 6); set1 (get IV 7);
     set1 (get IV 0); set1 (get IV 1); set1 (get IV 2); set1 (get IV 3);
     offset_vec; set1 (get IV 5); block_len_vec; block_flags_vec] in
  let v := run64 O code v msg 0 in
  let v := run64 O code v msg 1 in
  let v := run64 O code v msg 2 in
  let v := run64 O code v msg 3 in
  let v := run64 O code v msg 4 in
  let v := run64 O code v msg 5 in
  let v := run64 O code v msg 6 in
  let v := run64 O code v msg 7 in
  map (fun i => o_xor O (at_ v i) (at_ v (i + 4)%nat)) (seq 0 4).

(* The loop `for (size_t block = 0; block < blocks; block++)`:
   c64/baokeshed64_sse41.c:218-247, c64/baokeshed64_avx2.c:453-482,
   c64/baokeshed64_avx512.c:491-520, 713-742 and 964-993, c64/baokeshed64_neon.c:232-261.
   todo is the number of iterations left, block the loop variable; load_msgs models
   transpose_msg_vecs(inputs, _). *)
Fixpoint vec_loop64 {V : Type} (O : ops64 V) (code : list instr64) (set1 : N -> V)
  (load_msgs : N -> res (list V)) (todo : nat) (block blocks : N) (h : list V)
  (offset_vec : V) (block_flags flags flags_end : N) : res (list V) :=
  match todo with
  | O => Ok h
  | S todo' =>
      let block_flags :=
        if block + 1 =? blocks then N.lor block_flags flags_end else block_flags in
      let block_len_vec := set1 BLOCK_LEN in
      let block_flags_vec := set1 block_flags in
      let* msg := load_msgs (block * BLOCK_LEN) in
      let h := vec_compress64 O code set1 h msg offset_vec block_len_vec block_flags_vec in
      vec_loop64 O code set1 load_msgs todo' (block + 1) blocks h
                 offset_vec flags flags flags_end
  end.

(* Evaluate a list of checked computations in order. *)
Fixpoint seq_ok {A : Type} (l : list (res A)) : res (list A) :=
  match l with
  | [] => Ok []
  | x :: r => let* a := x in let* t := seq_ok r in Ok (a :: t)
  end.
(* The loads of transpose_msg_vecs*: for each of the given byte positions, one vector of
   n bytes from each input, in the order of the code. *)
Definition load_grid64 (n : N) (inputs : list (list N)) (block_offset : N) (cols : list N)
  : res (list vec) :=
  seq_ok (flat_map (fun col => map (fun inp => loadu64 n inp (block_offset + col)) inputs) cols).
(* The calls transpose(&out[0]), transpose(&out[k]), ... on 16 vectors *)
Fixpoint groups (count k : nat) (transpose : list vec -> list vec) (v : list vec) : list vec :=
  match count with
  | O => []
  | S count' => transpose (firstn k v) ++ groups count' k transpose (skipn k v)
  end.

(* hash2/hash4/hash8 as a whole, except the final transposition and stores.  n lanes. *)
Definition hashN_loop (O : ops64 vec) (code : list instr64) (n : nat)
  (load_msgs : list (list N) -> N -> res (list vec)) (load_offsets : N -> list N -> res vec)
  (inputs : list (list N)) (blocks : N) (key : list N) (offset : N) (deltas : list N)
  (flags flags_start flags_end : N) : res (list vec) :=
  let h := map (fun i => set1_epi64 n (get key i)) (seq 0 4) in
  let* offset_vec := load_offsets offset deltas in
  vec_loop64 O code (set1_epi64 n) (load_msgs inputs) (N.to_nat blocks) 0 blocks h offset_vec
    (N.lor flags flags_start) flags flags_end.

Definition vrow (rows : list vec) (i : nat) : vec := nth i rows [].

(* load_offsets with a vector load of n entries of the table:
   c64/baokeshed64_sse41.c:198-201, c64/baokeshed64_avx2.c:433-436,
   c64/baokeshed64_avx512.c:471-474, 693-696 and 944-947 *)
Definition load_offsets (n : nat) (offset : N) (deltas : list N) : res vec :=
  let* d := slice deltas 0 (N.of_nat n) in
  Ok (add_epi64 (set1_epi64 n offset) d).

(* ---- c64/baokeshed64_sse41.c ---------------------------------------------------- *)

(* c64/baokeshed64_sse41.c:27-43; addv, xorv 15-18 *)
Definition s_rot32 (x : vec) : vec := shuffle_epi32 x (MM_SHUFFLE 2 3 0 1).
Definition s_rot24 (x : vec) : vec :=
  part_shuffle_epi8 x [3; 4; 5; 6; 7; 0; 1; 2; 11; 12; 13; 14; 15; 8; 9; 10].
Definition s_rot16 (x : vec) : vec :=
  part_shuffle_epi8 x [2; 3; 4; 5; 6; 7; 0; 1; 10; 11; 12; 13; 14; 15; 8; 9].
Definition s_rot63 (x : vec) : vec := or64 (srli_epi64 x 63) (add_epi64 x x).
Definition s_ops : ops64 vec := Ops64 vec [] add_epi64 xor64 s_rot32 s_rot24 s_rot16 s_rot63.

(* c64/baokeshed64_sse41.c:161-168; the same in c64/baokeshed64_avx512.c:434-441.  vec0 and
   vec1 are the lanes of vecs[0] and vecs[1], stored to arrays of uint64_t. *)
Definition transpose2 (v : list vec) : list vec :=
  let vec0 := vrow v 0 in
  let vec1 := vrow v 1 in
  [[get vec0 0; get vec1 0]; [get vec0 1; get vec1 1]].

(* c64/baokeshed64_sse41.c:170-196; the same in c64/baokeshed64_avx512.c:443-469 *)
Definition transpose_msg2 (inputs : list (list N)) (block_offset : N) : res (list vec) :=
  let* v := load_grid64 16 inputs block_offset
              [0 * 16; 1 * 16; 2 * 16; 3 * 16; 4 * 16; 5 * 16; 6 * 16; 7 * 16] in
  Ok (groups 8 2 transpose2 v).

(* The final transposition and stores of hash2_*: c64/baokeshed64_sse41.c:249-256,
   c64/baokeshed64_avx512.c:522-529 *)
Definition store2 (transpose : list vec -> list vec) (h : list vec) : list N :=
  let h := transpose (firstn 2 h) ++ transpose (skipn 2 h) in
  storeu64 (vrow h 0) ++ storeu64 (vrow h 2) ++ storeu64 (vrow h 1) ++ storeu64 (vrow h 3).

(* c64/baokeshed64_sse41.c:203-257; the 64 bytes written to out *)
Definition hash2_sse41 (inputs : list (list N)) (blocks : N) (key : list N) (offset : N)
  (deltas : list N) (flags flags_start flags_end : N) : res (list N) :=
  let* h := hashN_loop s_ops sse41_code64 2 transpose_msg2 (load_offsets 2)
              inputs blocks key offset deltas flags flags_start flags_end in
  Ok (store2 transpose2 h).

(* c64/baokeshed64_sse41.c:259-276 *)
Definition hash_many_sse41 (inputs : list (list N)) (blocks : N) (key : list N) (offset : N)
  (deltas : list N) (flags flags_start flags_end : N) (out : list N) : res (list N) :=
  many_loop (length inputs) 2
    (fun ins off => hash2_sse41 ins blocks key off deltas flags flags_start flags_end)
    (fun ins off out =>
       hash_many_portable ins blocks key off deltas flags flags_start flags_end out)
    inputs offset deltas out.

(* ---- c64/baokeshed64_avx2.c ----------------------------------------------------- *)

(* c64/baokeshed64_avx2.c:26-46; addv, xorv 15-18 *)
Definition a_rot32 (x : vec) : vec := shuffle_epi32 x (MM_SHUFFLE 2 3 0 1).
Definition a_rot24 (x : vec) : vec :=
  wide_shuffle_epi8 x [3; 4; 5; 6; 7; 0; 1; 2; 11; 12; 13; 14; 15; 8; 9; 10;
                       3; 4; 5; 6; 7; 0; 1; 2; 11; 12; 13; 14; 15; 8; 9; 10].
Definition a_rot16 (x : vec) : vec :=
  wide_shuffle_epi8 x [2; 3; 4; 5; 6; 7; 0; 1; 10; 11; 12; 13; 14; 15; 8; 9;
                       2; 3; 4; 5; 6; 7; 0; 1; 10; 11; 12; 13; 14; 15; 8; 9].
Definition a_rot63 (x : vec) : vec := or64 (srli_epi64 x 63) (add_epi64 x x).
Definition a_ops : ops64 vec := Ops64 vec [] add_epi64 xor64 a_rot32 a_rot24 a_rot16 a_rot63.

(* c64/baokeshed64_avx2.c:85-276; the new contents of state.  block is the 128 bytes read. *)
Definition compress_avx2 (state block : list N) (block_len offset flags : N) : list N :=
  let a := firstn 4 state in
  let b := [get IV 4; get IV 5; get IV 6; get IV 7] in
  let c := [get IV 0; get IV 1; get IV 2; get IV 3] in
  let d := [offset; get IV 5; block_len; flags] in
  let m0 := broadcast128 (words64_of_bytes (take 16 (drop 0 block))) in
  let m1 := broadcast128 (words64_of_bytes (take 16 (drop 16 block))) in
  let m2 := broadcast128 (words64_of_bytes (take 16 (drop 32 block))) in
  let m3 := broadcast128 (words64_of_bytes (take 16 (drop 48 block))) in
  let m4 := broadcast128 (words64_of_bytes (take 16 (drop 64 block))) in
  let m5 := broadcast128 (words64_of_bytes (take 16 (drop 80 block))) in
  let m6 := broadcast128 (words64_of_bytes (take 16 (drop 96 block))) in
  let m7 := broadcast128 (words64_of_bytes (take 16 (drop 112 block))) in
  let '(a, b, c, d) := avx2_row64_1 a_ops m0 m1 m2 m3 m4 m5 m6 m7 a b c d in
  let '(a, b, c, d) := avx2_row64_2 a_ops m0 m1 m2 m3 m4 m5 m6 m7 a b c d in
  let '(a, b, c, d) := avx2_row64_3 a_ops m0 m1 m2 m3 m4 m5 m6 m7 a b c d in
  let '(a, b, c, d) := avx2_row64_4 a_ops m0 m1 m2 m3 m4 m5 m6 m7 a b c d in
  let '(a, b, c, d) := avx2_row64_5 a_ops m0 m1 m2 m3 m4 m5 m6 m7 a b c d in
  let '(a, b, c, d) := avx2_row64_6 a_ops m0 m1 m2 m3 m4 m5 m6 m7 a b c d in
  let '(a, b, c, d) := avx2_row64_7 a_ops m0 m1 m2 m3 m4 m5 m6 m7 a b c d in
  let '(a, b, c, d) := avx2_row64_8 a_ops m0 m1 m2 m3 m4 m5 m6 m7 a b c d in
  xor64 a b.

(* c64/baokeshed64_avx2.c:394-407; the same in c64/baokeshed64_avx512.c:654-667 *)
Definition transpose4 (v : list vec) : list vec :=
  let ab_02 := unpacklo_epi64 (vrow v 0) (vrow v 1) in
  let ab_13 := unpackhi_epi64 (vrow v 0) (vrow v 1) in
  let cd_02 := unpacklo_epi64 (vrow v 2) (vrow v 3) in
  let cd_13 := unpackhi_epi64 (vrow v 2) (vrow v 3) in
  [permute2x128_si256 ab_02 cd_02 0x20; permute2x128_si256 ab_13 cd_13 0x20;
   permute2x128_si256 ab_02 cd_02 0x31; permute2x128_si256 ab_13 cd_13 0x31].

(* c64/baokeshed64_avx2.c:409-431; the same in c64/baokeshed64_avx512.c:669-691 *)
Definition transpose_msg4 (inputs : list (list N)) (block_offset : N) : res (list vec) :=
  let* v := load_grid64 32 inputs block_offset [0 * 32; 1 * 32; 2 * 32; 3 * 32] in
  Ok (groups 4 4 transpose4 v).

(* The final transposition and stores of hash4_*: c64/baokeshed64_avx2.c:484-488,
   c64/baokeshed64_avx512.c:744-748 *)
Definition store4 (h : list vec) : list N :=
  let h := transpose4 h in
  storeu64 (vrow h 0) ++ storeu64 (vrow h 1) ++ storeu64 (vrow h 2) ++ storeu64 (vrow h 3).

(* c64/baokeshed64_avx2.c:438-489; the 128 bytes written to out *)
Definition hash4_avx2 (inputs : list (list N)) (blocks : N) (key : list N) (offset : N)
  (deltas : list N) (flags flags_start flags_end : N) : res (list N) :=
  let* h := hashN_loop a_ops avx2_code64 4 transpose_msg4 (load_offsets 4)
              inputs blocks key offset deltas flags flags_start flags_end in
  Ok (store4 h).

(* c64/baokeshed64_avx2.c:491-508 *)
Definition hash_many_avx2 (inputs : list (list N)) (blocks : N) (key : list N) (offset : N)
  (deltas : list N) (flags flags_start flags_end : N) (out : list N) : res (list N) :=
  many_loop (length inputs) 4
    (fun ins off => hash4_avx2 ins blocks key off deltas flags flags_start flags_end)
    (fun ins off out =>
       hash_many_sse41 ins blocks key off deltas flags flags_start flags_end out)
    inputs offset deltas out.

(* ---- c64/baokeshed64_avx512.c --------------------------------------------------- *)

(* c64/baokeshed64_avx512.c:52-74; add, xor 26-36 (each at three widths) *)
Definition z_ops : ops64 vec :=
  Ops64 vec [] add_epi64 xor64
    (fun x => ror_epi64 x 32) (fun x => ror_epi64 x 24) (fun x => ror_epi64 x 16)
    (fun x => ror_epi64 x 63).

(* c64/baokeshed64_avx512.c:119-310; the new contents of state.  block is the 128 bytes read. *)
Definition compress_avx512 (state block : list N) (block_len offset flags : N) : list N :=
  let a := firstn 4 state in
  let b := [get IV 4; get IV 5; get IV 6; get IV 7] in
  let c := [get IV 0; get IV 1; get IV 2; get IV 3] in
  let d := [offset; get IV 5; block_len; flags] in
  let m0 := broadcast128 (words64_of_bytes (take 16 (drop 0 block))) in
  let m1 := broadcast128 (words64_of_bytes (take 16 (drop 16 block))) in
  let m2 := broadcast128 (words64_of_bytes (take 16 (drop 32 block))) in
  let m3 := broadcast128 (words64_of_bytes (take 16 (drop 48 block))) in
  let m4 := broadcast128 (words64_of_bytes (take 16 (drop 64 block))) in
  let m5 := broadcast128 (words64_of_bytes (take 16 (drop 80 block))) in
  let m6 := broadcast128 (words64_of_bytes (take 16 (drop 96 block))) in
  let m7 := broadcast128 (words64_of_bytes (take 16 (drop 112 block))) in
  let '(a, b, c, d) := avx512_row64_1 z_ops m0 m1 m2 m3 m4 m5 m6 m7 a b c d in
  let '(a, b, c, d) := avx512_row64_2 z_ops m0 m1 m2 m3 m4 m5 m6 m7 a b c d in
  let '(a, b, c, d) := avx512_row64_3 z_ops m0 m1 m2 m3 m4 m5 m6 m7 a b c d in
  let '(a, b, c, d) := avx512_row64_4 z_ops m0 m1 m2 m3 m4 m5 m6 m7 a b c d in
  let '(a, b, c, d) := avx512_row64_5 z_ops m0 m1 m2 m3 m4 m5 m6 m7 a b c d in
  let '(a, b, c, d) := avx512_row64_6 z_ops m0 m1 m2 m3 m4 m5 m6 m7 a b c d in
  let '(a, b, c, d) := avx512_row64_7 z_ops m0 m1 m2 m3 m4 m5 m6 m7 a b c d in
  let '(a, b, c, d) := avx512_row64_8 z_ops m0 m1 m2 m3 m4 m5 m6 m7 a b c d in
  xor64 a b.

(* c64/baokeshed64_avx512.c:476-530; the 64 bytes written to out *)
Definition hash2_avx512 (inputs : list (list N)) (blocks : N) (key : list N) (offset : N)
  (deltas : list N) (flags flags_start flags_end : N) : res (list N) :=
  let* h := hashN_loop z_ops avx512_code64_2 2 transpose_msg2 (load_offsets 2)
              inputs blocks key offset deltas flags flags_start flags_end in
  Ok (store2 transpose2 h).

(* c64/baokeshed64_avx512.c:698-749; the 128 bytes written to out *)
Definition hash4_avx512 (inputs : list (list N)) (blocks : N) (key : list N) (offset : N)
  (deltas : list N) (flags flags_start flags_end : N) : res (list N) :=
  let* h := hashN_loop z_ops avx512_code64_4 4 transpose_msg4 (load_offsets 4)
              inputs blocks key offset deltas flags flags_start flags_end in
  Ok (store4 h).

(* c64/baokeshed64_avx512.c:873-885 *)
Definition unpack_lo_128 (a b : vec) : vec := shuffle_i32x4 a b 0x88.
Definition unpack_hi_128 (a b : vec) : vec := shuffle_i32x4 a b 0xdd.

(* c64/baokeshed64_avx512.c:887-920 *)
Definition transpose8 (v : list vec) : list vec :=
  let ab_0 := unpacklo_epi64 (vrow v 0) (vrow v 1) in
  let ab_1 := unpackhi_epi64 (vrow v 0) (vrow v 1) in
  let cd_0 := unpacklo_epi64 (vrow v 2) (vrow v 3) in
  let cd_1 := unpackhi_epi64 (vrow v 2) (vrow v 3) in
  let ef_0 := unpacklo_epi64 (vrow v 4) (vrow v 5) in
  let ef_1 := unpackhi_epi64 (vrow v 4) (vrow v 5) in
  let gh_0 := unpacklo_epi64 (vrow v 6) (vrow v 7) in
  let gh_1 := unpackhi_epi64 (vrow v 6) (vrow v 7) in
  let abcd_0 := unpack_lo_128 ab_0 cd_0 in
  let abcd_1 := unpack_lo_128 ab_1 cd_1 in
  let abcd_2 := unpack_hi_128 ab_0 cd_0 in
  let abcd_3 := unpack_hi_128 ab_1 cd_1 in
  let efgh_0 := unpack_lo_128 ef_0 gh_0 in
  let efgh_1 := unpack_lo_128 ef_1 gh_1 in
  let efgh_2 := unpack_hi_128 ef_0 gh_0 in
  let efgh_3 := unpack_hi_128 ef_1 gh_1 in
  [unpack_lo_128 abcd_0 efgh_0; unpack_lo_128 abcd_1 efgh_1;
   unpack_lo_128 abcd_2 efgh_2; unpack_lo_128 abcd_3 efgh_3;
   unpack_hi_128 abcd_0 efgh_0; unpack_hi_128 abcd_1 efgh_1;
   unpack_hi_128 abcd_2 efgh_2; unpack_hi_128 abcd_3 efgh_3].

(* c64/baokeshed64_avx512.c:922-942 *)
Definition transpose_msg8 (inputs : list (list N)) (block_offset : N) : res (list vec) :=
  let* v := load_grid64 64 inputs block_offset [0 * 64; 1 * 64] in
  Ok (groups 2 8 transpose8 v).

(* c64/baokeshed64_avx512.c:997-1011: padding, transposition and stores of the lower
   halves (_mm512_castsi512_si256) *)
Definition store8 (h : list vec) : list N :=
  let padded := transpose8 (firstn 4 h ++ repeat (set1_epi64 8 0) 4) in
  flat_map (fun i => storeu64 (firstn 4 (vrow padded i))) (seq 0 8).

(* c64/baokeshed64_avx512.c:949-1011; the 256 bytes written to out *)
Definition hash8_avx512 (inputs : list (list N)) (blocks : N) (key : list N) (offset : N)
  (deltas : list N) (flags flags_start flags_end : N) : res (list N) :=
  let* h := hashN_loop z_ops avx512_code64_8 8 transpose_msg8 (load_offsets 8)
              inputs blocks key offset deltas flags flags_start flags_end in
  Ok (store8 h).

(* c64/baokeshed64_avx512.c:1019-1037; the 32 bytes written to out by memcpy *)
Definition hash_one_avx512 (input : list N) (blocks : N) (key : list N)
  (offset flags flags_start flags_end : N) : res (list N) :=
  let* state := hash_one_loop compress_avx512 (N.to_nat blocks) key input offset
                  (N.lor flags flags_start) flags flags_end in
  Ok (bytes_of_words64 state).

(* c64/baokeshed64_avx512.c:1039-1077 *)
Definition hash_many_avx512 (inputs : list (list N)) (blocks : N) (key : list N) (offset : N)
  (deltas : list N) (flags flags_start flags_end : N) (out : list N) : res (list N) :=
  many_loop (length inputs) 8
    (fun ins off => hash8_avx512 ins blocks key off deltas flags flags_start flags_end)
    (fun ins off out =>
       many_loop (length ins) 4
         (fun ins off => hash4_avx512 ins blocks key off deltas flags flags_start flags_end)
         (fun ins off out =>
            many_loop (length ins) 2
              (fun ins off => hash2_avx512 ins blocks key off deltas flags flags_start flags_end)
              (fun ins off out =>
                 single_loop
                   (fun i off => hash_one_avx512 i blocks key off flags flags_start flags_end)
                   deltas ins off out)
              ins off deltas out)
         ins off deltas out)
    inputs offset deltas out.

(* ---- c64/baokeshed64_neon.c ----------------------------------------------------- *)

(* c64/baokeshed64_neon.c:33-47; add, xor 19-25 *)
Definition n_rot (x : vec) (n : N) : vec := or64 (srli_epi64 x n) (slli_epi64 x (64 - n)).
Definition n_ops : ops64 vec :=
  Ops64 vec [] add_epi64 xor64
    (fun x => n_rot x 32) (fun x => n_rot x 24) (fun x => n_rot x 16) (fun x => n_rot x 63).

(* c64/baokeshed64_neon.c:175-182; row0 and row1 are the lanes of vecs[0] and vecs[1] *)
Definition n_transpose2 (v : list vec) : list vec :=
  let row0 := vrow v 0 in
  let row1 := vrow v 1 in
  [[get row0 0; get row1 0]; [get row0 1; get row1 1]].

(* c64/baokeshed64_neon.c:184-210 *)
Definition n_transpose_msg2 (inputs : list (list N)) (block_offset : N) : res (list vec) :=
  let* v := load_grid64 16 inputs block_offset
              [0 * 16; 1 * 16; 2 * 16; 3 * 16; 4 * 16; 5 * 16; 6 * 16; 7 * 16] in
  Ok (groups 8 2 n_transpose2 v).

(* c64/baokeshed64_neon.c:212-215 *)
Definition n_load_offsets (offset : N) (deltas : list N) : res vec :=
  let* d0 := index deltas 0 in
  let* d1 := index deltas 1 in
  Ok [plus64 offset d0; plus64 offset d1].

(* c64/baokeshed64_neon.c:217-271; the 64 bytes written to out *)
Definition hash2_neon (inputs : list (list N)) (blocks : N) (key : list N) (offset : N)
  (deltas : list N) (flags flags_start flags_end : N) : res (list N) :=
  let* h := hashN_loop n_ops neon_code64 2 n_transpose_msg2 n_load_offsets
              inputs blocks key offset deltas flags flags_start flags_end in
  Ok (store2 n_transpose2 h).

(* c64/baokeshed64_neon.c:279-297; the 32 bytes written to out by memcpy *)
Definition hash_one_neon (input : list N) (blocks : N) (key : list N)
  (offset flags flags_start flags_end : N) : res (list N) :=
  let* state := hash_one_loop compress_portable (N.to_nat blocks) key input offset
                  (N.lor flags flags_start) flags flags_end in
  Ok (bytes_of_words64 state).

(* c64/baokeshed64_neon.c:299-321 *)
Definition hash_many_neon (inputs : list (list N)) (blocks : N) (key : list N) (offset : N)
  (deltas : list N) (flags flags_start flags_end : N) (out : list N) : res (list N) :=
  many_loop (length inputs) 2
    (fun ins off => hash2_neon ins blocks key off deltas flags flags_start flags_end)
    (fun ins off out =>
       single_loop (fun i off => hash_one_neon i blocks key off flags flags_start flags_end)
         deltas ins off out)
    inputs offset deltas out.
