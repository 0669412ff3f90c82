(* /repo/src/sse41.rs, /repo/src/avx2.rs, the rest of /repo/src/portable.rs and
   /repo/src/platform.rs again, this time noting the intrinsics executed and the memory
   accessed; see VOps.v for what is noted.  Definitions only.

   Where the code evaluates the operands of one expression, or the elements of one array
   expression, they are noted from left to right. *)
From Coq Require Import NArith List Bool.
From Verif Require Import Base Portable Simd SimdGen SimdHash Steps VOps VSimdGen.
From Verif Require Sse41 Avx2 Platform.
Import ListNotations.
Open Scope N_scope.

(* the values f x for the x of a list, in order *)
Fixpoint v_map {A B : Type} (f : A -> vs B) (xs : list A) : vs (list B) :=
  match xs with
  | [] => vlift (Ok [])
  | x :: xs => let? y := f x in let? ys := v_map f xs in vlift (Ok (y :: ys))
  end.

(* ---- rounds and loops that sse41.rs and avx2.rs share, see SimdHash.v --------------------- *)

(* one statement of round(v, m, r) *)
Definition v_exec_instr (O : svops) (m : list vec) (r : nat) (v : list vec) (i : instr)
  : vs (list vec) :=
  let at_ k := nth k v [] in
  match i with
  | AddM d k => let? x := msg_at m r k in let? y := sv_add O (at_ d) x in vlift (Ok (set_nth v d y))
  | AddV d s => let? y := sv_add O (at_ d) (at_ s) in vlift (Ok (set_nth v d y))
  | XorV d s => let? y := sv_xor O (at_ d) (at_ s) in vlift (Ok (set_nth v d y))
  | Rot16 d => let? y := sv_rot16 O (at_ d) in vlift (Ok (set_nth v d y))
  | Rot12 d => let? y := sv_rot12 O (at_ d) in vlift (Ok (set_nth v d y))
  | Rot8 d => let? y := sv_rot8 O (at_ d) in vlift (Ok (set_nth v d y))
  | Rot7 d => let? y := sv_rot7 O (at_ d) in vlift (Ok (set_nth v d y))
  end.
Fixpoint v_run_round (O : svops) (code : list instr) (v m : list vec) (r : nat)
  : vs (list vec) :=
  match code with
  | [] => vlift (Ok v)
  | i :: code => let? v := v_exec_instr O m r v i in v_run_round O code v m r
  end.

(* src/sse41.rs:560-592, src/avx2.rs:335-367; n is DEGREE, the number of lanes *)
Definition v_vec_compress (O : svops) (code : list instr) (n : nat) (h msg : list vec)
  (offset_low_vec offset_high_vec block_len_vec block_flags_vec : vec) : vs (list vec) :=
  let at_ (l : list vec) k := nth k l [] in
  let? iv := v_map (fun i => let? x := word PIV IV i in lanes1 n x) (seq 0 4) in
  let v :=
    [at_ h 0%nat; at_ h 1%nat; at_ h 2%nat; at_ h 3%nat;
     at_ h 4%nat; at_ h 5%nat; at_ h 6%nat; at_ h 7%nat]
    ++ iv ++ [offset_low_vec; offset_high_vec; block_len_vec; block_flags_vec] in
  let? v := v_run_round O code v msg 0 in
  let? v := v_run_round O code v msg 1 in
  let? v := v_run_round O code v msg 2 in
  let? v := v_run_round O code v msg 3 in
  let? v := v_run_round O code v msg 4 in
  let? v := v_run_round O code v msg 5 in
  let? v := v_run_round O code v msg 6 in
  v_map (fun i => sv_xor O (at_ v i) (at_ v (i + 8)%nat)) (seq 0 8).

(* src/sse41.rs:548-595, src/avx2.rs:323-370 *)
Fixpoint v_vec_hash_loop (O : svops) (code : list instr) (n : nat)
  (load_msgs : N -> vs (list vec)) (todo : nat) (block blocks : N) (h : list vec)
  (offset_low_vec offset_high_vec : vec) (block_flags flags flags_end : N) : vs (list vec) :=
  match todo with
  | O => vlift (Ok h)
  | S todo' =>
      let block_flags :=
        if block + 1 =? blocks then N.lor block_flags flags_end else block_flags in
      let? block_len_vec := lanes1 n BLOCK_LEN in
      let? block_flags_vec := lanes1 n block_flags in
      let? msg := load_msgs (block * BLOCK_LEN) in
      let? h := v_vec_compress O code n h msg offset_low_vec offset_high_vec
                               block_len_vec block_flags_vec in
      v_vec_hash_loop O code n load_msgs todo' (block + 1) blocks h
                      offset_low_vec offset_high_vec flags flags flags_end
  end.

(* the loads of transpose_msg_vecs; k0 is the number of the first of the inputs *)
Fixpoint v_load_row (k : nat) (bytes : N) (inputs : list (list N)) (off : N) : vs (list vec) :=
  match inputs with
  | [] => vlift (Ok [])
  | inp :: inputs =>
      let? x := load k bytes inp off in
      let? xs := v_load_row (S k) bytes inputs off in
      vlift (Ok (x :: xs))
  end.
Fixpoint v_load_grid (k0 : nat) (bytes : N) (inputs : list (list N)) (block_offset : N)
  (cols : list N) : vs (list vec) :=
  match cols with
  | [] => vlift (Ok [])
  | col :: cols =>
      let? x := v_load_row k0 bytes inputs (block_offset + col) in
      let? y := v_load_grid k0 bytes inputs block_offset cols in
      vlift (Ok (x ++ y))
  end.

(* load_offsets of sse41.rs and avx2.rs.  The checked additions are arithmetic on offsets,
   which is not noted; they come before the two vectors are made. *)
Definition v_load_offsets (c : cfg) (n : nat) (offset offset_delta : N) : vs (vec * vec) :=
  let? offs := vlift (lane_offsets c n offset offset_delta) in
  let? low := ([Lanes n], Ok (map offset_low offs)) in
  let? high := ([Lanes n], Ok (map offset_high offs)) in
  vlift (Ok (low, high)).

(* the loop of hash1: src/portable.rs:136-153, src/sse41.rs:624-639.  Input number k; off is
   the position of slice in it. *)
Fixpoint v_hash1_loop (comp : list N -> list N -> N -> N -> N -> vs (list N)) (k : nat) (off : N)
  (fuel : nat) (cv slice : list N) (offset block_flags flags flags_end : N) : vs (list N) :=
  if BLOCK_LEN <=? len slice then
    match fuel with
    | O => vlift NoFuel
    | S fuel' =>
        let block_flags :=
          if len slice =? BLOCK_LEN then N.lor block_flags flags_end else block_flags in
        ([Call (PInput k) off], Ok tt) ;?
        let? cv := comp cv (take BLOCK_LEN slice) BLOCK_LEN offset block_flags in
        v_hash1_loop comp k (off + BLOCK_LEN) fuel' cv (drop BLOCK_LEN slice) offset
                     flags flags flags_end
    end
  else vlift (Ok cv).

(* hash1: src/portable.rs:127-155, src/sse41.rs:613-641.  The key is copied, and the 32 bytes
   of output number k are written. *)
Definition v_hash1 (c : cfg) (comp : list N -> list N -> N -> N -> N -> vs (list N)) (k : nat)
  (input key : list N) (offset flags flags_start flags_end : N) : vs (list N) :=
  vlift (dassert c (len input mod BLOCK_LEN =? 0)) ;?
  ([Load PKey 0 32], Ok tt) ;?
  let? cv := v_hash1_loop comp k 0 (length input) key input offset
                          (N.lor flags flags_start) flags flags_end in
  ([Store POut (32 * N.of_nat k) 32], Ok (bytes_of_words cv)).

(* src/portable.rs:168-179, src/sse41.rs:675-686 *)
Fixpoint v_hash_each (c : cfg) (h1 : nat -> list N -> N -> vs (list N)) (k : nat)
  (inputs : list (list N)) (offset offset_delta : N) (out : list N) : vs (list N) :=
  match inputs with
  | [] => vlift (Ok out)
  | input :: rest =>
      if OUT_LEN <=? len out then
        let? h := h1 k input offset in
        let? offset := vlift (add64 c offset offset_delta) in
        let? out' := v_hash_each c h1 (S k) rest offset offset_delta (drop OUT_LEN out) in
        vlift (Ok (h ++ out'))
      else vlift (Ok out)
  end.

(* src/sse41.rs:655-674, src/avx2.rs:395-414; k is the number of the first of the inputs left,
   which is also the number of the first output left *)
Fixpoint v_batch_loop (c : cfg) (fuel : nat) (degree : N)
  (hashN : nat -> list (list N) -> N -> vs (list N))
  (rest : nat -> list (list N) -> N -> list N -> vs (list N)) (k : nat)
  (inputs : list (list N)) (offset offset_delta : N) (out : list N) : vs (list N) :=
  if (degree <=? len inputs) && (degree * OUT_LEN <=? len out) then
    match fuel with
    | O => vlift NoFuel
    | S fuel' =>
        let? hs := hashN k (take degree inputs) offset in
        let? d := vlift (mul64 c degree offset_delta) in
        let? offset := vlift (add64 c offset d) in
        let? out' := v_batch_loop c fuel' degree hashN rest (k + N.to_nat degree)
                       (drop degree inputs) offset offset_delta (drop (degree * OUT_LEN) out) in
        vlift (Ok (hs ++ out'))
    end
  else rest k inputs offset out.

(* ---- src/sse41.rs --------------------------------------------------------------------------- *)

(* src/sse41.rs:43-49 *)
Definition sse41_v_rot16 (a : vec) : vs vec :=
  op1 (ShuffleEpi8 (mm_set_epi8 [13; 12; 15; 14; 9; 8; 11; 10; 5; 4; 7; 6; 1; 0; 3; 2])) a.
(* src/sse41.rs:51-54 *)
Definition sse41_v_rot12 (a : vec) : vs vec :=
  let? x := op1 (SrliEpi32 12) a in
  let? y := op1 (SlliEpi32 (32 - 12)) a in
  op2 XorSi x y.
(* src/sse41.rs:56-62 *)
Definition sse41_v_rot8 (a : vec) : vs vec :=
  op1 (ShuffleEpi8 (mm_set_epi8 [12; 15; 14; 13; 8; 11; 10; 9; 4; 7; 6; 5; 0; 3; 2; 1])) a.
(* src/sse41.rs:64-67 *)
Definition sse41_v_rot7 (a : vec) : vs vec :=
  let? x := op1 (SrliEpi32 7) a in
  let? y := op1 (SlliEpi32 (32 - 7)) a in
  op2 XorSi x y.
(* add, xor: src/sse41.rs:23-31 *)
Definition sse41_vops : svops :=
  SVOps (op2 AddEpi32) (op2 XorSi) sse41_v_rot16 sse41_v_rot12 sse41_v_rot8 sse41_v_rot7.

(* src/sse41.rs:126-307 *)
Definition sse41_v_compress_inner (cv block : list N) (block_len offset flags : N)
  : vs (list vec) :=
  let? row1 := ([Load PCv 0 16], Ok (firstn 4 cv)) in
  let? row2 := ([Load PCv 16 16], Ok (firstn 4 (skipn 4 cv))) in
  let? iv0 := word PIV IV 0 in
  let? iv1 := word PIV IV 1 in
  let? iv2 := word PIV IV 2 in
  let? iv3 := word PIV IV 3 in
  let? row3 := lanes [iv0; iv1; iv2; iv3] in
  let? row4 := lanes [offset_low offset; offset_high offset; block_len; flags] in
  let? m0 := ([Load PBlock 0 16], Ok (words_of_bytes (take 16 (drop 0 block)))) in
  let? m1 := ([Load PBlock 16 16], Ok (words_of_bytes (take 16 (drop 16 block)))) in
  let? m2 := ([Load PBlock 32 16], Ok (words_of_bytes (take 16 (drop 32 block)))) in
  let? m3 := ([Load PBlock 48 16], Ok (words_of_bytes (take 16 (drop 48 block)))) in
  let? (row1, row2, row3, row4) :=
    v_sse41_row_round1 sse41_vops m0 m1 m2 m3 row1 row2 row3 row4 in
  let? (row1, row2, row3, row4) :=
    v_sse41_row_round2 sse41_vops m0 m1 m2 m3 row1 row2 row3 row4 in
  let? (row1, row2, row3, row4) :=
    v_sse41_row_round3 sse41_vops m0 m1 m2 m3 row1 row2 row3 row4 in
  let? (row1, row2, row3, row4) :=
    v_sse41_row_round4 sse41_vops m0 m1 m2 m3 row1 row2 row3 row4 in
  let? (row1, row2, row3, row4) :=
    v_sse41_row_round5 sse41_vops m0 m1 m2 m3 row1 row2 row3 row4 in
  let? (row1, row2, row3, row4) :=
    v_sse41_row_round6 sse41_vops m0 m1 m2 m3 row1 row2 row3 row4 in
  let? (row1, row2, row3, row4) :=
    v_sse41_row_round7 sse41_vops m0 m1 m2 m3 row1 row2 row3 row4 in
  vlift (Ok [row1; row2; row3; row4]).

(* src/sse41.rs:310-320 *)
Definition sse41_v_compress (cv block : list N) (block_len offset flags : N) : vs (list N) :=
  let? rows := sse41_v_compress_inner cv block block_len offset flags in
  let? x := op2 XorSi (Sse41.row rows 0) (Sse41.row rows 2) in
  ([Store PCv 0 16], Ok tt) ;?
  let? y := op2 XorSi (Sse41.row rows 1) (Sse41.row rows 3) in
  ([Store PCv 16 16], Ok tt) ;?
  vlift (Ok (x ++ y)).

(* src/sse41.rs:323-336 *)
Definition sse41_v_compress_xof (cv block : list N) (block_len offset flags : N) : vs (list N) :=
  let? rows := sse41_v_compress_inner cv block block_len offset flags in
  let? r0 := op2 XorSi (Sse41.row rows 0) (Sse41.row rows 2) in
  let? r1 := op2 XorSi (Sse41.row rows 1) (Sse41.row rows 3) in
  let? cv0 := ([Load PCv 0 16], Ok (firstn 4 cv)) in
  let? r2 := op2 XorSi (Sse41.row rows 2) cv0 in
  let? cv1 := ([Load PCv 16 16], Ok (firstn 4 (skipn 4 cv))) in
  let? r3 := op2 XorSi (Sse41.row rows 3) cv1 in
  vlift (Ok (bytes_of_words (r0 ++ r1 ++ r2 ++ r3))).

(* src/sse41.rs:456-475 *)
Definition sse41_v_transpose_vecs (v : list vec) : vs (list vec) :=
  let row := Sse41.row v in
  let? ab_01 := op2 UnpackLo32 (row 0%nat) (row 1%nat) in
  let? ab_23 := op2 UnpackHi32 (row 0%nat) (row 1%nat) in
  let? cd_01 := op2 UnpackLo32 (row 2%nat) (row 3%nat) in
  let? cd_23 := op2 UnpackHi32 (row 2%nat) (row 3%nat) in
  let? abcd_0 := op2 UnpackLo64 ab_01 cd_01 in
  let? abcd_1 := op2 UnpackHi64 ab_01 cd_01 in
  let? abcd_2 := op2 UnpackLo64 ab_23 cd_23 in
  let? abcd_3 := op2 UnpackHi64 ab_23 cd_23 in
  vlift (Ok [abcd_0; abcd_1; abcd_2; abcd_3]).

(* src/sse41.rs:478-503 *)
Definition sse41_v_transpose_msg_vecs (k0 : nat) (inputs : list (list N)) (block_offset : N)
  : vs (list vec) :=
  let? vecs := v_load_grid k0 16 inputs block_offset [0; 16; 32; 48] in
  let? s0 := sse41_v_transpose_vecs (firstn 4 vecs) in
  let? s1 := sse41_v_transpose_vecs (firstn 4 (skipn 4 vecs)) in
  let? s2 := sse41_v_transpose_vecs (firstn 4 (skipn 8 vecs)) in
  let? s3 := sse41_v_transpose_vecs (firstn 4 (skipn 12 vecs)) in
  vlift (Ok (s0 ++ s1 ++ s2 ++ s3)).

(* src/sse41.rs:524-610; k0 is the number of the first of the four inputs *)
Definition sse41_v_hash4 (c : cfg) (k0 : nat) (inputs : list (list N)) (blocks : N)
  (key : list N) (offset offset_delta flags flags_start flags_end : N) : vs (list N) :=
  let? h := v_map (fun i => let? x := word PKey key i in lanes1 4 x) (seq 0 8) in
  let? (offset_low_vec, offset_high_vec) := v_load_offsets c 4 offset offset_delta in
  let? h := v_vec_hash_loop sse41_vops sse41_round_code 4 (sse41_v_transpose_msg_vecs k0 inputs)
              (N.to_nat blocks) 0 blocks h offset_low_vec offset_high_vec
              (N.lor flags flags_start) flags flags_end in
  let? s0 := sse41_v_transpose_vecs (firstn 4 h) in
  let? s1 := sse41_v_transpose_vecs (skipn 4 h) in
  let row := Sse41.row (s0 ++ s1) in
  let o := 32 * N.of_nat k0 in
  let? b0 := store (o + 0) 16 (row 0%nat) in
  let? b1 := store (o + 16) 16 (row 4%nat) in
  let? b2 := store (o + 32) 16 (row 1%nat) in
  let? b3 := store (o + 48) 16 (row 5%nat) in
  let? b4 := store (o + 64) 16 (row 2%nat) in
  let? b5 := store (o + 80) 16 (row 6%nat) in
  let? b6 := store (o + 96) 16 (row 3%nat) in
  let? b7 := store (o + 112) 16 (row 7%nat) in
  vlift (Ok (b0 ++ b1 ++ b2 ++ b3 ++ b4 ++ b5 ++ b6 ++ b7)).

(* src/sse41.rs:644-687; k is the number of the first input *)
Definition sse41_v_hash_many (c : cfg) (cap : N) (k : nat) (inputs : list (list N))
  (key : list N) (offset offset_delta flags flags_start flags_end : N) (out : list N)
  : vs (list N) :=
  vlift (dassert c (len inputs * OUT_LEN <=? len out)) ;?
  v_batch_loop c (length inputs) Sse41.DEGREE
    (fun k four off => sse41_v_hash4 c k four (cap / BLOCK_LEN) key off offset_delta
                                     flags flags_start flags_end)
    (fun k inputs off out =>
       v_hash_each c
         (fun k input off =>
            v_hash1 c sse41_v_compress k input key off flags flags_start flags_end)
         k inputs off offset_delta out)
    k inputs offset offset_delta out.

(* ---- src/avx2.rs ---------------------------------------------------------------------------- *)

(* src/avx2.rs:45-54 *)
Definition avx2_v_rot16 (x : vec) : vs vec :=
  op1 (ShuffleEpi8x2
         (mm_set_epi8 [13; 12; 15; 14; 9; 8; 11; 10; 5; 4; 7; 6; 1; 0; 3; 2;
                       13; 12; 15; 14; 9; 8; 11; 10; 5; 4; 7; 6; 1; 0; 3; 2])) x.
(* src/avx2.rs:56-59 *)
Definition avx2_v_rot12 (x : vec) : vs vec :=
  let? a := op1 (SrliEpi32 12) x in
  let? b := op1 (SlliEpi32 20) x in
  op2 OrSi a b.
(* src/avx2.rs:61-70 *)
Definition avx2_v_rot8 (x : vec) : vs vec :=
  op1 (ShuffleEpi8x2
         (mm_set_epi8 [12; 15; 14; 13; 8; 11; 10; 9; 4; 7; 6; 5; 0; 3; 2; 1;
                       12; 15; 14; 13; 8; 11; 10; 9; 4; 7; 6; 5; 0; 3; 2; 1])) x.
(* src/avx2.rs:72-75 *)
Definition avx2_v_rot7 (x : vec) : vs vec :=
  let? a := op1 (SrliEpi32 7) x in
  let? b := op1 (SlliEpi32 25) x in
  op2 OrSi a b.
(* add, xor: src/avx2.rs:23-31 *)
Definition avx2_vops : svops :=
  SVOps (op2 AddEpi32) (op2 XorSi) avx2_v_rot16 avx2_v_rot12 avx2_v_rot8 avx2_v_rot7.

(* src/avx2.rs:194-200 *)
Definition avx2_v_interleave128 (a b : vec) : vs (vec * vec) :=
  let? x := op2 (Permute2x128 0x20) a b in
  let? y := op2 (Permute2x128 0x31) a b in
  vlift (Ok (x, y)).

(* src/avx2.rs:208-244 *)
Definition avx2_v_transpose_vecs (v : list vec) : vs (list vec) :=
  let row := Avx2.row v in
  let? ab_0145 := op2 UnpackLo32w (row 0%nat) (row 1%nat) in
  let? ab_2367 := op2 UnpackHi32w (row 0%nat) (row 1%nat) in
  let? cd_0145 := op2 UnpackLo32w (row 2%nat) (row 3%nat) in
  let? cd_2367 := op2 UnpackHi32w (row 2%nat) (row 3%nat) in
  let? ef_0145 := op2 UnpackLo32w (row 4%nat) (row 5%nat) in
  let? ef_2367 := op2 UnpackHi32w (row 4%nat) (row 5%nat) in
  let? gh_0145 := op2 UnpackLo32w (row 6%nat) (row 7%nat) in
  let? gh_2367 := op2 UnpackHi32w (row 6%nat) (row 7%nat) in
  let? abcd_04 := op2 UnpackLo64w ab_0145 cd_0145 in
  let? abcd_15 := op2 UnpackHi64w ab_0145 cd_0145 in
  let? abcd_26 := op2 UnpackLo64w ab_2367 cd_2367 in
  let? abcd_37 := op2 UnpackHi64w ab_2367 cd_2367 in
  let? efgh_04 := op2 UnpackLo64w ef_0145 gh_0145 in
  let? efgh_15 := op2 UnpackHi64w ef_0145 gh_0145 in
  let? efgh_26 := op2 UnpackLo64w ef_2367 gh_2367 in
  let? efgh_37 := op2 UnpackHi64w ef_2367 gh_2367 in
  let? (abcdefgh_0, abcdefgh_4) := avx2_v_interleave128 abcd_04 efgh_04 in
  let? (abcdefgh_1, abcdefgh_5) := avx2_v_interleave128 abcd_15 efgh_15 in
  let? (abcdefgh_2, abcdefgh_6) := avx2_v_interleave128 abcd_26 efgh_26 in
  let? (abcdefgh_3, abcdefgh_7) := avx2_v_interleave128 abcd_37 efgh_37 in
  vlift (Ok [abcdefgh_0; abcdefgh_1; abcdefgh_2; abcdefgh_3;
             abcdefgh_4; abcdefgh_5; abcdefgh_6; abcdefgh_7]).

(* src/avx2.rs:246-270 *)
Definition avx2_v_transpose_msg_vecs (k0 : nat) (inputs : list (list N)) (block_offset : N)
  : vs (list vec) :=
  let? vecs := v_load_grid k0 32 inputs block_offset [0; 32] in
  let? s0 := avx2_v_transpose_vecs (firstn 8 vecs) in
  let? s1 := avx2_v_transpose_vecs (skipn 8 vecs) in
  vlift (Ok (s0 ++ s1)).

(* src/avx2.rs:298-381; k0 is the number of the first of the eight inputs *)
Definition avx2_v_hash8 (c : cfg) (k0 : nat) (inputs : list (list N)) (blocks : N)
  (key : list N) (offset offset_delta flags flags_start flags_end : N) : vs (list N) :=
  let? h := v_map (fun i => let? x := word PKey key i in lanes1 8 x) (seq 0 8) in
  let? (offset_low_vec, offset_high_vec) := v_load_offsets c 8 offset offset_delta in
  let? h := v_vec_hash_loop avx2_vops avx2_round_code 8 (avx2_v_transpose_msg_vecs k0 inputs)
              (N.to_nat blocks) 0 blocks h offset_low_vec offset_high_vec
              (N.lor flags flags_start) flags flags_end in
  let? h := avx2_v_transpose_vecs h in
  let row := Avx2.row h in
  let o := 32 * N.of_nat k0 in
  let? b0 := store (o + 0) 32 (row 0%nat) in
  let? b1 := store (o + 32) 32 (row 1%nat) in
  let? b2 := store (o + 64) 32 (row 2%nat) in
  let? b3 := store (o + 96) 32 (row 3%nat) in
  let? b4 := store (o + 128) 32 (row 4%nat) in
  let? b5 := store (o + 160) 32 (row 5%nat) in
  let? b6 := store (o + 192) 32 (row 6%nat) in
  let? b7 := store (o + 224) 32 (row 7%nat) in
  vlift (Ok (b0 ++ b1 ++ b2 ++ b3 ++ b4 ++ b5 ++ b6 ++ b7)).

(* src/avx2.rs:383-425 *)
Definition avx2_v_hash_many (c : cfg) (cap : N) (k : nat) (inputs : list (list N))
  (key : list N) (offset offset_delta flags flags_start flags_end : N) (out : list N)
  : vs (list N) :=
  vlift (dassert c (len inputs * OUT_LEN <=? len out)) ;?
  v_batch_loop c (length inputs) Avx2.DEGREE
    (fun k eight off => avx2_v_hash8 c k eight (cap / BLOCK_LEN) key off offset_delta
                                     flags flags_start flags_end)
    (fun k inputs off out =>
       sse41_v_hash_many c cap k inputs key off offset_delta flags flags_start flags_end out)
    k inputs offset offset_delta out.

(* ---- src/portable.rs ------------------------------------------------------------------------ *)

(* src/portable.rs:96-107, 109-125: the steps are those of Steps.v *)
Definition portable_v_compress (cv block : list N) (block_len offset flags : N) : vs (list N) :=
  (map Scalar (fst (s_compress cv block block_len offset flags)),
   Ok (Portable.compress cv block block_len offset flags)).
Definition portable_v_compress_xof (cv block : list N) (block_len offset flags : N)
  : vs (list N) :=
  (map Scalar (fst (s_compress_xof cv block block_len offset flags)),
   Ok (Portable.compress_xof cv block block_len offset flags)).

(* src/portable.rs:157-180 *)
Definition portable_v_hash_many (c : cfg) (k : nat) (inputs : list (list N)) (key : list N)
  (offset offset_delta flags flags_start flags_end : N) (out : list N) : vs (list N) :=
  vlift (dassert c (len inputs * OUT_LEN <=? len out)) ;?
  v_hash_each c
    (fun k input offset =>
       v_hash1 c portable_v_compress k input key offset flags flags_start flags_end)
    k inputs offset offset_delta out.

(* ---- src/platform.rs ------------------------------------------------------------------------ *)

(* src/platform.rs:53-69 *)
Definition p_compress (p : Platform.platform) (cv block : list N) (block_len offset flags : N)
  : vs (list N) :=
  match p with
  | Platform.PPortable => portable_v_compress cv block block_len offset flags
  | Platform.PSSE41 | Platform.PAVX2 => sse41_v_compress cv block block_len offset flags
  end.

(* src/platform.rs:71-87 *)
Definition p_compress_xof (p : Platform.platform) (cv block : list N)
  (block_len offset flags : N) : vs (list N) :=
  match p with
  | Platform.PPortable => portable_v_compress_xof cv block block_len offset flags
  | Platform.PSSE41 | Platform.PAVX2 => sse41_v_compress_xof cv block block_len offset flags
  end.

(* src/platform.rs:89-140 *)
Definition p_hash_many (c : cfg) (p : Platform.platform) (cap : N) (inputs : list (list N))
  (key : list N) (offset offset_delta flags flags_start flags_end : N) (out : list N)
  : vs (list N) :=
  match p with
  | Platform.PPortable =>
      portable_v_hash_many c 0 inputs key offset offset_delta flags flags_start flags_end out
  | Platform.PSSE41 =>
      sse41_v_hash_many c cap 0 inputs key offset offset_delta flags flags_start flags_end out
  | Platform.PAVX2 =>
      avx2_v_hash_many c cap 0 inputs key offset offset_delta flags flags_start flags_end out
  end.
