(* Vector intrinsics used by the 64-bit C code, on vectors represented as lists of 64-bit
   lanes, lowest lane first (2 lanes for __m128i and uint64x2_t, 4 for __m256i, 8 for
   __m512i).  The semantics follow Intel's Intrinsics Guide.  Definitions only.  The
   operations model hardware, not code in /repo; the code that calls them is cited next to
   each use. *)
From Coq Require Import NArith List Bool.
From Verif Require Import Base Spec64.
From Verif Require Export Simd.
Import ListNotations.
Open Scope N_scope.

(* Apply an operation to each 128-bit (2-lane) part. *)
Fixpoint parts (f : vec -> vec) (a : vec) : vec :=
  match a with
  | a0 :: a1 :: r => f [a0; a1] ++ parts f r
  | _ => []
  end.
Fixpoint parts2 (f : vec -> vec -> vec) (a b : vec) : vec :=
  match a, b with
  | a0 :: a1 :: r, b0 :: b1 :: s => f [a0; a1] [b0; b1] ++ parts2 f r s
  | _, _ => []
  end.

(* _mm*_add_epi64, vaddq_u64; _mm*_xor_si*, veorq_u64; _mm*_or_si*, vorrq_u64 *)
Definition add_epi64 : vec -> vec -> vec := map2 plus64.
Definition xor64 : vec -> vec -> vec := map2 N.lxor.
Definition or64 : vec -> vec -> vec := map2 N.lor.
(* _mm*_srli_epi64, vshrq_n_u64; _mm*_slli_epi64, vshlq_n_u64; _mm*_ror_epi64 *)
Definition srli_epi64 (a : vec) (n : N) : vec := map (fun x => N.shiftr (x mod W64) n) a.
Definition slli_epi64 (a : vec) (n : N) : vec := map (fun x => N.shiftl (x mod W64) n mod W64) a.
Definition ror_epi64 (a : vec) (n : N) : vec :=
  map (fun x => N.lor (N.shiftr (x mod W64) n) (N.shiftl (x mod W64) (64 - n) mod W64)) a.
(* _mm*_set1_epi64x, vld1q_dup_u64 *)
Definition set1_epi64 (lanes : nat) (x : N) : vec := repeat x lanes.

(* 32-bit halves of the lanes, lowest first *)
Definition halves32 (a : vec) : list N := flat_map (fun w => [w mod W32; w / W32 mod W32]) a.
Fixpoint unhalves32 (l : list N) : vec :=
  match l with
  | lo :: hi :: r => lo + W32 * hi :: unhalves32 r
  | _ => []
  end.

(* _mm_shuffle_epi32 and _mm256_shuffle_epi32: per 128-bit part *)
Definition shuffle_epi32 (a : vec) (imm : N) : vec :=
  parts (fun p => unhalves32 (mm_shuffle_epi32 (halves32 p) imm)) a.
(* _mm_shuffle_epi8; ctrl is 16 bytes, lowest first (the order of _mm_setr_epi8) *)
Definition part_shuffle_epi8 (a : vec) (ctrl : list N) : vec :=
  let bs := bytes_of_words64 a in
  words64_of_bytes
    (map (fun c => if 128 <=? c then 0 else nth (N.to_nat (c mod 16)) bs 0) ctrl).
(* _mm256_shuffle_epi8: ctrl is 32 bytes *)
Definition wide_shuffle_epi8 (a : vec) (ctrl : list N) : vec :=
  part_shuffle_epi8 (firstn 2 a) (firstn 16 ctrl) ++ part_shuffle_epi8 (skipn 2 a) (skipn 16 ctrl).
(* _mm256_alignr_epi8: per 128-bit part *)
Definition alignr_epi8 : vec -> vec -> N -> vec := fun a b n =>
  parts2 (fun a b =>
    words64_of_bytes (take 16 (drop n (bytes_of_words64 b ++ bytes_of_words64 a)))) a b.
(* _mm*_unpacklo_epi64, _mm*_unpackhi_epi64: per 128-bit part *)
Definition unpacklo_epi64 : vec -> vec -> vec := parts2 (fun a b => [lane a 0; lane b 0]).
Definition unpackhi_epi64 : vec -> vec -> vec := parts2 (fun a b => [lane a 1; lane b 1]).
(* _mm256_blend_epi32: half i comes from b if bit i of imm is set, otherwise from a *)
Definition blend_epi32 (a b : vec) (imm : N) : vec :=
  let ha := halves32 a in
  let hb := halves32 b in
  unhalves32 (map (fun i => if N.testbit imm (N.of_nat i) then nth i hb 0 else nth i ha 0)
                  (seq 0 8)).
(* _mm256_permute4x64_epi64 *)
Definition permute4x64_epi64 (a : vec) (imm : N) : vec :=
  [lane a (imm mod 4); lane a (imm / 4 mod 4); lane a (imm / 16 mod 4); lane a (imm / 64 mod 4)].
(* _mm256_permute2x128_si256: each half selected by 2 bits of a nibble; bit 3 of the
   nibble zeroes it *)
Definition select128 (a b : vec) (k : N) : vec :=
  if N.testbit k 3 then [0; 0]
  else match k mod 4 with
       | 0 => firstn 2 a
       | 1 => skipn 2 a
       | 2 => firstn 2 b
       | _ => skipn 2 b
       end.
Definition permute2x128_si256 (a b : vec) (imm : N) : vec :=
  select128 a b (imm mod 16) ++ select128 a b (imm / 16 mod 16).
(* _mm512_shuffle_i32x4: 128-bit parts; two of a, then two of b *)
Definition part128 (a : vec) (i : N) : vec := take 2 (drop (2 * i) a).
Definition shuffle_i32x4 (a b : vec) (imm : N) : vec :=
  part128 a (imm mod 4) ++ part128 a (imm / 4 mod 4)
  ++ part128 b (imm / 16 mod 4) ++ part128 b (imm / 64 mod 4).
(* _mm256_broadcastsi128_si256 *)
Definition broadcast128 (a : vec) : vec := a ++ a.
(* Unaligned load of n bytes at ptr + off, where the memory readable through ptr is the
   list mem; a read outside it is a Panic.  And the bytes written by an unaligned store. *)
Definition loadu64 (n : N) (mem : list N) (off : N) : res vec :=
  let* b := slice mem off n in Ok (words64_of_bytes b).
Definition storeu64 (v : vec) : list N := bytes_of_words64 v.

(* The lane operations of a round. *)
Record ops64 (V : Type) : Type := Ops64
  { o_nil : V;
    o_add : V -> V -> V;
    o_xor : V -> V -> V;
    o_rot32 : V -> V;
    o_rot24 : V -> V;
    o_rot16 : V -> V;
    o_rot63 : V -> V }.
Arguments o_nil {V}. Arguments o_add {V}. Arguments o_xor {V}.
Arguments o_rot32 {V}. Arguments o_rot24 {V}. Arguments o_rot16 {V}. Arguments o_rot63 {V}.
