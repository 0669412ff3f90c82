(* Vector intrinsics used by the SIMD code, on vectors represented as lists of
   32-bit lanes, lowest lane first (4 lanes for __m128i and uint32x4_t, 8 for
   __m256i, 16 for __m512i).  The semantics follow Intel's Intrinsics Guide.
   Definitions only.  The operations model hardware, not code in /repo; the code
   that calls them is cited next to each use. *)
From Coq Require Import NArith List Bool.
From Verif Require Import Base.
Import ListNotations.
Open Scope N_scope.

Definition vec : Type := list N.

Definition map2 {A B C : Type} (f : A -> B -> C) (a : list A) (b : list B) : list C :=
  map (fun p => f (fst p) (snd p)) (combine a b).

(* Apply an operation to each 128-bit (4-lane) part of wider vectors. *)
Fixpoint per128 (f : vec -> vec) (a : vec) : vec :=
  match a with
  | a0 :: a1 :: a2 :: a3 :: r => f [a0; a1; a2; a3] ++ per128 f r
  | _ => []
  end.
Fixpoint per128_2 (f : vec -> vec -> vec) (a b : vec) : vec :=
  match a, b with
  | a0 :: a1 :: a2 :: a3 :: r, b0 :: b1 :: b2 :: b3 :: s =>
      f [a0; a1; a2; a3] [b0; b1; b2; b3] ++ per128_2 f r s
  | _, _ => []
  end.

(* _mm*_add_epi32, _mm*_xor_si*, _mm*_or_si* (any width) *)
Definition add_epi32 : vec -> vec -> vec := map2 add32.
Definition xor_si : vec -> vec -> vec := map2 N.lxor.
Definition or_si : vec -> vec -> vec := map2 N.lor.
(* _mm*_srli_epi32, _mm*_slli_epi32, _mm*_ror_epi32 (any width) *)
Definition srli_epi32 (a : vec) (n : N) : vec := map (fun x => N.shiftr (x mod W32) n) a.
Definition slli_epi32 (a : vec) (n : N) : vec := map (fun x => N.shiftl (x mod W32) n mod W32) a.
Definition ror_epi32 (a : vec) (n : N) : vec := map (fun x => rotr32 x n) a.
(* _mm*_set1_epi32 *)
Definition set1_epi32 (lanes : nat) (x : N) : vec := repeat x lanes.

(* _MM_SHUFFLE(z, y, x, w) *)
Definition MM_SHUFFLE (z y x w : N) : N :=
  N.lor (N.lor (N.lor (N.shiftl z 6) (N.shiftl y 4)) (N.shiftl x 2)) w.

Definition lane (v : vec) (i : N) : N := nth (N.to_nat i) v 0.

(* _mm_shuffle_epi32 *)
Definition mm_shuffle_epi32 (a : vec) (imm : N) : vec :=
  [lane a (imm mod 4); lane a (imm / 4 mod 4); lane a (imm / 16 mod 4); lane a (imm / 64 mod 4)].
(* _mm_castps_si128(_mm_shuffle_ps(_mm_castsi128_ps(a), _mm_castsi128_ps(b), imm)) *)
Definition mm_shuffle_ps (a b : vec) (imm : N) : vec :=
  [lane a (imm mod 4); lane a (imm / 4 mod 4); lane b (imm / 16 mod 4); lane b (imm / 64 mod 4)].

(* _mm_unpack{lo,hi}_epi{32,64} on one 128-bit part *)
Definition mm_unpacklo_epi32 (a b : vec) : vec := [lane a 0; lane b 0; lane a 1; lane b 1].
Definition mm_unpackhi_epi32 (a b : vec) : vec := [lane a 2; lane b 2; lane a 3; lane b 3].
Definition mm_unpacklo_epi64 (a b : vec) : vec := [lane a 0; lane a 1; lane b 0; lane b 1].
Definition mm_unpackhi_epi64 (a b : vec) : vec := [lane a 2; lane a 3; lane b 2; lane b 3].

(* 16-bit halves of a lane *)
Definition halves (w : N) : list N := [w mod 65536; w / 65536 mod 65536].
Fixpoint unhalves (l : list N) : vec :=
  match l with
  | lo :: hi :: r => lo + 65536 * hi :: unhalves r
  | _ => []
  end.
(* _mm_blend_epi16: half i comes from b if bit i of imm is set, otherwise from a *)
Definition mm_blend_epi16 (a b : vec) (imm : N) : vec :=
  let ha := flat_map halves a in
  let hb := flat_map halves b in
  unhalves (map (fun i => if N.testbit imm (N.of_nat i) then nth i hb 0 else nth i ha 0)
                (seq 0 8)).

(* _mm_set_epi8 takes the highest byte first; the control vector is kept as a
   list of 16 bytes, lowest first. *)
Definition mm_set_epi8 (l : list N) : list N := rev l.
(* _mm_shuffle_epi8 on one 128-bit part *)
Definition mm_shuffle_epi8 (a : vec) (ctrl : list N) : vec :=
  let bs := bytes_of_words a in
  words_of_bytes
    (map (fun c => if 128 <=? c then 0 else nth (N.to_nat (c mod 16)) bs 0) ctrl).

(* _mm_slli_si128, _mm_srli_si128, _mm_alignr_epi8 (byte shifts) *)
Definition mm_slli_si128 (a : vec) (n : N) : vec :=
  words_of_bytes (take 16 (zeros n ++ bytes_of_words a)).
Definition mm_srli_si128 (a : vec) (n : N) : vec :=
  words_of_bytes (take 16 (drop n (bytes_of_words a) ++ zeros n)).
Definition mm_alignr_epi8 (a b : vec) (n : N) : vec :=
  words_of_bytes (take 16 (drop n (bytes_of_words b ++ bytes_of_words a))).

(* _mm256_unpack*, _mm512_unpack*: per 128-bit part *)
Definition w_unpacklo_epi32 : vec -> vec -> vec := per128_2 mm_unpacklo_epi32.
Definition w_unpackhi_epi32 : vec -> vec -> vec := per128_2 mm_unpackhi_epi32.
Definition w_unpacklo_epi64 : vec -> vec -> vec := per128_2 mm_unpacklo_epi64.
Definition w_unpackhi_epi64 : vec -> vec -> vec := per128_2 mm_unpackhi_epi64.

(* _mm256_shuffle_epi8: per 128-bit part; ctrl is 32 bytes, lowest first *)
Definition mm256_shuffle_epi8 (a : vec) (ctrl : list N) : vec :=
  mm_shuffle_epi8 (firstn 4 a) (firstn 16 ctrl) ++ mm_shuffle_epi8 (skipn 4 a) (skipn 16 ctrl).

(* _mm256_permute2x128_si256: each half selected by 2 bits of a nibble; bit 3 of
   the nibble zeroes it. *)
Definition sel128 (a b : vec) (k : N) : vec :=
  if N.testbit k 3 then [0; 0; 0; 0]
  else match k mod 4 with
       | 0 => firstn 4 a
       | 1 => skipn 4 a
       | 2 => firstn 4 b
       | _ => skipn 4 b
       end.
Definition mm256_permute2x128_si256 (a b : vec) (imm : N) : vec :=
  sel128 a b (imm mod 16) ++ sel128 a b (imm / 16 mod 16).

(* Unaligned load of n bytes at ptr + off, where the memory readable through
   ptr is the list mem.  A read outside it is undefined behaviour; the model makes
   it a Panic. *)
Definition loadu (n : N) (mem : list N) (off : N) : res vec :=
  let* b := slice mem off n in Ok (words_of_bytes b).
(* The bytes written by an unaligned store. *)
Definition storeu (v : vec) : list N := bytes_of_words v.

(* The lane operations of a round.  V is the vector type. *)
Record vops (V : Type) : Type := VOps
  { v_nil : V;
    v_add : V -> V -> V;
    v_xor : V -> V -> V;
    v_rot16 : V -> V;
    v_rot12 : V -> V;
    v_rot8 : V -> V;
    v_rot7 : V -> V }.
Arguments v_nil {V}. Arguments v_add {V}. Arguments v_xor {V}.
Arguments v_rot16 {V}. Arguments v_rot12 {V}. Arguments v_rot8 {V}. Arguments v_rot7 {V}.
