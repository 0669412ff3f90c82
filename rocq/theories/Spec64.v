(* The 64-bit variant of the compression function, written as a specification, and what
   hash_many should compute with it.  Independent of the model.  Definitions only.

   The variant is the 32-bit one with 64-bit words: 16 state words, blocks of 128 bytes,
   8 rounds, a chaining value of 4 words, rotations by 32, 24, 16 and 63. *)
From Coq Require Import NArith List Bool.
From Verif Require Import Base.
Import ListNotations.
Open Scope N_scope.

(* ---- 64-bit words ---- *)

Definition plus64 (a b : N) : N := (a + b) mod W64.
(* Rotation to the right; the argument is reduced first, which changes nothing for a
   64-bit word. *)
Definition rotr64 (x n : N) : N :=
  N.lor (N.shiftr (x mod W64) n) (N.shiftl (x mod W64) (64 - n) mod W64).
Definition word64 (b0 b1 b2 b3 b4 b5 b6 b7 : N) : N :=
  word32 b0 b1 b2 b3 + 4294967296 * word32 b4 b5 b6 b7.
Definition bytes64 (w : N) : list N := bytes32 (w mod W32) ++ bytes32 (w / W32).
Fixpoint words64_of_bytes (bs : list N) : list N :=
  match bs with
  | b0 :: b1 :: b2 :: b3 :: b4 :: b5 :: b6 :: b7 :: r =>
      word64 b0 b1 b2 b3 b4 b5 b6 b7 :: words64_of_bytes r
  | _ => []
  end.
Definition bytes_of_words64 (ws : list N) : list N := flat_map bytes64 ws.
Definition dword (w : N) : Prop := w < W64.
Definition dwords (l : list N) : Prop := Forall dword l.

(* ---- the compression function ---- *)

(* The first 64 bits of the fractional parts of the square roots of the first 8 primes
   (BLAKE2b's initial value). *)
Definition IV64 : list N :=
  [0x6A09E667F3BCC908; 0xBB67AE8584CAA73B; 0x3C6EF372FE94F82B; 0xA54FF53A5F1D36F1;
   0x510E527FADE682D1; 0x9B05688C2B3E6C1F; 0x1F83D9ABFB41BD6B; 0x5BE0CD19137E2179].

(* The message word order of each round: the first eight rows of BLAKE2b's table. *)
Definition SIGMA64 : list (list nat) :=
  [[0; 1; 2; 3; 4; 5; 6; 7; 8; 9; 10; 11; 12; 13; 14; 15];
   [14; 10; 4; 8; 9; 15; 13; 6; 1; 12; 0; 2; 11; 7; 5; 3];
   [11; 8; 12; 0; 5; 2; 15; 13; 10; 14; 3; 6; 7; 1; 9; 4];
   [7; 9; 3; 1; 13; 12; 11; 14; 2; 6; 5; 10; 4; 0; 15; 8];
   [9; 0; 5; 7; 2; 4; 10; 15; 14; 1; 11; 12; 6; 8; 3; 13];
   [2; 12; 6; 10; 0; 11; 8; 3; 4; 13; 7; 5; 15; 14; 1; 9];
   [12; 5; 1; 15; 14; 13; 4; 10; 0; 7; 6; 3; 9; 2; 8; 11];
   [13; 11; 7; 14; 12; 1; 3; 9; 5; 0; 15; 4; 8; 6; 2; 10]]%nat.

(* The quarter round on four words, with two message words. *)
Definition G64 (a b c d x y : N) : N * N * N * N :=
  let a := plus64 (plus64 a b) x in
  let d := rotr64 (N.lxor d a) 32 in
  let c := plus64 c d in
  let b := rotr64 (N.lxor b c) 24 in
  let a := plus64 (plus64 a b) y in
  let d := rotr64 (N.lxor d a) 16 in
  let c := plus64 c d in
  let b := rotr64 (N.lxor b c) 63 in
  (a, b, c, d).

(* Four columns, then four diagonals of the 4x4 state; the second argument is the message
   in the order of the round. *)
Definition round64 (v m : list N) : list N :=
  match v, m with
  | [v0; v1; v2; v3; v4; v5; v6; v7; v8; v9; v10; v11; v12; v13; v14; v15],
    [m0; m1; m2; m3; m4; m5; m6; m7; m8; m9; m10; m11; m12; m13; m14; m15] =>
      let '(v0, v4, v8, v12) := G64 v0 v4 v8 v12 m0 m1 in
      let '(v1, v5, v9, v13) := G64 v1 v5 v9 v13 m2 m3 in
      let '(v2, v6, v10, v14) := G64 v2 v6 v10 v14 m4 m5 in
      let '(v3, v7, v11, v15) := G64 v3 v7 v11 v15 m6 m7 in
      let '(v0, v5, v10, v15) := G64 v0 v5 v10 v15 m8 m9 in
      let '(v1, v6, v11, v12) := G64 v1 v6 v11 v12 m10 m11 in
      let '(v2, v7, v8, v13) := G64 v2 v7 v8 v13 m12 m13 in
      let '(v3, v4, v9, v14) := G64 v3 v4 v9 v14 m14 m15 in
      [v0; v1; v2; v3; v4; v5; v6; v7; v8; v9; v10; v11; v12; v13; v14; v15]
  | _, _ => []
  end.

(* The state before the first round. *)
Definition start64 (cv : list N) (blen off flags : N) : list N :=
  cv ++ skipn 4 IV64 ++ firstn 4 IV64 ++ [off; get IV64 5; blen; flags].

(* All 16 output words for a chaining value of 4 words and a block of 128 bytes.  The
   first 4 are the next chaining value. *)
Definition compress64 (cv block : list N) (blen off flags : N) : list N :=
  let m := words64_of_bytes block in
  let v := fold_left (fun v row => round64 v (map (get m) row)) SIGMA64
                     (start64 cv blen off flags) in
  map (fun p => N.lxor (fst p) (snd p)) (combine (firstn 4 v) (firstn 4 (skipn 4 v)))
  ++ map (fun p => N.lxor (fst p) (snd p)) (combine (firstn 4 (skipn 4 v)) cv)
  ++ skipn 8 v.

(* ---- hash_many ---- *)

(* The first t 128-byte blocks of l. *)
Fixpoint blks64 (t : nat) (l : list N) : list (list N) :=
  match t with
  | O => []
  | S t' => take 128 l :: blks64 t' (drop 128 l)
  end.

(* Chain blocks with the compression function F: bf are the flags of the first one. *)
Fixpoint chain64 (F : list N -> list N -> N -> N -> N -> list N) (cv : list N)
  (off bf flags fend : N) (bs : list (list N)) : list N :=
  match bs with
  | [] => cv
  | b :: rest =>
      chain64 F
        (firstn 4 (F cv b 128 off (match rest with [] => N.lor bf fend | _ => bf end)))
        off flags flags fend rest
  end.

(* The 32 bytes for one input at offset off: every input is a whole number of blocks,
   chained from the key; the first block carries the flag fs, the last one fe. *)
Definition one64 (key : list N) (flags fs fe off : N) (input : list N) : list N :=
  bytes_of_words64
    (chain64 compress64 key off (N.lor flags fs) flags fe
       (blks64 (N.to_nat (len input / 128)) input)).

(* The offset of the next input is larger by delta, modulo 2^64. *)
Fixpoint all64 (key : list N) (flags fs fe off delta : N) (inputs : list (list N))
  : list (list N) :=
  match inputs with
  | [] => []
  | i :: r => one64 key flags fs fe (off mod 2 ^ 64) i :: all64 key flags fs fe (off + delta) delta r
  end.

(* 0, delta, 2*delta, ...: the table of the first n multiples, modulo 2^64. *)
Definition deltas64 (n : nat) (delta : N) : list N :=
  map (fun i => (N.of_nat i * delta) mod 2 ^ 64) (seq 0 n).
