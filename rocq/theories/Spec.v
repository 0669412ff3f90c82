(* The specification: what baokeshed computes, stated without reference to the
   model of the code.  Only Base.v's machine arithmetic is used.

   Sources for the specification: the comments and documentation in
   /repo/src/lib.rs (the API documentation, and the tree description at
   450-462 and 790-797) and /repo/README.md. *)
From Coq Require Import NArith List Bool.
From Verif Require Import Base.
Import ListNotations.
Open Scope N_scope.

(* ---- the compression function ------------------------------------------ *)

Definition IV : list N :=
  [0x6A09E667; 0xBB67AE85; 0x3C6EF372; 0xA54FF53A;
   0x510E527F; 0x9B05688C; 0x1F83D9AB; 0x5BE0CD19].

(* Rows 0..6 of the BLAKE2s message schedule. *)
Definition SIGMA : list (list nat) :=
  [[0; 1; 2; 3; 4; 5; 6; 7; 8; 9; 10; 11; 12; 13; 14; 15];
   [14; 10; 4; 8; 9; 15; 13; 6; 1; 12; 0; 2; 11; 7; 5; 3];
   [11; 8; 12; 0; 5; 2; 15; 13; 10; 14; 3; 6; 7; 1; 9; 4];
   [7; 9; 3; 1; 13; 12; 11; 14; 2; 6; 5; 10; 4; 0; 15; 8];
   [9; 0; 5; 7; 2; 4; 10; 15; 14; 1; 11; 12; 6; 8; 3; 13];
   [2; 12; 6; 10; 0; 11; 8; 3; 4; 13; 7; 5; 15; 14; 1; 9];
   [12; 5; 1; 15; 14; 13; 4; 10; 0; 7; 6; 3; 9; 2; 8; 11]]%nat.

(* The quarter round on four words, with two message words. *)
Definition G (a b c d x y : N) : N * N * N * N :=
  let a := add32 (add32 a b) x in
  let d := rotr32 (xor32 d a) 16 in
  let c := add32 c d in
  let b := rotr32 (xor32 b c) 12 in
  let a := add32 (add32 a b) y in
  let d := rotr32 (xor32 d a) 8 in
  let c := add32 c d in
  let b := rotr32 (xor32 b c) 7 in
  (a, b, c, d).

(* One round: G on the four columns, then on the four diagonals of the 4x4
   matrix; m is the message already permuted for this round. *)
Definition spec_round (v m : list N) : list N :=
  match v, m with
  | [v0; v1; v2; v3; v4; v5; v6; v7; v8; v9; v10; v11; v12; v13; v14; v15],
    [m0; m1; m2; m3; m4; m5; m6; m7; m8; m9; m10; m11; m12; m13; m14; m15] =>
      let '(v0, v4, v8, v12) := G v0 v4 v8 v12 m0 m1 in
      let '(v1, v5, v9, v13) := G v1 v5 v9 v13 m2 m3 in
      let '(v2, v6, v10, v14) := G v2 v6 v10 v14 m4 m5 in
      let '(v3, v7, v11, v15) := G v3 v7 v11 v15 m6 m7 in
      let '(v0, v5, v10, v15) := G v0 v5 v10 v15 m8 m9 in
      let '(v1, v6, v11, v12) := G v1 v6 v11 v12 m10 m11 in
      let '(v2, v7, v8, v13) := G v2 v7 v8 v13 m12 m13 in
      let '(v3, v4, v9, v14) := G v3 v4 v9 v14 m14 m15 in
      [v0; v1; v2; v3; v4; v5; v6; v7; v8; v9; v10; v11; v12; v13; v14; v15]
  | _, _ => []
  end.

Definition permute (s : list nat) (m : list N) : list N := map (fun i => nth i m 0) s.

Definition xors (a b : list N) : list N :=
  map (fun p => xor32 (fst p) (snd p)) (combine a b).

(* A compression function takes an 8-word chaining value, a 64-byte block, the
   number of block bytes in use, a 64-bit offset and a flags byte, and returns 16
   words, of which the first 8 are the next chaining value. *)
Definition cfun : Type := list N -> list N -> N -> N -> N -> list N.

Definition blake_compress : cfun := fun cv block blen off flags =>
  let m := words_of_bytes block in
  let v0 := cv ++ firstn 4 IV ++ [off mod W32; off / W32; blen; flags] in
  let v := fold_left (fun v s => spec_round v (permute s m)) SIGMA v0 in
  xors (firstn 8 v) (skipn 8 v) ++ xors (skipn 8 v) cv.

(* ---- nodes ------------------------------------------------------------------ *)

Definition CHUNK_START : N := 1.
Definition CHUNK_END : N := 2.
Definition PARENT : N := 4.
Definition ROOT : N := 8.
Definition KEYED_HASH : N := 16.
Definition DERIVE_KEY : N := 32.

(* The last compression of a chunk or the compression of a parent, before it is
   decided whether it is the root. *)
Record node : Type := Nd
  { nd_cv : list N; nd_block : list N; nd_blen : N; nd_off : N; nd_flags : N }.

(* Cut a list into pieces of n elements; the last one may be shorter. *)
Fixpoint pieces_fuel {A : Type} (fuel : nat) (n : N) (l : list A) : list (list A) :=
  match fuel, l with
  | S f, _ :: _ => take n l :: pieces_fuel f n (drop n l)
  | _, _ => []
  end.
Definition pieces {A : Type} (n : N) (l : list A) : list (list A) :=
  match l with
  | [] => [[]]                             (* the empty input is one empty piece *)
  | _ => pieces_fuel (length l) n l
  end.

Definition pad64 (b : list N) : list N := b ++ zeros (64 - len b).

Section WithCompression.
Variable F : cfun.

(* The 32-byte chaining value of a node that is not the root. *)
Definition chain (nd : node) : list N :=
  bytes_of_words (firstn 8 (F (nd_cv nd) (nd_block nd) (nd_blen nd) (nd_off nd) (nd_flags nd))).

(* The k-th 64-byte block of output of the root node. *)
Definition root_block (nd : node) (k : N) : list N :=
  bytes_of_words
    (F (nd_cv nd) (nd_block nd) (nd_blen nd) (64 * k) (N.lor (nd_flags nd) ROOT)).

(* Chain through the blocks of a chunk.  start is CHUNK_START for the first
   block and 0 afterwards. *)
Fixpoint chunk_blocks (cv : list N) (off flags start : N) (bs : list (list N)) : node :=
  match bs with
  | [] => Nd cv [] 0 off 0                                      (* does not occur *)
  | [b] => Nd cv (pad64 b) (len b) off (N.lor (N.lor flags start) CHUNK_END)
  | b :: rest => chunk_blocks (firstn 8 (F cv b 64 off (N.lor flags start))) off flags 0 rest
  end.

Definition chunk_node (key : list N) (flags i : N) (chunk : list N) : node :=
  chunk_blocks key (2048 * i) flags CHUNK_START (pieces 64 chunk).

Definition parent_node (key : list N) (flags : N) (l r : list N) : node :=
  Nd key (l ++ r) 64 0 (N.lor flags PARENT).

(* The top node of the tree over chunks i, i+1, ... where there are between 1
   and 2^k of them: if they fit into half the size, they are arranged there,
   otherwise 2^(k-1) chunks go left and the rest goes right. So the left
   subtree always has the largest power of two chunks that leaves something
   for the right (theorem tree_split in Prop_Spec says so). *)
Fixpoint subtree (key : list N) (flags : N) (k : nat) (i : N) (cs : list (list N)) : node :=
  match k with
  | O => chunk_node key flags i (hd [] cs)
  | S k' =>
      let half := 2 ^ N.of_nat k' in
      if len cs <=? half then subtree key flags k' i cs
      else parent_node key flags
             (chain (subtree key flags k' i (take half cs)))
             (chain (subtree key flags k' (i + half) (drop half cs)))
  end.

(* The root node of an input. *)
Definition root_node (key : list N) (flags : N) (input : list N) : node :=
  let cs := pieces 2048 input in
  subtree key flags (N.to_nat (N.log2_up (len cs))) 0 cs.

(* The same for an input whose first chunk has index i; root_node is tree 0. *)
Definition tree (key : list N) (flags i : N) (input : list N) : node :=
  let cs := pieces 2048 input in
  subtree key flags (N.to_nat (N.log2_up (len cs))) i cs.

(* ---- modes ----------------------------------------------------------------- *)

Inductive mode : Type :=
| Hashing
| Keyed (key : list N)
| Deriving (key : list N).

Definition mode_key (m : mode) : list N :=
  match m with
  | Hashing => IV
  | Keyed k => words_of_bytes k
  | Deriving k => words_of_bytes k
  end.
Definition mode_flags (m : mode) : N :=
  match m with Hashing => 0 | Keyed _ => KEYED_HASH | Deriving _ => DERIVE_KEY end.

Definition spec_root (m : mode) (input : list N) : node :=
  root_node (mode_key m) (mode_flags m) input.

(* Block k of the extended output, the first n bytes of it, and the hash. *)
Definition spec_block (m : mode) (input : list N) (k : N) : list N :=
  root_block (spec_root m input) k.
Definition spec_xof (m : mode) (input : list N) (n : N) : list N :=
  take n (flat_map (fun k => spec_block m input (N.of_nat k))
                   (seq 0 (N.to_nat ((n + 63) / 64)))).
Definition spec_hash (m : mode) (input : list N) : list N :=
  take 32 (spec_block m input 0).

End WithCompression.

(* A key is 32 bytes. *)
Definition mode_ok (m : mode) : Prop :=
  match m with
  | Hashing => True
  | Keyed k => length k = 32%nat /\ bytes k
  | Deriving k => length k = 32%nat /\ bytes k
  end.
