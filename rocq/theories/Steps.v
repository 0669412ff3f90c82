(* The compression functions of /repo/src/portable.rs and /repo/c/baokeshed_portable.c again,
   this time noting every array access and every arithmetic operation in the order the
   statements make them.  Definitions only.

   A step says which array is accessed at which index, or which operation is done and, for
   rotations and shifts, by how many bits.  The function's own arguments and local variables
   that are not arrays are not noted. *)
From Coq Require Import NArith List Bool.
From Verif Require Import Base Portable CSimd.
Import ListNotations.
Open Scope N_scope.

(* the arrays of the code: the 16 words of the state, the message words, the table
   MSG_SCHEDULE (row, column), the chaining value, the 64 bytes of the block, the table IV and
   the bytes written *)
Inductive place : Type := AtState | AtMsg | AtCv | AtBlock | AtIV | AtOut.
Inductive step : Type :=
| Read (p : place) (i : nat)
| ReadSchedule (r i : nat)
| Write (p : place) (i : nat)
| Add
| Xor
| Or
| Rotate (n : N)
| ShiftLeft (n : N)
| ShiftRight (n : N).

(* a computation: the steps it makes and the value it returns *)
Definition steps (A : Type) : Type := (list step * A)%type.
Definition ret {A : Type} (x : A) : steps A := ([], x).
Definition seqs {A B : Type} (m : steps A) (k : A -> steps B) : steps B :=
  let '(l, x) := m in
  let '(l', y) := k x in
  (l ++ l', y).
Notation "'do' x <- m ;; k" := (seqs m (fun x => k))
  (at level 200, x name, m at level 100, k at level 200).

Definition rd (p : place) (l : list N) (i : nat) : steps N := ([Read p i], get l i).
Definition wr (p : place) (l : list N) (i : nat) (v : N) : steps (list N) :=
  ([Write p i], set_nth l i v).
(* wrapping_add, ^ and rotate_right of u32 *)
Definition adds (x y : N) : steps N := ([Add], add32 x y).
Definition xors (x y : N) : steps N := ([Xor], xor32 x y).
Definition rots (x n : N) : steps N := ([Rotate n], rotr32 x n).

(* ---- src/portable.rs ----------------------------------------------------------- *)

(* src/portable.rs:29, 33:  state[a] = state[a].wrapping_add(state[b]).wrapping_add(x) *)
Definition s_add_add (st : list N) (a b : nat) (x : N) : steps (list N) :=
  do u <- rd AtState st a;;
  do v <- rd AtState st b;;
  do w <- adds u v;;
  do w <- adds w x;;
  wr AtState st a w.
(* src/portable.rs:30, 32, 34, 36:  state[d] = (state[d] ^ state[a]).rotate_right(n) *)
Definition s_xor_rot (st : list N) (d a : nat) (n : N) : steps (list N) :=
  do u <- rd AtState st d;;
  do v <- rd AtState st a;;
  do w <- xors u v;;
  do w <- rots w n;;
  wr AtState st d w.
(* src/portable.rs:31, 35:  state[c] = state[c].wrapping_add(state[d]) *)
Definition s_add (st : list N) (c d : nat) : steps (list N) :=
  do u <- rd AtState st c;;
  do v <- rd AtState st d;;
  do w <- adds u v;;
  wr AtState st c w.

(* src/portable.rs:28-37 *)
Definition s_g (st : list N) (a b c d : nat) (x y : N) : steps (list N) :=
  do st <- s_add_add st a b x;;
  do st <- s_xor_rot st d a 16;;
  do st <- s_add st c d;;
  do st <- s_xor_rot st b c 12;;
  do st <- s_add_add st a b y;;
  do st <- s_xor_rot st d a 8;;
  do st <- s_add st c d;;
  s_xor_rot st b c 7.

(* msg[schedule[i]]: the index comes from a table, so it is a value of the run *)
Definition s_msg_at (msg : list N) (r i : nat) : steps N :=
  do k <- ([ReadSchedule r i], sched r i);;
  rd AtMsg msg k.

(* one call of g in src/portable.rs:45-54: the two words are arguments, read first *)
Definition s_mix (st msg : list N) (r a b c d i j : nat) : steps (list N) :=
  do x <- s_msg_at msg r i;;
  do y <- s_msg_at msg r j;;
  s_g st a b c d x y.

(* src/portable.rs:40-55 *)
Definition s_round (st msg : list N) (r : nat) : steps (list N) :=
  do st <- s_mix st msg r 0 4 8 12 0 1;;
  do st <- s_mix st msg r 1 5 9 13 2 3;;
  do st <- s_mix st msg r 2 6 10 14 4 5;;
  do st <- s_mix st msg r 3 7 11 15 6 7;;
  do st <- s_mix st msg r 0 5 10 15 8 9;;
  do st <- s_mix st msg r 1 6 11 12 10 11;;
  do st <- s_mix st msg r 2 7 8 13 12 13;;
  s_mix st msg r 3 4 9 14 14 15.

(* for i in is: the values f i, in order *)
Fixpoint s_map (f : nat -> steps N) (is : list nat) : steps (list N) :=
  match is with
  | [] => ret []
  | i :: is => do v <- f i;; do vs <- s_map f is;; ret (v :: vs)
  end.

(* Word::from_le_bytes of four bytes of the block: four byte reads; src/portable.rs:5-25.
   How from_le_bytes puts the bytes together is the standard library's. *)
Definition s_word (block : list N) (i : nat) : steps N :=
  do b0 <- rd AtBlock block (4 * i);;
  do b1 <- rd AtBlock block (4 * i + 1);;
  do b2 <- rd AtBlock block (4 * i + 2);;
  do b3 <- rd AtBlock block (4 * i + 3);;
  ret (word32 b0 b1 b2 b3).
Definition s_words_from_block (block : list N) : steps (list N) :=
  s_map (s_word block) (seq 0 16).

(* src/portable.rs:58-94 *)
Definition s_compress_inner (cv block : list N) (block_len offset flags : N)
  : steps (list N) :=
  do msg <- s_words_from_block block;;
  do h <- s_map (rd AtCv cv) (seq 0 8);;
  do iv <- s_map (rd AtIV IV) (seq 0 4);;
  do lo <- ret (offset_low offset);;
  do hi <- ([ShiftRight 32], offset_high offset);;
  do st <- ret (h ++ iv ++ [lo; hi; block_len; flags]);;
  do st <- s_round st msg 0;;
  do st <- s_round st msg 1;;
  do st <- s_round st msg 2;;
  do st <- s_round st msg 3;;
  do st <- s_round st msg 4;;
  do st <- s_round st msg 5;;
  s_round st msg 6.

(* src/portable.rs:104-106, the loop; the new cv *)
Fixpoint s_fold_cv (st cv : list N) (is : list nat) : steps (list N) :=
  match is with
  | [] => ret cv
  | i :: is =>
      do u <- rd AtState st i;;
      do v <- rd AtState st (i + 8);;
      do w <- xors u v;;
      do cv <- wr AtCv cv i w;;
      s_fold_cv st cv is
  end.

(* src/portable.rs:96-107 *)
Definition s_compress (cv block : list N) (block_len offset flags : N) : steps (list N) :=
  do st <- s_compress_inner cv block block_len offset flags;;
  s_fold_cv st cv (seq 0 8).

(* output[i * 4..][..4].copy_from_slice(&w.to_le_bytes()), src/portable.rs:119, 122 *)
Definition s_put (out : list N) (i : nat) (w : N) : steps (list N) :=
  do out <- wr AtOut out (i * 4) (get (bytes32 w) 0);;
  do out <- wr AtOut out (i * 4 + 1) (get (bytes32 w) 1);;
  do out <- wr AtOut out (i * 4 + 2) (get (bytes32 w) 2);;
  wr AtOut out (i * 4 + 3) (get (bytes32 w) 3).
(* src/portable.rs:118-120 *)
Fixpoint s_fold_low (st out : list N) (is : list nat) : steps (list N) :=
  match is with
  | [] => ret out
  | i :: is =>
      do u <- rd AtState st i;;
      do v <- rd AtState st (i + 8);;
      do w <- xors u v;;
      do out <- s_put out i w;;
      s_fold_low st out is
  end.
(* src/portable.rs:121-123 *)
Fixpoint s_fold_high (st cv out : list N) (is : list nat) : steps (list N) :=
  match is with
  | [] => ret out
  | i :: is =>
      do u <- rd AtState st i;;
      do v <- rd AtCv cv (i - 8);;
      do w <- xors u v;;
      do out <- s_put out i w;;
      s_fold_high st cv out is
  end.
(* src/portable.rs:109-125 *)
Definition s_compress_xof (cv block : list N) (block_len offset flags : N) : steps (list N) :=
  do st <- s_compress_inner cv block block_len offset flags;;
  do out <- s_fold_low st (repeat 0 64) (seq 0 8);;
  s_fold_high st cv out (seq 8 8).

(* ---- c/baokeshed_portable.c ------------------------------------------------------ *)

Definition shls (x n : N) : steps N := ([ShiftLeft n], N.shiftl x n mod W32).
Definition shrs (x n : N) : steps N := ([ShiftRight n], N.shiftr x n).
Definition ors (x y : N) : steps N := ([Or], N.lor x y).

(* c/baokeshed_impl.h:73-75 *)
Definition sc_rotr32 (w c : N) : steps N :=
  do x <- shrs (w mod W32) c;;
  do y <- shls (w mod W32) (32 - c);;
  ors x y.

(* c/baokeshed_portable.c:7, 9, 11, 13 *)
Definition sc_xor_rot (st : list N) (d a : nat) (n : N) : steps (list N) :=
  do u <- rd AtState st d;;
  do v <- rd AtState st a;;
  do w <- xors u v;;
  do w <- sc_rotr32 w n;;
  wr AtState st d w.

(* c/baokeshed_portable.c:4-14; the lines with additions are those of src/portable.rs *)
Definition sc_g (st : list N) (a b c d : nat) (x y : N) : steps (list N) :=
  do st <- s_add_add st a b x;;
  do st <- sc_xor_rot st d a 16;;
  do st <- s_add st c d;;
  do st <- sc_xor_rot st b c 12;;
  do st <- s_add_add st a b y;;
  do st <- sc_xor_rot st d a 8;;
  do st <- s_add st c d;;
  sc_xor_rot st b c 7.

Definition sc_msg_at (msg : list N) (r i : nat) : steps N :=
  do k <- ([ReadSchedule r i], c_sched r i);;
  rd AtMsg msg k.
Definition sc_mix (st msg : list N) (r a b c d i j : nat) : steps (list N) :=
  do x <- sc_msg_at msg r i;;
  do y <- sc_msg_at msg r j;;
  sc_g st a b c d x y.

(* c/baokeshed_portable.c:16-31 *)
Definition sc_round (st msg : list N) (r : nat) : steps (list N) :=
  do st <- sc_mix st msg r 0 4 8 12 0 1;;
  do st <- sc_mix st msg r 1 5 9 13 2 3;;
  do st <- sc_mix st msg r 2 6 10 14 4 5;;
  do st <- sc_mix st msg r 3 7 11 15 6 7;;
  do st <- sc_mix st msg r 0 5 10 15 8 9;;
  do st <- sc_mix st msg r 1 6 11 12 10 11;;
  do st <- sc_mix st msg r 2 7 8 13 12 13;;
  sc_mix st msg r 3 4 9 14 14 15.

(* c/baokeshed_impl.h:59-63, at byte 4 * i of the block *)
Definition sc_load32 (block : list N) (i : nat) : steps N :=
  do b0 <- rd AtBlock block (4 * i);;
  do b0 <- shls b0 0;;
  do b1 <- rd AtBlock block (4 * i + 1);;
  do b1 <- shls b1 8;;
  do w <- ors b0 b1;;
  do b2 <- rd AtBlock block (4 * i + 2);;
  do b2 <- shls b2 16;;
  do w <- ors w b2;;
  do b3 <- rd AtBlock block (4 * i + 3);;
  do b3 <- shls b3 24;;
  ors w b3.

(* c/baokeshed_portable.c:33-73 *)
Definition sc_compress_portable (state block : list N) (block_len offset flags : N)
  : steps (list N) :=
  do msg <- s_map (sc_load32 block) (seq 0 16);;
  do h <- s_map (rd AtCv state) (seq 0 8);;
  do iv <- s_map (rd AtIV C_IV) (seq 0 4);;
  do lo <- ret (c_offset_low offset);;
  do hi <- ([ShiftRight 32], c_offset_high offset);;
  do st <- ret (h ++ iv ++ [lo; hi; block_len; flags]);;
  do st <- sc_round st msg 0;;
  do st <- sc_round st msg 1;;
  do st <- sc_round st msg 2;;
  do st <- sc_round st msg 3;;
  do st <- sc_round st msg 4;;
  do st <- sc_round st msg 5;;
  do st <- sc_round st msg 6;;
  s_fold_cv st state (seq 0 8).
