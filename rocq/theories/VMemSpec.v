(* The memory that hash_many accesses: the pieces of each input it reads, the pieces of the
   output it writes, and the bounds of the arrays. *)
From Coq Require Import NArith List Bool.
From Verif Require Import Base Steps VOps.
Import ListNotations.
Open Scope N_scope.

(* the pieces (first byte, number of bytes) of input number k that are read, in order: the
   vector loads, and the 64 bytes of each block given to compress *)
Definition read_of (k : nat) (s : vstep) : list (N * N) :=
  match s with
  | Load (PInput j) off n => if Nat.eqb j k then [(off, n)] else []
  | Call (PInput j) off => if Nat.eqb j k then [(off, 64)] else []
  | _ => []
  end.
Definition pieces_read (k : nat) (l : list vstep) : list (N * N) := flat_map (read_of k) l.
(* the pieces of the output that are written *)
Definition write_of (s : vstep) : list (N * N) :=
  match s with Store POut off n => [(off, n)] | _ => [] end.
Definition pieces_written (l : list vstep) : list (N * N) := flat_map write_of l.

(* The pieces follow one another without gap or overlap: each byte of [from, to) is in
   exactly one of them, and no other byte is. *)
Fixpoint tiles (from : N) (pieces : list (N * N)) (to : N) : Prop :=
  match pieces with
  | [] => from = to
  | (off, n) :: rest => off = from /\ tiles (from + n) rest to
  end.

(* Steps inside the arrays: n inputs of cap bytes, an output of out bytes, a key of 8 words,
   the tables IV (8 words) and MSG_SCHEDULE (7 rows of 16), 16 message vectors, a block of
   64 bytes and a chaining value of 8 words; in the portable code also the state and the
   message of 16 words each. *)
Definition size_of (p : place) : nat :=
  match p with
  | AtState => 16 | AtMsg => 16 | AtCv => 8 | AtBlock => 64 | AtIV => 8 | AtOut => 64
  end%nat.
Definition inside (n : nat) (cap out : N) (s : vstep) : bool :=
  match s with
  | Scalar (Read p i) | Scalar (Write p i) => Nat.ltb i (size_of p)
  | Scalar (ReadSchedule r i) | Table r i => Nat.ltb r 7 && Nat.ltb i 16
  | Scalar _ => true
  | Load (PInput k) off b => Nat.ltb k n && (off + b <=? cap)
  | Load PCv off b | Store PCv off b | Load PKey off b => off + b <=? 32
  | Load PBlock off b => off + b <=? 64
  | Load _ _ _ => false
  | Store POut off b => off + b <=? out
  | Store _ _ _ => false
  | Get PKey i | Get PIV i => Nat.ltb i 8
  | Get PMsg i => Nat.ltb i 16
  | Get _ _ => false
  | Call (PInput k) off => Nat.ltb k n && (off + 64 <=? cap)
  | Call _ _ => false
  | Op1 _ | Op2 _ | Lanes _ => true
  end.
