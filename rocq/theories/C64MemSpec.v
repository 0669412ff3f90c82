(* The functions of the 64-bit variant in C that take memory, by backend, and the bounds of the
   arrays they are given. *)
From Coq Require Import NArith List Bool.
From Verif Require Import Base VOps C64 C64Mem.
Import ListNotations.
Open Scope N_scope.

Inductive backend64 : Type := Portable_64 | Sse41_64 | Avx2_64 | Avx512_64 | Neon_64.
Definition hash_many64 (b : backend64) :=
  match b with
  | Portable_64 => hash_many_portable
  | Sse41_64 => hash_many_sse41
  | Avx2_64 => hash_many_avx2
  | Avx512_64 => hash_many_avx512
  | Neon_64 => hash_many_neon
  end.
(* with the steps noted *)
Definition run_hash_many64 (b : backend64) :=
  match b with
  | Portable_64 => m_hash_many_portable 0
  | Sse41_64 => m_hash_many_sse41 0
  | Avx2_64 => m_hash_many_avx2 0
  | Avx512_64 => m_hash_many_avx512 0
  | Neon_64 => m_hash_many_neon 0
  end.
(* The number of offset deltas that the C declarations ask for, except that the one for NEON
   says 17 where 3 are enough. *)
Definition deltas_needed64 (b : backend64) : nat :=
  match b with
  | Portable_64 => 2 | Sse41_64 => 3 | Avx2_64 => 5 | Avx512_64 => 9 | Neon_64 => 3
  end.

(* Inside the arrays: n inputs of cap bytes, nd offset deltas of eight bytes, an output of out
   bytes, a key and a chaining value of 32 bytes, a block of 128 bytes. *)
Definition inside64 (nd n : nat) (cap out : N) (s : vstep) : bool :=
  match s with
  | Load (PInput k) off b => Nat.ltb k n && (off + b <=? cap)
  | Load PDeltas off b => off + b <=? 8 * N.of_nat nd
  | Get PDeltas i => Nat.ltb i nd
  | Load PKey off b | Load PCv off b | Store PCv off b => off + b <=? 32
  | Load PBlock off b => off + b <=? 128
  | Store POut off b => off + b <=? out
  | _ => false
  end.

(* the pieces of an array that are read, and those that are written *)
Definition is_block (p : vplace) : bool := match p with PBlock => true | _ => false end.
Definition is_cv (p : vplace) : bool := match p with PCv => true | _ => false end.
Definition pieces_loaded (q : vplace -> bool) (l : list vstep) : list (N * N) :=
  flat_map (fun s => match s with Load p off n => if q p then [(off, n)] else [] | _ => [] end) l.
Definition pieces_stored (q : vplace -> bool) (l : list vstep) : list (N * N) :=
  flat_map (fun s => match s with Store p off n => if q p then [(off, n)] else [] | _ => [] end) l.
