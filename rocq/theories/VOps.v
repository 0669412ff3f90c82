(* Vector operations as data, and computations that note which of them they execute and which
   memory they access.  Definitions only.

   What a step says: the operation with its constant operands (shift counts, shuffle
   controls), or the array and the bytes of it that are loaded or stored, or the entry of the
   table MSG_SCHEDULE and the message vector it selects.  Vectors in local variables, and in
   local arrays at indices written as literals, are not noted, nor is the scalar arithmetic on
   offsets, lengths and flags. *)
From Coq Require Import NArith List Bool.
From Verif Require Import Base Portable Simd Steps.
From Verif Require CSimd.
Import ListNotations.
Open Scope N_scope.

(* the intrinsics with one vector operand; see Simd.v, and CSimd.v for those on vectors of
   64-bit lanes *)
Inductive vop1 : Type :=
| SrliEpi32 (n : N)
| SlliEpi32 (n : N)
| RorEpi32 (n : N)
| ShuffleEpi32 (imm : N)
| ShuffleEpi8 (ctrl : list N)
| ShuffleEpi8x2 (ctrl : list N)
| SlliSi128 (n : N)
| SrliSi128 (n : N)
| SrliEpi64 (n : N)
| CvtEpi64Epi32.
Definition sem1 (o : vop1) (a : vec) : vec :=
  match o with
  | SrliEpi32 n => srli_epi32 a n
  | SlliEpi32 n => slli_epi32 a n
  | RorEpi32 n => ror_epi32 a n
  | ShuffleEpi32 imm => mm_shuffle_epi32 a imm
  | ShuffleEpi8 ctrl => mm_shuffle_epi8 a ctrl
  | ShuffleEpi8x2 ctrl => mm256_shuffle_epi8 a ctrl
  | SlliSi128 n => mm_slli_si128 a n
  | SrliSi128 n => mm_srli_si128 a n
  | SrliEpi64 n => CSimd.srli_epi64 a n
  | CvtEpi64Epi32 => CSimd.cvtepi64_epi32 a
  end.

(* the intrinsics with two; the unpack operations on 128 bits and on wider vectors.  The
   operands of Permutex2var are vectors of 64-bit lanes.  The two vectors that vtrnq_u32
   returns are the results of Trn1 and Trn2; CombineLow and CombineHigh are vcombine_u32 of
   the vget_low_u32 and of the vget_high_u32 of the operands. *)
Inductive vop2 : Type :=
| AddEpi32
| XorSi
| OrSi
| ShufflePs (imm : N)
| BlendEpi16 (imm : N)
| AlignrEpi8 (n : N)
| UnpackLo32
| UnpackHi32
| UnpackLo64
| UnpackHi64
| UnpackLo32w
| UnpackHi32w
| UnpackLo64w
| UnpackHi64w
| Permute2x128 (imm : N)
| AddEpi64
| ShuffleI32x4 (imm : N)
| Permutex2var (idx : list N)
| Trn1
| Trn2
| CombineLow
| CombineHigh.
Definition sem2 (o : vop2) (a b : vec) : vec :=
  match o with
  | AddEpi32 => add_epi32 a b
  | XorSi => xor_si a b
  | OrSi => or_si a b
  | ShufflePs imm => mm_shuffle_ps a b imm
  | BlendEpi16 imm => mm_blend_epi16 a b imm
  | AlignrEpi8 n => mm_alignr_epi8 a b n
  | UnpackLo32 => mm_unpacklo_epi32 a b
  | UnpackHi32 => mm_unpackhi_epi32 a b
  | UnpackLo64 => mm_unpacklo_epi64 a b
  | UnpackHi64 => mm_unpackhi_epi64 a b
  | UnpackLo32w => w_unpacklo_epi32 a b
  | UnpackHi32w => w_unpackhi_epi32 a b
  | UnpackLo64w => w_unpacklo_epi64 a b
  | UnpackHi64w => w_unpackhi_epi64 a b
  | Permute2x128 imm => mm256_permute2x128_si256 a b imm
  | AddEpi64 => CSimd.add_epi64 a b
  | ShuffleI32x4 imm => CSimd.mm512_shuffle_i32x4 a b imm
  | Permutex2var idx => CSimd.permutex2var_epi32 (CSimd.as_epi32 a) idx (CSimd.as_epi32 b)
  | Trn1 => fst (CSimd.vtrnq_u32 a b)
  | Trn2 => snd (CSimd.vtrnq_u32 a b)
  | CombineLow => CSimd.vget_low a ++ CSimd.vget_low b
  | CombineHigh => CSimd.vget_high a ++ CSimd.vget_high b
  end.

(* the arrays: the chaining value, the key, the block, the k-th input of hash_many, its output,
   the table IV and the message vectors; in C also the array of offset deltas and, in the hasher,
   the buffer of the chunk state and the array subtree_hashes; in src/lib.rs the array of child
   hashes *)
Inductive vplace : Type :=
| PCv | PKey | PBlock | PInput (k : nat) | POut | PIV | PMsg | PDeltas | PBuf
| PStack | PChildren.
Inductive vstep : Type :=
| Scalar (s : step)                 (* a step of the portable code, see Steps.v *)
| Load (p : vplace) (off n : N)     (* n bytes from byte off *)
| Store (p : vplace) (off n : N)
| Get (p : vplace) (i : nat)        (* element i *)
| Table (r i : nat)                 (* MSG_SCHEDULE[r][i] *)
| Call (p : vplace) (off : N)       (* compress is called with the block at byte off *)
| Op1 (o : vop1)
| Op2 (o : vop2)
| Lanes (n : nat).                  (* n scalars are put into the lanes of a vector *)

(* a computation: the steps it makes, also those before a panic, and its result *)
Definition vs (A : Type) : Type := (list vstep * res A)%type.
Definition vlift {A : Type} (r : res A) : vs A := ([], r).
Definition vbind {A B : Type} (m : vs A) (f : A -> vs B) : vs B :=
  let '(l, r) := m in
  match r with
  | Ok x => let '(l', r') := f x in (l ++ l', r')
  | Panic => (l, Panic)
  | NoFuel => (l, NoFuel)
  end.
Notation "'let?' x ':=' e 'in' k" := (vbind e (fun x => k))
  (at level 200, x pattern, e at level 100, k at level 200, right associativity).
Notation "e ';?' k" := (vbind e (fun _ => k)) (at level 199, right associativity).

Definition op1 (o : vop1) (a : vec) : vs vec := ([Op1 o], Ok (sem1 o a)).
Definition op2 (o : vop2) (a b : vec) : vs vec := ([Op2 o], Ok (sem2 o a b)).
(* _mm_setr_epi32 and the like; _mm*_set1_epi32 *)
Definition lanes (l : list N) : vs vec := ([Lanes (length l)], Ok l).
Definition lanes1 (n : nat) (x : N) : vs vec := ([Lanes n], Ok (set1_epi32 n x)).
(* an element of the key or of IV *)
Definition word (p : vplace) (l : list N) (i : nat) : vs N := ([Get p i], Ok (get l i)).
(* m[MSG_SCHEDULE[r][k]] *)
Definition msg_at (m : list vec) (r k : nat) : vs vec :=
  let? i := ([Table r k], Ok (sched r k)) in
  ([Get PMsg i], Ok (nth i m [])).
(* loadu of n bytes from input number k *)
Definition load (k : nat) (n : N) (input : list N) (off : N) : vs vec :=
  ([Load (PInput k) off n], loadu n input off).
(* storeu of a vector of n bytes *)
Definition store (off n : N) (v : vec) : vs (list N) := ([Store POut off n], Ok (storeu v)).

(* the operations of a round *)
Record svops : Type := SVOps
  { sv_add : vec -> vec -> vs vec;
    sv_xor : vec -> vec -> vs vec;
    sv_rot16 : vec -> vs vec;
    sv_rot12 : vec -> vs vec;
    sv_rot8 : vec -> vs vec;
    sv_rot7 : vec -> vs vec }.
