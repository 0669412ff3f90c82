(* Machine arithmetic, results and slices used by the model and the specification.
   Definitions only.  Every number is an N; a u8/u32/u64 value is an N below 2^8/2^32/2^64. *)
From Coq Require Import NArith List Bool.
Import ListNotations.
Open Scope N_scope.

(* ---- outcomes ------------------------------------------------------- *)

(* Result of running a piece of code.  Panic stands for every way the code
   stops abnormally: out-of-bounds slicing, a failed assertion, a full
   ArrayVec, arithmetic overflow in a debug build, an out-of-bounds raw read.
   NoFuel is not a behaviour of the code: it marks a loop or recursion that
   the model cut off.  Theorems conclude `= Ok _`, which excludes both. *)
Inductive res (A : Type) : Type :=
| Ok (a : A)
| Panic
| NoFuel.
Arguments Ok {A} a.
Arguments Panic {A}.
Arguments NoFuel {A}.

Definition bind {A B : Type} (x : res A) (k : A -> res B) : res B :=
  match x with
  | Ok a => k a
  | Panic => Panic
  | NoFuel => NoFuel
  end.

Notation "'let*' x ':=' e 'in' k" := (bind e (fun x => k))
  (at level 200, x pattern, e at level 100, k at level 200, right associativity).
Notation "e ';;' k" := (bind e (fun _ => k))
  (at level 199, right associativity).

(* ---- build configuration --------------------------------------------- *)

(* dbg: debug build (overflow checks and debug assertions on).
   x86: compiled for x86/x86_64 (selects MAX_SIMD_DEGREE and the SIMD code).
   w64: usize has 64 bits (otherwise 32). *)
Record cfg : Type := Cfg { dbg : bool; x86 : bool; w64 : bool }.

Definition W8 : N := 256.
Definition W32 : N := 4294967296.
Definition W64 : N := 18446744073709551616.
Definition WU (c : cfg) : N := if w64 c then W64 else W32.

(* debug_assert!: skipped in release builds. *)
Definition dassert (c : cfg) (b : bool) : res unit :=
  if dbg c && negb b then Panic else Ok tt.
(* assert!: always checked. *)
Definition assert_ (b : bool) : res unit := if b then Ok tt else Panic.

(* Rust's + and * on an unsigned type with w values: panic on overflow in a
   debug build, wrap in a release build.  - likewise. *)
Definition addw (c : cfg) (w a b : N) : res N :=
  if dbg c && (w <=? a + b) then Panic else Ok ((a + b) mod w).
Definition mulw (c : cfg) (w a b : N) : res N :=
  if dbg c && (w <=? a * b) then Panic else Ok ((a * b) mod w).
Definition subw (c : cfg) (w a b : N) : res N :=
  if b <=? a then Ok (a - b) else if dbg c then Panic else Ok ((a + w - b) mod w).
Definition add64 (c : cfg) := addw c W64.
Definition mul64 (c : cfg) := mulw c W64.
Definition addU (c : cfg) := addw c (WU c).
Definition mulU (c : cfg) := mulw c (WU c).
Definition subU (c : cfg) := subw c (WU c).

(* wrapping_add, ^, rotate_right on u32. rotr32 first reduces its argument,
   which changes nothing for a u32. *)
Definition add32 (a b : N) : N := (a + b) mod W32.
Definition xor32 (a b : N) : N := N.lxor a b.
Definition rotr32 (x n : N) : N :=
  N.lor (N.shiftr (x mod W32) n) (N.shiftl (x mod W32) (32 - n) mod W32).

(* ---- lists as arrays and slices ---------------------------------------- *)

Definition len {A : Type} (l : list A) : N := N.of_nat (length l).
Definition take {A : Type} (n : N) (l : list A) : list A := firstn (N.to_nat n) l.
Definition drop {A : Type} (n : N) (l : list A) : list A := skipn (N.to_nat n) l.
Definition zeros (n : N) : list N := repeat 0 (N.to_nat n).

(* arr[i] for an array of statically known length and an in-range index *)
Definition get (l : list N) (i : nat) : N := nth i l 0.
Fixpoint set_nth {A : Type} (l : list A) (i : nat) (v : A) : list A :=
  match l, i with
  | [], _ => []
  | _ :: t, O => v :: t
  | x :: t, S j => x :: set_nth t j v
  end.

(* s[i] with the bounds check *)
Definition index {A : Type} (l : list A) (i : N) : res A :=
  match nth_error l (N.to_nat i) with Some a => Ok a | None => Panic end.
(* s[..n], s[n..], s[off..off+n] with the bounds checks *)
Definition slice_to {A : Type} (l : list A) (n : N) : res (list A) :=
  if n <=? len l then Ok (take n l) else Panic.
Definition slice_from {A : Type} (l : list A) (n : N) : res (list A) :=
  if n <=? len l then Ok (drop n l) else Panic.
Definition slice {A : Type} (l : list A) (off n : N) : res (list A) :=
  if off + n <=? len l then Ok (take n (drop off l)) else Panic.
(* dst[off..off+src.len()].copy_from_slice(src) with the bounds check *)
Definition copy_at (dst : list N) (off : N) (src : list N) : res (list N) :=
  if off + len src <=? len dst
  then Ok (take off dst ++ src ++ drop (off + len src) dst)
  else Panic.
(* ArrayVec::push: panics when full *)
Definition push_cap {A : Type} (cap : N) (l : list A) (x : A) : res (list A) :=
  if len l <? cap then Ok (l ++ [x]) else Panic.

(* slice::chunks_exact(n): the full pieces and the remainder (n > 0) *)
Fixpoint chunks_exact_fuel {A : Type} (fuel : nat) (n : N) (l : list A)
  : list (list A) * list A :=
  match fuel with
  | O => ([], l)
  | S f =>
      if n <=? len l
      then let '(cs, r) := chunks_exact_fuel f n (drop n l) in (take n l :: cs, r)
      else ([], l)
  end.
Definition chunks_exact {A : Type} (n : N) (l : list A) : list (list A) * list A :=
  chunks_exact_fuel (length l) n l.

(* ---- little-endian words ------------------------------------------------ *)

(* u32::to_le_bytes *)
Definition bytes32 (w : N) : list N :=
  [w mod 256; (w / 256) mod 256; (w / 65536) mod 256; (w / 16777216) mod 256].
(* u32::from_le_bytes *)
Definition word32 (b0 b1 b2 b3 : N) : N :=
  b0 + 256 * b1 + 65536 * b2 + 16777216 * b3.

Fixpoint words_of_bytes (bs : list N) : list N :=
  match bs with
  | b0 :: b1 :: b2 :: b3 :: r => word32 b0 b1 b2 b3 :: words_of_bytes r
  | _ => []
  end.
Definition bytes_of_words (ws : list N) : list N := flat_map bytes32 ws.

(* population count (u64::count_ones) *)
Fixpoint popcount_pos (p : positive) : N :=
  match p with
  | xH => 1
  | xO q => popcount_pos q
  | xI q => 1 + popcount_pos q
  end.
Definition popcount (n : N) : N := match n with N0 => 0 | Npos p => popcount_pos p end.

(* ranges *)
Definition byte (b : N) : Prop := b < 256.
Definition word (w : N) : Prop := w < W32.
Definition bytes (l : list N) : Prop := Forall byte l.
Definition words (l : list N) : Prop := Forall word l.
