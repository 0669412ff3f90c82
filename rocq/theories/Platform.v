(* Model of /repo/src/platform.rs.  Definitions only. *)
From Coq Require Import NArith List Bool.
From Verif Require Import Base Portable.
From Verif Require Sse41 Avx2.
Import ListNotations.
Open Scope N_scope.

(* src/platform.rs:6-9 *)
Definition MAX_SIMD_DEGREE (c : cfg) : N := if x86 c then 8 else 1.
(* src/platform.rs:15-18 *)
Definition MAX_SIMD_DEGREE_OR_2 (c : cfg) : N := if x86 c then 8 else 2.

(* src/platform.rs:20-27.  SSE41 and AVX2 exist only when x86 c; see platform_ok. *)
Inductive platform : Type := PPortable | PSSE41 | PAVX2.

Definition platform_ok (c : cfg) (p : platform) : Prop :=
  match p with PPortable => True | _ => x86 c = true end.

(* src/platform.rs:30-41; the two booleans are the results of CPU detection *)
Definition detect (c : cfg) (has_avx2 has_sse41 : bool) : platform :=
  if x86 c
  then if has_avx2 then PAVX2 else if has_sse41 then PSSE41 else PPortable
  else PPortable.

(* src/platform.rs:43-51 *)
Definition simd_degree (p : platform) : N :=
  match p with PPortable => 1 | PSSE41 => 4 | PAVX2 => 8 end.

(* src/platform.rs:53-69; returns the new cv *)
Definition compress (p : platform) (cv block : list N) (block_len offset flags : N) : list N :=
  match p with
  | PPortable => Portable.compress cv block block_len offset flags
  | PSSE41 | PAVX2 => Sse41.compress cv block block_len offset flags
  end.

(* src/platform.rs:71-87 *)
Definition compress_xof (p : platform) (cv block : list N) (block_len offset flags : N) : list N :=
  match p with
  | PPortable => Portable.compress_xof cv block block_len offset flags
  | PSSE41 | PAVX2 => Sse41.compress_xof cv block block_len offset flags
  end.

(* src/platform.rs:89-140; cap is A::CAPACITY *)
Definition hash_many (c : cfg) (p : platform) (cap : N) (inputs : list (list N)) (key : list N)
  (offset offset_delta flags flags_start flags_end : N) (out : list N) : res (list N) :=
  match p with
  | PPortable =>
      Portable.hash_many c inputs key offset offset_delta flags flags_start flags_end out
  | PSSE41 =>
      Sse41.hash_many c cap inputs key offset offset_delta flags flags_start flags_end out
  | PAVX2 =>
      Avx2.hash_many c cap inputs key offset offset_delta flags flags_start flags_end out
  end.
