(* The instruction sets the code executes, and how it finds out that the CPU has them:
   Platform::detect in src/platform.rs for the Rust code, build.rs and the features of
   Cargo.toml for the C code.  Definitions only.

   A function with #[target_feature(enable = "x")], or compiled with -mx, may execute any
   instruction of x.  Executing one that the CPU does not have is undefined; here its outcome is
   an argument: junk for a value, trap for a result.  The guarded functions below are those of
   Sse41.v, Avx2.v, Platform.v and CSimd.v with these checks. *)
From Coq Require Import NArith List Bool.
From Verif Require Import Base Portable SimdHash Platform CSimd CImpl.
From Verif Require Sse41 Avx2.
Import ListNotations.
Open Scope N_scope.

Inductive isa : Type := SSE41 | AVX2 | AVX512F | AVX512VL | NEON | POPCNT.
(* Which of them a CPU has. *)
Definition cpu : Type := isa -> bool.
(* Processors with AVX2 have SSE4.1; build.rs:19-21 relies on it, and so does
   src/platform.rs:63-67. *)
Definition sane (x : cpu) : Prop := x AVX2 = true -> x SSE41 = true.

(* src/platform.rs:30-41 on a CPU *)
Definition detect_on (c : cfg) (x : cpu) : platform := detect c (x AVX2) (x SSE41).

Section Guarded.
Variable x : cpu.
Variable junk : list N.
Variable trap : res (list N).

Definition needs {A : Type} (sets : list isa) (bad good : A) : A :=
  if forallb x sets then good else bad.

(* ---- src/sse41.rs ---- *)

(* src/sse41.rs:309-320 *)
Definition x_sse41_compress (cv block : list N) (block_len offset flags : N) : list N :=
  needs [SSE41] junk (Sse41.compress cv block block_len offset flags).
(* src/sse41.rs:322-336 *)
Definition x_sse41_compress_xof (cv block : list N) (block_len offset flags : N) : list N :=
  needs [SSE41] junk (Sse41.compress_xof cv block block_len offset flags).
(* src/sse41.rs:523-610 *)
Definition x_hash4 (c : cfg) (inputs : list (list N)) (blocks : N) (key : list N)
  (offset offset_delta flags flags_start flags_end : N) : res (list N) :=
  needs [SSE41] trap
    (Sse41.hash4 c inputs blocks key offset offset_delta flags flags_start flags_end).
(* src/sse41.rs:612-641 *)
Definition x_hash1 (c : cfg) (input key : list N) (offset flags flags_start flags_end : N)
  : res (list N) :=
  needs [SSE41] trap
    (dassert c (len input mod BLOCK_LEN =? 0) ;;
     let* cv := hash1_loop x_sse41_compress (length input) key input offset
                           (N.lor flags flags_start) flags flags_end in
     Ok (bytes_of_words cv)).
(* src/sse41.rs:643-687 *)
Definition x_sse41_hash_many (c : cfg) (cap : N) (inputs : list (list N)) (key : list N)
  (offset offset_delta flags flags_start flags_end : N) (out : list N) : res (list N) :=
  needs [SSE41] trap
    (dassert c (len inputs * OUT_LEN <=? len out) ;;
     batch_loop c (length inputs) Sse41.DEGREE
       (fun four off => x_hash4 c four (cap / BLOCK_LEN) key off offset_delta
                                flags flags_start flags_end)
       (fun inputs off out =>
          hash_each c (fun input off => x_hash1 c input key off flags flags_start flags_end)
            inputs off offset_delta out)
       inputs offset offset_delta out).

(* ---- src/avx2.rs ---- *)

(* src/avx2.rs:298-381 *)
Definition x_hash8 (c : cfg) (inputs : list (list N)) (blocks : N) (key : list N)
  (offset offset_delta flags flags_start flags_end : N) : res (list N) :=
  needs [AVX2] trap
    (Avx2.hash8 c inputs blocks key offset offset_delta flags flags_start flags_end).
(* src/avx2.rs:383-425 *)
Definition x_avx2_hash_many (c : cfg) (cap : N) (inputs : list (list N)) (key : list N)
  (offset offset_delta flags flags_start flags_end : N) (out : list N) : res (list N) :=
  needs [AVX2] trap
    (dassert c (len inputs * OUT_LEN <=? len out) ;;
     batch_loop c (length inputs) Avx2.DEGREE
       (fun eight off => x_hash8 c eight (cap / BLOCK_LEN) key off offset_delta
                                 flags flags_start flags_end)
       (fun inputs off out =>
          x_sse41_hash_many c cap inputs key off offset_delta flags flags_start flags_end out)
       inputs offset offset_delta out).

(* ---- src/platform.rs ---- *)

(* src/platform.rs:53-69 *)
Definition x_compress (p : platform) (cv block : list N) (block_len offset flags : N) : list N :=
  match p with
  | PPortable => Portable.compress cv block block_len offset flags
  | PSSE41 | PAVX2 => x_sse41_compress cv block block_len offset flags
  end.
(* src/platform.rs:71-87 *)
Definition x_compress_xof (p : platform) (cv block : list N) (block_len offset flags : N) : list N :=
  match p with
  | PPortable => Portable.compress_xof cv block block_len offset flags
  | PSSE41 | PAVX2 => x_sse41_compress_xof cv block block_len offset flags
  end.
(* src/platform.rs:89-140 *)
Definition x_hash_many (c : cfg) (p : platform) (cap : N) (inputs : list (list N)) (key : list N)
  (offset offset_delta flags flags_start flags_end : N) (out : list N) : res (list N) :=
  match p with
  | PPortable =>
      Portable.hash_many c inputs key offset offset_delta flags flags_start flags_end out
  | PSSE41 =>
      x_sse41_hash_many c cap inputs key offset offset_delta flags flags_start flags_end out
  | PAVX2 =>
      x_avx2_hash_many c cap inputs key offset offset_delta flags flags_start flags_end out
  end.

(* ---- the C files, each compiled with the flags of build.rs:79-136 ---- *)

Definition xc_compress_sse41 (state block : list N) (block_len offset flags : N) : list N :=
  needs [SSE41] junk (compress_sse41 state block block_len offset flags).
Definition xc_compress_avx512 (state block : list N) (block_len offset flags : N) : list N :=
  needs [AVX512F; AVX512VL] junk (compress_avx512 state block block_len offset flags).

Definition xc_hash_one (sets : list isa) (comp : list N -> list N -> N -> N -> N -> list N)
  (input : list N) (blocks : N) (key : list N) (offset flags flags_start flags_end : N)
  : res (list N) :=
  needs sets trap
    (let* state := hash_one_loop comp (N.to_nat blocks) key input offset
                     (N.lor flags flags_start) flags flags_end in
     Ok (bytes_of_words state)).

(* c/baokeshed_sse41.c:504-525 *)
Definition xc_hash_many_sse41 (inputs : list (list N)) (blocks : N) (key : list N) (offset : N)
  (deltas : list N) (flags flags_start flags_end : N) (out : list N) : res (list N) :=
  needs [SSE41] trap
    (many_loop (length inputs) 4
       (fun four off => needs [SSE41] trap
          (hash4_sse41 four blocks key off deltas flags flags_start flags_end))
       (single_loop (fun i off => xc_hash_one [SSE41] xc_compress_sse41 i blocks key off flags
                                    flags_start flags_end) deltas)
       inputs offset deltas out).
(* c/baokeshed_avx2.c:298-312 *)
Definition xc_hash_many_avx2 (inputs : list (list N)) (blocks : N) (key : list N) (offset : N)
  (deltas : list N) (flags flags_start flags_end : N) (out : list N) : res (list N) :=
  needs [AVX2] trap
    (many_loop (length inputs) 8
       (fun eight off => needs [AVX2] trap
          (hash8_avx2 eight blocks key off deltas flags flags_start flags_end))
       (fun inputs off out =>
          xc_hash_many_sse41 inputs blocks key off deltas flags flags_start flags_end out)
       inputs offset deltas out).
(* c/baokeshed_avx512.c:1117-1154 *)
Definition xc_hash_many_avx512 (inputs : list (list N)) (blocks : N) (key : list N) (offset : N)
  (deltas : list N) (flags flags_start flags_end : N) (out : list N) : res (list N) :=
  let z {A} := @needs A [AVX512F; AVX512VL] in
  z trap
    (many_loop (length inputs) 16
       (fun ins off => z trap (hash16_avx512 ins blocks key off deltas flags flags_start flags_end))
       (fun inputs off out =>
          many_loop (length inputs) 8
            (fun ins off => z trap (hash8_avx512 ins blocks key off deltas flags flags_start flags_end))
            (fun inputs off out =>
               many_loop (length inputs) 4
                 (fun ins off =>
                    z trap (hash4_avx512 ins blocks key off deltas flags flags_start flags_end))
                 (single_loop
                    (fun i off => xc_hash_one [AVX512F; AVX512VL] xc_compress_avx512 i blocks key off
                                    flags flags_start flags_end) deltas)
                 inputs off deltas out)
            inputs off deltas out)
       inputs offset deltas out).
(* c/baokeshed_neon.c:312-332; hash_one_neon is compiled in the same file, compress_portable
   is not *)
Definition xc_hash_many_neon (inputs : list (list N)) (blocks : N) (key : list N) (offset : N)
  (deltas : list N) (flags flags_start flags_end : N) (out : list N) : res (list N) :=
  needs [NEON] trap
    (many_loop (length inputs) 4
       (fun four off => needs [NEON] trap
          (hash4_neon four blocks key off deltas flags flags_start flags_end))
       (single_loop (fun i off => xc_hash_one [NEON] compress_portable i blocks key off flags
                                    flags_start flags_end) deltas)
       inputs offset deltas out).

(* c/baokeshed.c:63-72 *)
Definition xc_compress (o : copts) : list N -> list N -> N -> N -> N -> list N :=
  if use_avx512 o then xc_compress_avx512
  else if use_sse41 o then xc_compress_sse41
  else compress_portable.
(* c/baokeshed.c:169-190 *)
Definition xc_hash_many (o : copts)
  : list (list N) -> N -> list N -> N -> list N -> N -> N -> N -> list N -> res (list N) :=
  if use_avx512 o then xc_hash_many_avx512
  else if use_avx2 o then xc_hash_many_avx2
  else if use_sse41 o then xc_hash_many_sse41
  else if use_neon o then xc_hash_many_neon
  else hash_many_portable.

End Guarded.

(* ---- Cargo.toml:8-15 and build.rs ---- *)

(* The features the user asks for; c_portable is asked for by all of them. *)
Record features : Type := Features
  { f_sse41 : bool; f_avx2 : bool; f_avx512 : bool; f_neon : bool; f_detect : bool }.
(* the instruction sets a user asks for by name *)
Definition asked (f : features) (i : isa) : bool :=
  match i with
  | SSE41 => f_sse41 f | AVX2 => f_avx2 f | AVX512F | AVX512VL => f_avx512 f | NEON => f_neon f
  | POPCNT => false
  end.
(* Cargo turns on what a feature lists: Cargo.toml:11-15 *)
Definition cargo (f : features) : features :=
  Features (f_sse41 f || f_avx2 f || f_avx512 f) (f_avx2 f || f_avx512 f) (f_avx512 f)
           (f_neon f) (f_detect f).
(* build.rs:23-42: what the CPU of the machine that builds adds *)
Definition add_detected (host : cpu) (f : features) : features :=
  Features (f_sse41 f || host SSE41) (f_avx2 f || host AVX2)
           (f_avx512 f || (host AVX512F && host AVX512VL)) (f_neon f) (f_detect f).
(* build.rs:44-138.  x86_target, x86_host: the target and the machine that builds are x86.
   None: the build stops.  That is the case with c_detect on another architecture
   (build.rs:63-69, 41).  build.rs adds no flag that turns on popcnt in baokeshed.c, so the
   instruction is not used; nd and s32 are whether NDEBUG is defined and size_t has 32 bits. *)
Definition build (x86_target x86_host : bool) (host : cpu) (f : features) (nd s32 : bool)
  : option copts :=
  let f := cargo f in
  if f_detect f && negb (x86_target && x86_host) then None
  else
    let f := if f_detect f then add_detected host f else f in
    Some (COpts (f_avx512 f) (f_avx2 f) (f_sse41 f) (f_neon f) false nd s32).
