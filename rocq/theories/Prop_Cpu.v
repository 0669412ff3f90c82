(* C48: no instruction is executed that the CPU does not have.  In Cpu.v the backends are
   guarded: a function whose instruction set is missing has an arbitrary outcome, junk or
   trap.  That the guarded operations equal the unguarded ones for all junk and trap says that
   no such function is reached. *)
From Coq Require Import NArith List Bool Lia.
From Verif Require Import Base BaseFacts Portable Platform CSimd CImpl Cpu CpuFacts Samples.
Import ListNotations.
Open Scope N_scope.

(* Rust, on every CPU where AVX2 comes with SSE4.1: the platform detected at run time exists
   on the target, and its three operations execute only what the CPU has. *)
Theorem C48_detected_platform : forall c x junk trap, sane x ->
  let p := detect_on c x in platform_ok c p /\
  x_compress x junk p = compress p /\ x_compress_xof x junk p = compress_xof p /\
  x_hash_many x junk trap c p = hash_many c p.
Proof. exact detected_ok. Qed.

(* The condition is needed: detect looks for AVX2 only, but the platform AVX2 compresses
   single blocks with SSE4.1, and hashes fewer than 8 chunks with it. *)
Theorem C48_avx2_alone_refuted : forall c x junk trap,
  x86 c = true -> x AVX2 = true -> x SSE41 = false ->
  detect_on c x = PAVX2 /\
  (forall cv block blen off flags, x_compress x junk (detect_on c x) cv block blen off flags = junk) /\
  (forall cap inputs key off delta flags fs fe out, (length inputs < 8)%nat ->
     len inputs * OUT_LEN <= len out ->
     x_hash_many x junk trap c (detect_on c x) cap inputs key off delta flags fs fe out = trap).
Proof. exact avx2_only. Qed.

(* C: what is used is fixed by the build.  If the machine that runs the code has what the
   user asked for by name and, with c_detect, what the machine that built the code has, then
   the two operations of the hasher execute only what it has. *)
Theorem C48_c_build : forall xt xh host f nd s32 o x junk trap, sane host -> sane x ->
  build xt xh host f nd s32 = Some o ->
  (f_detect f = true -> forall i, host i = true -> x i = true) ->
  (forall i, asked f i = true -> x i = true) ->
  xc_compress x junk o = c_compress o /\ xc_hash_many x junk trap o = c_hash_many o /\
  popcnt_insn o = false.
Proof. exact build_ok. Qed.

(* Exactly which builds stop, and which parts of the C code a build contains: what was asked
   for by name (where AVX-512 brings AVX2, and AVX2 brings SSE4.1) and, with c_detect, what the
   machine that builds has. *)
Theorem C48_c_build_contents : forall xt xh host f nd s32,
  (build xt xh host f nd s32 = None <-> f_detect f = true /\ (xt = false \/ xh = false)) /\
  (forall o, build xt xh host f nd s32 = Some o ->
     let found i := f_detect f && host i in
     use_avx512 o = asked f AVX512F || (found AVX512F && found AVX512VL) /\
     use_avx2 o = asked f AVX2 || asked f AVX512F || found AVX2 /\
     use_sse41 o = asked f SSE41 || asked f AVX2 || asked f AVX512F || found SSE41 /\
     use_neon o = asked f NEON /\ ndebug o = nd /\ size32 o = s32).
Proof. exact build_exact. Qed.

Definition haswell : cpu := fun i => match i with SSE41 | AVX2 | POPCNT => true | _ => false end.
Definition skylake_x : cpu := fun i => match i with NEON => false | _ => true end.
Definition penryn : cpu := fun i => match i with SSE41 => true | _ => false end.
Definition odd_cpu : cpu := fun i => match i with AVX2 => true | _ => false end.
Definition old_cpu : cpu := fun _ => false.
Definition x86_cfg : cfg := Cfg true true true.

Example C48_example :
  sane haswell /\ sane skylake_x /\ sane penryn /\ sane old_cpu /\ ~ sane odd_cpu /\
  detect_on x86_cfg haswell = PAVX2 /\ detect_on x86_cfg penryn = PSSE41 /\
  detect_on x86_cfg old_cpu = PPortable /\ detect_on (Cfg true false true) haswell = PPortable.
Proof.
  unfold sane. repeat split; auto; try discriminate. intros H. discriminate (H eq_refl).
Qed.

(* c_detect on three machines, and c_avx2 by name, which brings c_sse41 with it *)
Definition detect_only : features := Features false false false false true.
Definition avx2_by_name : features := Features false true false false false.
Example C48_build_example :
  build true true skylake_x detect_only false false = Some (COpts true true true false false false false) /\
  build true true haswell detect_only false false = Some (COpts false true true false false false false) /\
  build true true old_cpu detect_only false false = Some (COpts false false false false false false false) /\
  build true false old_cpu avx2_by_name false false = Some (COpts false true true false false false false) /\
  build false true haswell detect_only false false = None /\
  (forall i, asked avx2_by_name i = true -> haswell i = true).
Proof. repeat split. intros [| | | | |] H; try discriminate H; reflexivity. Qed.

(* What is asked for by name never includes the popcnt instruction. *)
Definition sse41_by_name : features := Features true false false false false.
Example C48_no_popcnt :
  penryn POPCNT = false /\ (forall i, asked sse41_by_name i = true -> penryn i = true).
Proof. split; [reflexivity|]. intros [| | | | |] H; try discriminate H; reflexivity. Qed.

(* The C code has no detection at run time: a hasher built with c_detect on one machine does
   not run on another that has less. *)
Example C48_other_machine : exists o,
  build true true haswell detect_only false false = Some o /\
  forall junk cv block blen off flags, xc_compress old_cpu junk o cv block blen off flags = junk.
Proof. eexists. split; [reflexivity|]. intros. reflexivity. Qed.

Print Assumptions C48_detected_platform.
Print Assumptions C48_avx2_alone_refuted.
Print Assumptions C48_c_build.
Print Assumptions C48_c_build_contents.
