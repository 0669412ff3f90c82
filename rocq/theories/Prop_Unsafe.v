(* C53: the raw pointers of the SIMD code never leave the memory they point into. *)
From Coq Require Import NArith List Bool Lia.
From Verif Require Import Base BaseFacts Spec Simd Platform Lib SessionSpec Session.
From Verif Require Import Unsafe UnsafeFacts Samples.
From Verif Require Sse41 Avx2.
Import ListNotations.
Open Scope N_scope.

(* wild_vec and wild_ptrs are what an unchecked read outside an object yields: any value, or
   the end of the program.  They never matter. *)

(* Programs over the public API, in any build, with any sequence of detected platforms, any
   history of calls and inputs of any length. *)
Theorem C53_programs : forall wild_vec wild_ptrs c ps xs,
  w_run wild_vec wild_ptrs c ps (World [] []) xs = run c ps (World [] []) xs.
Proof. intros. apply run_in. Qed.

(* Each function of the API that hashes input, in any state. *)
Theorem C53_api : forall wild_vec wild_ptrs c p m h input,
  w_oneshot wild_vec wild_ptrs c p m input = oneshot c p m input /\
  w_oneshot_xof wild_vec wild_ptrs c p m input = oneshot_xof c p m input /\
  w_update wild_vec wild_ptrs c h input = update c h input.
Proof. exact api_in. Qed.

(* Platform::hash_many, which is not an unsafe function: its arguments' types make all inputs
   arrays of the same size cap.  Nothing else is assumed: out may be too short, the offset may
   overflow, and cap need not be a multiple of the block size. *)
Theorem C53_hash_many : forall wild_vec wild_ptrs c p cap inputs key offset offset_delta
    flags flags_start flags_end out,
  Forall (fun i => len i = cap) inputs ->
  w_hash_many wild_vec wild_ptrs c p cap inputs key offset offset_delta flags flags_start flags_end out
  = hash_many c p cap inputs key offset offset_delta flags flags_start flags_end out.
Proof. exact many_in. Qed.

(* hash4 and hash8 are unsafe functions.  The caller must pass pointers to blocks * 64 bytes,
   and that is all. *)
Theorem C53_hash4_hash8 : forall wild_vec c inputs blocks key offset offset_delta
    flags flags_start flags_end,
  Forall (fun i => blocks * 64 <= len i) inputs ->
  w_hash4 wild_vec c inputs blocks key offset offset_delta flags flags_start flags_end
  = Sse41.hash4 c inputs blocks key offset offset_delta flags flags_start flags_end /\
  w_hash8 wild_vec c inputs blocks key offset offset_delta flags flags_start flags_end
  = Avx2.hash8 c inputs blocks key offset offset_delta flags flags_start flags_end.
Proof. exact hash48_in. Qed.

(* 9 inputs of 100 bytes, not a multiple of the block size *)
Example C53_case : Forall (fun i => len i = 100) (repeat (sample 100) 9).
Proof. repeat (apply Forall_cons; [apply sample_len|]). apply Forall_nil. Qed.
Example C53_blocks_case : Forall (fun i => 1 * 64 <= len i) (repeat (sample 100) 8).
Proof. repeat (apply Forall_cons; [rewrite sample_len; discriminate|]). apply Forall_nil. Qed.
(* With one byte less than a block in the last input, what lies behind it decides. *)
Example C53_too_short :
  let inputs := [sample 64; sample 64; sample 64; sample 63] in
  let run wild_vec := w_hash4 wild_vec (Cfg true true true) inputs 1 (repeat 0 8) 0 0 0 0 0 in
  run Panic = Panic /\ run (Ok [0; 0; 0; 0]) <> Panic /\
  run (Ok [0; 0; 0; 0]) <> run (Ok [0; 0; 0; 1]).
Proof. cbv zeta. split; [|split]; vm_compute; try discriminate. reflexivity. Qed.

Print Assumptions C53_programs.
Print Assumptions C53_api.
Print Assumptions C53_hash_many.
Print Assumptions C53_hash4_hash8.
