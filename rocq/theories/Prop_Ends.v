(* C64: every call ends, with a value or with a panic, whatever state the hasher or the output is
   in.  The states include those no sequence of successful calls leads to, such as that of a
   Hasher after a panic that was caught.  EndSpec.v says what "ends" means. *)
From Coq Require Import NArith List Bool Lia.
From Verif Require Import Base Spec Platform Lib SessionSpec Session RefImpl PyImpl.
From Verif Require Import EndSpec EndFacts Samples.
Import ListNotations.
Open Scope N_scope.

(* The one-shot functions for every input that fits into memory, with any key; update, finalize,
   finalize_xof and any number of reads, for any Hasher h and any Output o.  Platforms the
   machine does not have are included. *)
Theorem C64_library_calls_end : forall c,
  (forall p m input, len input < WU c ->
     ends (oneshot c p m input) /\ ends (oneshot_xof c p m input)) /\
  (forall h input, ends (update c h input)) /\
  (forall h, ends (finalize c h) /\ ends (finalize_xof c h)) /\
  (forall n o, ends (reads c n o)).
Proof. exact lib_calls_end. Qed.

(* Programs of such calls that start with any hashers and outputs. *)
Theorem C64_programs_end : forall c ps w xs,
  Forall (fun x => match x with CHash _ input | CHashXof _ input => len input < WU c
                   | _ => True end) xs ->
  ends (run c ps w xs).
Proof. exact lib_program_ends. Qed.

(* The reference implementation: every state its types allow, those after a call included. *)
Theorem C64_reference_calls_end : forall c h, r_typed h ->
  (forall input, ends (r_update c h input) /\
     forall h', r_update c h input = Ok h' -> r_typed h') /\
  (forall out, ends (r_finalize c h out)).
Proof. exact ref_calls_end. Qed.
Theorem C64_reference_starts_typed : forall m, r_typed (r_start m).
Proof. exact ref_start_typed. Qed.

(* The Python functions: any key, any input and any output length. *)
Theorem C64_python_calls_end : forall m input n, ends (y_run m input n).
Proof. exact py_calls_end. Qed.

(* States out of order: a Hasher that says its buffer holds 200 of 64 bytes panics in an update,
   one with a single subtree and no bytes after it panics in finalize; a Hasher with two subtrees
   at offset 0 has a hash, and an update merges them and then panics (debug build). *)
Example C64_library_case :
  let c := Cfg true true true in
  let s := cs_new PSSE41 IV 0 in
  let bad := ChunkState IV IV 0 0 (zeros 64) 200 0 PSSE41 in
  update c (Hasher [] bad) [1] = Panic /\
  finalize c (Hasher [zeros 32] s) = Panic /\
  match finalize c (Hasher [zeros 32; zeros 32] s) with Ok d => len d = 32 | _ => False end /\
  update c (Hasher [zeros 32; zeros 32] s) [1] = Panic.
Proof. vm_compute. repeat split. Qed.
Example C64_program_case :
  Forall (fun x => match x with CHash _ input | CHashXof _ input => len input < WU (Cfg true true true)
                   | _ => True end)
    [CHash Hashing (sample 5000); CNew Hashing; CUpdate 0 (sample 70); CFinalize 0; CRead 3].
Proof.
  repeat constructor.
Qed.
Example C64_reference_case :
  let h := RHasher (RChunk r_IV 0 (zeros 64) 200 255 0) r_IV (repeat (zeros 8) 53) 200 in
  r_typed h /\ r_update (Cfg false true true) h [1] = Panic /\
  r_finalize (Cfg false true true) h [0] = Panic.
Proof. split; [repeat split|]. split; vm_compute; reflexivity. Qed.
Example C64_python_case : y_run (Keyed [1; 2; 3]) [7] 5 = Panic.
Proof. vm_compute. reflexivity. Qed.

Print Assumptions C64_library_calls_end.
Print Assumptions C64_programs_end.
Print Assumptions C64_reference_calls_end.
Print Assumptions C64_reference_starts_typed.
Print Assumptions C64_python_calls_end.
