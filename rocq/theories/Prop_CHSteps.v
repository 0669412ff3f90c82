(* C62: a program that uses the C hasher makes the same steps, that is the vector operations and
   memory accesses of the backends and the accesses of the hasher to its input, its buffer and
   its stack, whatever the keys and inputs are; an update reads every byte of its input exactly
   once, and finalize reads no input.
   CHSteps.v is the code of the hasher with a list of these steps; VOps.v says what a step is,
   CHStepsSpec.v which of them read a given byte, CHMemSpec.v which lie inside the arrays and
   which store to a given byte. *)
From Coq Require Import NArith List Bool Lia.
From Verif Require Import Base BaseFacts CSimd CImpl SessionSpec CSessionSpec CSession NSession.
From Verif Require Import VOps VStepsSpec CVSteps CHSteps CHStepsSpec CHStepsFacts CHMemFacts.
From Verif Require Import CHMemSpec CHBoundFacts.
From Verif Require Import CSpec CImplProps Samples.
Import ListNotations.
Open Scope N_scope.

(* The functions that note their steps return what the functions of the model return. *)
Theorem C62_steps_are_of_the_code : forall o variables program h junk input,
  snd (w_run o variables program) = c_run o variables program /\
  snd (w_hasher_update o junk h input) = hasher_update o junk h input /\
  snd (w_hasher_finalize o h) = hasher_finalize o h.
Proof. exact w_steps_values. Qed.

(* Two programs initialise, copy, assign, feed and finalize the same variables in the same
   order, with the same flags and inputs of the same lengths; keys, inputs and the contents of
   uninitialised memory may differ.  Then the steps are the same, and both programs return or
   both abort.  For every build. *)
Theorem C62_programs_same_steps : forall o xs ys, Forall2 same_c_call xs ys ->
  Forall c_call_ok xs -> Forall c_call_ok ys ->
  steps_seen (w_run o [] xs) = steps_seen (w_run o [] ys).
Proof. exact w_run_seen. Qed.

(* hasher_update reads every byte of its input exactly once, whatever state the hasher is in. *)
Theorem C62_input_read_once : forall o junk h input h',
  snd (w_hasher_update o junk h input) = Ok h' ->
  forall i, times_read i (fst (w_hasher_update o junk h input)) = if i <? len input then 1 else 0.
Proof. exact w_update_reads. Qed.

(* hasher_finalize reads no input. *)
Theorem C62_finalize_reads_no_input : forall o h hash,
  snd (w_hasher_finalize o h) = Ok hash ->
  forall i, times_read i (fst (w_hasher_finalize o h)) = 0.
Proof. exact w_finalize_reads. Qed.

(* All accesses of an update and of finalize are inside the input, the buffer of 64 bytes, the
   array subtree_hashes of 53 * 32 bytes and the other arrays. *)
Theorem C62_inside : forall o junk h input,
  len (k_buf (c_chunk_of h)) = 64 -> len (c_stack h) = 53 * 32 ->
  (forall h', snd (w_hasher_update o junk h input) = Ok h' ->
     forallb (hasher_inside (len input)) (fst (w_hasher_update o junk h input)) = true) /\
  (forall hash, snd (w_hasher_finalize o h) = Ok hash ->
     forallb (hasher_inside 0) (fst (w_hasher_finalize o h)) = true).
Proof. exact hasher_bounds. Qed.

(* In a program that begins without hashers, every hasher has arrays of these sizes, and all
   accesses are inside the arrays, where n is the length of the longest input. *)
Theorem C62_programs_inside : forall o n program hashers hashes, Forall (fits n) program ->
  snd (w_run o [] program) = Ok (hashers, hashes) ->
  forallb (hasher_inside n) (fst (w_run o [] program)) = true /\
  Forall (fun h => len (k_buf (c_chunk_of h)) = 64 /\ len (c_stack h) = 53 * 32) hashers.
Proof. exact programs_bounds. Qed.

(* An update changes only those bytes of the buffer and of subtree_hashes that it stores to. *)
Theorem C62_other_bytes_unchanged : forall o junk h input h',
  len (k_buf (c_chunk_of h)) = 64 -> len (c_stack h) = 53 * 32 ->
  snd (w_hasher_update o junk h input) = Ok h' ->
  let steps := fst (w_hasher_update o junk h input) in
  (len (k_buf (c_chunk_of h')) = 64 /\ len (c_stack h') = 53 * 32) /\
  (forall i, existsb (to_buf i) steps = false ->
     nth_error (k_buf (c_chunk_of h')) (N.to_nat i) = nth_error (k_buf (c_chunk_of h)) (N.to_nat i)) /\
  (forall i, existsb (to_stack i) steps = false ->
     nth_error (c_stack h') (N.to_nat i) = nth_error (c_stack h) (N.to_nat i)).
Proof. exact hasher_stores. Qed.

(* hasher_finalize stores to neither. *)
Theorem C62_finalize_stores_nothing : forall o h hash,
  len (k_buf (c_chunk_of h)) = 64 -> len (c_stack h) = 53 * 32 ->
  snd (w_hasher_finalize o h) = Ok hash ->
  forall i, existsb (to_buf i) (fst (w_hasher_finalize o h)) = false /\
            existsb (to_stack i) (fst (w_hasher_finalize o h)) = false.
Proof. exact finalize_stores. Qed.

Definition steps_program (key memory x y : list N) : list c_call :=
  [DNew memory key 16; DUpdate 0 x (zeros 512); DCopy 0; DUpdate 1 y (sample 512); DFinalize 0;
   DFinalize 1].
Example C62_programs :
  let xs := steps_program sample_key (zeros 1696) (sample 70) (sample 3000) in
  let ys := steps_program (repeat 255 32) (sample 1696) (zeros 70) (zeros 3000) in
  Forall2 same_c_call xs ys /\ Forall c_call_ok xs /\ Forall c_call_ok ys /\ xs <> ys.
Proof.
  assert (A : forall k m x y, length k = 32%nat -> bytes k -> bytes m -> bytes x -> bytes y ->
    Forall c_call_ok (steps_program k m x y)).
  { intros k m x y Lk K M X Y. unfold steps_program.
    repeat apply Forall_cons; cbn [c_call_ok]; rewrite ?len_zeros, ?sample_len;
      auto using bytes_zeros, sample_bytes. }
  assert (B : bytes (repeat 255 32)).
  { apply Forall_forall. intros x Hx. apply repeat_spec in Hx. now subst. }
  split; [|split; [|split]].
  - unfold steps_program. repeat apply Forall2_cons; try apply Forall2_nil; cbn [same_c_call];
      rewrite ?len_zeros, ?sample_len; auto.
  - apply A; auto using bytes_zeros, sample_bytes; apply sample_key_ok.
  - apply A; auto using bytes_zeros, sample_bytes.
  - unfold steps_program. intros E. assert (K : sample_key = repeat 255 32) by congruence.
    revert K. vm_compute. discriminate.
Qed.

Example C62_programs_fit :
  Forall (fits 3000) (steps_program sample_key (zeros 1696) (sample 70) (sample 3000)).
Proof.
  unfold steps_program. repeat apply Forall_cons; cbn [fits]; rewrite ?sample_len; auto; try discriminate; constructor.
Qed.

(* A hasher with 10 bytes in its buffer gets 150 bytes more: 54 bytes go to the buffer, one block
   is compressed where it is, and 32 bytes go to the buffer. *)
Definition reads_of (l : list vstep) : list vstep :=
  filter (fun s => match s with
                   | Load (PInput _) _ _ | Call (PInput _) _ | Call PBuf _ | Store PBuf _ _ => true
                   | _ => false
                   end) l.
Example C62_example :
  let o := COpts false false false false false true false in
  let h := hasher_init (zeros 1696) sample_key 16 in
  let first := w_hasher_update o (zeros 512) h (sample 10) in
  match snd first with
  | Ok h1 =>
      let second := w_hasher_update o (zeros 512) h1 (sample 150) in
      reads_of (fst second) =
        [Load (PInput 0) 0 54; Store PBuf 10 54; Call PBuf 0; Store PBuf 0 64;
         Call (PInput 0) 54; Load (PInput 0) 118 32; Store PBuf 0 32] /\
      (exists h2, snd second = Ok h2) /\
      times_read 53 (fst second) = 1 /\ times_read 54 (fst second) = 1 /\
      times_read 149 (fst second) = 1 /\ times_read 150 (fst second) = 0
  | _ => False
  end.
Proof. vm_compute. split; [reflexivity|]. split; [eexists; reflexivity|]. repeat split; reflexivity. Qed.

(* A new hasher has arrays of these sizes.  After 10 bytes, an update of 150 bytes stores to
   every byte of the buffer and to none of subtree_hashes. *)
Example C62_stores_example :
  let o := COpts false false false false false true false in
  let h := hasher_init (zeros 1696) sample_key 16 in
  (len (k_buf (c_chunk_of h)) = 64 /\ len (c_stack h) = 53 * 32) /\
  match snd (w_hasher_update o (zeros 512) h (sample 10)) with
  | Ok h1 =>
      let steps := fst (w_hasher_update o (zeros 512) h1 (sample 150)) in
      (existsb (to_buf 0) steps, existsb (to_buf 63) steps, existsb (to_stack 0) steps)
      = (true, true, false)
  | _ => False
  end.
Proof. vm_compute. repeat split; reflexivity. Qed.

Print Assumptions C62_steps_are_of_the_code.
Print Assumptions C62_programs_same_steps.
Print Assumptions C62_input_read_once.
Print Assumptions C62_finalize_reads_no_input.
Print Assumptions C62_inside.
Print Assumptions C62_other_bytes_unchanged.
Print Assumptions C62_finalize_stores_nothing.
Print Assumptions C62_programs_inside.
