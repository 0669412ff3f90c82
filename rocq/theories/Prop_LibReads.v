(* C63: the one-shot functions of the Rust library and each update read every byte of their input
   exactly once, and no byte outside it; finalize and reads of extended output read no input.
   LibSteps.v is the code of the library with a list of its steps, CHStepsSpec.v says which steps
   read a given byte. *)
From Coq Require Import NArith List Bool Lia.
From Verif Require Import Base BaseFacts Spec Platform Lib Session.
From Verif Require Import VOps LibSteps CHStepsSpec LibReadFacts.
From Verif Require Import OneShotFacts Samples.
Import ListNotations.
Open Scope N_scope.

(* The functions that note their steps return what the functions of the model return. *)
Theorem C63_steps_are_of_the_code : forall c p m input h,
  snd (v_oneshot c p m input) = oneshot c p m input /\
  snd (v_oneshot_xof c p m input) = oneshot_xof c p m input /\
  snd (v_update c h input) = update c h input /\
  snd (v_finalize c h) = finalize c h /\
  snd (v_finalize_xof c h) = finalize_xof c h /\
  forall n o, snd (v_reads c n o) = reads c n o.
Proof. exact lib_reads_values. Qed.

(* The one-shot functions, on every platform and in every mode, for inputs of any length. *)
Theorem C63_one_shot_reads_once : forall c p m input, platform_ok c p ->
  (forall hash, snd (v_oneshot c p m input) = Ok hash ->
   forall i, times_read i (fst (v_oneshot c p m input)) = if i <? len input then 1 else 0) /\
  (forall o, snd (v_oneshot_xof c p m input) = Ok o ->
   forall i, times_read i (fst (v_oneshot_xof c p m input)) = if i <? len input then 1 else 0).
Proof. exact lib_oneshot_reads. Qed.

(* An update of a Hasher that was fed any inputs before. *)
Theorem C63_update_reads_once : forall c p m inputs h input h',
  mode_ok m -> Forall bytes inputs -> bytes input ->
  feed c (start p m) inputs = Ok h -> snd (v_update c h input) = Ok h' ->
  forall i, times_read i (fst (v_update c h input)) = if i <? len input then 1 else 0.
Proof. exact lib_update_reads. Qed.

(* finalize, finalize_xof and n reads of extended output. *)
Theorem C63_output_reads_no_input : forall c,
  (forall h hash, snd (v_finalize c h) = Ok hash ->
   forall i, times_read i (fst (v_finalize c h)) = 0) /\
  (forall h o, snd (v_finalize_xof c h) = Ok o ->
   forall i, times_read i (fst (v_finalize_xof c h)) = 0) /\
  (forall n o r, snd (v_reads c n o) = Ok r ->
   forall i, times_read i (fst (v_reads c n o)) = 0).
Proof. exact lib_output_reads. Qed.

(* three chunks with AVX2: the last byte is read once, the one after it not *)
Example C63_one_shot_case :
  let c := Cfg true true true in
  (exists hash, snd (v_oneshot c PAVX2 (Keyed sample_key) (sample 5000)) = Ok hash) /\
  times_read 4999 (fst (v_oneshot c PAVX2 (Keyed sample_key) (sample 5000))) = 1 /\
  times_read 5000 (fst (v_oneshot c PAVX2 (Keyed sample_key) (sample 5000))) = 0.
Proof.
  intros c. assert (P : platform_ok c PAVX2) by reflexivity.
  assert (E : exists hash, snd (v_oneshot c PAVX2 (Keyed sample_key) (sample 5000)) = Ok hash).
  { rewrite (proj1 (C63_steps_are_of_the_code c PAVX2 (Keyed sample_key) (sample 5000) (start PAVX2 Hashing))).
    destruct (one_shot_total c PAVX2 P (Keyed sample_key) (sample 5000)) as [(h & E & _) _].
    - apply sample_key_ok.
    - apply sample_bytes.
    - rewrite sample_len. reflexivity.
    - now exists h. }
  split; [exact E|]. destruct E as [hash E].
  pose proof (proj1 (C63_one_shot_reads_once c PAVX2 (Keyed sample_key) (sample 5000) P) hash E) as R.
  rewrite !R, sample_len. split; reflexivity.
Qed.

(* A Hasher with 10 bytes in its buffer gets 150 bytes more: 54 bytes go to the buffer, one block
   is compressed where it is, and 32 bytes go to the buffer. *)
Definition reads_of (l : list vstep) : list vstep :=
  filter (fun s => match s with Load (PInput _) _ _ | Call (PInput _) _ => true | _ => false end) l.
Example C63_update_case :
  let c := Cfg true true true in
  match feed c (start PPortable (Keyed sample_key)) [sample 10] with
  | Ok h =>
      reads_of (fst (v_update c h (sample 150))) =
        [Load (PInput 0) 0 54; Call (PInput 0) 54; Load (PInput 0) 118 32] /\
      exists h', snd (v_update c h (sample 150)) = Ok h'
  | _ => False
  end.
Proof. vm_compute. split; [reflexivity|]. eexists. reflexivity. Qed.

Print Assumptions C63_steps_are_of_the_code.
Print Assumptions C63_one_shot_reads_once.
Print Assumptions C63_update_reads_once.
Print Assumptions C63_output_reads_no_input.
