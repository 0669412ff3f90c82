(* C08: the result does not depend on how the thread pool schedules the recursion. *)
From Coq Require Import NArith List Bool Lia.
From Verif Require Import Base Spec Portable Platform Lib Session Schedule.
From Verif Require Import ScheduleFacts Samples.
Import ListNotations.
Open Scope N_scope.

(* Schedule.v runs the recursion of the one-shot functions as a tree of threads that
   share memory; outcome_of c p m input r says that some interleaving of their byte
   writes, forks and joins, run to its end, gives r.  There is such an interleaving, and
   the result of every one is that of the sequential program. *)
Theorem C08_every_schedule_same_output : forall c p, platform_ok c p ->
  forall m input, mode_ok m -> bytes input -> len input < WU c ->
  forall r, outcome_of c p m input r <-> r = oneshot_xof c p m input.
Proof. exact outcome_of_ok. Qed.

(* So the hash is the specified one. *)
Theorem C08_every_schedule_tree_hash : forall c p, platform_ok c p ->
  forall m input, mode_ok m -> bytes input -> len input < WU c ->
  forall r, outcome_of c p m input r ->
  exists o, r = Ok o /\ to_hash o = spec_hash blake_compress m input.
Proof. exact outcome_hash. Qed.

(* No interleaving goes on for ever. *)
Theorem C08_every_schedule_ends : forall r (s : nat -> config),
  ~ (forall i, tstep r (s i) (s (S i))).
Proof. exact no_infinite_run. Qed.

(* No interleaving gets stuck before it is finished (no deadlock). *)
Theorem C08_no_deadlock : forall r m n t, ~ finished t -> exists s', tstep r (m, n, t) s'.
Proof. exact can_finish. Qed.

(* In no reachable configuration do two threads touch the same cell of memory at the
   same time, so the interleaving of single steps loses nothing. *)
Theorem C08_no_data_race : forall p out m n t,
  tsteps (out_region out) (initial p out) (m, n, t) -> ~ race t.
Proof. exact no_race. Qed.

(* the three hypotheses of the first two theorems *)
Example C08_example :
  platform_ok (Cfg true true true) PAVX2 /\ mode_ok (Keyed sample_key) /\
  bytes (sample 40000) /\ len (sample 40000) < WU (Cfg true true true).
Proof.
  rewrite sample_len. repeat split; try reflexivity; try apply sample_bytes; apply sample_key_ok.
Qed.
(* three chunks on a machine without SIMD: the recursion forks, and its left half forks
   again *)
Example C08_forks :
  match recurse_prog (Cfg true false true) PPortable 4 (sample 4097) Portable.IV 0 0 64 with
  | PFork 128 64 (PFork 128 32 (PWrite 0 _ _) (PWrite 0 _ _) _) (PWrite 0 _ _) _ => True
  | _ => False
  end.
Proof. vm_compute. exact I. Qed.
(* threads really interleave: two first steps are possible *)
Example C08_interleaves : forall m n f a b k1 k2 k,
  let t := TJoin f 64 32 (TRun (PWrite 0 a k1)) (TRun (PWrite 0 b k2)) k in
  tstep (Region 0 0 64) (m, n, t)
    (put m (Region f 0 32) 0 a, n, TJoin f 64 32 (TRun k1) (TRun (PWrite 0 b k2)) k) /\
  tstep (Region 0 0 64) (m, n, t)
    (put m (Region f 32 32) 0 b, n, TJoin f 64 32 (TRun (PWrite 0 a k1)) (TRun k2) k).
Proof.
  intros. split; [apply s_left|apply s_right]; apply s_write; reflexivity.
Qed.
(* a program whose two threads write the same cell would race *)
Example C08_race_possible : forall f k1 k2 k3 k4 k,
  race (TJoin f 2 1 (TJoin f 2 1 (TRun k3) (TRun (PWrite 0 1 k1)) k4) (TRun (PWrite 0 2 k2)) k).
Proof.
  intros. apply (race_here f 2 1 _ _ k f 1).
  - apply t_right. exact (t_write (Region f 1 1) 0 1 k1 eq_refl).
  - exact (t_write (Region f 1 1) 0 2 k2 eq_refl).
Qed.

Print Assumptions C08_every_schedule_same_output.
Print Assumptions C08_every_schedule_tree_hash.
Print Assumptions C08_every_schedule_ends.
Print Assumptions C08_no_deadlock.
Print Assumptions C08_no_data_race.
