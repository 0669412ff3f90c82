(* C51 for the C hasher: whatever a program does with its variables of type hasher, how it
   runs does not depend on its secrets. *)
From Coq Require Import NArith List Bool.
From Verif Require Import Base BaseFacts Spec CSimd CImpl SessionSpec CSessionSpec CSession.
From Verif Require Import LibCalls CCalls SecretSpec Samples NSession NSessionFacts.
Import ListNotations.
Open Scope N_scope.

Theorem c_session_is_traced : forall o w xs s, snd (n_run o w xs s) = c_run o w xs.
Proof. exact n_run_traced. Qed.

(* The calls listed for a program with one hasher are those that C43 speaks about (CCalls.v). *)
Theorem c_session_calls : forall o memory key flags us s,
  fst (n_run o [] (DNew memory key flags
                     :: map (fun u => DUpdate 0 (fst u) (snd u)) us ++ [DFinalize 0]) s)
  = fst (n_hash o memory key flags us s).
Proof. exact n_session_calls. Qed.

(* Two programs initialise, copy, assign, feed and finalize the same variables in the same
   order, with the same flags and inputs of the same lengths; keys, inputs and the contents of
   uninitialised memory may differ.  Then the compression calls are the same up to the contents
   of their operands, and both programs return or both abort.  For every build, and with no
   limit on lengths. *)
Theorem C51_c_secret_independence : forall o xs ys, Forall2 same_c_call xs ys ->
  Forall c_call_ok xs -> Forall c_call_ok ys ->
  observed (n_run o [] xs []) = observed (n_run o [] ys []).
Proof. exact n_session_observed. Qed.

Definition c_trace_of (key memory x y : list N) : list c_call :=
  [DNew memory key 16; DUpdate 0 x (zeros 512); DCopy 0; DUpdate 1 y (sample 512); DFinalize 0;
   DInit 0 key 32; DUpdate 0 x (zeros 512); DFinalize 0; DFinalize 1; DAssign 0 1; DFinalize 0].
Example C51_c_example :
  let xs := c_trace_of sample_key (zeros 1696) (sample 70) (sample 3000) in
  let ys := c_trace_of (repeat 255 32) (sample 1696) (zeros 70) (zeros 3000) in
  Forall2 same_c_call xs ys /\ Forall c_call_ok xs /\ Forall c_call_ok ys /\ xs <> ys.
Proof.
  assert (A : forall k m x y, length k = 32%nat -> bytes k -> bytes m -> bytes x -> bytes y ->
    Forall c_call_ok (c_trace_of k m x y)).
  { intros k m x y Lk K M X Y. unfold c_trace_of.
    repeat apply Forall_cons; cbn [c_call_ok]; rewrite ?len_zeros, ?sample_len;
      auto using bytes_zeros, sample_bytes. }
  assert (B : bytes (repeat 255 32)).
  { apply Forall_forall. intros x Hx. apply repeat_spec in Hx. now subst. }
  split; [|split; [|split]].
  - unfold c_trace_of. repeat apply Forall2_cons; try apply Forall2_nil; cbn [same_c_call];
      rewrite ?len_zeros, ?sample_len; auto.
  - apply A; auto using bytes_zeros, sample_bytes; apply sample_key_ok.
  - apply A; auto using bytes_zeros, sample_bytes.
  - unfold c_trace_of. intros E. assert (K : sample_key = repeat 255 32) by congruence.
    revert K. vm_compute. discriminate.
Qed.
(* What is observed of one such program, without SIMD. *)
Example C51_c_run :
  observed (n_run (COpts false false false false false false false) []
              (c_trace_of sample_key (zeros 1696) (sample 70) (sample 3)) [])
  = ([(8, 64, 64, 0, 17); (8, 64, 6, 0, 26);  (* 70 bytes, and the hash of variable 0 *)
      (8, 64, 64, 0, 33); (8, 64, 6, 0, 42);  (* variable 0 again, with other flags *)
      (8, 64, 9, 0, 26);                      (* the hash of the copy *)
      (8, 64, 9, 0, 26)], Returns).           (* and again after assigning it *)
Proof. vm_compute. reflexivity. Qed.

Print Assumptions c_session_is_traced.
Print Assumptions c_session_calls.
Print Assumptions C51_c_secret_independence.
