(* C51: whatever a program does with the API, how it runs does not depend on its secrets.
   TSession.v runs a program on the code of LibCalls.v, which lists its compression calls. *)
From Coq Require Import NArith List Bool.
From Verif Require Import Base BaseFacts Spec Portable Platform Lib SessionSpec Session LibCalls.
From Verif Require Import SecretSpec Samples TSession TSessionFacts.
Import ListNotations.
Open Scope N_scope.

(* Listing the calls does not change what a program does. *)
Theorem session_is_traced : forall c ps w xs s, snd (t_run c ps w xs s) = run c ps w xs.
Proof. exact run_traced. Qed.

(* The calls listed for a program with one hasher or output are those that C35 and C42 speak
   about (LibCalls.v). *)
Theorem session_calls_agree : forall c p m n s,
  (forall input, fst (t_run c (fun _ => p) (World [] []) [CHash m input] s)
                 = fst (t_hash c p m (OneShot input) s)) /\
  (forall input, fst (t_run c (fun _ => p) (World [] []) [CHashXof m input; CToHash 0] s)
                 = fst (t_hash c p m (OneShot input) s)) /\
  (forall input, fst (t_run c (fun _ => p) (World [] []) (CHashXof m input :: repeat (CRead 0) n) s)
                 = fst (t_xof c p m (OneShot input) n s)) /\
  (forall f, f = CUpdate \/ f = CWrite -> forall inputs,
     fst (t_run c (fun _ => p) (World [] []) (CNew m :: map (f 0%nat) inputs ++ [CFinalize 0]) s)
     = fst (t_hash c p m (Streaming inputs) s) /\
     fst (t_run c (fun _ => p) (World [] [])
            (CNew m :: map (f 0%nat) inputs ++ CFinalizeXof 0 :: repeat (CRead 0) n) s)
     = fst (t_xof c p m (Streaming inputs) n s)).
Proof. exact session_calls. Qed.

(* Two programs make the same API calls on the same handles in the same order, in the same
   modes, with inputs of the same lengths; all keys and inputs may differ.  Any number of
   hashers and outputs, clones, repeated finalizations and reads.  Then the library makes the
   same compression calls in the same order, with the same operand sizes, block lengths,
   offsets and flags; both programs return or both panic; and the answers have the same
   sizes.  No limit on lengths; every build, and any platforms. *)
Theorem C51_secret_independence : forall c ps xs ys, Forall2 same_call xs ys ->
  Forall call_ok xs -> Forall call_ok ys ->
  observed (t_run c ps (World [] []) xs []) = observed (t_run c ps (World [] []) ys []) /\
  sizes (run c ps (World [] []) xs) = sizes (run c ps (World [] []) ys).
Proof. exact session_observed. Qed.

Definition key_a : list N := sample_key.
Definition key_b : list N := repeat 255 32.
Definition trace_of (k x y : list N) : list call :=
  [CNew (Keyed k); CUpdate 0 x; CClone 0; CWrite 1 y; CFinalize 0; CFinalizeXof 1; CRead 0;
   CHash (Deriving k) x; CCloneOutput 0; CToHash 1; CFlush 0; CRead 7].
Lemma key_b_ok : mode_ok (Keyed key_b).
Proof.
  split; [reflexivity|]. apply Forall_forall. intros x Hx. apply repeat_spec in Hx. now subst.
Qed.
Example C51_example :
  let xs := trace_of key_a (sample 70) (sample 3000) in
  let ys := trace_of key_b (zeros 70) (zeros 3000) in
  Forall2 same_call xs ys /\ Forall call_ok xs /\ Forall call_ok ys /\ xs <> ys.
Proof.
  assert (A : forall k x y, mode_ok (Keyed k) -> bytes x -> bytes y -> Forall call_ok (trace_of k x y)).
  { intros k x y K X Y. unfold trace_of. repeat apply Forall_cons; cbn; auto. }
  split; [|split; [|split]].
  - unfold trace_of. repeat constructor; rewrite sample_len, len_zeros; reflexivity.
  - apply A; [apply sample_key_ok|apply sample_bytes|apply sample_bytes].
  - apply A; [apply key_b_ok|apply bytes_zeros|apply bytes_zeros].
  - unfold trace_of. intros E. assert (K : key_a = key_b) by congruence. revert K. vm_compute. discriminate.
Qed.
(* What is observed of one such program; it ends in a panic because there is no output
   number 7. *)
Example C51_run :
  observed (t_run (Cfg true false true) (fun _ => PPortable) (World [] [])
              (trace_of key_a (sample 70) (sample 3)) [])
  = ([(8, 64, 64, 0, 17);                      (* 70 bytes: the first block *)
      (8, 64, 6, 0, 26);                       (* the hash of the first hasher *)
      (8, 64, 9, 0, 26);                       (* 64 bytes of the second one's output *)
      (8, 64, 64, 0, 33); (8, 64, 6, 0, 42);   (* the derived key *)
      (8, 64, 9, 64, 26)],                     (* the cloned output's next hash *)
     Panics).
Proof. vm_compute. reflexivity. Qed.

Print Assumptions session_is_traced.
Print Assumptions session_calls_agree.
Print Assumptions C51_secret_independence.
