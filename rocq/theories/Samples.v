(* Inputs used in the examples beside the theorems. *)
From Coq Require Import NArith List Bool Lia.
From Verif Require Import Base BaseFacts Spec.
Import ListNotations.
Open Scope N_scope.

(* n bytes 0, 1, ..., 250, 0, 1, ... *)
Definition sample (n : N) : list N := map (fun i => N.of_nat i mod 251) (seq 0 (N.to_nat n)).
Definition sample_key : list N := sample 32.

Lemma sample_bytes : forall n, bytes (sample n).
Proof.
  intros n. apply Forall_forall. intros x Hx. apply in_map_iff in Hx.
  destruct Hx as (i & <- & _). unfold byte. pose proof (N.mod_lt (N.of_nat i) 251 ltac:(lia)). lia.
Qed.
Lemma sample_len : forall n, len (sample n) = n.
Proof. intros n. unfold len, sample. rewrite map_length, seq_length. apply N2Nat.id. Qed.
Lemma sample_key_ok : mode_ok (Keyed sample_key).
Proof. split; [reflexivity|apply sample_bytes]. Qed.
Lemma sample_derive_ok : mode_ok (Deriving sample_key).
Proof. split; [reflexivity|apply sample_bytes]. Qed.
