(* The key words of the 64-bit variant in C. *)
From Coq Require Import NArith List Bool Lia ZArith.
From Coq Require Import ZifyBool ZifyNat ZifyN.
From Verif Require Import Base BaseFacts Spec64 C64 Compress64Facts.
Import ListNotations.
Open Scope N_scope.

Lemma word64_bytes64 : forall b0 b1 b2 b3 b4 b5 b6 b7,
  byte b0 -> byte b1 -> byte b2 -> byte b3 -> byte b4 -> byte b5 -> byte b6 -> byte b7 ->
  bytes64 (word64 b0 b1 b2 b3 b4 b5 b6 b7) = [b0; b1; b2; b3; b4; b5; b6; b7].
Proof.
  intros. unfold bytes64, word64.
  assert (L : forall a b c d, byte a -> byte b -> byte c -> byte d -> word32 a b c d < W32).
  { unfold byte, word32, W32. intros. lia. }
  assert (E : forall a b c d, byte a -> byte b -> byte c -> byte d -> bytes32 (word32 a b c d) = [a; b; c; d]).
  { unfold byte, word32, bytes32. intros. repeat (apply f_equal2; [lia|]). reflexivity. }
  pose proof (L b0 b1 b2 b3) as L1. pose proof (E b0 b1 b2 b3) as E1. pose proof (E b4 b5 b6 b7) as E2.
  match goal with |- bytes32 (?w mod W32) ++ _ = _ =>
    replace (w mod W32) with (word32 b0 b1 b2 b3); [replace (w / W32) with (word32 b4 b5 b6 b7)|] end.
  - rewrite E1, E2 by assumption. reflexivity.
  - apply (N.div_unique _ _ _ (word32 b0 b1 b2 b3)); [auto|]. unfold W32. ring.
  - apply (N.mod_unique _ _ (word32 b4 b5 b6 b7)); [auto|]. unfold W32. ring.
Qed.

Lemma c64_key_words : forall key, bytes key -> len key = 32 ->
  C64.load_key_words key = words64_of_bytes key /\ C64.write_state_bytes (C64.load_key_words key) = key.
Proof.
  intros key B H. assert (E : C64.load_key_words key = words64_of_bytes key) by (now apply (load_words64 4)).
  split; [exact E|]. rewrite E. clear E.
  do 32 (destruct key as [|? key]; [rewrite ?len_cons, ?len_nil in H; lia|]).
  destruct key; [|rewrite !len_cons in H; lia].
  unfold bytes in B. repeat match goal with H : Forall _ (_ :: _) |- _ =>
    pose proof (Forall_inv H); apply Forall_inv_tail in H end.
  cbn [words64_of_bytes]. rewrite c64_write_state by reflexivity. unfold bytes_of_words64. cbn [flat_map].
  rewrite !word64_bytes64 by assumption. reflexivity.
Qed.
