(* The specified tree in recursive form. *)
From Coq Require Import NArith List Bool Lia ZArith.
From Coq Require Import ZifyBool ZifyNat ZifyN.
From Verif Require Import Base BaseFacts Spec TreeFacts SpecFacts.
Import ListNotations.
Open Scope N_scope.

Lemma subtree_fit : forall F key flags k i cs, 1 <= len cs -> len cs <= 2 ^ N.of_nat k ->
  subtree F key flags k i cs
  = subtree F key flags (N.to_nat (N.log2_up (len cs))) i cs.
Proof.
  intros F key flags k i cs H1. induction k as [|k IH]; intros H.
  - assert (E : len cs = 1) by (change (2 ^ N.of_nat 0) with 1 in H; lia).
    rewrite E. reflexivity.
  - destruct (N.le_gt_cases (len cs) (2 ^ N.of_nat k)) as [L|G].
    + cbn [subtree]. rewrite (proj2 (N.leb_le _ _)) by exact L. now apply IH.
    + rewrite (N.log2_up_unique (len cs) (N.of_nat (S k))).
      * now rewrite Nat2N.id.
      * lia.
      * split; [|exact H]. now replace (N.pred (N.of_nat (S k))) with (N.of_nat k) by lia.
Qed.

Lemma tree_one : forall F key flags i input, len input <= 2048 ->
  tree F key flags i input = chunk_node F key flags i input.
Proof. intros F key flags i input H. unfold tree. rewrite pieces_short by lia. reflexivity. Qed.

Lemma tree_halves : forall F key flags i input k,
  2048 * 2 ^ k < len input -> len input <= 2048 * 2 ^ (k + 1) ->
  tree F key flags i input
  = parent_node key flags (chain F (tree F key flags i (take (2048 * 2 ^ k) input)))
                          (chain F (tree F key flags (i + 2 ^ k) (drop (2048 * 2 ^ k) input))).
Proof.
  intros F key flags i input k H1 H2. rewrite N.pow_add_r in H2. change (2 ^ 1) with 2 in H2.
  pose proof (pow2_pos k) as P.
  assert (Lt : len (take (2048 * 2 ^ k) input) = 2048 * 2 ^ k) by (rewrite len_take; lia).
  assert (Ld : len (drop (2048 * 2 ^ k) input) = len input - 2048 * 2 ^ k) by (rewrite len_drop; lia).
  assert (E : pieces 2048 input
    = pieces 2048 (take (2048 * 2 ^ k) input) ++ pieces 2048 (drop (2048 * 2 ^ k) input)).
  { rewrite <- (take_drop _ (2048 * 2 ^ k) input) at 1. apply (pieces_app _ _ _ (2 ^ k)); lia. }
  assert (La : len (pieces 2048 (take (2048 * 2 ^ k) input)) = 2 ^ k)
    by (rewrite pieces_len, Lt by lia; lia).
  assert (Lb : 1 <= len (pieces 2048 (drop (2048 * 2 ^ k) input)) <= 2 ^ k)
    by (rewrite pieces_len, Ld by lia; lia).
  unfold tree. rewrite E.
  revert La Lb. generalize (pieces 2048 (take (2048 * 2 ^ k) input)).
  generalize (pieces 2048 (drop (2048 * 2 ^ k) input)). intros b a La Lb.
  rewrite (N.log2_up_unique (len (a ++ b)) (N.of_nat (S (N.to_nat k)))).
  - rewrite Nat2N.id. cbn [subtree]. rewrite N2Nat.id.
    rewrite (proj2 (N.leb_gt _ _)) by (rewrite len_app; lia).
    rewrite take_app_eq, drop_app_eq by exact La.
    rewrite (subtree_fit F key flags (N.to_nat k) i a) by (rewrite ?N2Nat.id; lia).
    rewrite (subtree_fit F key flags (N.to_nat k) (i + 2 ^ k) b) by (rewrite ?N2Nat.id; lia).
    reflexivity.
  - lia.
  - replace (N.pred (N.of_nat (S (N.to_nat k)))) with k by lia.
    replace (N.of_nat (S (N.to_nat k))) with (N.succ k) by lia.
    rewrite N.pow_succ_r', len_app. lia.
Qed.
