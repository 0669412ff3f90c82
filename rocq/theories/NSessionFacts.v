(* Facts about NSession.v, for Prop_NSession.v. *)
From Coq Require Import NArith List Bool Lia.
From Verif Require Import Base BaseFacts Spec Portable CSimd CSimdFacts CImpl CImplFacts CSpec CImplProps.
From Verif Require Import SessionSpec CSessionSpec CSession LibCalls CCalls TraceFacts CTraceFacts.
From Verif Require Import SecretSpec SecretFacts CSecretFacts TSession TSessionFacts NSession.
Import ListNotations.
Open Scope N_scope.

Lemma ret_n_step : forall o w x, returns (n_step o w x) (c_step o w x).
Proof.
  intros o w x. destruct x; cbn [n_step c_step]; try (apply ret_bind; [apply ret_lift|intros ?h]);
    try apply ret_lift.
  - apply ret_bind; [apply ret_lift|]. intros. apply ret_lift.
  - apply ret_bind; [apply ret_n_update|]. intros. apply ret_lift.
  - apply ret_bind; [apply ret_n_finalize|]. intros. apply ret_lift.
Qed.
Lemma ret_n_run : forall o xs w, returns (n_run o w xs) (c_run o w xs).
Proof.
  intros o. induction xs as [|x xs IH]; intros w; cbn [n_run c_run]; [apply ret_lift|].
  apply ret_bind; [apply ret_n_step|]. intros [w1 s1].
  apply ret_bind; [apply IH|]. intros [w2 s2]. apply ret_lift.
Qed.
Lemma n_run_traced : forall o w xs s, snd (n_run o w xs s) = c_run o w xs.
Proof. intros. apply ret_n_run. Qed.

Lemma init_Rch : forall memory memory' key key' flags, Rb memory memory' ->
  length key = 32%nat -> bytes key -> length key' = 32%nat -> bytes key' ->
  Rch (hasher_init memory key flags) (hasher_init memory' key' flags).
Proof.
  intros memory memory' key key' flags Hm Lk Bk Lk' Bk'. unfold hasher_init.
  destruct (key_words key Lk Bk) as (E1 & L1 & W1). destruct (key_words key' Lk' Bk') as (E2 & L2' & W2).
  rewrite E1, E2. apply Rch_intro; [|exact Hm].
  apply Rck_intro; [split; auto|split; auto|reflexivity|apply Rn_zeros].
Qed.

Lemma n_step_rel : forall o w w' x y, L2 Rch w w' -> c_call_ok x -> c_call_ok y -> same_c_call x y ->
  rel (Rp (L2 Rch) (L2 (Rn 32))) (n_step o w x) (n_step o w' y).
Proof.
  intros o w w' x y Hw Ox Oy Hs.
  destruct x, y; cbn [same_c_call] in Hs; try contradiction; cbn [c_call_ok] in Ox, Oy; cbn [n_step];
    try match type of Hs with _ /\ _ => destruct Hs as [Hs1 Hs2] end; subst;
    try (eapply rel_bind; [apply rel_lift, L2_nth_error; exact Hw|intros h h' Hh]).
  - apply rel_ok. split; cbn [fst snd]; [|constructor]. apply L2_snoc; [exact Hw|].
    apply init_Rch; try tauto. split; tauto.
  - apply rel_ok. split; cbn [fst snd]; [|constructor]. apply L2_replace; [exact Hw|].
    apply init_Rch; try tauto. now apply Rch_stack.
  - apply rel_ok. split; cbn [fst snd]; [|constructor]. now apply L2_snoc.
  - eapply rel_bind; [apply rel_lift, L2_nth_error; exact Hw|]. intros g g' Hg.
    apply rel_ok. split; cbn [fst snd]; [|constructor]. now apply L2_replace.
  - eapply rel_bind; [apply n_update_rel; [exact Hh|split; tauto|]|].
    { unfold Rn. change (16 * 32) with 512 in *. tauto. }
    intros g g' Hg. apply rel_ok. split; cbn [fst snd]; [|constructor]. now apply L2_replace.
  - eapply rel_bind; [now apply n_hasher_finalize_rel|]. intros g g' Hg.
    apply rel_ok. split; cbn [fst snd]; [exact Hw|]. constructor; [exact Hg|constructor].
Qed.
Lemma n_run_rel : forall o xs ys, L2 same_c_call xs ys -> Forall c_call_ok xs -> Forall c_call_ok ys ->
  forall w w', L2 Rch w w' -> rel (Rp (L2 Rch) (L2 (Rn 32))) (n_run o w xs) (n_run o w' ys).
Proof.
  intros o xs ys H. induction H as [|x y xs ys Hxy H IH]; intros Fx Fy w w' Hw; cbn [n_run].
  - apply rel_ok. split; [exact Hw|constructor].
  - inversion_clear Fx. inversion_clear Fy.
    eapply rel_bind; [now apply n_step_rel|]. intros [w1 s1] [w2 s2] [Hw1 Hs1]. cbn [fst snd] in *.
    eapply rel_bind; [now apply IH|]. intros [w3 s3] [w4 s4] [Hw3 Hs3]. cbn [fst snd] in *.
    apply rel_ok. split; [exact Hw3|]. now apply Forall2_app.
Qed.
Lemma n_session_observed : forall o xs ys, Forall2 same_c_call xs ys ->
  Forall c_call_ok xs -> Forall c_call_ok ys ->
  observed (n_run o [] xs []) = observed (n_run o [] ys []).
Proof. intros. eapply rel_observed, n_run_rel; auto. Qed.

(* ---- the calls listed for the simplest programs are those of CCalls.v ---- *)

Lemma fst_n_run_cons : forall o w x r s,
  fst (n_run o w (x :: r) s) = fst (tbind (n_step o w x) (fun ws => n_run o (fst ws) r) s).
Proof.
  intros. cbn [n_run]. apply fst_bind; [reflexivity|]. intros [w' a] t. cbn [fst].
  unfold tbind. destruct (n_run o w' r t) as [t' [[w'' a']| |]]; reflexivity.
Qed.
Lemma fst_n_updates : forall o us h r s,
  fst (n_run o [h] (map (fun u => DUpdate O (fst u) (snd u)) us ++ r) s)
  = fst (tbind (n_updates o h us) (fun h => n_run o [h] r) s).
Proof.
  intros o. induction us as [|[x junk] us IH]; intros h r s; [reflexivity|].
  cbn [map app n_updates fst snd]. rewrite fst_n_run_cons, bind_assoc.
  cbn [n_step nth_error replace]. rewrite bind_assoc. unfold tbind at 1. unfold lift at 1.
  rewrite bind_assoc. apply fst_bind; [reflexivity|]. intros h' t. unfold tbind at 1. unfold lift. cbn [fst].
  apply IH.
Qed.
Lemma n_session_calls : forall o memory key flags us s,
  fst (n_run o [] (DNew memory key flags :: map (fun u => DUpdate O (fst u) (snd u)) us ++ [DFinalize O]) s)
  = fst (n_hash o memory key flags us s).
Proof.
  intros. rewrite fst_n_run_cons. cbn [n_step app]. unfold tbind at 1. unfold lift. cbn [fst].
  rewrite fst_n_updates. unfold n_hash. apply fst_bind; [reflexivity|]. intros h t.
  rewrite fst_n_run_cons. cbn [n_step n_run nth_error]. unfold tbind, lift.
  destruct (n_hasher_finalize o h t) as [t' [a| |]]; reflexivity.
Qed.
