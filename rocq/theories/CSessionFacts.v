(* Programs that use several C hashers. *)
From Coq Require Import NArith List Bool Lia ZArith.
From Coq Require Import ZifyBool ZifyNat ZifyN.
From Verif Require Import Base BaseFacts Spec SpecFacts SessionSpec ApiFacts.
From Verif Require Import CSimd CImpl CSpec CImplFacts CImplProps CSessionSpec CSession.
Import ListNotations.
Open Scope N_scope.

Definition c_rel (o : copts) (cap : N) (h : c_hasher) (v : list N * N * list N) : Prop :=
  let '(key, flags, data) := v in
  key_okb key = true /\ limit o cap (len data) /\
  c_holds (words_of_bytes key) flags cap h data.

Lemma key_okb_ok : forall key, key_okb key = true -> length key = 32%nat /\ bytes key.
Proof.
  intros key H. apply andb_true_iff in H. destruct H as [L B]. split.
  - apply (len_length _ _ 32). apply N.eqb_eq in L. exact L.
  - unfold bytes. apply Forall_forall. intros x I. apply N.ltb_lt.
    exact (proj1 (forallb_forall _ _) B x I).
Qed.

Lemma bytesb_ok : forall l, bytesb l = true -> bytes l.
Proof.
  intros l B. apply Forall_forall. intros x I. apply N.ltb_lt.
  exact (proj1 (forallb_forall _ _) B x I).
Qed.

Lemma c_holds_memory : forall key flags cap h data, c_holds key flags cap h data ->
  len (c_stack h) = cap.
Proof. intros key flags cap h data (cs & rest & st & (_ & _ & _ & junk & _ & L) & _). exact L. Qed.

Lemma init_rel : forall o cap memory key flags, limit o cap 0 -> len memory = cap ->
  key_okb key = true -> c_rel o cap (hasher_init memory key flags) (key, flags, []).
Proof.
  intros o cap memory key flags Lim L K. split; [exact K|]. split; [exact Lim|].
  destruct (key_okb_ok key K) as [L1 B1]. destruct (key_words key L1 B1) as (E & L8 & W).
  unfold hasher_init. rewrite E. now apply c_init_holds.
Qed.

Section Step.
Context (o : copts) (cap max : N).
Hypothesis Limit : forall n, n <= max -> limit o cap n.

Lemma c_step_ok : forall w a x a' s, Forall2 (c_rel o cap) w a ->
  c_abstract_step cap max a x = Some (a', s) ->
  exists w', c_step o w x = Ok (w', s) /\ Forall2 (c_rel o cap) w' a'.
Proof.
  intros w a x a' s R E. assert (L0 : limit o cap 0) by (apply Limit; lia).
  assert (Nth : forall i v, nth_error a i = Some v ->
    exists h, nth_error w i = Some h /\ c_rel o cap h v).
  { clear - R. induction R as [|h v w a H R IH]; intros [|i] v0 E; cbn in *; try discriminate.
    - injection E as <-. eauto.
    - eauto. }
  destruct x as [memory key flags|i key flags|i|i j|i input junk|i]; cbn [c_abstract_step c_step] in *.
  - destruct ((len memory =? cap) && key_okb key) eqn:G; [|discriminate]. injection E as <- <-.
    apply andb_true_iff in G. destruct G as [G1 G2]. apply N.eqb_eq in G1.
    eexists. split; [reflexivity|]. apply Forall2_app; auto. constructor; [|constructor].
    now apply init_rel.
  - destruct (nth_error a i) as [[[k0 f0] d0]|] eqn:N1; [|discriminate].
    destruct (key_okb key) eqn:K; [|discriminate]. injection E as <- <-.
    destruct (Nth _ _ N1) as (h & -> & _ & _ & H). cbn [bind].
    eexists. split; [reflexivity|]. apply Forall2_replace; auto. apply init_rel; auto.
    exact (c_holds_memory _ _ _ _ _ H).
  - destruct (nth_error a i) as [v|] eqn:N1; [|discriminate]. injection E as <- <-.
    destruct (Nth _ _ N1) as (h & -> & H). cbn [bind].
    eexists. split; [reflexivity|]. apply Forall2_app; auto.
  - destruct (nth_error a i) as [v|] eqn:N1; [|discriminate].
    destruct (nth_error a j) as [v'|] eqn:N2; [|discriminate]. injection E as <- <-.
    destruct (Nth _ _ N1) as (h & -> & _). destruct (Nth _ _ N2) as (h' & -> & H).
    cbn [bind]. eexists. split; [reflexivity|]. now apply Forall2_replace.
  - destruct (nth_error a i) as [[[key flags] data]|] eqn:N1; [|discriminate].
    destruct (bytesb input && (len junk =? 16 * 32) && (len data + len input <=? max)) eqn:G;
      [|discriminate]. injection E as <- <-.
    apply andb_true_iff in G. destruct G as [G G3]. apply andb_true_iff in G. destruct G as [G1 G2].
    apply N.eqb_eq in G2. apply N.leb_le in G3.
    destruct (Nth _ _ N1) as (h & -> & K & _ & H). cbn [bind].
    destruct (key_okb_ok key K) as [L1 B1]. destruct (key_words key L1 B1) as (_ & L8 & W).
    destruct (c_update_ok o _ flags L8 W cap junk h data input H (bytesb_ok _ G1) G2 (Limit _ G3))
      as (h' & E1 & H1).
    rewrite E1. cbn [bind]. eexists. split; [reflexivity|]. apply Forall2_replace; auto.
    split; [exact K|]. split; [|exact H1]. rewrite len_app. now apply Limit.
  - destruct (nth_error a i) as [[[key flags] data]|] eqn:N1; [|discriminate].
    injection E as <- <-.
    destruct (Nth _ _ N1) as (h & -> & K & Lim & H). cbn [bind].
    destruct (key_okb_ok key K) as [L1 B1]. destruct (key_words key L1 B1) as (_ & L8 & W).
    rewrite (c_finalize_ok o _ flags L8 W cap h data H (N.lt_le_incl _ _ (proj1 Lim))).
    cbn [bind]. eexists. split; [reflexivity|]. exact R.
Qed.

Lemma c_run_ok : forall xs w a a' ss, Forall2 (c_rel o cap) w a ->
  c_abstract_run cap max a xs = Some (a', ss) ->
  exists w', c_run o w xs = Ok (w', ss) /\ Forall2 (c_rel o cap) w' a'.
Proof.
  induction xs as [|x xs IH]; intros w a a' ss R E; cbn [c_abstract_run c_run] in *.
  - injection E as <- <-. eauto.
  - destruct (c_abstract_step cap max a x) as [[a1 s]|] eqn:E1; [|discriminate].
    destruct (c_abstract_run cap max a1 xs) as [[a2 ss2]|] eqn:E2; [|discriminate].
    injection E as <- <-.
    destruct (c_step_ok w a x a1 s R E1) as (w1 & S1 & R1). rewrite S1. cbn [bind].
    destruct (IH w1 a1 a2 ss2 R1 E2) as (w2 & S2 & R2). rewrite S2. cbn [bind]. eauto.
Qed.
End Step.

Lemma c_program_ok : forall o xs a ss,
  c_abstract_run (53 * 32) (2 ^ 63) [] xs = Some (a, ss) ->
  exists w, c_run o [] xs = Ok (w, ss).
Proof.
  intros o xs a ss E.
  destruct (c_run_ok o (53 * 32) (2 ^ 63)) with (xs := xs) (w := @nil c_hasher)
    (a := @nil (list N * N * list N)) (a' := a) (ss := ss) as (w & R & _); eauto.
  intros n L. unfold limit, W64. change (2 ^ 63) with 9223372036854775808 in *. lia.
Qed.

Lemma c_program_no_assertions : forall o xs a ss, ndebug o = true ->
  c_abstract_run (53 * 32) (2 ^ 64 - 1) [] xs = Some (a, ss) ->
  exists w, c_run o [] xs = Ok (w, ss).
Proof.
  intros o xs a ss D E.
  destruct (c_run_ok o (53 * 32) (2 ^ 64 - 1)) with (xs := xs) (w := @nil c_hasher)
    (a := @nil (list N * N * list N)) (a' := a) (ss := ss) as (w & R & _); eauto.
  intros n L. change (2 ^ 64) with 18446744073709551616 in L.
  split; [unfold W64; lia|]. split; [left; exact D|left; lia].
Qed.

Lemma c_wrapper_program_ok : forall o cap xs a ss, RUST_SUBTREE_HASHES <= cap ->
  c_abstract_run cap (2 ^ 63 - 1) [] xs = Some (a, ss) ->
  exists w, c_run o [] xs = Ok (w, ss).
Proof.
  intros o cap xs a ss C E. unfold RUST_SUBTREE_HASHES in C.
  destruct (c_run_ok o cap (2 ^ 63 - 1)) with (xs := xs) (w := @nil c_hasher)
    (a := @nil (list N * N * list N)) (a' := a) (ss := ss) as (w & R & _); eauto.
  intros n L. unfold limit, W64. change (2 ^ 63) with 9223372036854775808 in *. lia.
Qed.

(* the hash under the key and flags of a mode *)
Lemma flags_hash_mode : forall m data, mode_ok m ->
  flags_hash (bytes_of_words (mode_key m)) (mode_flags m) data = spec_hash blake_compress m data.
Proof.
  intros m data M. destruct (mode_key_ok m M) as [K1 K2]. unfold flags_hash.
  rewrite words_of_bytes_of_words by auto. reflexivity.
Qed.
