(* Proofs for C60. *)
From Coq Require Import NArith List Bool Lia.
From Verif Require Import Base BaseFacts Spec AgreeSpec Portable Platform Lib SessionSpec Session.
From Verif Require Import LibFacts ApiFacts HashFacts OneShotFacts StreamFacts.
From Verif Require Import RefImpl RefFacts PyImpl PyFacts CSimd CImpl CSpec CImplProps.
From Verif Require Portable64 C64.
Import ListNotations.
Open Scope N_scope.

Lemma key_32 : forall m, key_of_len 32 m -> mode_ok m.
Proof. intros [|k|k]; cbn; auto; intros [H B]; (split; [unfold len in H; lia|exact B]). Qed.
Lemma xof_32 : forall F m input, spec_xof F m input 32 = spec_hash F m input.
Proof.
  intros. unfold spec_xof, spec_hash. change (N.to_nat ((32 + 63) / 64)) with 1%nat.
  cbn [seq flat_map]. now rewrite app_nil_r.
Qed.

Lemma all_agree : forall c p o n m input inputs buffer memory us,
  In n [KEY_LEN; r_KEY_LEN; C_KEY_LEN] -> key_of_len n m ->
  platform_ok c p -> bytes input -> len input <= 2 ^ 63 -> len input < WU c ->
  concat inputs = input -> Forall bytes inputs ->
  len buffer = r_OUT_LEN ->
  c_updates_ok us -> c_data us = input -> len memory = C_MAX_DEPTH * C_OUT_LEN ->
  exists hash,
    (len hash = OUT_LEN /\ len hash = r_OUT_LEN /\ len hash = C_OUT_LEN) /\
    oneshot c p m input = Ok hash /\
    (let* h := feed c (start p m) inputs in finalize c h) = Ok hash /\
    (let* h := r_feed c (r_start m) inputs in r_finalize c h buffer) = Ok hash /\
    y_run m input 32 = Ok hash /\
    c_hash o memory (bytes_of_words (mode_key m)) (mode_flags m) us = Ok hash.
Proof.
  intros * I K P B L63 LW E FB Lb U D Lm.
  assert (M : mode_ok m) by (apply key_32; destruct I as [<-|[<-|[<-|[]]]]; exact K).
  change (2 ^ 63) with 9223372036854775808 in *.
  exists (spec_hash blake_compress m input).
  destruct (spec_hash_shape m input M B) as [Ls _].
  split; [rewrite Ls; repeat split|].
  split; [now apply oneshot_ok|]. split; [|split; [|split]].
  - destruct (stream_stream c p m inputs 0 P M FB) as (h & ? & ? & ? & Hf & Hz & _).
    { rewrite E. change W64 with 18446744073709551616. lia. }
    { reflexivity. }
    rewrite Hf. cbn [bind]. now rewrite Hz, E.
  - destruct (reference_ok c m inputs buffer M FB) as (h & Hf & Hz).
    { rewrite E. change W64 with 18446744073709551616. lia. }
    { rewrite Lb. reflexivity. }
    rewrite Hf. cbn [bind]. rewrite Hz, E, Lb. apply (f_equal Ok). apply xof_32.
  - rewrite python_run_small; auto.
    + now rewrite xof_32.
    + change W64 with 18446744073709551616. lia.
    + change W64 with 18446744073709551616. lia.
  - rewrite c_hasher_ok; auto; rewrite D; auto.
Qed.

Lemma sizes_agree :
  [OUT_LEN; KEY_LEN; BLOCK_LEN; CHUNK_LEN; MAX_DEPTH] =
    [C_OUT_LEN; C_KEY_LEN; C_BLOCK_LEN; C_CHUNK_LEN; C_MAX_DEPTH] /\
  [OUT_LEN; KEY_LEN; BLOCK_LEN; CHUNK_LEN] = [r_OUT_LEN; r_KEY_LEN; r_BLOCK_LEN; r_CHUNK_LEN] /\
  [BLOCK_LEN; CHUNK_LEN] = [y_BLOCK_LEN; y_CHUNK_LEN] /\
  [Portable64.OUT_LEN; Portable64.BLOCK_LEN; Portable64.CHUNK_LEN] =
    [C64.OUT_LEN; C64.BLOCK_LEN; C64.CHUNK_LEN] /\
  [Portable64.OUT_LEN; C64.KEY_LEN; Portable64.BLOCK_LEN; Portable64.CHUNK_LEN] =
    [OUT_LEN; KEY_LEN; 2 * BLOCK_LEN; 2 * CHUNK_LEN].
Proof. repeat split. Qed.
Lemma tables_agree :
  Portable.IV = C_IV /\ Portable.IV = r_IV /\ Portable.IV = y_IV /\
  Portable.MSG_SCHEDULE = C_MSG_SCHEDULE /\ Portable.MSG_SCHEDULE = r_MSG_SCHEDULE /\
  Portable.MSG_SCHEDULE = y_MSG_SCHEDULE /\
  Portable64.IV = C64.IV /\ Portable64.MSG_SCHEDULE = C64.MSG_SCHEDULE /\
  [Lib.CHUNK_START; Lib.CHUNK_END; Lib.PARENT; Lib.ROOT] =
    [C_CHUNK_START; C_CHUNK_END; C_PARENT; C_ROOT] /\
  [Lib.CHUNK_START; Lib.CHUNK_END; Lib.PARENT; Lib.ROOT; Lib.KEYED_HASH; Lib.DERIVE_KEY] =
    [r_CHUNK_START; r_CHUNK_END; r_PARENT; r_ROOT; r_KEYED_HASH; r_DERIVE_KEY] /\
  [Lib.CHUNK_START; Lib.CHUNK_END; Lib.PARENT; Lib.ROOT; Lib.KEYED_HASH; Lib.DERIVE_KEY] =
    [y_CHUNK_START; y_CHUNK_END; y_PARENT; y_ROOT; y_KEYED_HASH; y_DERIVE_KEY].
Proof. repeat split. Qed.
