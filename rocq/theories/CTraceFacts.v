(* The traced functions of CCalls.v return what the functions of CImpl.v return. *)
From Coq Require Import NArith List Bool Lia.
From Verif Require Import Base Spec LibCalls TraceFacts CSimd CImpl CSpec CCalls.
Import ListNotations.
Open Scope N_scope.

Lemma ret_n_compress : forall o st block bl off fl,
  returns (n_compress o st block bl off fl) (Ok (c_compress o st block bl off fl)).
Proof. intros o st block bl off fl s. reflexivity. Qed.
Lemma ret_n_hash_many : forall o inputs blocks key off d fl fs fe out,
  returns (n_hash_many o inputs blocks key off d fl fs fe out)
          (c_hash_many o inputs blocks key off d fl fs fe out).
Proof. intros. intros s. reflexivity. Qed.
Lemma ret_n_block : forall o s b,
  returns (n_chunk_state_block o s b) (Ok (chunk_state_block o s b)).
Proof. intros o s b l. reflexivity. Qed.
Lemma ret_n_chunk_finalize : forall o s r,
  returns (n_chunk_state_finalize o s r) (Ok (chunk_state_finalize o s r)).
Proof. intros o s r l. reflexivity. Qed.
Lemma ret_n_parent : forall o b key r fl,
  returns (n_hash_one_parent o b key r fl) (Ok (c_hash_one_parent o b key r fl)).
Proof. intros o b key r fl l. reflexivity. Qed.

Ltac cret_step :=
  match goal with
  | |- returns (tbind (n_chunk_state_block _ _ _) _) _ => eapply ret_val; [apply ret_n_block|]
  | |- returns (tbind (n_chunk_state_finalize _ _ _) _) _ => eapply ret_val; [apply ret_n_chunk_finalize|]
  | |- returns (tbind (n_hash_one_parent _ _ _ _ _) _) _ => eapply ret_val; [apply ret_n_parent|]
  | |- returns (n_chunk_state_finalize _ _ _) _ => apply ret_n_chunk_finalize
  | |- returns (n_hash_many _ _ _ _ _ _ _ _ _ _) _ => apply ret_n_hash_many
  | |- _ => ret_step
  end.
Ltac cret := repeat cret_step.

Lemma ret_n_chunk_loop : forall o fuel s input,
  returns (n_chunk_state_loop o fuel s input) (chunk_state_loop o fuel s input).
Proof.
  intros o. induction fuel as [|fuel IH]; intros; cbn [n_chunk_state_loop chunk_state_loop]; cret.
Qed.
Lemma ret_n_chunk_update : forall o s input,
  returns (n_chunk_state_update o s input) (chunk_state_update o s input).
Proof. intros. unfold n_chunk_state_update, chunk_state_update. pose proof ret_n_chunk_loop. cret. Qed.
Lemma ret_n_merge_parent : forall o h, returns (n_merge_parent o h) (hasher_merge_parent o h).
Proof. intros. unfold n_merge_parent, hasher_merge_parent. cret. Qed.
Lemma ret_n_merge_loop : forall o fuel h total,
  returns (n_merge_loop o fuel h total) (hasher_merge_loop o fuel h total).
Proof.
  intros o. pose proof (ret_n_merge_parent o).
  induction fuel as [|fuel IH]; intros; cbn [n_merge_loop hasher_merge_loop]; cret.
Qed.
Lemma ret_n_merge_all : forall o h total, returns (n_merge_all o h total) (hasher_merge_all o h total).
Proof. intros. apply ret_n_merge_loop. Qed.
Lemma ret_n_push : forall o h x off,
  returns (n_push_chunk_hash o h x off) (hasher_push_chunk_hash o h x off).
Proof. intros. unfold n_push_chunk_hash, hasher_push_chunk_hash. pose proof ret_n_merge_all. cret. Qed.
Lemma ret_n_push_chunks : forall o n i h out,
  returns (n_push_chunks o n i h out) (push_chunks o n i h out).
Proof.
  intros o. pose proof (ret_n_push o).
  induction n as [|n IH]; intros; cbn [n_push_chunks push_chunks]; cret.
Qed.
Lemma ret_n_chunks_loop : forall o fuel h input out,
  returns (n_chunks_loop o fuel h input out) (chunks_loop o fuel h input out).
Proof.
  intros o. pose proof (ret_n_push_chunks o).
  induction fuel as [|fuel IH]; intros; cbn [n_chunks_loop chunks_loop]; cret.
Qed.
Lemma ret_n_update_rest : forall o junk h input,
  returns (n_update_rest o junk h input) (hasher_update_rest o junk h input).
Proof.
  intros. unfold n_update_rest, hasher_update_rest.
  pose proof ret_n_chunks_loop. pose proof ret_n_merge_all. pose proof ret_n_chunk_update. cret.
Qed.
Lemma ret_n_update : forall o junk h input,
  returns (n_hasher_update o junk h input) (hasher_update o junk h input).
Proof.
  intros. unfold n_hasher_update, hasher_update.
  pose proof ret_n_push. pose proof ret_n_update_rest. pose proof ret_n_chunk_update. cret.
Qed.
Lemma ret_n_finalize_up : forall o fuel h w i,
  returns (n_finalize_up o fuel h w i) (finalize_up o fuel h w i).
Proof.
  intros o. induction fuel as [|fuel IH]; intros; cbn [n_finalize_up finalize_up]; cret.
Qed.
Lemma ret_n_finalize : forall o h, returns (n_hasher_finalize o h) (hasher_finalize o h).
Proof. intros. unfold n_hasher_finalize, hasher_finalize. pose proof ret_n_finalize_up. cret. Qed.
Lemma ret_n_updates : forall o us h, returns (n_updates o h us) (c_updates o h us).
Proof.
  intros o. pose proof (ret_n_update o).
  induction us as [|[input junk] us IH]; intros; cbn [n_updates c_updates]; cret.
Qed.
Lemma ret_n_hash : forall o memory key flags us,
  returns (n_hash o memory key flags us) (c_hash o memory key flags us).
Proof.
  intros. unfold n_hash, c_hash. pose proof ret_n_updates. pose proof ret_n_finalize. cret.
Qed.
