(* The traced functions of LibCalls.v return what the functions of Lib.v return. *)
From Coq Require Import NArith List Bool Lia.
From Verif Require Import Base Spec Portable Platform Lib Session LibCalls.
Import ListNotations.
Open Scope N_scope.

Definition returns {A : Type} (t : tr A) (r : res A) : Prop := forall s, snd (t s) = r.

Lemma ret_lift : forall A (r : res A), returns (lift r) r.
Proof. intros A r s. reflexivity. Qed.
Lemma ret_bind : forall A B (m : tr A) r (f : A -> tr B) g,
  returns m r -> (forall x, returns (f x) (g x)) -> returns (tbind m f) (bind r g).
Proof.
  intros A B m r f g Hm Hf s. unfold tbind. specialize (Hm s). destruct (m s) as [s' q].
  cbn [snd] in Hm. subst q. destruct r; cbn [bind]; [apply Hf|reflexivity|reflexivity].
Qed.
Lemma ret_val : forall A B (m : tr A) v (f : A -> tr B) r,
  returns m (Ok v) -> returns (f v) r -> returns (tbind m f) r.
Proof.
  intros A B m v f r Hm Hf s. unfold tbind. specialize (Hm s). destruct (m s) as [s' q].
  cbn [snd] in Hm. subst q. apply Hf.
Qed.

Lemma ret_compress : forall p cv block bl off fl,
  returns (t_compress p cv block bl off fl) (Ok (compress p cv block bl off fl)).
Proof. intros p cv block bl off fl s. reflexivity. Qed.
Lemma ret_compress_xof : forall p cv block bl off fl,
  returns (t_compress_xof p cv block bl off fl) (Ok (compress_xof p cv block bl off fl)).
Proof. intros p cv block bl off fl s. reflexivity. Qed.
Lemma ret_hash_many : forall c p cap inputs key off d fl fs fe out,
  returns (t_hash_many c p cap inputs key off d fl fs fe out)
          (hash_many c p cap inputs key off d fl fs fe out).
Proof. intros. intros s. reflexivity. Qed.
Lemma ret_to_hash : forall o, returns (t_to_hash o) (Ok (to_hash o)).
Proof. intros o s. reflexivity. Qed.

Ltac ret_step :=
  match goal with
  | |- forall _, _ => intro
  | |- returns (lift _) _ => apply ret_lift
  | |- returns (tbind (t_compress _ _ _ _ _ _) _) _ => eapply ret_val; [apply ret_compress|]
  | |- returns (tbind (t_compress_xof _ _ _ _ _ _) _) _ => eapply ret_val; [apply ret_compress_xof|]
  | |- returns (tbind (t_to_hash _) _) _ => eapply ret_val; [apply ret_to_hash|]
  | |- returns (tbind _ _) (bind _ _) => apply ret_bind
  | |- returns (match ?x with _ => _ end) _ => destruct x
  | |- returns (t_hash_many _ _ _ _ _ _ _ _ _ _ _) _ => apply ret_hash_many
  | H : forall _, _ |- returns _ _ => apply H
  | |- returns _ _ => progress cbv beta zeta
  end.
Ltac ret := repeat ret_step.

Lemma ret_read : forall c o, returns (t_read c o) (read c o).
Proof. intros c o. unfold t_read, read. ret. Qed.

Lemma ret_hoc_loop : forall c p fuel chunk cv off r fl bf bo,
  returns (t_hash_one_chunk_loop c p fuel chunk cv off r fl bf bo)
          (hash_one_chunk_loop c p fuel chunk cv off r fl bf bo).
Proof.
  intros c p. induction fuel as [|fuel IH]; intros; cbn [t_hash_one_chunk_loop hash_one_chunk_loop]; ret.
Qed.

Lemma ret_hash_one_chunk : forall c p chunk key off r fl,
  returns (t_hash_one_chunk c p chunk key off r fl) (hash_one_chunk c p chunk key off r fl).
Proof.
  intros. unfold t_hash_one_chunk, hash_one_chunk. pose proof ret_hoc_loop. ret.
Qed.

Lemma ret_hash_chunks : forall c p input key off fl out,
  returns (t_hash_chunks_parallel c p input key off fl out) (hash_chunks_parallel c p input key off fl out).
Proof.
  intros. unfold t_hash_chunks_parallel, hash_chunks_parallel. pose proof ret_hash_one_chunk. ret.
Qed.

Lemma ret_hash_parents : forall c p ch key fl out,
  returns (t_hash_parents_parallel c p ch key fl out) (hash_parents_parallel c p ch key fl out).
Proof. intros. unfold t_hash_parents_parallel, hash_parents_parallel. ret. Qed.

Lemma ret_hash_recurse : forall c p fuel input key off fl out,
  returns (t_hash_recurse c p fuel input key off fl out) (hash_recurse c p fuel input key off fl out).
Proof.
  intros c p. pose proof ret_hash_chunks. pose proof ret_hash_parents.
  induction fuel as [|fuel IH]; intros; cbn [t_hash_recurse hash_recurse]; ret.
Qed.

Lemma ret_condense_loop : forall c p fuel ch key fl out,
  returns (t_condense_loop c p fuel ch key fl out) (condense_loop c p fuel ch key fl out).
Proof.
  intros c p. pose proof ret_hash_parents.
  induction fuel as [|fuel IH]; intros; cbn [t_condense_loop condense_loop]; ret.
Qed.

Lemma ret_condense_root : forall c p ch key fl,
  returns (t_condense_root c p ch key fl) (condense_root c p ch key fl).
Proof. intros. unfold t_condense_root, condense_root. pose proof ret_condense_loop. ret. Qed.

Lemma ret_hash_internal : forall c p input key fl,
  returns (t_hash_internal c p input key fl) (hash_internal c p input key fl).
Proof.
  intros. unfold t_hash_internal, hash_internal. pose proof ret_hash_one_chunk.
  pose proof ret_hash_recurse. pose proof ret_condense_root. ret.
Qed.

Lemma ret_oneshot_xof : forall c p m input,
  returns (t_oneshot_xof c p m input) (oneshot_xof c p m input).
Proof. intros c p [|k|k] input; apply ret_hash_internal. Qed.
Lemma ret_oneshot : forall c p m input,
  returns (t_oneshot c p m input) (oneshot c p m input).
Proof.
  intros c p m input. unfold t_oneshot.
  replace (oneshot c p m input) with (let* o := oneshot_xof c p m input in Ok (to_hash o))
    by (destruct m; reflexivity).
  apply ret_bind; [apply ret_oneshot_xof|intros o; apply ret_to_hash].
Qed.

Lemma ret_cs_compress : forall c s b, returns (t_cs_compress c s b) (cs_compress c s b).
Proof. intros. unfold t_cs_compress, cs_compress. ret. Qed.
Lemma ret_cs_loop : forall c fuel s input,
  returns (t_cs_update_loop c fuel s input) (cs_update_loop c fuel s input).
Proof.
  intros c. pose proof ret_cs_compress.
  induction fuel as [|fuel IH]; intros; cbn [t_cs_update_loop cs_update_loop]; ret.
Qed.
Lemma ret_cs_update : forall c s input, returns (t_cs_update c s input) (cs_update c s input).
Proof.
  intros. unfold t_cs_update, cs_update. pose proof ret_cs_compress. pose proof ret_cs_loop. ret.
Qed.
Lemma ret_merge_parent : forall c h, returns (t_merge_parent c h) (merge_parent c h).
Proof. intros. unfold t_merge_parent, merge_parent. ret. Qed.
Lemma ret_merge_loop : forall c fuel h off, returns (t_merge_loop c fuel h off) (merge_loop c fuel h off).
Proof.
  intros c. pose proof ret_merge_parent.
  induction fuel as [|fuel IH]; intros; cbn [t_merge_loop merge_loop]; ret.
Qed.
Lemma ret_push : forall c h x off, returns (t_push_chunk_hash c h x off) (push_chunk_hash c h x off).
Proof. intros. unfold t_push_chunk_hash, push_chunk_hash. pose proof ret_merge_loop. ret. Qed.
Lemma ret_push_batch : forall c xs h, returns (t_push_batch c h xs) (push_batch c h xs).
Proof.
  intros c. pose proof ret_push.
  induction xs as [|x xs IH]; intros; cbn [t_push_batch push_batch]; ret.
Qed.
Lemma ret_update_chunks : forall c fuel h chunks out,
  returns (t_update_chunks c fuel h chunks out) (update_chunks c fuel h chunks out).
Proof.
  intros c. pose proof ret_push_batch.
  induction fuel as [|fuel IH]; intros; cbn [t_update_chunks update_chunks]; ret.
Qed.
Lemma ret_update : forall c h input, returns (t_update c h input) (update c h input).
Proof.
  intros. unfold t_update, update. pose proof ret_cs_update. pose proof ret_push.
  pose proof ret_update_chunks. pose proof ret_merge_loop. ret.
Qed.
Lemma ret_finalize_loop : forall c fuel h w i,
  returns (t_finalize_loop c fuel h w i) (finalize_loop c fuel h w i).
Proof.
  intros c. induction fuel as [|fuel IH]; intros; cbn [t_finalize_loop finalize_loop]; ret.
Qed.
Lemma ret_finalize_xof : forall c h, returns (t_finalize_xof c h) (finalize_xof c h).
Proof. intros. unfold t_finalize_xof, finalize_xof. pose proof ret_finalize_loop. ret. Qed.
Lemma ret_finalize : forall c h, returns (t_finalize c h) (finalize c h).
Proof.
  intros. unfold t_finalize, finalize. apply ret_bind; [apply ret_finalize_xof|].
  intros o. apply ret_to_hash.
Qed.
Lemma ret_feed : forall c inputs h, returns (t_feed c h inputs) (feed c h inputs).
Proof.
  intros c. pose proof ret_update. induction inputs as [|x r IH]; intros; cbn [t_feed feed]; ret.
Qed.
Lemma ret_reads : forall c n o, returns (t_reads c n o) (reads c n o).
Proof.
  intros c. pose proof ret_read. induction n as [|n IH]; intros; cbn [t_reads reads]; ret.
Qed.
