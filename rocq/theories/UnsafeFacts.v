(* Proofs for Prop_Unsafe. *)
From Coq Require Import NArith List Bool Lia ZArith.
From Coq Require Import ZifyBool ZifyNat ZifyN.
From Verif Require Import Base BaseFacts Spec Portable Simd SimdGen SimdHash Platform Lib SessionSpec Session Unsafe.
From Verif Require Sse41 Avx2.
Import ListNotations.
Open Scope N_scope.

Lemma bind_ext : forall A B (m : res A) (f g : A -> res B), (forall x, f x = g x) -> bind m f = bind m g.
Proof. intros A B [x| |] f g H; cbn [bind]; auto. Qed.

Section Any.
Variable wv : res vec.
Variable wp : res (list (list N)).

Lemma loadu_in : forall n mem off, off + n <= len mem -> w_loadu wv n mem off = loadu n mem off.
Proof.
  intros n mem off H. unfold w_loadu, loadu, slice.
  rewrite (proj2 (N.leb_le _ _) H). reflexivity.
Qed.
Lemma load_grid_in : forall n cols inputs off,
  Forall (fun i => Forall (fun col => off + col + n <= len i) cols) inputs ->
  w_load_grid wv n inputs off cols = load_grid n inputs off cols.
Proof.
  intros n cols inputs off H. unfold w_load_grid, load_grid. f_equal.
  induction cols as [|col cols IH]; [reflexivity|]. cbn [flat_map]. f_equal.
  - clear IH. induction H as [|i inputs Hi H IH]; [reflexivity|]. cbn [map]. f_equal; [|exact IH].
    inversion Hi; subst. apply loadu_in. lia.
  - apply IH. eapply Forall_impl; [|exact H]. intros i Hi. now inversion Hi.
Qed.
Lemma hash_loop_ext : forall V (O : vops V) code set1 f g todo block blocks h a b bf fl fe,
  (forall k, block <= k < block + N.of_nat todo -> f (k * BLOCK_LEN) = g (k * BLOCK_LEN)) ->
  vec_hash_loop O code set1 f todo block blocks h a b bf fl fe
  = vec_hash_loop O code set1 g todo block blocks h a b bf fl fe.
Proof.
  intros V O code set1 f g todo. induction todo as [|todo IH]; intros; [reflexivity|].
  cbn [vec_hash_loop]. rewrite H by lia. destruct (g (block * BLOCK_LEN)); cbn [bind]; auto.
  apply IH. intros k Hk. apply H. lia.
Qed.

Lemma hash4_in : forall c inputs blocks key off d f fs fe,
  Forall (fun i => blocks * 64 <= len i) inputs ->
  w_hash4 wv c inputs blocks key off d f fs fe = Sse41.hash4 c inputs blocks key off d f fs fe.
Proof.
  intros c inputs blocks key off d f fs fe H. unfold w_hash4, Sse41.hash4.
  destruct (Sse41.load_offsets c off d) as [[lo hi]| |]; cbn [bind]; auto.
  erewrite hash_loop_ext; [reflexivity|]. intros k Hk. unfold BLOCK_LEN.
  unfold w_transpose_msg_vecs4, Sse41.transpose_msg_vecs. rewrite load_grid_in; [reflexivity|].
  eapply Forall_impl; [|exact H]. cbn beta. intros i Hi. repeat constructor; lia.
Qed.
Lemma hash8_in : forall c inputs blocks key off d f fs fe,
  Forall (fun i => blocks * 64 <= len i) inputs ->
  w_hash8 wv c inputs blocks key off d f fs fe = Avx2.hash8 c inputs blocks key off d f fs fe.
Proof.
  intros c inputs blocks key off d f fs fe H. unfold w_hash8, Avx2.hash8.
  destruct (Avx2.load_offsets c off d) as [[lo hi]| |]; cbn [bind]; auto.
  erewrite hash_loop_ext; [reflexivity|]. intros k Hk. unfold BLOCK_LEN.
  unfold w_transpose_msg_vecs8, Avx2.transpose_msg_vecs. rewrite load_grid_in; [reflexivity|].
  eapply Forall_impl; [|exact H]. cbn beta. intros i Hi. repeat constructor; lia.
Qed.

Lemma batch_ext : forall (P : list N -> Prop) c degree hN hN' rest rest',
  (forall l off, Forall P l -> hN l off = hN' l off) ->
  (forall l off out, Forall P l -> rest l off out = rest' l off out) ->
  forall fuel inputs off d out, Forall P inputs ->
  w_batch_loop wp c fuel degree hN rest inputs off d out
  = batch_loop c fuel degree hN' rest' inputs off d out.
Proof.
  intros P c degree hN hN' rest rest' Hh Hr. induction fuel as [|fuel IH]; intros inputs off d out H;
    cbn [w_batch_loop batch_loop];
    destruct (N.leb_spec degree (len inputs)) as [L1|L1]; cbn [andb]; auto;
    destruct (N.leb_spec (degree * OUT_LEN) (len out)) as [L2|L2]; auto.
  unfold w_ptrs. rewrite (proj2 (N.leb_le _ _) L1). cbn [bind].
  assert (HT : Forall P (take degree inputs) /\ Forall P (drop degree inputs)).
  { apply Forall_app. unfold take, drop. now rewrite firstn_skipn. }
  destruct HT as [HT HD]. rewrite Hh by exact HT.
  destruct (hN' (take degree inputs) off) as [hs| |]; cbn [bind]; auto.
  rewrite !slice_from_ok by assumption. cbn [bind].
  destruct (mul64 c degree d) as [x| |]; cbn [bind]; auto.
  destruct (add64 c off x) as [y| |]; cbn [bind]; auto.
  rewrite IH by exact HD. reflexivity.
Qed.

Definition sized (cap : N) (inputs : list (list N)) : Prop := Forall (fun i => len i = cap) inputs.
Lemma sized_blocks : forall cap inputs, sized cap inputs ->
  Forall (fun i => cap / BLOCK_LEN * 64 <= len i) inputs.
Proof.
  intros cap inputs H. eapply Forall_impl; [|exact H]. cbn beta. intros i ->. unfold BLOCK_LEN.
  pose proof (N.mul_div_le cap 64). lia.
Qed.
Lemma sse41_in : forall c cap inputs key off d f fs fe out, sized cap inputs ->
  w_sse41_hash_many wv wp c cap inputs key off d f fs fe out
  = Sse41.hash_many c cap inputs key off d f fs fe out.
Proof.
  intros. unfold w_sse41_hash_many, Sse41.hash_many.
  apply bind_ext; intros.
  apply (batch_ext (fun i => len i = cap)); auto.
  intros l o Hl. now apply hash4_in, sized_blocks.
Qed.
Lemma avx2_in : forall c cap inputs key off d f fs fe out, sized cap inputs ->
  w_avx2_hash_many wv wp c cap inputs key off d f fs fe out
  = Avx2.hash_many c cap inputs key off d f fs fe out.
Proof.
  intros. unfold w_avx2_hash_many, Avx2.hash_many.
  apply bind_ext; intros.
  apply (batch_ext (fun i => len i = cap)); auto.
  - intros l o Hl. now apply hash8_in, sized_blocks.
  - intros l o u Hl. now apply sse41_in.
Qed.
Lemma many_in : forall c p cap inputs key off d f fs fe out, sized cap inputs ->
  w_hash_many wv wp c p cap inputs key off d f fs fe out
  = hash_many c p cap inputs key off d f fs fe out.
Proof. intros c [ | | ]; intros; cbn [w_hash_many hash_many]; auto using sse41_in, avx2_in. Qed.

(* ---- lib.rs ---- *)

Lemma chunks_sized : forall n l, 0 < n -> sized n (fst (chunks_exact n l)).
Proof.
  intros n l Hn. induction l as [l IH] using (well_founded_induction (Wf_nat.well_founded_ltof _ (@length N))).
  destruct (N.lt_ge_cases (len l) n) as [H|H].
  - rewrite chunks_exact_short by exact H. constructor.
  - rewrite chunks_exact_step by assumption. cbn [fst]. constructor; [lenlia|].
    apply IH. unfold Wf_nat.ltof. unfold len, drop in *. rewrite skipn_length. lia.
Qed.
Lemma push_all_same : forall A cap (l acc r : list A), push_all cap acc l = Ok r -> r = acc ++ l.
Proof.
  induction l as [|x l IH]; intros acc r; cbn [push_all].
  - intros [= <-]. now rewrite app_nil_r.
  - unfold push_cap. destruct (_ <? _); cbn [bind]; [|discriminate]. intros E. apply IH in E. subst.
    now rewrite <- app_assoc.
Qed.

Lemma chunks_parallel_in : forall c p input key off f out,
  w_hash_chunks_parallel wv wp c p input key off f out = hash_chunks_parallel c p input key off f out.
Proof.
  intros. unfold w_hash_chunks_parallel, hash_chunks_parallel.
  pose proof (chunks_sized CHUNK_LEN input eq_refl) as S.
  destruct (chunks_exact CHUNK_LEN input) as [cs r]. cbn [fst] in S.
  do 3 (apply bind_ext; intros).
  destruct (push_all _ [] cs) as [a| |] eqn:E; cbn [bind]; [|reflexivity|reflexivity].
  apply push_all_same in E. cbn [app] in E. subst. now rewrite many_in.
Qed.
Lemma parents_parallel_in : forall c p ch key f out,
  w_hash_parents_parallel wv wp c p ch key f out = hash_parents_parallel c p ch key f out.
Proof.
  intros. unfold w_hash_parents_parallel, hash_parents_parallel.
  pose proof (chunks_sized BLOCK_LEN ch eq_refl) as S.
  destruct (chunks_exact BLOCK_LEN ch) as [cs r]. cbn [fst] in S.
  do 3 (apply bind_ext; intros).
  destruct (push_all _ [] cs) as [a| |] eqn:E; cbn [bind]; [|reflexivity|reflexivity].
  apply push_all_same in E. cbn [app] in E. subst. now rewrite many_in.
Qed.

Lemma recurse_in : forall c p fuel input key off f out,
  w_hash_recurse wv wp c p fuel input key off f out = hash_recurse c p fuel input key off f out.
Proof.
  intros c p. induction fuel as [|fuel IH]; intros; cbn [w_hash_recurse hash_recurse];
    (destruct (_ <=? _); [apply chunks_parallel_in|]); [reflexivity|].
  apply bind_ext; intros. apply bind_ext; intros [li ri]. apply bind_ext; intros. apply bind_ext; intros.
  apply bind_ext; intros [lo ro]. rewrite IH. apply bind_ext; intros [lo' ln].
  rewrite IH. apply bind_ext; intros [ro' rn]. apply bind_ext; intros. apply bind_ext; intros.
  destruct (_ =? _); [reflexivity|]. apply bind_ext; intros. apply parents_parallel_in.
Qed.
Lemma condense_loop_in : forall c p fuel ch key f out,
  w_condense_loop wv wp c p fuel ch key f out = condense_loop c p fuel ch key f out.
Proof.
  intros c p. induction fuel as [|fuel IH]; intros; cbn [w_condense_loop condense_loop];
    (destruct (_ <? _); [|reflexivity]); [reflexivity|].
  rewrite parents_parallel_in. apply bind_ext; intros [o n]. repeat (apply bind_ext; intros). apply IH.
Qed.
Lemma internal_in : forall c p input key f,
  w_hash_internal wv wp c p input key f = hash_internal c p input key f.
Proof.
  intros. unfold w_hash_internal, hash_internal. destruct (_ <=? _); [reflexivity|]. rewrite recurse_in.
  apply bind_ext; intros [a n]. apply bind_ext; intros. unfold w_condense_root, condense_root.
  apply bind_ext; intros. apply bind_ext; intros. now rewrite condense_loop_in.
Qed.
Lemma update_chunks_in : forall c fuel h chunks out, sized CHUNK_LEN chunks ->
  w_update_chunks wv wp c fuel h chunks out = update_chunks c fuel h chunks out.
Proof.
  intros c. induction fuel as [|fuel IH]; intros h chunks out H; cbn [w_update_chunks update_chunks];
    (destruct (_ =? 0); [reflexivity|]); [reflexivity|].
  assert (HT : sized CHUNK_LEN (take (MAX_SIMD_DEGREE c) chunks) /\
               sized CHUNK_LEN (drop (MAX_SIMD_DEGREE c) chunks)).
  { apply Forall_app. unfold take, drop. now rewrite firstn_skipn. }
  destruct HT as [HT HD]. rewrite many_in by exact HT.
  apply bind_ext; intros. apply bind_ext; intros. now apply IH.
Qed.
Lemma update_in : forall c h input, w_update wv wp c h input = update c h input.
Proof.
  intros. unfold w_update, update. apply bind_ext; intros [[h' i] now_]. destruct now_; [reflexivity|].
  pose proof (chunks_sized CHUNK_LEN i eq_refl) as S.
  destruct (chunks_exact CHUNK_LEN i) as [cs r]. cbn [fst] in S.
  apply bind_ext; intros. now rewrite update_chunks_in.
Qed.

Lemma oneshot_xof_in : forall c p m input, w_oneshot_xof wv wp c p m input = oneshot_xof c p m input.
Proof. intros c p [ | | ] input; cbn [w_oneshot_xof oneshot_xof]; apply internal_in. Qed.
Lemma oneshot_in : forall c p m input, w_oneshot wv wp c p m input = oneshot c p m input.
Proof.
  intros c p [ | | ] input; cbn [w_oneshot oneshot];
    unfold w_hash, w_keyed_hash, w_derive_key, w_hash_xof, w_keyed_hash_xof, w_derive_key_xof;
    rewrite internal_in; reflexivity.
Qed.
Lemma step_in : forall c p w x, w_step wv wp c p w x = step c p w x.
Proof.
  intros c p w x. destruct x; cbn [w_step step];
    [rewrite oneshot_in|rewrite oneshot_xof_in| |
     |apply bind_ext; intros; rewrite update_in
     |apply bind_ext; intros; unfold w_write; rewrite update_in| | | | | |]; reflexivity.
Qed.
Lemma run_in : forall c xs ps w, w_run wv wp c ps w xs = run c ps w xs.
Proof.
  intros c. induction xs as [|x xs IH]; intros; cbn [w_run run]; [reflexivity|].
  rewrite step_in. apply bind_ext; intros [w' s]. now rewrite IH.
Qed.
End Any.

Lemma api_in : forall wv wp c p m h input,
  w_oneshot wv wp c p m input = oneshot c p m input /\
  w_oneshot_xof wv wp c p m input = oneshot_xof c p m input /\
  w_update wv wp c h input = update c h input.
Proof. intros. split; [apply oneshot_in|split; [apply oneshot_xof_in|apply update_in]]. Qed.
Lemma hash48_in : forall wv c inputs blocks key offset offset_delta flags flags_start flags_end,
  Forall (fun i => blocks * 64 <= len i) inputs ->
  w_hash4 wv c inputs blocks key offset offset_delta flags flags_start flags_end
  = Sse41.hash4 c inputs blocks key offset offset_delta flags flags_start flags_end /\
  w_hash8 wv c inputs blocks key offset offset_delta flags flags_start flags_end
  = Avx2.hash8 c inputs blocks key offset offset_delta flags flags_start flags_end.
Proof. intros. split; [now apply hash4_in|now apply hash8_in]. Qed.
