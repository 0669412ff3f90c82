(* The functions of CHSteps.v return what the functions of CImpl.v return, two runs on inputs of
   the same lengths make the same steps, and an update reads every byte of its input once. *)
From Coq Require Import NArith List Bool Lia ZArith.
From Coq Require Import ZifyBool ZifyNat ZifyN.
From Verif Require Import Base BaseFacts Spec CompressFacts ManyFacts ManySpec WrapSpec SecretSpec SecretFacts.
From Verif Require Import CSimd CSimdFacts CImpl CImplFacts CSpec CImplProps SessionSpec CSessionSpec CSession.
From Verif Require Import LibCalls CCalls CSecretFacts TSessionFacts NSession NSessionFacts.
From Verif Require Import VOps VSteps VStepsSpec VStepsFacts LibStepsFacts VMemSpec VMemFacts.
From Verif Require Import CVSteps CVStepsFacts CVMemFacts CHSteps CHStepsSpec.
Import ListNotations.
Open Scope N_scope.

(* ---- returned values ---- *)

Lemma vret_access : forall A l (f : unit -> vs A) r, vret (f tt) r -> vret (vbind (access l) f) r.
Proof. intros. eapply vret_val; [apply vret_pure|assumption]. Qed.

Ltac w_step_value :=
  match goal with
  | |- forall _, _ => intro
  | |- vret (vlift _) _ => apply vret_lift
  | |- vret (vbind (access _) _) _ => apply vret_access
  | |- vret (_, _) _ => apply vret_pure
  | H : forall _, _ |- vret (vbind _ _) _ => eapply vret_val; [apply H|]
  | |- vret (vbind _ _) (bind _ _) => apply vret_bind
  | |- vret (match ?x with _ => _ end) _ => destruct x
  | H : forall _, _ |- vret _ _ => apply H
  | |- vret _ _ => progress cbv beta zeta
  end.
Ltac w_value := repeat w_step_value.

Lemma w_fill_value : forall o e s x, vret (w_fill_buf o e s x) (chunk_state_fill_buf o s x).
Proof. intros. unfold w_fill_buf, chunk_state_fill_buf. w_value. Qed.
Lemma w_block_value : forall o s a b, vret (w_chunk_state_block o s a b) (Ok (chunk_state_block o s b)).
Proof. intros. unfold w_chunk_state_block, chunk_state_block. pose proof c_compress_value. w_value. Qed.
Lemma w_loop_value : forall o e fuel s x, vret (w_chunk_state_loop o e fuel s x) (chunk_state_loop o fuel s x).
Proof.
  intros o e. pose proof w_block_value as B. induction fuel as [|fuel IH]; intros; cbn [w_chunk_state_loop chunk_state_loop];
    destruct (_ <? _); try apply vret_lift.
  apply vret_bind; [apply vret_lift|]. intros b. eapply vret_val; [apply B|]. apply IH.
Qed.
Lemma w_update_value : forall o e s x, vret (w_chunk_state_update o e s x) (chunk_state_update o s x).
Proof.
  intros. unfold w_chunk_state_update, chunk_state_update. apply vret_bind.
  - destruct (0 <? _); [|apply vret_lift]. apply vret_bind; [apply w_fill_value|]. intros [t y].
    destruct (0 <? _); [|apply vret_lift]. eapply vret_val; [apply w_block_value|]. apply vret_access, vret_lift.
  - intros [t y]. apply vret_bind; [apply w_loop_value|]. intros [u z].
    apply vret_bind; [apply w_fill_value|]. intros [v w]. apply vret_lift.
Qed.
Lemma w_fin_value : forall o s r, vret (w_chunk_state_finalize o s r) (Ok (chunk_state_finalize o s r)).
Proof. intros. unfold w_chunk_state_finalize, chunk_state_finalize. pose proof c_compress_value. w_value. Qed.
Lemma w_parent_value : forall o a b k r f, vret (w_hash_one_parent o a b k r f) (Ok (c_hash_one_parent o b k r f)).
Proof. intros. unfold w_hash_one_parent, c_hash_one_parent. pose proof c_compress_value. w_value. Qed.
Lemma w_merge_parent_value : forall o h, vret (w_merge_parent o h) (hasher_merge_parent o h).
Proof.
  intros. unfold w_merge_parent, hasher_merge_parent. cbv zeta. apply vret_bind; [apply vret_lift|]. intros b.
  eapply vret_val; [apply w_parent_value|]. apply vret_bind; [apply vret_pure|]. intros. apply vret_lift.
Qed.
Lemma w_merge_loop_value : forall o fuel h n, vret (w_merge_loop o fuel h n) (hasher_merge_loop o fuel h n).
Proof.
  intros o. induction fuel as [|fuel IH]; intros; cbn [w_merge_loop hasher_merge_loop];
    (apply vret_bind; [apply vret_lift|]); intros []; try apply vret_lift.
  apply vret_bind; [apply w_merge_parent_value|]. intros. apply IH.
Qed.
Lemma w_push_value : forall o h x off, vret (w_push_chunk_hash o h x off) (hasher_push_chunk_hash o h x off).
Proof.
  intros. unfold w_push_chunk_hash, hasher_push_chunk_hash. apply vret_bind; [apply vret_lift|]. intros _.
  apply vret_bind; [apply w_merge_loop_value|]. intros g. apply vret_bind; [apply vret_pure|]. intros. apply vret_lift.
Qed.
Lemma w_push_chunks_value : forall o n i h out, vret (w_push_chunks o n i h out) (push_chunks o n i h out).
Proof.
  intros o. induction n as [|n IH]; intros; cbn [w_push_chunks push_chunks]; [apply vret_lift|].
  apply vret_bind; [apply vret_pure|]. intros x. apply vret_bind; [apply w_push_value|]. intros g. apply IH.
Qed.
Lemma vret_relocated : forall A p (m : vs A) r, vret m r -> vret (relocated p m) r.
Proof. intros * H. exact H. Qed.
Lemma w_chunks_value : forall o e fuel h x out, vret (w_chunks_loop o e fuel h x out) (chunks_loop o fuel h x out).
Proof.
  intros o e. induction fuel as [|fuel IH]; intros; cbn [w_chunks_loop chunks_loop];
    destruct (_ <=? _); try apply vret_lift.
  destruct (gather_chunks _ x) as [cs r]. cbv zeta.
  apply vret_bind; [apply vret_relocated, c_many_value|]. intros out'.
  apply vret_bind; [apply w_push_chunks_value|]. intros g. apply IH.
Qed.
Lemma w_rest_value : forall o e j h x, vret (w_update_rest o e j h x) (hasher_update_rest o j h x).
Proof.
  intros. unfold w_update_rest, hasher_update_rest. apply vret_bind; [apply w_chunks_value|]. intros [g y].
  destruct (0 <? _); [|apply vret_lift]. apply vret_bind; [apply w_merge_loop_value|]. intros k.
  apply vret_bind; [apply w_update_value|]. intros. apply vret_lift.
Qed.
Lemma w_hasher_update_value : forall o j h x, vret (w_hasher_update o j h x) (hasher_update o j h x).
Proof.
  intros. unfold w_hasher_update, hasher_update. cbv zeta.
  destruct (_ || _); [|apply w_rest_value].
  apply vret_bind; [apply vret_lift|]. intros src. apply vret_bind; [apply w_update_value|]. intros s.
  destruct (0 <? _); [|apply vret_lift]. eapply vret_val; [apply w_fin_value|].
  apply vret_bind; [apply w_push_value|]. intros g. apply vret_access. apply w_rest_value.
Qed.
Lemma w_up_value : forall o fuel h w i, vret (w_finalize_up o fuel h w i) (finalize_up o fuel h w i).
Proof.
  intros o. induction fuel as [|fuel IH]; intros; cbn [w_finalize_up finalize_up]; cbv zeta;
    (apply vret_bind; [apply vret_pure|]); intros u; (eapply vret_val; [apply w_parent_value|]);
    destruct (i =? 0); try apply vret_lift. apply IH.
Qed.
Lemma w_hasher_finalize_value : forall o h, vret (w_hasher_finalize o h) (hasher_finalize o h).
Proof.
  intros. unfold w_hasher_finalize, hasher_finalize. destruct (_ =? 0); [apply w_fin_value|].
  apply vret_bind; [|intros [w i]; apply w_up_value].
  destruct (0 <? _).
  - eapply vret_val; [apply w_fin_value|]. apply vret_lift.
  - cbv zeta. apply vret_bind; [apply vret_pure|]. intros. apply vret_lift.
Qed.
Lemma w_step_value' : forall o w x, vret (w_step o w x) (c_step o w x).
Proof.
  intros o w x. destruct x; cbn [w_step c_step]; try (apply vret_bind; [apply vret_lift|intros ?h]);
    try apply vret_lift.
  - apply vret_bind; [apply vret_lift|]. intros. apply vret_lift.
  - apply vret_bind; [apply w_hasher_update_value|]. intros. apply vret_lift.
  - apply vret_bind; [apply w_hasher_finalize_value|]. intros. apply vret_lift.
Qed.
Lemma w_run_value : forall o xs w, vret (w_run o w xs) (c_run o w xs).
Proof.
  intros o. induction xs as [|x xs IH]; intros w; cbn [w_run c_run]; [apply vret_lift|].
  apply vret_bind; [apply w_step_value'|]. intros [w1 s1].
  apply vret_bind; [apply IH|]. intros [w2 s2]. apply vret_lift.
Qed.
Lemma w_steps_values : forall o w xs h junk input,
  snd (w_run o w xs) = c_run o w xs /\
  snd (w_hasher_update o junk h input) = hasher_update o junk h input /\
  snd (w_hasher_finalize o h) = hasher_finalize o h.
Proof.
  intros. split; [apply w_run_value|]. split; [apply w_hasher_update_value|apply w_hasher_finalize_value].
Qed.

(* ---- the same steps ---- *)

Lemma vrel_pair : forall A A' (R : A -> A' -> Prop) l r r', relr R r r' -> vrel R (l, r) (l, r').
Proof. intros * H. split; [reflexivity|exact H]. Qed.
Lemma vrel_yes : forall A A' (R : A -> A' -> Prop) a a', R a a' -> vrel R (vlift (Ok a)) (vlift (Ok a')).
Proof. intros. now apply vrel_lift. Qed.
Ltac past := eapply vrel_bind; [apply (vrel_refl unit)|intros _ _ _].
Ltac copen s s' H :=
  destruct s as [?st ?key ?off ?cnt ?buf ?bl ?fl], s' as [?st ?key ?off ?cnt ?buf ?bl ?fl];
  destruct H as (?Hst & ?Hkey & [?Hoff ?Hsm] & ?Hcnt & ?Hbuf & ?Hbl & ?Hfl);
  cbn [k_state k_key k_offset k_count k_buf k_buf_len k_flags] in *; subst.
Ltac wsame := eapply vrel_bind; [apply vrel_lift, relr_refl|intros ? ? <-].

Lemma w_compress_rel : forall o a b x y bl off fl, Rk a b -> Rn 64 x y -> small off ->
  vrel Rk (cv_compress o a x bl off fl) (cv_compress o b y bl off fl).
Proof.
  intros * Hk Hn Ho. destruct (same_c_compress o a x bl off fl b y bl off fl) as [E _].
  split; [exact E|]. rewrite !c_compress_value. now apply c_compress_Rk.
Qed.

Lemma L2_like : forall xs ys, L2 Rb xs ys -> L2 like xs ys.
Proof. intros * H. induction H; constructor; auto. symmetry. now apply Rb_len. Qed.
Lemma vrel_relocated : forall A A' (R : A -> A' -> Prop) p m m', vrel R m m' -> vrel R (relocated p m) (relocated p m').
Proof. intros * [E K]. split; [|exact K]. cbn [relocated fst]. now rewrite E. Qed.
Lemma w_many_rel : forall o p xs ys a b off fl out out',
  L2 Rb xs ys -> Forall (readable 2048) xs -> len xs <= 16 -> Rk a b -> small off -> Rn 512 out out' ->
  vrel (Rn 512)
    (relocated p (cv_hash_many o 0 xs (C_CHUNK_LEN / C_BLOCK_LEN) a off CHUNK_OFFSET_DELTAS fl C_CHUNK_START C_CHUNK_END out))
    (relocated p (cv_hash_many o 0 ys (C_CHUNK_LEN / C_BLOCK_LEN) b off CHUNK_OFFSET_DELTAS fl C_CHUNK_START C_CHUNK_END out')).
Proof.
  intros * H R L Hk Ho Hout. apply vrel_relocated.
  destruct (Rn_len _ _ _ Hout) as [L1 L2'].
  assert (Lo : like out out') by (unfold like; congruence).
  destruct (same_c_many o 0 xs ys (C_CHUNK_LEN / C_BLOCK_LEN) a b off off CHUNK_OFFSET_DELTAS CHUNK_OFFSET_DELTAS
              fl C_CHUNK_START C_CHUNK_END fl C_CHUNK_START C_CHUNK_END out out' (L2_like _ _ H) eq_refl Lo) as [E _].
  split; [exact E|]. rewrite !c_many_value. change (C_CHUNK_LEN / C_BLOCK_LEN) with 32.
  pose proof Hk as [[La Wa] [Lb Wb]].
  rewrite (c_hash_many_ok o 32 a 2048 fl _ _ CHUNK_OFFSET_DELTAS La Wa eq_refl);
    [|exact R|lia|exact Ho].
  rewrite (c_hash_many_ok o 32 b 2048 fl _ _ CHUNK_OFFSET_DELTAS Lb Wb eq_refl);
    [|eapply L2_readable; eauto|rewrite (L2_len _ _ _ _ _ H); lia|exact Ho].
  cbn [relr]. apply many_result_Rn; auto. lia.
Qed.

Lemma w_fill_rel : forall o e s s' x y, Rck s s' -> Rb x y ->
  vrel (Rp Rck Rb) (w_fill_buf o e s x) (w_fill_buf o e s' y).
Proof.
  intros o e s s' x y H Hx. copen s s' H. unfold w_fill_buf.
  cbn [k_state k_key k_offset k_count k_buf k_buf_len k_flags]. rewrite (Rb_len _ _ Hx).
  eapply vrel_bind; [apply vrel_pair, slice_rel; exact Hx|]. intros u u' Hu.
  eapply vrel_bind; [eapply vrel_pair, copy_at_rel; [exact Hbuf|eapply Rn_b; exact Hu]|]. intros v v' Hv.
  apply vrel_yes. split; cbn [fst snd]; [now apply Rck_intro|now apply Rb_drop].
Qed.
Lemma w_block_rel : forall o s s' p x y, Rck s s' -> Rn 64 x y ->
  vrel Rck (w_chunk_state_block o s p x) (w_chunk_state_block o s' p y).
Proof.
  intros o s s' p x y H Hx. copen s s' H. unfold w_chunk_state_block, chunk_state_maybe_start_flag.
  cbn [k_state k_key k_offset k_count k_buf k_buf_len k_flags]. past.
  eapply vrel_bind; [now apply w_compress_rel|]. intros k k' Hk. apply vrel_yes. now apply Rck_intro.
Qed.
Lemma w_loop_rel : forall o e fuel s s' x y, Rck s s' -> Rb x y ->
  vrel (Rp Rck Rb) (w_chunk_state_loop o e fuel s x) (w_chunk_state_loop o e fuel s' y).
Proof.
  intros o e fuel. induction fuel as [|fuel IH]; intros s s' x y H Hx; cbn [w_chunk_state_loop];
    rewrite (Rb_len _ _ Hx).
  - destruct (_ <? _); [apply vrel_lift; exact I|]. apply vrel_yes. now split.
  - destruct (_ <? _); [|apply vrel_yes; now split].
    eapply vrel_bind; [apply vrel_lift, slice_rel; exact Hx|]. intros u u' Hu.
    eapply vrel_bind; [apply w_block_rel; [exact H|exact Hu]|]. intros t t' Ht.
    apply IH; auto. now apply Rb_drop.
Qed.
Lemma w_chunk_update_rel : forall o e s s' x y, Rck s s' -> Rb x y ->
  vrel Rck (w_chunk_state_update o e s x) (w_chunk_state_update o e s' y).
Proof.
  intros o e s s' x y H Hx. unfold w_chunk_state_update.
  eapply vrel_bind with (R := Rp Rck Rb).
  - rewrite (Rck_buf_len _ _ H). destruct (0 <? k_buf_len s); [|apply vrel_yes; now split].
    eapply vrel_bind; [apply w_fill_rel; eauto|]. intros [t z] [t' z'] [Ht Hz]. cbn [fst snd] in *.
    rewrite (Rb_len _ _ Hz). destruct (0 <? len z); [|apply vrel_yes; now split].
    eapply vrel_bind; [apply w_block_rel; [exact Ht|now apply Rck_buf]|]. intros w w' Hw. past.
    apply vrel_yes. split; cbn [fst snd]; [|exact Hz].
    copen w w' Hw. cbn [k_state k_key k_offset k_count k_buf k_buf_len k_flags].
    apply Rck_intro; auto using Rn_zeros.
  - intros [t z] [t' z'] [Ht Hz]. cbn [fst snd] in *.
    assert (E : length z' = length z) by same_length Hz. rewrite E.
    eapply vrel_bind; [now apply w_loop_rel|]. intros [u v] [u' v'] [Hu Hv]. cbn [fst snd] in *.
    eapply vrel_bind; [apply w_fill_rel; eauto|]. intros [q w] [q' w'] [Hq Hw]. cbn [fst snd] in *.
    now apply vrel_yes.
Qed.
Lemma w_fin_rel : forall o s s' r, Rck s s' ->
  vrel (Rn 32) (w_chunk_state_finalize o s r) (w_chunk_state_finalize o s' r).
Proof.
  intros o s s' r H. copen s s' H. unfold w_chunk_state_finalize, chunk_state_maybe_start_flag.
  cbn [k_state k_key k_offset k_count k_buf k_buf_len k_flags]. cbv zeta. past.
  eapply vrel_bind; [now apply w_compress_rel|]. intros k k' Hk. apply vrel_yes. now apply write_state_Rn.
Qed.
Lemma w_parent_rel : forall o p x y a b r fl, Rn 64 x y -> Rk a b ->
  vrel (Rn 32) (w_hash_one_parent o p x a r fl) (w_hash_one_parent o p y b r fl).
Proof.
  intros o p x y a b r fl Hx Hk. unfold w_hash_one_parent. cbv zeta. past.
  eapply vrel_bind; [apply w_compress_rel; auto; reflexivity|]. intros k k' Hk'.
  apply vrel_yes. now apply write_state_Rn.
Qed.
Lemma w_merge_parent_rel : forall o h h', Rch h h' -> vrel Rch (w_merge_parent o h) (w_merge_parent o h').
Proof.
  intros o h h' H. unfold w_merge_parent. rewrite (Rch_len _ _ H). cbv zeta.
  eapply vrel_bind; [apply vrel_lift, slice_rel, Rch_stack; exact H|]. intros u u' Hu.
  rewrite (Rck_flags _ _ (Rch_chunk _ _ H)).
  eapply vrel_bind; [apply w_parent_rel; [exact Hu|now apply Rck_key, Rch_chunk]|]. intros x x' Hx.
  eapply vrel_bind; [apply vrel_pair, Rb_copy; [apply Rch_stack; exact H|eapply Rn_b; exact Hx]|]. intros z z' Hz.
  apply vrel_yes. apply Rch_intro; auto. now apply Rch_chunk.
Qed.
Lemma w_merge_rel : forall o fuel h h' off, Rch h h' ->
  vrel Rch (w_merge_loop o fuel h off) (w_merge_loop o fuel h' off).
Proof.
  intros o fuel. induction fuel as [|fuel IH]; intros h h' off H; cbn [w_merge_loop];
    unfold hasher_needs_merge; rewrite (Rch_len _ _ H); wsame.
  - match goal with |- context [if ?b then _ else _] => destruct b end; [apply vrel_lift; exact I|now apply vrel_yes].
  - match goal with |- context [if ?b then _ else _] => destruct b end; [|now apply vrel_yes].
    eapply vrel_bind; [now apply w_merge_parent_rel|]. intros; now apply IH.
Qed.
Lemma w_push_rel : forall o h h' x y off, Rch h h' -> Rn 32 x y ->
  vrel Rch (w_push_chunk_hash o h x off) (w_push_chunk_hash o h' y off).
Proof.
  intros o h h' x y off H Hx. unfold w_push_chunk_hash, w_merge_all. rewrite (Rch_len _ _ H). wsame.
  eapply vrel_bind; [now apply w_merge_rel|]. intros g g' Hg. rewrite (Rch_len _ _ Hg).
  eapply vrel_bind; [apply vrel_pair, Rb_copy; [apply Rch_stack; exact Hg|eapply Rn_b; exact Hx]|]. intros z z' Hz.
  apply vrel_yes. apply Rch_intro; auto. now apply Rch_chunk.
Qed.
Lemma w_push_chunks_rel : forall o n i h h' out out', Rch h h' -> Rb out out' ->
  vrel Rch (w_push_chunks o n i h out) (w_push_chunks o n i h' out').
Proof.
  intros o n. induction n as [|n IH]; intros i h h' out out' H Hout; cbn [w_push_chunks].
  - now apply vrel_yes.
  - eapply vrel_bind; [apply vrel_pair, slice_rel; exact Hout|]. intros u u' Hu.
    rewrite (Rck_off _ _ (Rch_chunk _ _ H)).
    eapply vrel_bind; [apply w_push_rel; [exact H|exact Hu]|]. intros g g' Hg. cbv zeta.
    apply IH; auto. rewrite (Rch_len _ _ Hg). apply Rch_intro; [|now apply Rch_stack].
    pose proof (Rch_chunk _ _ Hg) as Hc. revert Hc. generalize (c_chunk_of g), (c_chunk_of g').
    intros s s' Hc. copen s s' Hc.
    apply Rck_intro; auto. apply N.mod_lt. discriminate.
Qed.
Lemma w_chunks_rel : forall o e fuel h h' x y out out', Rch h h' -> Rb x y -> Rn 512 out out' ->
  vrel (Rp Rch Rb) (w_chunks_loop o e fuel h x out) (w_chunks_loop o e fuel h' y out').
Proof.
  intros o e fuel. induction fuel as [|fuel IH]; intros h h' x y out out' H Hx Hout; cbn [w_chunks_loop];
    rewrite (Rb_len _ _ Hx).
  - destruct (_ <=? _); [apply vrel_lift; exact I|apply vrel_yes; now split].
  - destruct (_ <=? _); [|apply vrel_yes; now split].
    destruct (gather_rel (N.to_nat C_MAX_SIMD_DEGREE) x y Hx) as (A & B & C & D).
    destruct (gather_chunks (N.to_nat C_MAX_SIMD_DEGREE) x) as [cs r],
      (gather_chunks (N.to_nat C_MAX_SIMD_DEGREE) y) as [cs' r'].
    cbn [fst snd] in *. cbv zeta. pose proof (Rch_chunk _ _ H) as Hc.
    rewrite (Rck_off _ _ Hc), (Rck_flags _ _ Hc).
    change (N.to_nat C_MAX_SIMD_DEGREE) with 16%nat in D.
    eapply vrel_bind.
    { apply w_many_rel; auto; [unfold len; lia|now apply Rck_key|eapply Rck_small; exact Hc]. }
    intros z z' Hz. rewrite <- (L2_length _ _ _ _ _ A).
    eapply vrel_bind; [apply w_push_chunks_rel; [exact H|eapply Rn_b; exact Hz]|]. intros g g' Hg.
    now apply IH.
Qed.
Lemma w_rest_rel : forall o e j j' h h' x y, Rch h h' -> Rb x y -> Rn 512 j j' ->
  vrel Rch (w_update_rest o e j h x) (w_update_rest o e j' h' y).
Proof.
  intros o e j j' h h' x y H Hx Hj. unfold w_update_rest.
  assert (E : length y = length x) by same_length Hx. rewrite E.
  eapply vrel_bind; [now apply w_chunks_rel|]. intros [g z] [g' z'] [Hg Hz]. cbn [fst snd] in *.
  rewrite (Rb_len _ _ Hz). destruct (0 <? len z); [|now apply vrel_yes].
  unfold w_merge_all. rewrite (Rch_len _ _ Hg), (Rck_off _ _ (Rch_chunk _ _ Hg)).
  eapply vrel_bind; [now apply w_merge_rel|]. intros k k' Hk.
  eapply vrel_bind; [apply w_chunk_update_rel; [apply Rch_chunk; exact Hk|exact Hz]|]. intros s s' Hs.
  apply vrel_yes. rewrite (Rch_len _ _ Hk). apply Rch_intro; auto. now apply Rch_stack.
Qed.
Lemma w_update_rel : forall o j j' h h' x y, Rch h h' -> Rb x y -> Rn 512 j j' ->
  vrel Rch (w_hasher_update o j h x) (w_hasher_update o j' h' y).
Proof.
  intros o j j' h h' x y H Hx Hj. unfold w_hasher_update. pose proof (Rch_chunk _ _ H) as Hc.
  rewrite (Rck_off _ _ Hc), (Rck_len _ _ Hc), (Rb_len _ _ Hx). cbv zeta.
  destruct (_ || _); [|now apply w_rest_rel].
  eapply vrel_bind; [apply vrel_lift, slice_rel; exact Hx|]. intros u u' Hu.
  eapply vrel_bind; [apply w_chunk_update_rel; [exact Hc|eapply Rn_b; exact Hu]|]. intros s s' Hs.
  rewrite !len_drop, (Rb_len _ _ Hx), (Rch_len _ _ H).
  destruct (0 <? _).
  - eapply vrel_bind; [now apply w_fin_rel|]. intros k k' Hk. rewrite (Rck_off _ _ Hs).
    eapply vrel_bind; [apply w_push_rel; [apply Rch_intro; [exact Hs|now apply Rch_stack]|exact Hk]|].
    intros g g' Hg. pose proof (Rch_chunk _ _ Hg) as Hgc. past.
    rewrite (Rck_off _ _ Hgc), (Rch_len _ _ Hg).
    apply w_rest_rel; auto; [|now apply Rb_drop].
    apply Rch_intro; [|now apply Rch_stack].
    unfold chunk_state_reset. rewrite (Rck_flags _ _ Hgc).
    apply Rck_intro; try (now apply Rck_key); [|apply Rn_zeros]. apply N.mod_lt. discriminate.
  - apply vrel_yes. apply Rch_intro; auto. now apply Rch_stack.
Qed.
Lemma w_up_rel : forall o fuel h h' w w' i, Rch h h' -> Rn 32 w w' ->
  vrel (Rn 32) (w_finalize_up o fuel h w i) (w_finalize_up o fuel h' w' i).
Proof.
  intros o fuel. induction fuel as [|fuel IH]; intros h h' w w' i H Hw; cbn [w_finalize_up]; cbv zeta;
    rewrite (Rck_flags _ _ (Rch_chunk _ _ H));
    (eapply vrel_bind; [apply vrel_pair, slice_rel, Rch_stack; exact H|]); intros u u' Hu;
    (eapply vrel_bind; [apply w_parent_rel; [exact (Rn_app 32 32 _ _ _ _ Hu Hw)|now apply Rck_key, Rch_chunk]|]);
    intros x x' Hx; (destruct (i =? 0); [now apply vrel_yes|]).
  - apply vrel_lift. exact I.
  - now apply IH.
Qed.
Lemma w_hasher_finalize_rel : forall o h h', Rch h h' ->
  vrel (Rn 32) (w_hasher_finalize o h) (w_hasher_finalize o h').
Proof.
  intros o h h' H. unfold w_hasher_finalize. pose proof (Rch_chunk _ _ H) as Hc.
  rewrite (Rch_len _ _ H). destruct (_ =? 0); [now apply w_fin_rel|].
  eapply vrel_bind with (R := Rp (Rn 32) eq).
  - rewrite (Rck_len _ _ Hc). destruct (0 <? _).
    + eapply vrel_bind; [now apply w_fin_rel|]. intros w w' Hw. apply vrel_yes. now split.
    + cbv zeta. eapply vrel_bind; [apply vrel_pair, slice_rel, Rch_stack; exact H|]. intros w w' Hw.
      apply vrel_yes. now split.
  - intros [w i] [w' i'] [Hw E]. cbn [fst snd] in *. subst i'. now apply w_up_rel.
Qed.
Lemma w_step_rel : forall o w w' x y, L2 Rch w w' -> c_call_ok x -> c_call_ok y -> same_c_call x y ->
  vrel (Rp (L2 Rch) (L2 (Rn 32))) (w_step o w x) (w_step o w' y).
Proof.
  intros o w w' x y Hw Ox Oy Hs.
  destruct x, y; cbn [same_c_call] in Hs; try contradiction; cbn [c_call_ok] in Ox, Oy; cbn [w_step];
    try match type of Hs with _ /\ _ => destruct Hs as [Hs1 Hs2] end; subst;
    try (eapply vrel_bind; [apply vrel_lift, L2_nth_error; exact Hw|intros h h' Hh]).
  - apply vrel_yes. split; cbn [fst snd]; [|constructor]. apply L2_snoc; [exact Hw|].
    apply init_Rch; try tauto. split; tauto.
  - apply vrel_yes. split; cbn [fst snd]; [|constructor]. apply L2_replace; [exact Hw|].
    apply init_Rch; try tauto. now apply Rch_stack.
  - apply vrel_yes. split; cbn [fst snd]; [|constructor]. now apply L2_snoc.
  - eapply vrel_bind; [apply vrel_lift, L2_nth_error; exact Hw|]. intros g g' Hg.
    apply vrel_yes. split; cbn [fst snd]; [|constructor]. now apply L2_replace.
  - eapply vrel_bind; [apply w_update_rel; [exact Hh|split; tauto|]|].
    { unfold Rn. change (16 * 32) with 512 in *. tauto. }
    intros g g' Hg. apply vrel_yes. split; cbn [fst snd]; [|constructor]. now apply L2_replace.
  - eapply vrel_bind; [now apply w_hasher_finalize_rel|]. intros g g' Hg.
    apply vrel_yes. split; cbn [fst snd]; [exact Hw|]. constructor; [exact Hg|constructor].
Qed.
Lemma w_run_rel : forall o xs ys, L2 same_c_call xs ys -> Forall c_call_ok xs -> Forall c_call_ok ys ->
  forall w w', L2 Rch w w' -> vrel (Rp (L2 Rch) (L2 (Rn 32))) (w_run o w xs) (w_run o w' ys).
Proof.
  intros o xs ys H. induction H as [|x y xs ys Hxy H IH]; intros Fx Fy w w' Hw; cbn [w_run].
  - apply vrel_yes. split; [exact Hw|constructor].
  - inversion_clear Fx. inversion_clear Fy.
    eapply vrel_bind; [now apply w_step_rel|]. intros [w1 s1] [w2 s2] [Hw1 Hs1]. cbn [fst snd] in *.
    eapply vrel_bind; [now apply IH|]. intros [w3 s3] [w4 s4] [Hw3 Hs3]. cbn [fst snd] in *.
    apply vrel_yes. split; [exact Hw3|]. now apply Forall2_app.
Qed.
Lemma w_run_seen : forall o xs ys, Forall2 same_c_call xs ys ->
  Forall c_call_ok xs -> Forall c_call_ok ys ->
  steps_seen (w_run o [] xs) = steps_seen (w_run o [] ys).
Proof. intros. eapply vrel_seen, w_run_rel; auto. Qed.
