(* Two runs of the C hasher on inputs of the same lengths make the same calls up to the data.
   As in SecretFacts.v, the two runs are related step by step. *)
From Coq Require Import NArith List Bool Lia ZArith.
From Coq Require Import ZifyBool ZifyNat ZifyN.
From Verif Require Import Base BaseFacts Spec CompressFacts ManyFacts ManySpec WrapSpec SecretSpec.
From Verif Require Import CSimd CSimdFacts CImpl CImplFacts CSpec CImplProps LibCalls CCalls SecretFacts.
Import ListNotations.
Open Scope N_scope.

Ltac same := eapply rel_bind; [apply rel_lift, relr_refl|intros ? ? <-].
Ltac same_length H := pose proof (Rb_len _ _ H); unfold len in *; lia.

(* ---- compressions ---- *)

Lemma c_compress_Rk : forall o a b x y bl off fl, Rk a b -> Rn 64 x y -> small off ->
  Rk (c_compress o a x bl off fl) (c_compress o b y bl off fl).
Proof.
  intros o a b x y bl off fl [[La Wa] [Lb Wb]] (Lx & Ly & Bx & By) Ho.
  rewrite !c_compress_ok by (auto; unfold len in *; lia).
  split; apply blake_shape8; auto.
Qed.

Lemma public_eq : forall a b x y bl off fl, Rk a b -> Rn 64 x y ->
  public (Nd a x bl off fl) = public (Nd b y bl off fl).
Proof.
  intros a b x y bl off fl [[La _] [Lb _]] (Lx & Ly & _). unfold public.
  cbn [nd_cv nd_block nd_blen nd_off nd_flags]. unfold len at 1 3. now rewrite La, Lb, Lx, Ly.
Qed.

Lemma n_compress_rel : forall o a b x y bl off fl, Rk a b -> Rn 64 x y -> small off ->
  rel Rk (n_compress o a x bl off fl) (n_compress o b y bl off fl).
Proof.
  intros o a b x y bl off fl Hk Hn Ho. unfold n_compress. eapply rel_bind.
  - apply rel_note. cbn [map]. f_equal. now apply public_eq.
  - intros _ _ _. apply rel_ok. now apply c_compress_Rk.
Qed.

Lemma write_state_Rn : forall a b, Rk a b -> Rn 32 (write_state_bytes a) (write_state_bytes b).
Proof.
  intros a b [[La Wa] [Lb Wb]]. rewrite !write_state_bytes_ok by auto. unfold Rn.
  rewrite !len_bytes_of_words. unfold len. rewrite La, Lb. auto using bytes_of_words_bytes.
Qed.

(* ---- hash_many ---- *)

Lemma c_hash1_public : forall o fuel a b x y off bf fl fe, Rk a b -> Rb x y -> small off ->
  map public (hash1_calls (c_compress o) fuel a x off bf fl fe)
  = map public (hash1_calls (c_compress o) fuel b y off bf fl fe).
Proof.
  intros o fuel. induction fuel as [|fuel IH]; intros a b x y off bf fl fe Hk Hb Ho; cbn [hash1_calls];
    rewrite (Rb_len _ _ Hb); destruct (N.leb_spec Portable.BLOCK_LEN (len x)) as [H|H]; try reflexivity.
  pose proof (Rn_take Portable.BLOCK_LEN _ _ Hb H) as Hn.
  cbn [map]. f_equal.
  - now apply public_eq.
  - apply IH; [now apply c_compress_Rk|now apply Rb_drop|exact Ho].
Qed.
Lemma c_many_public : forall o xs ys blocks a b off d fl fs fe, L2 Rb xs ys -> Rk a b -> small off ->
  map public (c_many_calls o xs blocks a off d fl fs fe) = map public (c_many_calls o ys blocks b off d fl fs fe).
Proof.
  intros o xs ys blocks a b off d fl fs fe H Hk. revert off.
  induction H as [|x y xs ys Hx H IH]; intros off Ho; [reflexivity|].
  cbn [c_many_calls]. rewrite !map_app. f_equal.
  - apply c_hash1_public; auto. now apply Rb_take.
  - apply IH. apply N.mod_lt. discriminate.
Qed.

Lemma L2_readable : forall n xs ys, L2 Rb xs ys -> Forall (readable n) xs -> Forall (readable n) ys.
Proof.
  intros n xs ys H. induction H as [|x y xs ys Hx H IH]; intros R; constructor.
  - destruct (Forall_inv R) as [L _]. split; [rewrite (Rb_len _ _ Hx); exact L|apply Hx].
  - apply IH. exact (Forall_inv_tail R).
Qed.

Lemma many_result_Rn : forall n xs ys blocks a b off d fl fs fe out out',
  L2 Rb xs ys -> Rk a b -> Rn n out out' -> 32 * len xs <= n ->
  Rn n (many_result xs blocks a off d fl fs fe out) (many_result ys blocks b off d fl fs fe out').
Proof.
  intros n xs ys blocks a b off d fl fs fe out out' H [[La Wa] [Lb Wb]] (L & L' & B & B') Hl.
  unfold many_result. rewrite (L2_len _ _ _ _ _ H).
  pose proof (wrapped_concat 0 d fl fs fe eq_refl a La Wa (map (take (64 * blocks)) xs) off) as [A1 A2].
  pose proof (wrapped_concat 0 d fl fs fe eq_refl b Lb Wb (map (take (64 * blocks)) ys) off) as [A3 A4].
  assert (M : forall zs : list (list N), len (map (take (64 * blocks)) zs) = len zs)
    by (intros; unfold len; now rewrite map_length).
  rewrite M in A1, A3. rewrite (L2_len _ _ _ _ _ H) in A3.
  unfold Rn. rewrite !len_app, !len_drop, A1, A3, L, L', !bytes_app.
  repeat split; auto using bytes_drop; lia.
Qed.

Lemma n_hash_many_rel : forall o xs ys a b off fl out out',
  L2 Rb xs ys -> Forall (readable 2048) xs -> len xs <= 16 -> Rk a b -> small off -> Rn 512 out out' ->
  rel (Rn 512) (n_hash_many o xs (C_CHUNK_LEN / C_BLOCK_LEN) a off CHUNK_OFFSET_DELTAS fl C_CHUNK_START C_CHUNK_END out)
         (n_hash_many o ys (C_CHUNK_LEN / C_BLOCK_LEN) b off CHUNK_OFFSET_DELTAS fl C_CHUNK_START C_CHUNK_END out').
Proof.
  intros o xs ys a b off fl out out' H R L Hk Ho Hout. unfold n_hash_many.
  change (C_CHUNK_LEN / C_BLOCK_LEN) with 32. eapply rel_bind.
  - apply rel_note. now apply c_many_public.
  - intros _ _ _. apply rel_lift.
    pose proof Hk as [[La Wa] [Lb Wb]]. destruct (Rn_len _ _ _ Hout) as [L1 L2'].
    rewrite (c_hash_many_ok o 32 a 2048 fl _ _ CHUNK_OFFSET_DELTAS La Wa eq_refl);
      [|exact R|lia|exact Ho].
    rewrite (c_hash_many_ok o 32 b 2048 fl _ _ CHUNK_OFFSET_DELTAS Lb Wb eq_refl);
      [|eapply L2_readable; eauto|rewrite (L2_len _ _ _ _ _ H); lia|exact Ho].
    cbn [relr]. apply many_result_Rn; auto. lia.
Qed.

(* ---- the chunk state ---- *)

Definition Rck (s s' : c_chunk) : Prop :=
  Rk (k_state s) (k_state s') /\ Rk (k_key s) (k_key s') /\ Req (k_offset s) (k_offset s') /\
  k_count s = k_count s' /\ Rn 64 (k_buf s) (k_buf s') /\ k_buf_len s = k_buf_len s' /\
  k_flags s = k_flags s'.

Lemma Rck_intro : forall a b k k' off n x y bl fl, Rk a b -> Rk k k' -> small off -> Rn 64 x y ->
  Rck (CChunk a k off n x bl fl) (CChunk b k' off n y bl fl).
Proof. intros. unfold Rck, Req. cbn. auto 10. Qed.

Ltac open s s' H :=
  destruct s as [?st ?key ?off ?cnt ?buf ?bl ?fl], s' as [?st ?key ?off ?cnt ?buf ?bl ?fl];
  destruct H as (?Hst & ?Hkey & [?Hoff ?Hsm] & ?Hcnt & ?Hbuf & ?Hbl & ?Hfl);
  cbn [k_state k_key k_offset k_count k_buf k_buf_len k_flags] in *; subst.

Lemma Rck_buf : forall s s', Rck s s' -> Rn 64 (k_buf s) (k_buf s').
Proof. unfold Rck. tauto. Qed.
Lemma Rck_buf_len : forall s s', Rck s s' -> k_buf_len s' = k_buf_len s.
Proof. unfold Rck. intuition congruence. Qed.
Lemma Rck_len : forall s s', Rck s s' -> chunk_state_len s' = chunk_state_len s.
Proof. unfold Rck, chunk_state_len. intuition congruence. Qed.
Lemma Rck_off : forall s s', Rck s s' -> k_offset s' = k_offset s.
Proof. unfold Rck, Req. intuition congruence. Qed.
Lemma Rck_flags : forall s s', Rck s s' -> k_flags s' = k_flags s.
Proof. unfold Rck. intuition congruence. Qed.
Lemma Rck_key : forall s s', Rck s s' -> Rk (k_key s) (k_key s').
Proof. unfold Rck. tauto. Qed.
Lemma Rck_small : forall s s', Rck s s' -> small (k_offset s).
Proof. unfold Rck, Req. tauto. Qed.

Lemma c_fill_rel : forall o s s' x y, Rck s s' -> Rb x y ->
  relr (Rp Rck Rb) (chunk_state_fill_buf o s x) (chunk_state_fill_buf o s' y).
Proof.
  intros o s s' x y H Hx. open s s' H. unfold chunk_state_fill_buf.
  cbn [k_state k_key k_offset k_count k_buf k_buf_len k_flags]. rewrite (Rb_len _ _ Hx).
  eapply relr_bind; [apply slice_rel; exact Hx|]. intros u u' Hu.
  eapply relr_bind; [eapply copy_at_rel; [exact Hbuf|eapply Rn_b; exact Hu]|]. intros v v' Hv.
  split; cbn [fst snd]; [now apply Rck_intro|now apply Rb_drop].
Qed.

Lemma n_block_rel : forall o s s' x y, Rck s s' -> Rn 64 x y ->
  rel Rck (n_chunk_state_block o s x) (n_chunk_state_block o s' y).
Proof.
  intros o s s' x y H Hx. open s s' H. unfold n_chunk_state_block, chunk_state_maybe_start_flag.
  cbn [k_state k_key k_offset k_count k_buf k_buf_len k_flags].
  eapply rel_bind; [now apply n_compress_rel|]. intros k k' Hk. apply rel_ok. now apply Rck_intro.
Qed.

Lemma n_loop_rel : forall o fuel s s' x y, Rck s s' -> Rb x y ->
  rel (Rp Rck Rb) (n_chunk_state_loop o fuel s x) (n_chunk_state_loop o fuel s' y).
Proof.
  intros o fuel. induction fuel as [|fuel IH]; intros s s' x y H Hx; cbn [n_chunk_state_loop];
    rewrite (Rb_len _ _ Hx).
  - destruct (_ <? _); [apply rel_lift; exact I|]. apply rel_ok. now split.
  - destruct (_ <? _); [|apply rel_ok; now split].
    eapply rel_bind; [apply rel_lift, slice_rel; exact Hx|]. intros u u' Hu.
    eapply rel_bind; [apply n_block_rel; [exact H|exact Hu]|]. intros t t' Ht.
    apply IH; auto. now apply Rb_drop.
Qed.

Lemma n_chunk_update_rel : forall o s s' x y, Rck s s' -> Rb x y ->
  rel Rck (n_chunk_state_update o s x) (n_chunk_state_update o s' y).
Proof.
  intros o s s' x y H Hx. unfold n_chunk_state_update.
  eapply rel_bind with (R := Rp Rck Rb).
  - rewrite (Rck_buf_len _ _ H). destruct (0 <? k_buf_len s); [|apply rel_ok; now split].
    eapply rel_bind; [apply rel_lift, c_fill_rel; eauto|]. intros [t z] [t' z'] [Ht Hz]. cbn [fst snd] in *.
    rewrite (Rb_len _ _ Hz). destruct (0 <? len z); [|apply rel_ok; now split].
    eapply rel_bind; [apply n_block_rel; [exact Ht|now apply Rck_buf]|]. intros w w' Hw.
    apply rel_ok. split; cbn [fst snd]; [|exact Hz].
    open w w' Hw. cbn [k_state k_key k_offset k_count k_buf k_buf_len k_flags].
    apply Rck_intro; auto using Rn_zeros.
  - intros [t z] [t' z'] [Ht Hz]. cbn [fst snd] in *.
    assert (E : length z' = length z) by same_length Hz. rewrite E.
    eapply rel_bind; [now apply n_loop_rel|]. intros [u v] [u' v'] [Hu Hv]. cbn [fst snd] in *.
    eapply rel_bind; [apply rel_lift, c_fill_rel; eauto|]. intros [q w] [q' w'] [Hq Hw]. cbn [fst snd] in *.
    now apply rel_ok.
Qed.

Lemma n_finalize_rel : forall o s s' r, Rck s s' ->
  rel (Rn 32) (n_chunk_state_finalize o s r) (n_chunk_state_finalize o s' r).
Proof.
  intros o s s' r H. open s s' H. unfold n_chunk_state_finalize, chunk_state_maybe_start_flag.
  cbn [k_state k_key k_offset k_count k_buf k_buf_len k_flags].
  eapply rel_bind; [now apply n_compress_rel|]. intros k k' Hk. apply rel_ok. now apply write_state_Rn.
Qed.

Lemma n_parent_rel : forall o x y a b r fl, Rn 64 x y -> Rk a b ->
  rel (Rn 32) (n_hash_one_parent o x a r fl) (n_hash_one_parent o y b r fl).
Proof.
  intros o x y a b r fl Hx Hk. unfold n_hash_one_parent.
  eapply rel_bind; [apply n_compress_rel; auto; reflexivity|]. intros k k' Hk'.
  apply rel_ok. now apply write_state_Rn.
Qed.

(* ---- the hasher ---- *)

Definition Rch (h h' : c_hasher) : Prop :=
  Rck (c_chunk_of h) (c_chunk_of h') /\ c_stack_len h = c_stack_len h' /\ Rb (c_stack h) (c_stack h').

Lemma Rch_intro : forall s s' n x y, Rck s s' -> Rb x y -> Rch (CHasher s n x) (CHasher s' n y).
Proof. intros. split; [auto|split; [reflexivity|auto]]. Qed.
Lemma Rch_len : forall h h', Rch h h' -> c_stack_len h' = c_stack_len h.
Proof. intros h h' (_ & E & _). auto. Qed.
Lemma Rch_chunk : forall h h', Rch h h' -> Rck (c_chunk_of h) (c_chunk_of h').
Proof. intros h h' (H & _). exact H. Qed.
Lemma Rch_stack : forall h h', Rch h h' -> Rb (c_stack h) (c_stack h').
Proof. intros h h' (_ & _ & H). exact H. Qed.

Lemma Rb_copy : forall a b off x y, Rb a b -> Rb x y -> relr Rb (copy_at a off x) (copy_at b off y).
Proof.
  intros a b off x y H Hx. eapply relr_impl; [eapply copy_at_rel; [now apply Rb_n|exact Hx]|].
  intros; eapply Rn_b; eauto.
Qed.

Lemma n_merge_parent_rel : forall o h h', Rch h h' -> rel Rch (n_merge_parent o h) (n_merge_parent o h').
Proof.
  intros o h h' H. unfold n_merge_parent. rewrite (Rch_len _ _ H).
  eapply rel_bind; [apply rel_lift, slice_rel, Rch_stack; exact H|]. intros u u' Hu.
  rewrite (Rck_flags _ _ (Rch_chunk _ _ H)).
  eapply rel_bind; [apply n_parent_rel; [exact Hu|now apply Rck_key, Rch_chunk]|]. intros x x' Hx.
  eapply rel_bind; [apply rel_lift, Rb_copy; [apply Rch_stack; exact H|eapply Rn_b; exact Hx]|]. intros z z' Hz.
  apply rel_ok. apply Rch_intro; auto. now apply Rch_chunk.
Qed.

Lemma n_merge_rel : forall o fuel h h' off, Rch h h' ->
  rel Rch (n_merge_loop o fuel h off) (n_merge_loop o fuel h' off).
Proof.
  intros o fuel. induction fuel as [|fuel IH]; intros h h' off H; cbn [n_merge_loop];
    unfold hasher_needs_merge; rewrite (Rch_len _ _ H); same.
  - match goal with |- context [if ?b then _ else _] => destruct b end; [apply rel_lift; exact I|now apply rel_ok].
  - match goal with |- context [if ?b then _ else _] => destruct b end; [|now apply rel_ok].
    eapply rel_bind; [now apply n_merge_parent_rel|]. intros; now apply IH.
Qed.

Lemma n_push_rel : forall o h h' x y off, Rch h h' -> Rn 32 x y ->
  rel Rch (n_push_chunk_hash o h x off) (n_push_chunk_hash o h' y off).
Proof.
  intros o h h' x y off H Hx. unfold n_push_chunk_hash, n_merge_all. rewrite (Rch_len _ _ H). same.
  eapply rel_bind; [now apply n_merge_rel|]. intros g g' Hg. rewrite (Rch_len _ _ Hg).
  eapply rel_bind; [apply rel_lift, Rb_copy; [apply Rch_stack; exact Hg|eapply Rn_b; exact Hx]|]. intros z z' Hz.
  apply rel_ok. apply Rch_intro; auto. now apply Rch_chunk.
Qed.

Lemma n_push_chunks_rel : forall o n i h h' out out', Rch h h' -> Rb out out' ->
  rel Rch (n_push_chunks o n i h out) (n_push_chunks o n i h' out').
Proof.
  intros o n. induction n as [|n IH]; intros i h h' out out' H Hout; cbn [n_push_chunks].
  - now apply rel_ok.
  - eapply rel_bind; [apply rel_lift, slice_rel; exact Hout|]. intros u u' Hu.
    rewrite (Rck_off _ _ (Rch_chunk _ _ H)).
    eapply rel_bind; [apply n_push_rel; [exact H|exact Hu]|]. intros g g' Hg. cbv zeta.
    apply IH; auto. rewrite (Rch_len _ _ Hg). apply Rch_intro; [|now apply Rch_stack].
    pose proof (Rch_chunk _ _ Hg) as Hc. revert Hc. generalize (c_chunk_of g), (c_chunk_of g').
    intros s s' Hc. open s s' Hc.
    apply Rck_intro; auto. apply N.mod_lt. discriminate.
Qed.

Lemma gather_rel : forall room x y, Rb x y ->
  L2 Rb (fst (gather_chunks room x)) (fst (gather_chunks room y)) /\
  Rb (snd (gather_chunks room x)) (snd (gather_chunks room y)) /\
  Forall (readable 2048) (fst (gather_chunks room x)) /\
  (length (fst (gather_chunks room x)) <= room)%nat.
Proof.
  induction room as [|room IH]; intros x y H; cbn [gather_chunks]; rewrite (Rb_len _ _ H);
    change C_CHUNK_LEN with 2048; destruct (N.leb_spec 2048 (len x)) as [G|G]; cbn [fst snd];
    try (split; [constructor|split; [exact H|split; [constructor|cbn; lia]]]).
  specialize (IH (drop 2048 x) (drop 2048 y) (Rb_drop _ _ _ H)).
  destruct (gather_chunks room (drop 2048 x)) as [cs r], (gather_chunks room (drop 2048 y)) as [cs' r'].
  cbn [fst snd] in *. destruct IH as (A & B & C & D). split; [constructor; auto|]. split; [exact B|].
  split; [constructor; auto; split; [exact G|apply H]|cbn; lia].
Qed.

Lemma n_chunks_rel : forall o fuel h h' x y out out', Rch h h' -> Rb x y -> Rn 512 out out' ->
  rel (Rp Rch Rb) (n_chunks_loop o fuel h x out) (n_chunks_loop o fuel h' y out').
Proof.
  intros o fuel. induction fuel as [|fuel IH]; intros h h' x y out out' H Hx Hout; cbn [n_chunks_loop];
    rewrite (Rb_len _ _ Hx); destruct (_ <=? _); try (apply rel_ok; now split).
  - apply rel_lift. exact I.
  - destruct (gather_rel (N.to_nat C_MAX_SIMD_DEGREE) x y Hx) as (A & B & C & D).
    destruct (gather_chunks (N.to_nat C_MAX_SIMD_DEGREE) x) as [cs r],
      (gather_chunks (N.to_nat C_MAX_SIMD_DEGREE) y) as [cs' r'].
    cbn [fst snd] in *. cbv zeta. pose proof (Rch_chunk _ _ H) as Hc.
    rewrite (Rck_off _ _ Hc), (Rck_flags _ _ Hc).
    change (N.to_nat C_MAX_SIMD_DEGREE) with 16%nat in D.
    eapply rel_bind.
    { apply n_hash_many_rel; auto; [unfold len; lia|now apply Rck_key|eapply Rck_small; exact Hc]. }
    intros z z' Hz. rewrite <- (L2_length _ _ _ _ _ A).
    eapply rel_bind; [apply n_push_chunks_rel; [exact H|eapply Rn_b; exact Hz]|]. intros g g' Hg.
    now apply IH.
Qed.

Lemma n_rest_rel : forall o j j' h h' x y, Rch h h' -> Rb x y -> Rn 512 j j' ->
  rel Rch (n_update_rest o j h x) (n_update_rest o j' h' y).
Proof.
  intros o j j' h h' x y H Hx Hj. unfold n_update_rest.
  assert (E : length y = length x) by same_length Hx. rewrite E.
  eapply rel_bind; [now apply n_chunks_rel|]. intros [g z] [g' z'] [Hg Hz]. cbn [fst snd] in *.
  rewrite (Rb_len _ _ Hz). destruct (0 <? len z); [|now apply rel_ok].
  unfold n_merge_all. rewrite (Rch_len _ _ Hg), (Rck_off _ _ (Rch_chunk _ _ Hg)).
  eapply rel_bind; [now apply n_merge_rel|]. intros k k' Hk.
  eapply rel_bind; [apply n_chunk_update_rel; [apply Rch_chunk; exact Hk|exact Hz]|]. intros s s' Hs.
  apply rel_ok. rewrite (Rch_len _ _ Hk). apply Rch_intro; auto. now apply Rch_stack.
Qed.

Lemma n_update_rel : forall o j j' h h' x y, Rch h h' -> Rb x y -> Rn 512 j j' ->
  rel Rch (n_hasher_update o j h x) (n_hasher_update o j' h' y).
Proof.
  intros o j j' h h' x y H Hx Hj. unfold n_hasher_update. pose proof (Rch_chunk _ _ H) as Hc.
  rewrite (Rck_off _ _ Hc), (Rck_len _ _ Hc), (Rb_len _ _ Hx). cbv zeta.
  destruct (_ || _); [|now apply n_rest_rel].
  eapply rel_bind; [apply rel_lift, slice_rel; exact Hx|]. intros u u' Hu.
  eapply rel_bind; [apply n_chunk_update_rel; [exact Hc|eapply Rn_b; exact Hu]|]. intros s s' Hs.
  rewrite !len_drop, (Rb_len _ _ Hx), (Rch_len _ _ H).
  destruct (0 <? _).
  - eapply rel_bind; [now apply n_finalize_rel|]. intros k k' Hk. rewrite (Rck_off _ _ Hs).
    eapply rel_bind; [apply n_push_rel; [apply Rch_intro; [exact Hs|now apply Rch_stack]|exact Hk]|].
    intros g g' Hg. pose proof (Rch_chunk _ _ Hg) as Hgc.
    rewrite (Rck_off _ _ Hgc), (Rch_len _ _ Hg).
    apply n_rest_rel; auto; [|now apply Rb_drop].
    apply Rch_intro; [|now apply Rch_stack].
    unfold chunk_state_reset. rewrite (Rck_flags _ _ Hgc).
    apply Rck_intro; try (now apply Rck_key); [|apply Rn_zeros]. apply N.mod_lt. discriminate.
  - apply rel_ok. apply Rch_intro; auto. now apply Rch_stack.
Qed.

Lemma n_up_rel : forall o fuel h h' w w' i, Rch h h' -> Rn 32 w w' ->
  rel (Rn 32) (n_finalize_up o fuel h w i) (n_finalize_up o fuel h' w' i).
Proof.
  intros o fuel. induction fuel as [|fuel IH]; intros h h' w w' i H Hw; cbn [n_finalize_up]; cbv zeta;
    rewrite (Rck_flags _ _ (Rch_chunk _ _ H));
    (eapply rel_bind; [apply rel_lift, slice_rel, Rch_stack; exact H|]); intros u u' Hu;
    (eapply rel_bind; [apply n_parent_rel; [exact (Rn_app 32 32 _ _ _ _ Hu Hw)|now apply Rck_key, Rch_chunk]|]);
    intros x x' Hx; destruct (i =? 0); try (now apply rel_ok).
  - apply rel_lift. exact I.
  - now apply IH.
Qed.

Lemma n_hasher_finalize_rel : forall o h h', Rch h h' ->
  rel (Rn 32) (n_hasher_finalize o h) (n_hasher_finalize o h').
Proof.
  intros o h h' H. unfold n_hasher_finalize. pose proof (Rch_chunk _ _ H) as Hc.
  rewrite (Rch_len _ _ H). destruct (_ =? 0); [now apply n_finalize_rel|].
  eapply rel_bind with (R := Rp (Rn 32) eq).
  - rewrite (Rck_len _ _ Hc). destruct (0 <? _).
    + eapply rel_bind; [now apply n_finalize_rel|]. intros w w' Hw. apply rel_ok. now split.
    + cbv zeta. eapply rel_bind; [apply rel_lift, slice_rel, Rch_stack; exact H|]. intros w w' Hw.
      apply rel_ok. now split.
  - intros [w i] [w' i'] [Hw E]. cbn [fst snd] in *. subst i'. now apply n_up_rel.
Qed.

Lemma n_updates_rel : forall o us us' h h',
  L2 (fun u u' => Rb (fst u) (fst u') /\ Rn 512 (snd u) (snd u')) us us' -> Rch h h' ->
  rel Rch (n_updates o h us) (n_updates o h' us').
Proof.
  intros o us us' h h' H. revert h h'. induction H as [|[x j] [y j'] us us' [Hx Hj] H IH]; intros h h' Hh;
    cbn [n_updates].
  - now apply rel_ok.
  - eapply rel_bind; [now apply n_update_rel|]. intros; now apply IH.
Qed.

Lemma updates_L2 : forall us us', map (fun u => len (fst u)) us = map (fun u => len (fst u)) us' ->
  c_updates_ok us -> c_updates_ok us' ->
  Forall (fun u => bytes (snd u)) us -> Forall (fun u => bytes (snd u)) us' ->
  L2 (fun u u' => Rb (fst u) (fst u') /\ Rn 512 (snd u) (snd u')) us us'.
Proof.
  induction us as [|u us IH]; intros [|u' us'] E U U' B B'; try discriminate E; constructor.
  - destruct (Forall_inv U) as [X1 X2], (Forall_inv U') as [Y1 Y2].
    pose proof (Forall_inv B). pose proof (Forall_inv B'). injection E as E1 _.
    split; [split; auto|]. unfold Rn. auto.
  - injection E as _ E. apply IH; auto; eapply Forall_inv_tail; eassumption.
Qed.

Lemma c_observed : forall o memory memory' key key' flags us us',
  length key = 32%nat -> bytes key -> length key' = 32%nat -> bytes key' ->
  len memory = len memory' -> bytes memory -> bytes memory' ->
  c_updates_ok us -> c_updates_ok us' ->
  Forall (fun u => bytes (snd u)) us -> Forall (fun u => bytes (snd u)) us' ->
  map (fun u => len (fst u)) us = map (fun u => len (fst u)) us' ->
  observed (n_hash o memory key flags us []) = observed (n_hash o memory' key' flags us' []).
Proof.
  intros o memory memory' key key' flags us us' Lk Bk Lk' Bk' Lm Bm Bm' U U' J J' E.
  eapply rel_observed. unfold n_hash.
  eapply rel_bind.
  - apply n_updates_rel; [now apply updates_L2|]. unfold hasher_init.
    destruct (key_words key Lk Bk) as (E1 & L1 & W1). destruct (key_words key' Lk' Bk') as (E2 & L2' & W2).
    rewrite E1, E2. apply Rch_intro; [|split; auto].
    apply Rck_intro; [split; auto|split; auto|reflexivity|apply Rn_zeros].
  - intros h h' Hh. now apply n_hasher_finalize_rel.
Qed.
