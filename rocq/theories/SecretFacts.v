(* Two runs on inputs of the same lengths, in the same mode, make the same calls up to the
   data: a proof by relating the two runs step by step. *)
From Coq Require Import NArith List Bool Lia ZArith.
From Coq Require Import ZifyBool ZifyNat ZifyN.
From Verif Require Import Base BaseFacts Spec TreeFacts CompressFacts SimdFacts ManySpec ManyFacts SpecFacts.
From Verif Require Import Portable Simd SimdGen SimdHash Platform Lib Session ApiFacts LibCalls.
From Verif Require Import WrapSpec WrapFacts SecretSpec.
From Verif Require Sse41 Avx2.
Import ListNotations.
Open Scope N_scope.

(* ---- related values ---- *)

Definition Rb (a b : list N) : Prop := len a = len b /\ bytes a /\ bytes b.
Definition Rn (n : N) (a b : list N) : Prop := len a = n /\ len b = n /\ bytes a /\ bytes b.
Definition Rk (a b : list N) : Prop :=
  (length a = 8%nat /\ words a) /\ (length b = 8%nat /\ words b).
Definition Rp {A A' B B' : Type} (R : A -> A' -> Prop) (Q : B -> B' -> Prop) (x : A * B) (y : A' * B') : Prop :=
  R (fst x) (fst y) /\ Q (snd x) (snd y).
Definition small (n : N) : Prop := n < W64.
Definition Req (a b : N) : Prop := a = b /\ small a.

Lemma Rn_b : forall n a b, Rn n a b -> Rb a b.
Proof. unfold Rn, Rb. intuition congruence. Qed.
Lemma Rb_n : forall a b, Rb a b -> Rn (len a) a b.
Proof. unfold Rn, Rb. intuition congruence. Qed.
Lemma Rb_len : forall a b, Rb a b -> len b = len a.
Proof. unfold Rb. intuition congruence. Qed.
Lemma Rn_len : forall n a b, Rn n a b -> len a = n /\ len b = n.
Proof. unfold Rn. tauto. Qed.
Lemma Rb_app : forall a b x y, Rb a b -> Rb x y -> Rb (a ++ x) (b ++ y).
Proof. unfold Rb. intros a b x y (L & A & B) (M & X & Y). rewrite !len_app, !bytes_app. intuition lia. Qed.
Lemma Rn_app : forall n m a b x y, Rn n a b -> Rn m x y -> Rn (n + m) (a ++ x) (b ++ y).
Proof. unfold Rn. intros. rewrite !len_app, !bytes_app. intuition lia. Qed.
Lemma Rb_take : forall n a b, Rb a b -> Rb (take n a) (take n b).
Proof. unfold Rb. intros n a b (L & A & B). rewrite !len_take, L. auto using bytes_take. Qed.
Lemma Rb_drop : forall n a b, Rb a b -> Rb (drop n a) (drop n b).
Proof. unfold Rb. intros n a b (L & A & B). rewrite !len_drop, L. auto using bytes_drop. Qed.
Lemma Rn_take : forall n a b, Rb a b -> n <= len a -> Rn n (take n a) (take n b).
Proof. unfold Rb, Rn. intros n a b (L & A & B) H. rewrite !len_take. repeat split; auto using bytes_take; lia. Qed.
Lemma Rn_zeros : forall n, Rn n (zeros n) (zeros n).
Proof. intros n. unfold Rn. rewrite len_zeros. auto using bytes_zeros. Qed.
Lemma Rb_zeros : forall n, Rb (zeros n) (zeros n).
Proof. intros n. eapply Rn_b, Rn_zeros. Qed.

Lemma compress_Rk : forall p a b x y bl off fl, Rk a b -> Rn 64 x y -> small off ->
  Rk (compress p a x bl off fl) (compress p b y bl off fl).
Proof.
  intros p a b x y bl off fl [[La Wa] [Lb Wb]] (Lx & Ly & Bx & By) Ho.
  rewrite !compress_ok by (auto; unfold len in *; lia).
  split; apply blake_shape8; auto.
Qed.
Lemma compress_xof_Rb : forall p a b x y bl off fl, Rk a b -> Rn 64 x y -> small off ->
  Rb (compress_xof p a x bl off fl) (compress_xof p b y bl off fl).
Proof.
  intros p a b x y bl off fl [[La Wa] [Lb Wb]] (Lx & Ly & Bx & By) Ho.
  rewrite !compress_xof_ok by (auto; unfold len in *; lia).
  split; [|split; apply bytes_of_words_bytes].
  rewrite !len_bytes_of_words. f_equal. unfold len. f_equal.
  now rewrite (proj1 (blake_shape a x bl off fl La Wa)), (proj1 (blake_shape b y bl off fl Lb Wb)).
Qed.
Lemma state_words_Rn : forall a b, Rk a b -> Rn 32 (bytes_from_state_words a) (bytes_from_state_words b).
Proof.
  intros a b [[La _] [Lb _]]. unfold Rn, bytes_from_state_words.
  rewrite !len_bytes_of_words. unfold len. rewrite La, Lb. auto using bytes_of_words_bytes.
Qed.

(* ---- related results ---- *)

Definition relr {A A' : Type} (R : A -> A' -> Prop) (r : res A) (r' : res A') : Prop :=
  match r, r' with
  | Ok a, Ok a' => R a a'
  | Panic, Panic => True
  | NoFuel, NoFuel => True
  | _, _ => False
  end.
Lemma relr_refl : forall A (r : res A), relr eq r r.
Proof. intros A [a| |]; cbn; auto. Qed.
Lemma relr_bind : forall A A' B B' (R : A -> A' -> Prop) (Q : B -> B' -> Prop) r r' f f',
  relr R r r' -> (forall a a', R a a' -> relr Q (f a) (f' a')) -> relr Q (bind r f) (bind r' f').
Proof. intros * H K. destruct r, r'; cbn in *; try contradiction; auto. Qed.
Lemma relr_impl : forall A A' (R Q : A -> A' -> Prop) r r', relr R r r' ->
  (forall a a', R a a' -> Q a a') -> relr Q r r'.
Proof. intros * H K. destruct r, r'; cbn in *; try contradiction; auto. Qed.

Lemma slice_rel : forall a b off n, Rb a b -> relr (Rn n) (slice a off n) (slice b off n).
Proof.
  intros a b off n H. unfold slice. rewrite (Rb_len _ _ H). destruct (N.leb_spec (off + n) (len a)); cbn; auto.
  apply Rn_take; [now apply Rb_drop|]. rewrite len_drop. lia.
Qed.
Lemma slice_to_rel : forall a b n, Rb a b -> relr (Rn n) (slice_to a n) (slice_to b n).
Proof.
  intros a b n H. unfold slice_to. rewrite (Rb_len _ _ H). destruct (N.leb_spec n (len a)); cbn; auto.
  now apply Rn_take.
Qed.
Lemma slice_from_rel : forall a b n, Rb a b -> relr Rb (slice_from a n) (slice_from b n).
Proof.
  intros a b n H. unfold slice_from. rewrite (Rb_len _ _ H). destruct (N.leb_spec n (len a)); cbn; auto.
  now apply Rb_drop.
Qed.
Lemma copy_at_rel : forall n a b off x y, Rn n a b -> Rb x y -> relr (Rn n) (copy_at a off x) (copy_at b off y).
Proof.
  intros n a b off x y (La & Lb & Ba & Bb) (L & Bx & By). unfold copy_at. rewrite La, Lb, <- L.
  destruct (N.leb_spec (off + len x) n); cbn; auto.
  unfold Rn. rewrite !len_app, !len_take, !len_drop, !bytes_app, La, Lb, <- L.
  repeat split; auto using bytes_take, bytes_drop; lia.
Qed.
Lemma split_at_rel : forall a b n, Rb a b -> relr (Rp Rb Rb) (split_at a n) (split_at b n).
Proof.
  intros a b n H. unfold split_at. rewrite (Rb_len _ _ H). destruct (N.leb_spec n (len a)); cbn; auto.
  split; cbn; [now apply Rb_take|now apply Rb_drop].
Qed.
Lemma addw_small : forall c a b, relr Req (add64 c a b) (add64 c a b).
Proof.
  intros c a b. unfold add64, addw. destruct (dbg c && (W64 <=? a + b)); cbn; auto.
  split; [reflexivity|]. apply N.mod_lt. discriminate.
Qed.

(* ---- related lists ---- *)

Notation L2 := Forall2.
Lemma L2_length : forall A B (R : A -> B -> Prop) l m, L2 R l m -> length l = length m.
Proof. intros * H. induction H; cbn; auto. Qed.
Lemma L2_len : forall A B (R : A -> B -> Prop) l m, L2 R l m -> len m = len l.
Proof. intros * H. unfold len. now rewrite (L2_length _ _ _ _ _ H). Qed.
Lemma L2_take : forall A B (R : A -> B -> Prop) n l m, L2 R l m -> L2 R (take n l) (take n m).
Proof.
  intros A B R n l m H. unfold take. revert l m H. generalize (N.to_nat n) as k.
  induction k; intros l m H; [constructor|]. destruct H; cbn [firstn]; constructor; auto.
Qed.
Lemma L2_drop : forall A B (R : A -> B -> Prop) n l m, L2 R l m -> L2 R (drop n l) (drop n m).
Proof.
  intros A B R n l m H. unfold drop. revert l m H. generalize (N.to_nat n) as k.
  induction k; intros l m H; [exact H|]. destruct H; cbn [skipn]; auto.
Qed.
Lemma L2_set : forall A (R : A -> A -> Prop) l m i x y, L2 R l m -> R x y -> L2 R (set_nth l i x) (set_nth m i y).
Proof.
  intros A R l m i x y H. revert i. induction H; intros [|i] K; cbn [set_nth]; constructor; auto.
Qed.
Lemma L2_index : forall A (R : A -> A -> Prop) l m i, L2 R l m -> relr R (index l i) (index m i).
Proof.
  intros A R l m i H. unfold index. generalize (N.to_nat i) as k.
  induction H; intros [|k]; cbn; auto.
Qed.
Lemma L2_push : forall A (R : A -> A -> Prop) cap l m x y, L2 R l m -> R x y ->
  relr (L2 R) (push_cap cap l x) (push_cap cap m y).
Proof.
  intros A R cap l m x y H K. unfold push_cap. rewrite (L2_len _ _ _ _ _ H).
  destruct (len l <? cap); cbn; auto. apply Forall2_app; auto.
Qed.
Lemma L2_push_all : forall A (R : A -> A -> Prop) cap l m a b, L2 R a b -> L2 R l m ->
  relr (L2 R) (push_all cap a l) (push_all cap b m).
Proof.
  intros A R cap l m a b Ha H. revert a b Ha. induction H; intros a b Ha; cbn [push_all]; [exact Ha|].
  eapply relr_bind; [apply L2_push; eauto|]. intros; auto.
Qed.
Lemma chunks_rel : forall n a b, Rb a b ->
  L2 (Rn n) (fst (chunks_exact n a)) (fst (chunks_exact n b)) /\
  Rb (snd (chunks_exact n a)) (snd (chunks_exact n b)).
Proof.
  intros n a b H. unfold chunks_exact. assert (E : length b = length a).
  { pose proof (Rb_len _ _ H). unfold len in *. lia. }
  rewrite E. generalize (length a) as f. intros f. revert a b H E.
  induction f as [|f IH]; intros a b H E; cbn [chunks_exact_fuel]; [split; cbn; [constructor|exact H]|].
  rewrite (Rb_len _ _ H). destruct (N.leb_spec n (len a)); [|split; cbn; [constructor|exact H]].
  specialize (IH (drop n a) (drop n b) (Rb_drop _ _ _ H)).
  assert (E' : length (drop n b) = length (drop n a)).
  { pose proof (Rb_len _ _ (Rb_drop n _ _ H)). unfold len in *. lia. }
  specialize (IH E').
  destruct (chunks_exact_fuel f n (drop n a)), (chunks_exact_fuel f n (drop n b)).
  cbn [fst snd] in *. split; [|tauto]. constructor; [now apply Rn_take|tauto].
Qed.

(* ---- hash_many ---- *)

Section Many.
Variable c : cfg.
Variables cap delta flags fs fe : N.
Hypothesis Hcap : cap mod 64 = 0.

Definition wf_in (i : list N) : Prop := len i = cap /\ bytes i.

Lemma hash1_rel : forall comp, comp_ok comp -> forall key i off,
  length key = 8%nat -> words key -> wf_in i -> off < W64 ->
  exists h, (dassert c (len i mod BLOCK_LEN =? 0) ;;
   let* cv := Portable.hash1_loop comp (length i) key i off (N.lor flags fs) flags fe in
   Ok (bytes_of_words cv)) = Ok h /\ len h = 32 /\ bytes h.
Proof.
  intros comp C key i off Lk Wk [Li Bi] Ho.
  rewrite dassert_ok by (rewrite Li; change BLOCK_LEN with 64; rewrite Hcap; reflexivity). cbn [bind].
  rewrite loop_hash_one by (auto; rewrite Li; auto). eexists; split; [reflexivity|].
  now apply hash_one_shape.
Qed.

Definition ok32 (h1 : list N -> N -> res (list N)) : Prop :=
  forall i off, wf_in i -> off < W64 -> exists h, h1 i off = Ok h /\ len h = 32 /\ bytes h.

Lemma hash_each_rel : forall h1 h1', ok32 h1 -> ok32 h1' ->
  forall inputs inputs', L2 (Rn cap) inputs inputs' ->
  forall off out out', off < W64 -> Rb out out' ->
  relr Rb (hash_each c h1 inputs off delta out) (hash_each c h1' inputs' off delta out').
Proof.
  intros h1 h1' H1 H1' inputs inputs' H. induction H as [|i i' r r' Hi H IH]; intros off out out' Ho Hout;
    cbn [hash_each]; [exact Hout|].
  rewrite (Rb_len _ _ Hout). destruct (OUT_LEN <=? len out); [|exact Hout].
  destruct Hi as (Li & Li' & Bi & Bi').
  destruct (H1 i off (conj Li Bi) Ho) as (h & E & Lh & Bh). destruct (H1' i' off (conj Li' Bi') Ho) as (h' & E' & Lh' & Bh').
  rewrite E, E'. cbn [bind]. eapply relr_bind; [apply addw_small|]. intros o o' [<- Hs].
  eapply relr_bind; [apply IH; [exact Hs|now apply Rb_drop]|]. intros x x' Hx. cbn.
  apply Rb_app; [split; [congruence|auto]|exact Hx].
Qed.

(* hash4 or hash8: the offsets decide whether it panics *)
Definition okN (degree : nat) (hN : list (list N) -> N -> res (list N)) : Prop :=
  forall inputs off, length inputs = degree -> Forall wf_in inputs -> off < W64 ->
  match lane_offsets c degree off delta with
  | Ok _ => exists h, hN inputs off = Ok h /\ len h = 32 * N.of_nat degree /\ bytes h
  | Panic => hN inputs off = Panic
  | NoFuel => hN inputs off = NoFuel
  end.

Lemma L2_wf : forall l m, L2 (Rn cap) l m -> Forall wf_in l /\ Forall wf_in m.
Proof.
  intros l m H. induction H as [|x y l m (A & B & C & D) H [IH1 IH2]]; split; constructor; auto; split; auto.
Qed.

Lemma batch_rel : forall degree hN hN' rest rest', okN degree hN -> okN degree hN' ->
  (forall inputs inputs' off out out', L2 (Rn cap) inputs inputs' -> off < W64 -> Rb out out' ->
     relr Rb (rest inputs off out) (rest' inputs' off out')) ->
  forall fuel inputs inputs' off out out', L2 (Rn cap) inputs inputs' -> off < W64 -> Rb out out' ->
  relr Rb (batch_loop c fuel (N.of_nat degree) hN rest inputs off delta out)
          (batch_loop c fuel (N.of_nat degree) hN' rest' inputs' off delta out').
Proof.
  intros degree hN hN' rest rest' HN HN' Hr. set (d := N.of_nat degree).
  induction fuel as [|fuel IH]; intros inputs inputs' off out out' H Ho Hout; cbn [batch_loop];
    rewrite (L2_len _ _ _ _ _ H), (Rb_len _ _ Hout);
    destruct ((d <=? len inputs) && (d * OUT_LEN <=? len out)) eqn:E; auto; [exact I|].
  apply andb_true_iff in E. destruct E as [E _]. apply N.leb_le in E.
  pose proof (L2_take _ _ _ d _ _ H) as Ht. destruct (L2_wf _ _ Ht) as [W1 W2].
  assert (T1 : length (take d inputs) = degree).
  { pose proof (len_take _ d inputs) as Q. unfold len in *. unfold d in *. lia. }
  assert (T2 : length (take d inputs') = degree).
  { pose proof (L2_len _ _ _ _ _ Ht) as Q. unfold len in Q. lia. }
  specialize (HN _ off T1 W1 Ho). specialize (HN' _ off T2 W2 Ho).
  destruct (lane_offsets c degree off delta).
  - destruct HN as (h & -> & L & B). destruct HN' as (h' & -> & L' & B'). cbn [bind].
    destruct (mul64 c d delta) as [q| |]; cbn [bind]; [|exact I|exact I].
    eapply relr_bind; [apply addw_small|]. intros o o' [<- Hs].
    eapply relr_bind; [apply IH; [now apply L2_drop|exact Hs|now apply Rb_drop]|].
    intros x x' Hx. cbn. apply Rb_app; [split; [congruence|auto]|exact Hx].
  - rewrite HN, HN'. exact I.
  - rewrite HN, HN'. exact I.
Qed.

Lemma wrapped_concat : forall key, length key = 8%nat -> words key -> forall inputs off,
  len (concat (hash_all (wrapped blake_compress) key flags fs fe off delta inputs)) = 32 * len inputs /\
  bytes (concat (hash_all (wrapped blake_compress) key flags fs fe off delta inputs)).
Proof.
  intros key Lk Wk. induction inputs as [|i r IH]; intros off; cbn [hash_all concat].
  - split; [reflexivity|constructor].
  - rewrite len_app, bytes_app, wrapped_one, len_cons.
    destruct (hash_one_shape key flags fs fe (off mod W64) i Lk Wk) as [L B].
    destruct (IH (off + delta)) as [L' B']. rewrite L, L'. repeat split; auto. lia.
Qed.

Lemma hash4_okN : forall key, length key = 8%nat -> words key ->
  okN 4 (fun inputs off => Sse41.hash4 c inputs (cap / 64) key off delta flags fs fe).
Proof.
  intros key Lk Wk inputs off Li Fi Ho.
  destruct (lane_offsets_any c 4 off delta) as [E0|(E0 & D & L)]; rewrite E0.
  2: unfold Sse41.hash4, Sse41.load_offsets; rewrite E0; reflexivity.
  assert (Li' : len inputs = 4) by (unfold len; lia).
  unfold Sse41.hash4, Sse41.load_offsets. rewrite E0. cbn [bind].
  set (offs := map (fun i => (off + N.of_nat i * delta) mod W64) (seq 0 4)).
  destruct (vec_hash_loop_ok 4 Sse41.ops sse41_lanewise ltac:(lia) inputs
              (Sse41.transpose_msg_vecs inputs) cap) with (todo := N.to_nat (cap / 64)) (block := 0)
              (blocks := cap / 64) (h := map (fun i => set1_epi32 4 (get key i)) (seq 0 8))
              (lo := map Portable.offset_low offs) (hi := map Portable.offset_high offs)
              (off := fun i => (off + N.of_nat i * delta) mod W64)
              (bf := N.lor flags fs) (flags := flags) (fe := fe)
    as (h' & E & L' & F' & X); try reflexivity.
  - destruct (list4 _ inputs Li) as (i0 & i1 & i2 & i3 & ->). unfold wf_in in Fi.
    repeat match goal with H : Forall _ (_ :: _) |- _ => inversion H; clear H; subst
                    | H : Forall _ [] |- _ => clear H
                    | H : _ /\ _ |- _ => destruct H end.
    intros bo Hbo. eapply sse41_load; eauto.
  - lia.
  - lia.
  - apply key_vn.
  - intros i Hi. unfold offs. now rewrite offs_lanes_any.
  - intros i Hi. unfold offs. rewrite offs_lanes_any by auto. apply offset_high_div. apply mod64.
  - rewrite E. cbn [bind]. rewrite sse41_store by auto. eexists. split; [reflexivity|].
    rewrite (lane_results_any 4 inputs cap key off delta flags fs fe h') by auto. destruct (wrapped_concat key Lk Wk inputs off) as [A B].
    rewrite A, Li'. auto.
Qed.

Lemma hash8_okN : forall key, length key = 8%nat -> words key ->
  okN 8 (fun inputs off => Avx2.hash8 c inputs (cap / 64) key off delta flags fs fe).
Proof.
  intros key Lk Wk inputs off Li Fi Ho.
  destruct (lane_offsets_any c 8 off delta) as [E0|(E0 & D & L)]; rewrite E0.
  2: unfold Avx2.hash8, Avx2.load_offsets; rewrite E0; reflexivity.
  assert (Li' : len inputs = 8) by (unfold len; lia).
  unfold Avx2.hash8, Avx2.load_offsets. rewrite E0. cbn [bind].
  set (offs := map (fun i => (off + N.of_nat i * delta) mod W64) (seq 0 8)).
  change avx2_round_code with sse41_round_code.
  destruct (vec_hash_loop_ok 8 Avx2.ops avx2_lanewise ltac:(lia) inputs
              (Avx2.transpose_msg_vecs inputs) cap) with (todo := N.to_nat (cap / 64)) (block := 0)
              (blocks := cap / 64) (h := map (fun i => set1_epi32 8 (get key i)) (seq 0 8))
              (lo := map Portable.offset_low offs) (hi := map Portable.offset_high offs)
              (off := fun i => (off + N.of_nat i * delta) mod W64)
              (bf := N.lor flags fs) (flags := flags) (fe := fe)
    as (h' & E & L' & F' & X); try reflexivity.
  - intros bo Hbo. eapply avx2_load; eauto. eapply Forall_impl; [|exact Fi]. unfold wf_in. cbn. tauto.
  - lia.
  - lia.
  - apply key_vn.
  - intros i Hi. unfold offs. now rewrite offs_lanes_any.
  - intros i Hi. unfold offs. rewrite offs_lanes_any by auto. apply offset_high_div. apply mod64.
  - rewrite E. cbn [bind]. rewrite avx2_store by auto. eexists. split; [reflexivity|].
    rewrite (lane_results_any 8 inputs cap key off delta flags fs fe h') by auto. destruct (wrapped_concat key Lk Wk inputs off) as [A B].
    rewrite A, Li'. auto.
Qed.

Lemma hash_many_rel : forall p inputs inputs' key key' off out out',
  L2 (Rn cap) inputs inputs' -> Rk key key' -> off < W64 -> Rb out out' ->
  relr Rb (hash_many c p cap inputs key off delta flags fs fe out)
          (hash_many c p cap inputs' key' off delta flags fs fe out').
Proof.
  intros p inputs inputs' key key' off out out' H [[Lk Wk] [Lk' Wk']] Ho Hout.
  assert (O1 : forall comp, comp_ok comp -> forall key, length key = 8%nat -> words key ->
    ok32 (fun i o => dassert c (len i mod BLOCK_LEN =? 0) ;;
      let* cv := Portable.hash1_loop comp (length i) key i o (N.lor flags fs) flags fe in
      Ok (bytes_of_words cv))).
  { intros comp C k L W i o Wi Hoo. now apply hash1_rel. }
  assert (S : forall inputs inputs' off out out', L2 (Rn cap) inputs inputs' -> off < W64 -> Rb out out' ->
    relr Rb (Sse41.hash_many c cap inputs key off delta flags fs fe out)
            (Sse41.hash_many c cap inputs' key' off delta flags fs fe out')).
  { clear inputs inputs' off out out' H Ho Hout. intros inputs inputs' off out out' H Ho Hout.
    unfold Sse41.hash_many. rewrite (L2_len _ _ _ _ _ H), (Rb_len _ _ Hout).
    eapply relr_bind; [apply relr_refl|]. intros _ _ _. rewrite <- (L2_length _ _ _ _ _ H).
    apply (batch_rel 4); auto using hash4_okN.
    intros. apply hash_each_rel; auto; apply (O1 Sse41.compress); auto using sse41_comp_ok. }
  destruct p; unfold hash_many.
  - unfold Portable.hash_many. rewrite (L2_len _ _ _ _ _ H), (Rb_len _ _ Hout).
    eapply relr_bind; [apply relr_refl|]. intros _ _ _.
    apply hash_each_rel; auto; apply (O1 Portable.compress); auto using portable_comp_ok.
  - now apply S.
  - unfold Avx2.hash_many. rewrite (L2_len _ _ _ _ _ H), (Rb_len _ _ Hout).
    eapply relr_bind; [apply relr_refl|]. intros _ _ _. rewrite <- (L2_length _ _ _ _ _ H).
    apply (batch_rel 8); auto using hash8_okN.
Qed.
End Many.

(* ---- related computations ---- *)

Definition rel {A A' : Type} (R : A -> A' -> Prop) (m : tr A) (m' : tr A') : Prop :=
  forall s s', map public s = map public s' ->
  map public (fst (m s)) = map public (fst (m' s')) /\ relr R (snd (m s)) (snd (m' s')).

Lemma rel_bind : forall A A' B B' (R : A -> A' -> Prop) (Q : B -> B' -> Prop) m m' f f',
  rel R m m' -> (forall a a', R a a' -> rel Q (f a) (f' a')) -> rel Q (tbind m f) (tbind m' f').
Proof.
  intros * H K s s' E. unfold tbind. specialize (H s s' E).
  destruct (m s) as [t r], (m' s') as [t' r']. cbn [fst snd] in H. destruct H as [Et Er].
  destruct r, r'; cbn [relr] in Er; try contradiction; cbn [fst snd relr]; auto.
  now apply K.
Qed.
Lemma rel_lift : forall A A' (R : A -> A' -> Prop) r r', relr R r r' -> rel R (lift r) (lift r').
Proof. intros * H s s' E. cbn. auto. Qed.
Lemma rel_ok : forall A A' (R : A -> A' -> Prop) a a', R a a' -> rel R (lift (Ok a)) (lift (Ok a')).
Proof. intros. now apply rel_lift. Qed.
Lemma rel_note : forall xs ys, map public xs = map public ys -> rel eq (note xs) (note ys).
Proof. intros xs ys H s s' E. cbn. rewrite !map_app. now rewrite H, E. Qed.
Lemma rel_impl : forall A A' (R Q : A -> A' -> Prop) m m', rel R m m' ->
  (forall a a', R a a' -> Q a a') -> rel Q m m'.
Proof. intros * H K s s' E. destruct (H s s' E) as [A1 A2]. split; [exact A1|]. eapply relr_impl; eauto. Qed.

Lemma t_compress_rel : forall p a b x y bl off fl, Rk a b -> Rn 64 x y -> small off ->
  rel Rk (t_compress p a x bl off fl) (t_compress p b y bl off fl).
Proof.
  intros p a b x y bl off fl Hk Hn Ho. unfold t_compress. eapply rel_bind.
  - apply rel_note. cbn [map]. unfold public. cbn [nd_cv nd_block nd_blen nd_off nd_flags].
    destruct Hk as [[La _] [Lb _]]. destruct Hn as (Lx & Ly & _). unfold len at 1 3. rewrite La, Lb, Lx, Ly. reflexivity.
  - intros _ _ _. apply rel_ok. now apply compress_Rk.
Qed.
Lemma t_compress_xof_rel : forall p a b x y bl off fl, Rk a b -> Rn 64 x y -> small off ->
  rel Rb (t_compress_xof p a x bl off fl) (t_compress_xof p b y bl off fl).
Proof.
  intros p a b x y bl off fl Hk Hn Ho. unfold t_compress_xof. eapply rel_bind.
  - apply rel_note. cbn [map]. unfold public. cbn [nd_cv nd_block nd_blen nd_off nd_flags].
    destruct Hk as [[La _] [Lb _]]. destruct Hn as (Lx & Ly & _). unfold len at 1 3. rewrite La, Lb, Lx, Ly. reflexivity.
  - intros _ _ _. apply rel_ok. now apply compress_xof_Rb.
Qed.

Lemma hash1_calls_public : forall p fuel a b x y off bf fl fe, Rk a b -> Rb x y -> small off ->
  map public (hash1_calls (compress p) fuel a x off bf fl fe)
  = map public (hash1_calls (compress p) fuel b y off bf fl fe).
Proof.
  intros p fuel. induction fuel as [|fuel IH]; intros a b x y off bf fl fe Hk Hb Ho; cbn [hash1_calls];
    rewrite (Rb_len _ _ Hb); destruct (N.leb_spec BLOCK_LEN (len x)) as [H|H]; try reflexivity.
  pose proof (Rn_take BLOCK_LEN _ _ Hb H) as Hn.
  cbn [map]. f_equal.
  - unfold public. cbn [nd_cv nd_block nd_blen nd_off nd_flags].
    destruct Hk as [[La _] [Lb _]]. destruct Hn as (Lx & Ly & _). unfold len at 1 4. rewrite La, Lb, Lx, Ly. reflexivity.
  - apply IH; [now apply compress_Rk|now apply Rb_drop|exact Ho].
Qed.
Lemma many_calls_public : forall p xs ys a b off d fl fs fe, L2 Rb xs ys -> Rk a b -> small off ->
  map public (many_calls p xs a off d fl fs fe) = map public (many_calls p ys b off d fl fs fe).
Proof.
  intros p xs ys a b off d fl fs fe H Hk. revert off. induction H as [|x y xs ys Hx H IH]; intros off Ho; [reflexivity|].
  cbn [many_calls]. rewrite !map_app. f_equal.
  - assert (E : length y = length x) by (pose proof (Rb_len _ _ Hx); unfold len in *; lia).
    rewrite E. now apply hash1_calls_public.
  - apply IH. apply N.mod_lt. discriminate.
Qed.
Lemma L2_weak : forall n l m, L2 (Rn n) l m -> L2 Rb l m.
Proof. intros n l m H. induction H; constructor; auto. eapply Rn_b; eauto. Qed.

Lemma t_hash_many_rel : forall c cap, cap mod 64 = 0 -> forall p inputs inputs' key key' off d fl fs fe out out',
  L2 (Rn cap) inputs inputs' -> Rk key key' -> small off -> Rb out out' ->
  rel Rb (t_hash_many c p cap inputs key off d fl fs fe out)
         (t_hash_many c p cap inputs' key' off d fl fs fe out').
Proof.
  intros. unfold t_hash_many. eapply rel_bind.
  - apply rel_note. apply many_calls_public; auto. eapply L2_weak; eauto.
  - intros _ _ _. apply rel_lift. now apply hash_many_rel.
Qed.

(* ---- Output ---- *)

Definition Ro (o o' : output) : Prop :=
  Rk (o_cv o) (o_cv o') /\ Rn 64 (o_block o) (o_block o') /\ o_block_len o = o_block_len o' /\
  Req (o_offset o) (o_offset o') /\ o_flags o = o_flags o' /\ o_platform o = o_platform o'.

Lemma Ro_intro : forall a b x y bl off fl p, Rk a b -> Rn 64 x y -> small off ->
  Ro (Output a x bl off fl p) (Output b y bl off fl p).
Proof. intros. unfold Ro, Req. cbn. auto 10. Qed.

Lemma t_read_rel : forall c o o', Ro o o' -> rel (Rp Rb Ro) (t_read c o) (t_read c o').
Proof.
  intros c o o' (K & B & L & [E Hs] & F & P). unfold t_read. rewrite <- L, <- E, <- F, <- P.
  eapply rel_bind; [now apply t_compress_xof_rel|]. intros x y Hx.
  eapply rel_bind; [apply rel_lift, addw_small|]. intros i i' [<- Hi].
  apply rel_ok. split; cbn [fst snd]; [exact Hx|]. now apply Ro_intro.
Qed.
Lemma t_to_hash_rel : forall o o', Ro o o' -> rel (Rn 32) (t_to_hash o) (t_to_hash o').
Proof.
  intros o o' (K & B & L & [E Hs] & F & P). unfold t_to_hash. rewrite <- L, <- E, <- F, <- P.
  eapply rel_bind; [now apply t_compress_rel|]. intros x y Hx. apply rel_ok. now apply state_words_Rn.
Qed.

(* Steps that do not touch the data are the same on both sides. *)
Ltac same := eapply rel_bind; [apply rel_lift, relr_refl|intros ? ? <-].

(* ---- one-shot ---- *)

Definition Rx (x y : output + (list N * N * N)) : Prop :=
  match x, y with
  | inl o, inl o' => Ro o o'
  | inr (cv, f, b), inr (cv', f', b') => Rk cv cv' /\ f = f' /\ b = b'
  | _, _ => False
  end.

Lemma hoc_loop_rel : forall c p fuel x y a b off r fl bf bo, Rb x y -> Rk a b -> small off ->
  rel Rx (t_hash_one_chunk_loop c p fuel x a off r fl bf bo)
         (t_hash_one_chunk_loop c p fuel y b off r fl bf bo).
Proof.
  intros c p fuel. induction fuel as [|fuel IH]; intros x y a b off r fl bf bo Hx Hk Ho;
    cbn [t_hash_one_chunk_loop]; same; rewrite (Rb_len _ _ Hx).
  - destruct (_ <=? _); [apply rel_lift; exact I|]. apply rel_ok. cbn. auto.
  - destruct (_ <=? _); [|apply rel_ok; cbn; auto]. same.
    destruct (_ =? _).
    + eapply rel_bind; [apply rel_lift, slice_rel; exact Hx|]. intros u v Hu. apply rel_ok.
      cbn [Rx]. now apply Ro_intro.
    + eapply rel_bind; [apply rel_lift, slice_rel; exact Hx|]. intros u v Hu.
      eapply rel_bind; [now apply t_compress_rel|]. intros k k' Hk'. same. now apply IH.
Qed.

Lemma hash_one_chunk_rel : forall c p x y a b off r fl, Rb x y -> Rk a b -> small off ->
  rel Ro (t_hash_one_chunk c p x a off r fl) (t_hash_one_chunk c p y b off r fl).
Proof.
  intros c p x y a b off r fl Hx Hk Ho. unfold t_hash_one_chunk. same.
  assert (E : length y = length x) by (pose proof (Rb_len _ _ Hx); unfold len in *; lia). rewrite E.
  eapply rel_bind; [now apply hoc_loop_rel|]. intros [o|[[cv f] bo]] [o'|[[cv' f'] bo']] H; cbn [Rx] in H; try contradiction.
  - now apply rel_ok.
  - destruct H as (Hc & <- & <-). rewrite (Rb_len _ _ Hx). same.
    eapply rel_bind; [apply rel_lift, slice_from_rel; exact Hx|]. intros u v Hu.
    eapply rel_bind; [apply rel_lift, slice_to_rel, Rb_zeros|]. intros w z Hw.
    destruct (Rn_len _ _ _ Hw) as [-> ->]. rewrite (Rb_len _ _ Hu). same.
    eapply rel_bind; [apply rel_lift; eapply copy_at_rel; [apply Rn_zeros|exact Hu]|]. intros q q' Hq.
    apply rel_ok. now apply Ro_intro.
Qed.

Lemma hash_chunks_rel : forall c p x y a b off fl out out', Rb x y -> Rk a b -> small off -> Rb out out' ->
  rel (Rp Rb eq) (t_hash_chunks_parallel c p x a off fl out) (t_hash_chunks_parallel c p y b off fl out').
Proof.
  intros c p x y a b off fl out out' Hx Hk Ho Hout. unfold t_hash_chunks_parallel.
  rewrite (Rb_len _ _ Hx). same. same. same.
  destruct (chunks_rel CHUNK_LEN _ _ Hx) as [H1 H2].
  destruct (chunks_exact CHUNK_LEN x) as [cs r], (chunks_exact CHUNK_LEN y) as [cs' r']. cbn [fst snd] in *.
  eapply rel_bind; [apply rel_lift, L2_push_all; [constructor|exact H1]|]. intros u v Hu.
  eapply rel_bind; [apply t_hash_many_rel; auto; reflexivity|]. intros o o' Hoo.
  rewrite (L2_len _ _ _ _ _ Hu), (Rb_len _ _ H2).
  destruct (negb _); [|apply rel_ok; now split].
  same. eapply rel_bind; [apply rel_lift, addw_small|]. intros i i' [<- Hi].
  eapply rel_bind; [now apply hash_one_chunk_rel|]. intros q q' Hq.
  eapply rel_bind; [now apply t_to_hash_rel|]. intros h h' Hh.
  eapply rel_bind; [apply rel_lift; eapply copy_at_rel; [now apply Rb_n|eapply Rn_b; eauto]|]. intros z z' Hz.
  apply rel_ok. split; cbn; [eapply Rn_b; eauto|reflexivity].
Qed.

Lemma hash_parents_rel : forall c p x y a b fl out out', Rb x y -> Rk a b -> Rb out out' ->
  rel (Rp Rb eq) (t_hash_parents_parallel c p x a fl out) (t_hash_parents_parallel c p y b fl out').
Proof.
  intros c p x y a b fl out out' Hx Hk Hout. unfold t_hash_parents_parallel.
  rewrite (Rb_len _ _ Hx). same. same. same.
  destruct (chunks_rel BLOCK_LEN _ _ Hx) as [H1 H2].
  destruct (chunks_exact BLOCK_LEN x) as [cs r], (chunks_exact BLOCK_LEN y) as [cs' r']. cbn [fst snd] in *.
  eapply rel_bind; [apply rel_lift, L2_push_all; [constructor|exact H1]|]. intros u v Hu.
  eapply rel_bind; [apply t_hash_many_rel; auto; reflexivity|]. intros o o' Hoo.
  rewrite (L2_len _ _ _ _ _ Hu), (Rb_len _ _ H2).
  destruct (negb _); [|apply rel_ok; now split].
  eapply rel_bind; [apply rel_lift, slice_from_rel; exact Hoo|]. intros q q' Hq.
  eapply rel_bind; [apply rel_lift, slice_to_rel; exact Hq|]. intros w z Hw.
  destruct (Rn_len _ _ _ Hw) as [-> ->]. same.
  eapply rel_bind; [apply rel_lift; eapply copy_at_rel; [now apply Rb_n|exact H2]|]. intros k k' Hz.
  apply rel_ok. split; cbn; [eapply Rn_b; eauto|reflexivity].
Qed.

Lemma hash_recurse_rel : forall c p fuel x y a b off fl out out', Rb x y -> Rk a b -> small off -> Rb out out' ->
  rel (Rp Rb eq) (t_hash_recurse c p fuel x a off fl out) (t_hash_recurse c p fuel y b off fl out').
Proof.
  intros c p fuel. induction fuel as [|fuel IH]; intros x y a b off fl out out' Hx Hk Ho Hout;
    cbn [t_hash_recurse]; rewrite (Rb_len _ _ Hx).
  - destruct (_ <=? _); [now apply hash_chunks_rel|apply rel_lift; exact I].
  - destruct (_ <=? _); [now apply hash_chunks_rel|]. same.
    eapply rel_bind; [apply rel_lift, split_at_rel; exact Hx|]. intros [l r] [l' r'] [Hl Hr]. cbn [fst snd] in *.
    rewrite (Rb_len _ _ Hl). eapply rel_bind; [apply rel_lift, addw_small|]. intros i i' [<- Hi]. same.
    eapply rel_bind; [apply rel_lift, split_at_rel, Rb_zeros|]. intros [lo ro] [lo' ro'] [Hlo Hro]. cbn [fst snd] in *.
    eapply rel_bind; [now apply IH|]. intros [lo1 ln] [lo1' ln'] [Hlo1 E]. cbn [fst snd] in *. subst ln'.
    eapply rel_bind; [now apply IH|]. intros [ro1 rn] [ro1' rn'] [Hro1 E]. cbn [fst snd] in *. subst rn'.
    pose proof (Rb_app _ _ _ _ Hlo1 Hro1) as Hc. same. same.
    destruct (ln =? 1).
    + eapply rel_bind; [apply rel_lift, slice_to_rel; exact Hout|]. intros u u' Hu.
      eapply rel_bind; [apply rel_lift, slice_to_rel; exact Hc|]. intros v v' Hv.
      eapply rel_bind; [apply rel_lift; eapply copy_at_rel; [now apply Rb_n|eapply Rn_b; eauto]|].
      intros w w' Hw. apply rel_ok. split; cbn; [eapply Rn_b; eauto|reflexivity].
    + eapply rel_bind; [apply rel_lift, slice_to_rel; exact Hc|]. intros v v' Hv.
      apply hash_parents_rel; auto. eapply Rn_b; eauto.
Qed.

Lemma condense_loop_rel : forall c p fuel x y a b fl out out', Rb x y -> Rk a b -> Rb out out' ->
  rel Rb (t_condense_loop c p fuel x a fl out) (t_condense_loop c p fuel y b fl out').
Proof.
  intros c p fuel. induction fuel as [|fuel IH]; intros x y a b fl out out' Hx Hk Hout;
    cbn [t_condense_loop]; rewrite (Rb_len _ _ Hx).
  - destruct (_ <? _); [apply rel_lift; exact I|now apply rel_ok].
  - destruct (_ <? _); [|now apply rel_ok].
    eapply rel_bind; [now apply hash_parents_rel|]. intros [o n] [o' n'] [Ho E]. cbn [fst snd] in *. subst n'.
    eapply rel_bind; [apply rel_lift, slice_to_rel; exact Hx|]. intros u u' Hu.
    eapply rel_bind; [apply rel_lift, slice_to_rel; exact Ho|]. intros v v' Hv.
    eapply rel_bind; [apply rel_lift; eapply copy_at_rel; [now apply Rb_n|eapply Rn_b; eauto]|]. intros w w' Hw.
    eapply rel_bind; [apply rel_lift, slice_to_rel; eapply Rn_b; exact Hw|]. intros z z' Hz.
    apply IH; auto. eapply Rn_b; eauto.
Qed.

Lemma condense_root_rel : forall c p x y a b fl, Rb x y -> Rk a b ->
  rel Ro (t_condense_root c p x a fl) (t_condense_root c p y b fl).
Proof.
  intros c p x y a b fl Hx Hk. unfold t_condense_root. rewrite (Rb_len _ _ Hx). same. same.
  assert (E : length y = length x) by (pose proof (Rb_len _ _ Hx); unfold len in *; lia). rewrite E.
  eapply rel_bind; [apply condense_loop_rel; auto using Rb_zeros|]. intros z z' Hz.
  eapply rel_bind; [apply rel_lift, slice_rel; exact Hz|]. intros u u' Hu.
  apply rel_ok. apply Ro_intro; auto. reflexivity.
Qed.

Lemma hash_internal_rel : forall c p x y a b fl, Rb x y -> Rk a b ->
  rel Ro (t_hash_internal c p x a fl) (t_hash_internal c p y b fl).
Proof.
  intros c p x y a b fl Hx Hk. unfold t_hash_internal. rewrite (Rb_len _ _ Hx).
  destruct (_ <=? _); [apply hash_one_chunk_rel; auto; reflexivity|].
  unfold depth_fuel. rewrite (Rb_len _ _ Hx).
  eapply rel_bind; [apply hash_recurse_rel; auto using Rb_zeros; reflexivity|].
  intros [o n] [o' n'] [Ho E]. cbn [fst snd] in *. subst n'.
  eapply rel_bind; [apply rel_lift, slice_to_rel; exact Ho|]. intros u u' Hu.
  apply condense_root_rel; auto. eapply Rn_b; eauto.
Qed.

Lemma mode_Rk : forall m m', mode_ok m -> mode_ok m' -> Rk (mode_key m) (mode_key m').
Proof. intros m m' H H'. split; now apply mode_key_ok. Qed.

Lemma oneshot_xof_rel : forall c p m m' x y, mode_ok m -> mode_ok m' -> same_kind m m' -> Rb x y ->
  rel Ro (t_oneshot_xof c p m x) (t_oneshot_xof c p m' y).
Proof.
  intros c p m m' x y M M' K H. pose proof (mode_Rk m m' M M') as Hk.
  destruct m, m'; cbn [same_kind] in K; try contradiction; cbn [t_oneshot_xof mode_key] in *;
    now apply hash_internal_rel.
Qed.

(* ---- streaming ---- *)

Definition Rcs (s s' : chunk_state) : Prop :=
  Rk (cs_cv s) (cs_cv s') /\ Rk (cs_key s) (cs_key s') /\ Req (cs_offset s) (cs_offset s') /\
  cs_count s = cs_count s' /\ Rn 64 (cs_buf s) (cs_buf s') /\ cs_buf_len s = cs_buf_len s' /\
  cs_flags s = cs_flags s' /\ cs_platform s = cs_platform s'.
Definition Rh (h h' : hasher) : Prop := L2 (Rn 32) (h_stack h) (h_stack h') /\ Rcs (h_chunk h) (h_chunk h').

Lemma Rcs_intro : forall a b k k' off n x y bl fl p, Rk a b -> Rk k k' -> small off -> Rn 64 x y ->
  Rcs (ChunkState a k off n x bl fl p) (ChunkState b k' off n y bl fl p).
Proof. intros. unfold Rcs, Req. cbn. auto 10. Qed.

(* expose the equal fields of two related states *)
Ltac open s s' H :=
  destruct s as [?cv ?key ?off ?cnt ?buf ?bl ?fl ?pl], s' as [?cv ?key ?off ?cnt ?buf ?bl ?fl ?pl];
  destruct H as (?Hcv & ?Hkey & [?Hoff ?Hsm] & ?Hcnt & ?Hbuf & ?Hbl & ?Hfl & ?Hpl);
  cbn [cs_cv cs_key cs_offset cs_count cs_buf cs_buf_len cs_flags cs_platform] in *; subst.

Lemma fill_buf_rel : forall c s s' x y, Rcs s s' -> Rb x y ->
  relr (Rp Rcs Rb) (cs_fill_buf c s x) (cs_fill_buf c s' y).
Proof.
  intros c s s' x y H Hx. open s s' H. unfold cs_fill_buf.
  cbn [cs_cv cs_key cs_offset cs_count cs_buf cs_buf_len cs_flags cs_platform].
  rewrite (Rb_len _ _ Hx).
  eapply relr_bind; [apply relr_refl|]. intros w ? <-.
  eapply relr_bind; [apply slice_to_rel; exact Hx|]. intros u u' Hu.
  eapply relr_bind; [eapply copy_at_rel; [exact Hbuf|eapply Rn_b; exact Hu]|]. intros v v' Hv.
  eapply relr_bind; [apply relr_refl|]. intros n ? <-.
  eapply relr_bind; [apply slice_from_rel; exact Hx|]. intros z z' Hz.
  split; cbn [fst snd]; [now apply Rcs_intro|exact Hz].
Qed.

Lemma cs_compress_rel : forall c s s' x y, Rcs s s' -> Rn 64 x y ->
  rel Rcs (t_cs_compress c s x) (t_cs_compress c s' y).
Proof.
  intros c s s' x y H Hx. open s s' H. unfold t_cs_compress, cs_maybe_chunk_start_flag.
  cbn [cs_cv cs_key cs_offset cs_count cs_buf cs_buf_len cs_flags cs_platform].
  eapply rel_bind; [now apply t_compress_rel|]. intros k k' Hk. same. apply rel_ok. now apply Rcs_intro.
Qed.

Lemma Rcs_buf : forall s s', Rcs s s' -> Rn 64 (cs_buf s) (cs_buf s').
Proof. unfold Rcs. tauto. Qed.
Lemma Rcs_buf_len : forall s s', Rcs s s' -> cs_buf_len s' = cs_buf_len s.
Proof. unfold Rcs. intuition congruence. Qed.
Lemma Rcs_len : forall s s', Rcs s s' -> cs_len s' = cs_len s.
Proof. unfold Rcs, cs_len. intuition congruence. Qed.
Lemma Rcs_off : forall s s', Rcs s s' -> cs_offset s' = cs_offset s.
Proof. unfold Rcs, Req. intuition congruence. Qed.

Lemma cs_loop_rel : forall c fuel s s' x y, Rcs s s' -> Rb x y ->
  rel (Rp Rcs Rb) (t_cs_update_loop c fuel s x) (t_cs_update_loop c fuel s' y).
Proof.
  intros c fuel. induction fuel as [|fuel IH]; intros s s' x y H Hx; cbn [t_cs_update_loop];
    rewrite (Rb_len _ _ Hx).
  - destruct (_ <? _); [apply rel_lift; exact I|]. apply rel_ok. now split.
  - destruct (_ <? _); [|apply rel_ok; now split]. rewrite (Rcs_buf_len _ _ H). same.
    eapply rel_bind; [apply rel_lift, slice_rel; exact Hx|]. intros u u' Hu.
    eapply rel_bind; [now apply cs_compress_rel|]. intros t t' Ht.
    eapply rel_bind; [apply rel_lift, slice_from_rel; exact Hx|]. intros z z' Hz. now apply IH.
Qed.

Lemma cs_update_rel : forall c s s' x y, Rcs s s' -> Rb x y ->
  rel Rcs (t_cs_update c s x) (t_cs_update c s' y).
Proof.
  intros c s s' x y H Hx. unfold t_cs_update.
  eapply rel_bind with (R := Rp Rcs Rb).
  - rewrite (Rcs_buf_len _ _ H). destruct (0 <? cs_buf_len s); [|apply rel_ok; now split].
    eapply rel_bind; [apply rel_lift, fill_buf_rel; eauto|]. intros [t z] [t' z'] [Ht Hz]. cbn [fst snd] in *.
    rewrite (Rb_len _ _ Hz). destruct (negb _); [|apply rel_ok; now split].
    rewrite (Rcs_buf_len _ _ Ht). same.
    eapply rel_bind; [apply cs_compress_rel; [exact Ht|now apply Rcs_buf]|]. intros w w' Hw.
    apply rel_ok. split; cbn [fst snd]; [|exact Hz].
    open w w' Hw. cbn [cs_cv cs_key cs_offset cs_count cs_buf cs_buf_len cs_flags cs_platform].
    apply Rcs_intro; auto using Rn_zeros.
  - intros [t z] [t' z'] [Ht Hz]. cbn [fst snd] in *.
    assert (E : length z' = length z) by (pose proof (Rb_len _ _ Hz); unfold len in *; lia). rewrite E.
    eapply rel_bind; [now apply cs_loop_rel|]. intros [u v] [u' v'] [Hu Hv]. cbn [fst snd] in *.
    eapply rel_bind; [apply rel_lift, fill_buf_rel; eauto|]. intros [q w] [q' w'] [Hq Hw]. cbn [fst snd] in *.
    rewrite (Rb_len _ _ Hw), (Rcs_len _ _ Hq). same. same. now apply rel_ok.
Qed.

Lemma cs_finalize_rel : forall c s s' r, Rcs s s' -> relr Ro (cs_finalize c s r) (cs_finalize c s' r).
Proof.
  intros c s s' r H. open s s' H. unfold cs_finalize, cs_maybe_chunk_start_flag.
  cbn [cs_cv cs_key cs_offset cs_count cs_buf cs_buf_len cs_flags cs_platform].
  eapply relr_bind; [apply relr_refl|]. intros _ _ _. now apply Ro_intro.
Qed.
Lemma cs_reset_rel : forall c s s' off, Rcs s s' -> small off ->
  relr Rcs (cs_reset c s off) (cs_reset c s' off).
Proof.
  intros c s s' o H Ho. open s s' H. unfold cs_reset.
  cbn [cs_cv cs_key cs_offset cs_count cs_buf cs_buf_len cs_flags cs_platform].
  eapply relr_bind; [apply relr_refl|]. intros _ _ _. apply Rcs_intro; auto using Rn_zeros.
Qed.

Lemma parent_Ro : forall s s' l l' r r' i, Rcs s s' -> Rn 32 l l' -> Rn 32 r r' ->
  Ro (hash_one_parent (cs_platform s) l r (cs_key s) i (cs_flags s))
     (hash_one_parent (cs_platform s') l' r' (cs_key s') i (cs_flags s')).
Proof.
  intros s s' l l' r r' i H Hl Hr. open s s' H. unfold hash_one_parent. apply Ro_intro; auto.
  - exact (Rn_app 32 32 _ _ _ _ Hl Hr).
  - reflexivity.
Qed.

Lemma merge_parent_rel : forall c h h', Rh h h' -> rel Rh (t_merge_parent c h) (t_merge_parent c h').
Proof.
  intros c h h' [Hs Hc]. unfold t_merge_parent. rewrite (L2_len _ _ _ _ _ Hs). same. same. same.
  eapply rel_bind; [apply rel_lift, L2_index; exact Hs|]. intros l l' Hl.
  eapply rel_bind; [apply rel_lift, L2_index; exact Hs|]. intros r r' Hr.
  eapply rel_bind; [now apply t_to_hash_rel, parent_Ro|]. intros x x' Hx.
  apply rel_ok. split; cbn [h_stack h_chunk]; [|exact Hc]. now apply L2_take, L2_set.
Qed.
Lemma needs_merge_rel : forall h h' n, Rh h h' -> needs_merge h' n = needs_merge h n.
Proof. intros h h' n [Hs _]. unfold needs_merge. now rewrite (L2_len _ _ _ _ _ Hs). Qed.
Lemma merge_loop_rel : forall c fuel h h' off, Rh h h' ->
  rel Rh (t_merge_loop c fuel h off) (t_merge_loop c fuel h' off).
Proof.
  intros c fuel. induction fuel as [|fuel IH]; intros h h' off H; cbn [t_merge_loop];
    rewrite (needs_merge_rel _ _ _ H); destruct (needs_merge h off); try (now apply rel_ok).
  - apply rel_lift. exact I.
  - eapply rel_bind; [now apply merge_parent_rel|]. intros; now apply IH.
Qed.
Lemma push_chunk_rel : forall c h h' x y off, Rh h h' -> Rn 32 x y ->
  rel Rh (t_push_chunk_hash c h x off) (t_push_chunk_hash c h' y off).
Proof.
  intros c h h' x y off H Hx. unfold t_push_chunk_hash. rewrite <- (L2_length _ _ _ _ _ (proj1 H)).
  eapply rel_bind; [now apply merge_loop_rel|]. intros g g' [Hs Hc].
  eapply rel_bind; [apply rel_lift, L2_push; eauto|]. intros t t' Ht. apply rel_ok. now split.
Qed.
Lemma push_batch_rel : forall c xs ys h h', L2 (Rn 32) xs ys -> Rh h h' ->
  rel Rh (t_push_batch c h xs) (t_push_batch c h' ys).
Proof.
  intros c xs ys h h' H. revert h h'. induction H as [|x y xs ys Hx H IH]; intros h h' Hh; cbn [t_push_batch].
  - now apply rel_ok.
  - rewrite (Rcs_off _ _ (proj2 Hh)). eapply rel_bind; [now apply push_chunk_rel|]. intros g g' [Hs Hc].
    rewrite (Rcs_off _ _ Hc). eapply rel_bind; [apply rel_lift, addw_small|]. intros i i' [<- Hi].
    apply IH. split; cbn [h_stack h_chunk]; [exact Hs|].
    destruct (h_chunk g) as [], (h_chunk g') as []. unfold Rcs, Req in *. cbn in *. intuition.
Qed.
Lemma update_chunks_rel : forall c fuel h h' xs ys out out', Rh h h' -> L2 (Rn CHUNK_LEN) xs ys -> Rb out out' ->
  rel Rh (t_update_chunks c fuel h xs out) (t_update_chunks c fuel h' ys out').
Proof.
  intros c fuel. induction fuel as [|fuel IH]; intros h h' xs ys out out' Hh Hx Hout;
    cbn [t_update_chunks];
    pose proof (L2_take _ _ _ (MAX_SIMD_DEGREE c) _ _ Hx) as Ht; rewrite (L2_len _ _ _ _ _ Ht).
  - destruct (_ =? 0); [now apply rel_ok|apply rel_lift; exact I].
  - destruct (_ =? 0); [now apply rel_ok|].
    eapply rel_bind with (R := Rb).
    { destruct Hh as [_ (Hcv & Hkey & [Hoff Hsm] & Hcnt & Hbuf & Hbl & Hfl & Hpl)].
      rewrite <- Hoff, <- Hfl, <- Hpl. apply t_hash_many_rel; auto. }
    intros o o' Ho.
    eapply rel_bind; [apply push_batch_rel; [apply L2_take, (proj1 (chunks_rel OUT_LEN _ _ Ho))|exact Hh]|].
    intros g g' Hg. apply IH; auto. now apply L2_drop.
Qed.

Lemma update_rel : forall c h h' x y, Rh h h' -> Rb x y -> rel Rh (t_update c h x) (t_update c h' y).
Proof.
  intros c h h' x y Hh Hx. unfold t_update.
  rewrite (Rcs_off _ _ (proj2 Hh)), (Rcs_len _ _ (proj2 Hh)), (Rb_len _ _ Hx).
  eapply rel_bind with (R := Rp (Rp Rh Rb) eq).
  - destruct (_ || _); [|apply rel_ok; repeat split; cbn; auto; apply Hh || apply Hx].
    same.
    eapply rel_bind; [apply rel_lift, slice_to_rel; exact Hx|]. intros u u' Hu.
    eapply rel_bind; [apply cs_update_rel; [exact (proj2 Hh)|eapply Rn_b; exact Hu]|]. intros s s' Hs.
    eapply rel_bind; [apply rel_lift, slice_from_rel; exact Hx|]. intros z z' Hz.
    rewrite (Rb_len _ _ Hz). destruct (negb _).
    + rewrite (Rcs_len _ _ Hs). same.
      eapply rel_bind; [apply rel_lift, cs_finalize_rel; exact Hs|]. intros o o' Ho.
      eapply rel_bind; [now apply t_to_hash_rel|]. intros k k' Hk.
      rewrite (Rcs_off _ _ Hs).
      eapply rel_bind; [apply push_chunk_rel; [split; [exact (proj1 Hh)|exact Hs]|exact Hk]|]. intros g g' Hg.
      eapply rel_bind; [apply rel_lift, addw_small|]. intros i i' [<- Hi].
      eapply rel_bind; [apply rel_lift, cs_reset_rel; eauto|]. intros q q' Hq.
      apply rel_ok. split; cbn [fst snd]; [|reflexivity]. split; cbn [fst snd]; [|exact Hz].
      split; [exact (proj1 Hg)|exact Hq].
    + apply rel_ok. split; cbn [fst snd]; [|reflexivity]. split; cbn [fst snd]; [|exact Hz].
      split; [exact (proj1 Hh)|exact Hs].
  - intros [[g z] ret] [[g' z'] ret'] [[Hg Hz] E]. cbn [fst snd] in *. subst ret'.
    destruct ret; [now apply rel_ok|].
    destruct (chunks_rel CHUNK_LEN _ _ Hz) as [H1 H2].
    destruct (chunks_exact CHUNK_LEN z) as [cs r], (chunks_exact CHUNK_LEN z') as [cs' r']. cbn [fst snd] in *.
    rewrite (Rcs_len _ _ (proj2 Hg)). same. rewrite <- (L2_length _ _ _ _ _ H1).
    eapply rel_bind; [apply update_chunks_rel; auto using Rb_zeros|]. intros k k' Hk.
    rewrite (Rcs_len _ _ (proj2 Hk)), (Rb_len _ _ H2). same. same.
    destruct (negb _); [|now apply rel_ok].
    rewrite (Rcs_off _ _ (proj2 Hk)), <- (L2_length _ _ _ _ _ (proj1 Hk)).
    eapply rel_bind; [now apply merge_loop_rel|]. intros q q' Hq.
    eapply rel_bind; [apply cs_update_rel; [exact (proj2 Hq)|exact H2]|]. intros s s' Hs.
    apply rel_ok. split; [exact (proj1 Hq)|exact Hs].
Qed.

Lemma finalize_loop_rel : forall c fuel h h' w w' i, Rh h h' -> Rn 32 w w' ->
  rel Ro (t_finalize_loop c fuel h w i) (t_finalize_loop c fuel h' w' i).
Proof.
  intros c fuel. induction fuel as [|fuel IH]; intros h h' w w' i Hh Hw; cbn [t_finalize_loop].
  - eapply rel_bind; [apply rel_lift, L2_index; exact (proj1 Hh)|]. intros l l' Hl.
    destruct (i =? 0); [apply rel_ok, parent_Ro; auto; exact (proj2 Hh)|apply rel_lift; exact I].
  - eapply rel_bind; [apply rel_lift, L2_index; exact (proj1 Hh)|]. intros l l' Hl.
    destruct (i =? 0); [apply rel_ok, parent_Ro; auto; exact (proj2 Hh)|]. same.
    eapply rel_bind; [apply t_to_hash_rel, parent_Ro; eauto; exact (proj2 Hh)|]. intros x x' Hx. now apply IH.
Qed.

Lemma finalize_xof_rel : forall c h h', Rh h h' -> rel Ro (t_finalize_xof c h) (t_finalize_xof c h').
Proof.
  intros c h h' Hh. unfold t_finalize_xof. destruct Hh as [Hs Hc].
  rewrite (L2_len _ _ _ _ _ Hs). destruct (_ =? 0); [apply rel_lift; now apply cs_finalize_rel|].
  rewrite <- (L2_length _ _ _ _ _ Hs).
  eapply rel_bind with (R := Rp (Rn 32) eq).
  - rewrite (Rcs_len _ _ Hc), (Rcs_off _ _ Hc). destruct (0 <? cs_len _).
    + rewrite (needs_merge_rel h h' _ (conj Hs Hc)). same.
      eapply rel_bind; [apply rel_lift, cs_finalize_rel; exact Hc|]. intros o o' Ho. same.
      eapply rel_bind; [now apply t_to_hash_rel|]. intros k k' Hk. apply rel_ok. now split.
    + same. same. eapply rel_bind; [apply rel_lift, L2_index; exact Hs|]. intros l l' Hl. same.
      apply rel_ok. now split.
  - intros [w i] [w' i'] [Hw E]. cbn [fst snd] in *. subst i'. apply finalize_loop_rel; auto. now split.
Qed.

Lemma start_Rh : forall p m m', mode_ok m -> mode_ok m' -> same_kind m m' -> Rh (start p m) (start p m').
Proof.
  intros p m m' M M' K. pose proof (mode_Rk m m' M M') as Hk.
  destruct m, m'; cbn [same_kind] in K; try contradiction;
    (split; [constructor|]); cbn [start h_chunk hasher_new hasher_new_keyed hasher_new_derive_key new_internal cs_new];
    apply Rcs_intro; auto using Rn_zeros; reflexivity.
Qed.

Lemma feed_rel : forall c xs ys h h', L2 Rb xs ys -> Rh h h' -> rel Rh (t_feed c h xs) (t_feed c h' ys).
Proof.
  intros c xs ys h h' H. revert h h'. induction H as [|x y xs ys Hx H IH]; intros h h' Hh; cbn [t_feed].
  - now apply rel_ok.
  - eapply rel_bind; [now apply update_rel|]. intros; now apply IH.
Qed.

Lemma reads_rel : forall c n o o', Ro o o' -> rel (Rp (L2 Rb) Ro) (t_reads c n o) (t_reads c n o').
Proof.
  intros c n. induction n as [|n IH]; intros o o' H; cbn [t_reads].
  - apply rel_ok. split; [constructor|exact H].
  - eapply rel_bind; [now apply t_read_rel|]. intros [b q] [b' q'] [Hb Hq]. cbn [fst snd] in *.
    eapply rel_bind; [now apply IH|]. intros [bs r] [bs' r'] [Hbs Hr]. cbn [fst snd] in *.
    apply rel_ok. split; cbn; [now constructor|exact Hr].
Qed.

(* ---- programs ---- *)

Lemma L2_lens : forall xs ys, map len xs = map len ys -> bytes (concat xs) -> bytes (concat ys) -> L2 Rb xs ys.
Proof.
  induction xs as [|x xs IH]; intros [|y ys] E B B'; try discriminate E; constructor.
  - cbn [map concat] in *. injection E as E1 E2. apply bytes_app in B, B'. split; [exact E1|tauto].
  - cbn [map concat] in *. injection E as E1 E2. apply bytes_app in B, B'. apply IH; tauto.
Qed.

Lemma root_rel : forall c p m m' g g', mode_ok m -> mode_ok m' -> same_kind m m' ->
  bytes (data g) -> bytes (data g') -> same_lengths g g' -> rel Ro (t_root c p m g) (t_root c p m' g').
Proof.
  intros c p m m' g g' M M' K B B' L.
  destruct g as [x|xs], g' as [y|ys]; cbn [same_lengths] in L; try contradiction; cbn [t_root data] in *.
  - apply oneshot_xof_rel; auto. now split.
  - unfold t_stream_xof. eapply rel_bind; [apply feed_rel; [now apply L2_lens|now apply start_Rh]|].
    intros; now apply finalize_xof_rel.
Qed.
Lemma hash_root : forall c p m g s, t_hash c p m g s = tbind (t_root c p m g) t_to_hash s.
Proof.
  intros c p m [x|xs] s; [reflexivity|]. cbn [t_hash t_root]. unfold t_stream, t_stream_xof, t_finalize, tbind.
  destruct (t_feed c (start p m) xs s) as [t [h| |]]; reflexivity.
Qed.

Lemma rel_observed : forall A A' (R : A -> A' -> Prop) m m', rel R m m' -> observed (m []) = observed (m' []).
Proof.
  intros * H. destruct (H [] [] eq_refl) as [E K]. unfold observed. rewrite E. f_equal.
  destruct (snd (m [])), (snd (m' [])); cbn in *; contradiction || reflexivity.
Qed.

Lemma program_observed : forall c p m m' g g' n, mode_ok m -> mode_ok m' -> same_kind m m' ->
  bytes (data g) -> bytes (data g') -> same_lengths g g' ->
  observed (t_hash c p m g []) = observed (t_hash c p m' g' []) /\
  observed (t_xof c p m g n []) = observed (t_xof c p m' g' n []).
Proof.
  intros. rewrite !hash_root. split.
  - eapply rel_observed. eapply rel_bind; [now apply root_rel|]. intros o o' Ho. now apply t_to_hash_rel.
  - eapply rel_observed. unfold t_xof. eapply rel_bind; [now apply root_rel|]. intros o o' Ho. now apply reads_rel.
Qed.
