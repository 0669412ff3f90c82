(* hash_many at every offset. *)
From Coq Require Import NArith List Bool Lia ZArith.
From Coq Require Import ZifyBool ZifyNat ZifyN.
From Verif Require Import Base BaseFacts Spec Simd SimdGen SimdHash CompressFacts SimdFacts.
From Verif Require Import RowFacts RowCompress ManySpec ManyFacts WrapSpec.
From Verif Require Portable Sse41 Avx2 Platform.
Import ListNotations.
Open Scope N_scope.

Notation F := blake_compress.
Notation WF := (wrapped blake_compress).

Lemma wrapped_blocks : forall bs cv off bf flags fe,
  many_blocks WF cv off bf flags fe bs = many_blocks F cv (off mod W64) bf flags fe bs.
Proof.
  induction bs as [|b bs IH]; intros; cbn [many_blocks]; [reflexivity|]. rewrite IH. reflexivity.
Qed.

Lemma wrapped_one : forall key flags fs fe off i,
  hash_one WF key flags fs fe off i = hash_one F key flags fs fe (off mod W64) i.
Proof. intros. unfold hash_one. now rewrite wrapped_blocks. Qed.

Lemma mod64 : forall a, a mod W64 < W64.
Proof. intros. apply N.mod_lt. discriminate. Qed.

Lemma mod64_add : forall a b, ((a mod W64 + b) mod W64) = (a + b) mod W64.
Proof. intros. apply N.add_mod_idemp_l. discriminate. Qed.

Lemma hash_all_mod : forall key flags fs fe delta inputs off,
  hash_all WF key flags fs fe (off mod W64) delta inputs = hash_all WF key flags fs fe off delta inputs.
Proof.
  intros key flags fs fe delta. induction inputs as [|i r IH]; intros off; cbn [hash_all]; [reflexivity|].
  rewrite !wrapped_one, N.mod_mod by discriminate. f_equal.
  rewrite <- IH, mod64_add. apply IH.
Qed.

Lemma hash_all_small : forall key flags fs fe delta inputs off,
  off + len inputs * delta < W64 + delta ->
  hash_all WF key flags fs fe off delta inputs = hash_all F key flags fs fe off delta inputs.
Proof.
  intros key flags fs fe delta. induction inputs as [|i r IH]; intros off H; cbn [hash_all]; [reflexivity|].
  rewrite len_cons in H. rewrite wrapped_one, N.mod_small by nia. f_equal. apply IH. nia.
Qed.

(* ---- one at a time ---- *)

Lemma add64_any : forall c a b,
  (add64 c a b = Ok ((a + b) mod W64) /\ (dbg c = true -> a + b < W64)) \/
  (add64 c a b = Panic /\ dbg c = true /\ W64 <= a + b).
Proof.
  intros c a b. unfold add64, addw. destruct (dbg c) eqn:D; cbn [andb].
  - destruct (N.leb_spec W64 (a + b)); auto.
  - left. split; auto. discriminate.
Qed.

Lemma mul64_any : forall c a b,
  (mul64 c a b = Ok ((a * b) mod W64) /\ (dbg c = true -> a * b < W64)) \/
  (mul64 c a b = Panic /\ dbg c = true /\ W64 <= a * b).
Proof.
  intros c a b. unfold mul64, mulw. destruct (dbg c) eqn:D; cbn [andb].
  - destruct (N.leb_spec W64 (a * b)); auto.
  - left. split; auto. discriminate.
Qed.

Lemma many_panic : forall c key flags fs fe off delta inputs out,
  dbg c = true -> W64 <= off + len inputs * delta ->
  many_result c key flags fs fe off delta inputs out = Panic.
Proof.
  intros * D H. unfold many_result. change (2 ^ 64) with W64. rewrite D. cbn [andb].
  now rewrite (proj2 (N.leb_le _ _)) by exact H.
Qed.

(* The first n inputs, then the rest at the wrapped offset. *)
Lemma many_split : forall c key flags fs fe off delta a b out,
  (dbg c = true -> off + len a * delta < W64) ->
  many_result c key flags fs fe off delta (a ++ b) out
  = (let* out' := many_result c key flags fs fe ((off + len a * delta) mod W64) delta b (drop (32 * len a) out) in
     Ok (concat (hash_all WF key flags fs fe off delta a) ++ out')).
Proof.
  intros c key flags fs fe off delta a b out H. unfold many_result. change (2 ^ 64) with W64.
  rewrite hash_all_mod, hash_all_app, len_app, drop_drop.
  destruct (dbg c) eqn:D; cbn [andb].
  - rewrite (N.mod_small (off + len a * delta)) by auto.
    replace (off + (len a + len b) * delta) with (off + len a * delta + len b * delta) by nia.
    destruct (W64 <=? off + len a * delta + len b * delta); cbn [bind]; [reflexivity|].
    rewrite concat_app, <- app_assoc. do 4 f_equal. lia.
  - cbn [bind]. rewrite concat_app, <- app_assoc. do 4 f_equal. lia.
Qed.

Lemma hash_each_any : forall c h1 key flags fs fe delta inputs off out,
  (forall i o, In i inputs -> o < W64 -> h1 i o = Ok (hash_one F key flags fs fe o i)) ->
  32 * len inputs <= len out -> off < W64 ->
  Portable.hash_each c h1 inputs off delta out = many_result c key flags fs fe off delta inputs out.
Proof.
  intros c h1 key flags fs fe delta inputs.
  induction inputs as [|i r IH]; intros off out H Ho Hoff; cbn [Portable.hash_each].
  - unfold many_result. change (2 ^ 64) with W64. rewrite len_nil, N.mul_0_l, N.add_0_r.
    rewrite (proj2 (N.leb_gt _ _)) by exact Hoff. rewrite andb_false_r.
    cbn [hash_all concat app]. now rewrite N.mul_0_r, drop_0.
  - rewrite len_cons in *. unfold Portable.OUT_LEN.
    rewrite (proj2 (N.leb_le _ _)) by lia.
    rewrite H; [|now left|exact Hoff]. cbn [bind].
    destruct (add64_any c off delta) as [[E L]|(E & D & L)]; rewrite E; cbn [bind].
    + change (i :: r) with ([i] ++ r). rewrite many_split by (rewrite len_cons, len_nil, N.add_0_r, N.mul_1_l; exact L).
      rewrite IH; [|intros; apply H; [now right|auto]|lenlia|apply mod64].
      rewrite len_cons, len_nil, N.add_0_r, N.mul_1_l. cbn [hash_all concat].
      rewrite wrapped_one, (N.mod_small off) by exact Hoff. rewrite app_nil_r. reflexivity.
    + rewrite many_panic; auto. rewrite len_cons. nia.
Qed.

(* ---- several inputs at once ---- *)

Lemma seq_res_panic : forall A (l : list (res A)), (forall r, In r l -> r = Panic \/ exists x, r = Ok x) ->
  In Panic l -> seq_res l = Panic.
Proof.
  induction l as [|r l IH]; intros H I; [contradiction|]. cbn [seq_res].
  destruct (H r) as [->|[x ->]]; [now left|reflexivity|]. cbn [bind].
  destruct I as [I|I]; [discriminate|]. rewrite IH; auto. intros; apply H. now right.
Qed.

Lemma lane_offsets_any : forall c n off delta,
  lane_offsets c n off delta = Ok (map (fun i => (off + N.of_nat i * delta) mod W64) (seq 0 n)) \/
  (lane_offsets c n off delta = Panic /\ dbg c = true /\ W64 <= off + N.of_nat n * delta).
Proof.
  intros c n off delta. unfold lane_offsets.
  assert (R : forall i, (let* d := mul64 c (N.of_nat i) delta in add64 c off d)
    = Ok ((off + N.of_nat i * delta) mod W64) \/
    ((let* d := mul64 c (N.of_nat i) delta in add64 c off d) = Panic /\ dbg c = true /\
     W64 <= off + N.of_nat i * delta)).
  { intros i. destruct (mul64_any c (N.of_nat i) delta) as [[E L]|(E & D & L)]; rewrite E; cbn [bind].
    - destruct (add64_any c off ((N.of_nat i * delta) mod W64)) as [[E' L']|(E' & D & L')]; rewrite E'.
      + left. f_equal. apply N.add_mod_idemp_r. discriminate.
      + right. rewrite N.mod_small in L' by auto. auto.
    - right. split; auto. split; auto. lia. }
  destruct (Exists_dec (fun i => (let* d := mul64 c (N.of_nat i) delta in add64 c off d) = Panic) (seq 0 n))
    as [X|X].
  { intros i. destruct (let* d := mul64 c (N.of_nat i) delta in add64 c off d); [right|left|right]; congruence. }
  - right. apply Exists_exists in X. destruct X as (i & Hi & E). split.
    + apply seq_res_panic.
      * intros r Hr. apply in_map_iff in Hr. destruct Hr as (j & <- & _).
        destruct (R j) as [->|[-> _]]; eauto.
      * apply in_map_iff. eauto.
    + apply in_seq in Hi. destruct (R i) as [E'|(_ & D & L)]; [congruence|]. split; auto. nia.
  - left. rewrite <- seq_res_ok, map_map. f_equal. apply map_ext_in. intros i Hi.
    destruct (R i) as [E|(E & _)]; auto. exfalso. apply X. apply Exists_exists. eauto.
Qed.

Lemma offs_lanes_any : forall n (g : nat -> N) f i, (i < n)%nat ->
  lane_of i (map f (map g (seq 0 n))) = f (g i).
Proof.
  intros. unfold lane_of. rewrite map_map.
  rewrite (nth_indep _ 0 (f (g 0%nat))) by (rewrite map_length, seq_length; exact H).
  rewrite (map_nth (fun i => f (g i))). now rewrite seq_nth.
Qed.

Lemma hash_all_lanes_any : forall G key flags fs fe delta n inputs off, length inputs = n ->
  hash_all G key flags fs fe off delta inputs
  = map (fun i => hash_one G key flags fs fe (off + N.of_nat i * delta) (nth i inputs [])) (seq 0 n).
Proof.
  intros G key flags fs fe delta n. induction n; intros [|x inputs] off H; try discriminate H; [reflexivity|].
  cbn [hash_all seq map nth]. change (N.of_nat 0) with 0. rewrite N.mul_0_l, N.add_0_r. f_equal.
  rewrite (IHn inputs) by (cbn in H; lia). rewrite <- seq_shift, map_map.
  apply map_ext. intros i. cbn [nth]. f_equal. lia.
Qed.

Lemma lane_results_any : forall n inputs cap key off delta flags fs fe h',
  length inputs = n -> Forall (fun i => len i = cap /\ bytes i) inputs -> length key = 8%nat ->
  (forall i, (i < n)%nat ->
      lanes i h' = many_blocks F
                     (lanes i (map (fun k => set1_epi32 n (get key k)) (seq 0 8)))
                     ((off + N.of_nat i * delta) mod W64) (N.lor flags fs) flags fe
                     (blks (N.to_nat (cap / 64)) (drop (64 * 0) (nth i inputs [])))) ->
  concat (map (fun i => bytes_of_words (lanes i h')) (seq 0 n))
  = concat (hash_all WF key flags fs fe off delta inputs).
Proof.
  intros n inputs cap key off delta flags fs fe h' Li Fi Lk H. f_equal.
  rewrite (hash_all_lanes_any WF key flags fs fe delta n) by exact Li.
  apply map_ext_in. intros i Hi. apply in_seq in Hi. rewrite H by lia.
  rewrite key_lanes by (auto; lia). rewrite wrapped_one. unfold hash_one. rewrite N.mul_0_r, drop_0.
  rewrite Forall_forall in Fi. rewrite (proj1 (Fi (nth i inputs []) ltac:(apply nth_In; lia))).
  reflexivity.
Qed.

Definition batch_any (c : cfg) (degree : N) key flags fs fe delta cap
  (hashN : list (list N) -> N -> res (list N)) : Prop :=
  forall inputs off, len inputs = degree -> Forall (fun i => len i = cap /\ bytes i) inputs ->
  off < W64 ->
  hashN inputs off = Ok (concat (hash_all WF key flags fs fe off delta inputs)) \/
  (hashN inputs off = Panic /\ dbg c = true /\ W64 <= off + degree * delta).

Lemma sse41_hash4_any : forall c cap key delta flags fs fe,
  cap mod 64 = 0 -> length key = 8%nat ->
  batch_any c 4 key flags fs fe delta cap
    (fun inputs off => Sse41.hash4 c inputs (cap / 64) key off delta flags fs fe).
Proof.
  intros c cap key delta flags fs fe Hc Lk inputs off Li Fi Ho. cbn beta.
  unfold Sse41.hash4, Sse41.load_offsets.
  destruct (lane_offsets_any c 4 off delta) as [E0|(E0 & D & L)]; rewrite E0; cbn [bind]; [left|auto].
  set (offs := map (fun i => (off + N.of_nat i * delta) mod W64) (seq 0 4)).
  destruct (vec_hash_loop_ok 4 Sse41.ops sse41_lanewise ltac:(lia) inputs
              (Sse41.transpose_msg_vecs inputs) cap) with (todo := N.to_nat (cap / 64)) (block := 0)
              (blocks := cap / 64) (h := map (fun i => set1_epi32 4 (get key i)) (seq 0 8))
              (lo := map Portable.offset_low offs) (hi := map Portable.offset_high offs)
              (off := fun i => (off + N.of_nat i * delta) mod W64)
              (bf := N.lor flags fs) (flags := flags) (fe := fe)
    as (h' & E & L' & F' & X); try reflexivity.
  - destruct (list4 _ inputs (len_length _ _ _ Li)) as (i0 & i1 & i2 & i3 & ->).
    repeat match goal with H : Forall _ (_ :: _) |- _ => inversion H; clear H; subst
                    | H : Forall _ [] |- _ => clear H
                    | H : _ /\ _ |- _ => destruct H end.
    intros bo Hbo. eapply sse41_load; eauto.
  - lia.
  - lia.
  - apply key_vn.
  - intros i Hi. unfold offs. now rewrite offs_lanes_any.
  - intros i Hi. unfold offs. rewrite offs_lanes_any by auto. apply offset_high_div. apply mod64.
  - rewrite E. cbn [bind]. rewrite sse41_store by auto. f_equal.
    eapply lane_results_any; eauto. now apply (len_length _ _ 4).
Qed.

Lemma avx2_hash8_any : forall c cap key delta flags fs fe,
  cap mod 64 = 0 -> length key = 8%nat ->
  batch_any c 8 key flags fs fe delta cap
    (fun inputs off => Avx2.hash8 c inputs (cap / 64) key off delta flags fs fe).
Proof.
  intros c cap key delta flags fs fe Hc Lk inputs off Li Fi Ho. cbn beta.
  unfold Avx2.hash8, Avx2.load_offsets.
  destruct (lane_offsets_any c 8 off delta) as [E0|(E0 & D & L)]; rewrite E0; cbn [bind]; [left|auto].
  set (offs := map (fun i => (off + N.of_nat i * delta) mod W64) (seq 0 8)).
  change avx2_round_code with sse41_round_code.
  destruct (vec_hash_loop_ok 8 Avx2.ops avx2_lanewise ltac:(lia) inputs
              (Avx2.transpose_msg_vecs inputs) cap) with (todo := N.to_nat (cap / 64)) (block := 0)
              (blocks := cap / 64) (h := map (fun i => set1_epi32 8 (get key i)) (seq 0 8))
              (lo := map Portable.offset_low offs) (hi := map Portable.offset_high offs)
              (off := fun i => (off + N.of_nat i * delta) mod W64)
              (bf := N.lor flags fs) (flags := flags) (fe := fe)
    as (h' & E & L' & F' & X); try reflexivity.
  - intros bo Hbo. eapply avx2_load; eauto.
    + now apply (len_length _ _ 8).
    + eapply Forall_impl; [|exact Fi]. cbn. tauto.
  - lia.
  - lia.
  - apply key_vn.
  - intros i Hi. unfold offs. now rewrite offs_lanes_any.
  - intros i Hi. unfold offs. rewrite offs_lanes_any by auto. apply offset_high_div. apply mod64.
  - rewrite E. cbn [bind]. rewrite avx2_store by auto. f_equal.
    eapply lane_results_any; eauto. now apply (len_length _ _ 8).
Qed.

Lemma batch_loop_any : forall c degree hashN rest key flags fs fe delta cap,
  0 < degree -> batch_any c degree key flags fs fe delta cap hashN ->
  (forall inputs off out, Forall (fun i => len i = cap /\ bytes i) inputs ->
     32 * len inputs <= len out -> off < W64 ->
     rest inputs off out = many_result c key flags fs fe off delta inputs out) ->
  forall fuel inputs off out, (length inputs <= fuel)%nat ->
  Forall (fun i => len i = cap /\ bytes i) inputs ->
  32 * len inputs <= len out -> off < W64 ->
  batch_loop c fuel degree hashN rest inputs off delta out
  = many_result c key flags fs fe off delta inputs out.
Proof.
  intros c degree hashN rest key flags fs fe delta cap Hd HN HR.
  induction fuel as [|fuel IH]; intros inputs off out Hf Fi Lo Ho.
  - destruct inputs; [|cbn in Hf; lia]. cbn [batch_loop].
    rewrite (proj2 (N.leb_gt _ _)) by (rewrite len_nil; lia). cbn [andb]. now apply HR.
  - cbn [batch_loop].
    destruct (N.leb_spec degree (len inputs)) as [Hle|Hgt]; cbn [andb]; [|now apply HR].
    unfold Portable.OUT_LEN. rewrite (proj2 (N.leb_le _ _)) by lia.
    assert (T : len (take degree inputs) = degree) by lenlia.
    assert (D : len (drop degree inputs) = len inputs - degree) by lenlia.
    assert (M : len inputs * delta = degree * delta + (len inputs - degree) * delta) by nia.
    destruct (HN (take degree inputs) off T (Forall_take _ _ _ _ Fi) Ho) as [E|(E & Db & L)]; rewrite E; cbn [bind].
    2: { rewrite many_panic; auto. lia. }
    destruct (mul64_any c degree delta) as [[E1 L1]|(E1 & Db & L1)]; rewrite E1; cbn [bind].
    2: { rewrite many_panic; auto. lia. }
    destruct (add64_any c off ((degree * delta) mod W64)) as [[E2 L2]|(E2 & Db & L2)]; rewrite E2; cbn [bind].
    2: { rewrite N.mod_small in L2 by auto. rewrite many_panic; auto. lia. }
    rewrite <- (take_drop _ degree inputs) at 2.
    rewrite many_split.
    2: { rewrite T. intros Db. specialize (L2 Db). now rewrite N.mod_small in L2 by auto. }
    rewrite T. rewrite N.add_mod_idemp_r by discriminate.
    rewrite IH; [|unfold len in *; lia|now apply Forall_drop|lenlia|apply mod64].
    now replace (degree * 32) with (32 * degree) by lia.
Qed.

Lemma sse41_many_any : forall c cap inputs key off delta flags fs fe out,
  cap mod 64 = 0 -> Forall (fun i => len i = cap /\ bytes i) inputs ->
  length key = 8%nat -> words key -> 32 * len inputs <= len out -> off < W64 ->
  Sse41.hash_many c cap inputs key off delta flags fs fe out
  = many_result c key flags fs fe off delta inputs out.
Proof.
  intros c cap inputs key off delta flags fs fe out Hc Fi Lk Wk Lo Ho.
  unfold Sse41.hash_many. rewrite dassert_ok by (unfold Portable.OUT_LEN; apply N.leb_le; lia).
  cbn [bind]. apply batch_loop_any with (cap := cap); auto.
  - reflexivity.
  - now apply sse41_hash4_any.
  - intros ins o ou Fins Lou Hou. apply hash_each_any; auto.
    intros i oo Hi Hoo. unfold Sse41.hash1. rewrite Forall_forall in Fins. destruct (Fins i Hi) as [Ei Bi].
    rewrite dassert_ok by (unfold Portable.BLOCK_LEN; apply N.eqb_eq; now rewrite Ei). cbn [bind].
    apply loop_hash_one; auto; [apply sse41_comp_ok|now rewrite Ei].
Qed.

Lemma hash_many_any : forall c p cap inputs key off delta flags fs fe out,
  cap mod 64 = 0 -> Forall (fun i => len i = cap /\ bytes i) inputs ->
  length key = 8%nat -> words key -> 32 * len inputs <= len out -> off < 2 ^ 64 ->
  Platform.hash_many c p cap inputs key off delta flags fs fe out
  = many_result c key flags fs fe off delta inputs out.
Proof.
  intros c p cap inputs key off delta flags fs fe out Hc Fi Lk Wk Lo Ho.
  change (2 ^ 64) with W64 in Ho. destruct p; unfold Platform.hash_many.
  - unfold Portable.hash_many. rewrite dassert_ok by (unfold Portable.OUT_LEN; apply N.leb_le; lia).
    cbn [bind]. apply hash_each_any; auto.
    intros i oo Hi Hoo. unfold Portable.hash1. rewrite Forall_forall in Fi. destruct (Fi i Hi) as [Ei Bi].
    rewrite dassert_ok by (unfold Portable.BLOCK_LEN; apply N.eqb_eq; now rewrite Ei). cbn [bind].
    apply loop_hash_one; auto; [apply portable_comp_ok|now rewrite Ei].
  - now apply sse41_many_any.
  - unfold Avx2.hash_many. rewrite dassert_ok by (unfold Portable.OUT_LEN; apply N.leb_le; lia).
    cbn [bind]. apply batch_loop_any with (cap := cap); auto.
    + reflexivity.
    + now apply avx2_hash8_any.
    + intros. now apply sse41_many_any.
Qed.
