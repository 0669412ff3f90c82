(* The Python implementation computes the specified function. *)
From Coq Require Import NArith List Bool Lia ZArith.
From Coq Require Import ZifyBool ZifyNat ZifyN.
From Verif Require Import Base BaseFacts Spec ManySpec WrapSpec TreeFacts CompressFacts ManyFacts SpecFacts SplitFacts.
From Verif Require Import Platform Lib LibFacts HasherFacts SessionSpec Session ApiFacts OneShotFacts RefImpl RefFacts PyImpl.
Import ListNotations.
Open Scope N_scope.

(* ---- arithmetic ---- *)

Lemma y_add_ok : forall a b, y_wrapping_add a b = add32 a b.
Proof.
  intros a b. unfold y_wrapping_add, add32. change y_WORD_MAX with (N.ones 32).
  rewrite N.land_ones. reflexivity.
Qed.

Lemma y_mask : forall x, N.land x y_WORD_MAX = x mod W32.
Proof. intros x. change y_WORD_MAX with (N.ones 32). now rewrite N.land_ones. Qed.

Lemma y_rotr_ok : forall x n, word x -> y_rotate_right x n = rotr32 x n.
Proof.
  intros x n H. unfold y_rotate_right, rotr32, word, y_WORD_BITS in *.
  rewrite N.land_lor_distr_l, !y_mask. rewrite (N.mod_small x W32) by exact H.
  rewrite (N.mod_small (N.shiftr x n)); [reflexivity|].
  rewrite N.shiftr_div_pow2. apply N.le_lt_trans with x; [|exact H].
  pose proof (pow2_pos n). apply N.div_le_upper_bound; [lia|]. nia.
Qed.

Lemma words_get : forall l i, words l -> word (get l i).
Proof.
  intros l i H. unfold get. destruct (Nat.lt_ge_cases i (length l)) as [L|G].
  - unfold words in H. rewrite Forall_forall in H. apply H. now apply nth_In.
  - rewrite nth_overflow by exact G. unfold word, W32. lia.
Qed.
Lemma words_set : forall l i v, words l -> word v -> words (set_nth l i v).
Proof.
  induction l as [|x l IH]; intros [|i] v H V; cbn [set_nth]; auto; inversion H; subst;
    constructor; auto. now apply IH.
Qed.

Lemma y_g_ok : forall v a b c d x y, words v ->
  y_g v a b c d x y = r_g v a b c d x y /\ words (r_g v a b c d x y).
Proof.
  intros v a b c d x y W. unfold y_g, r_g.
  assert (E : forall p q r, y_wrapping_add p (y_wrapping_add q r) = add32 (add32 p q) r).
  { intros. rewrite !y_add_ok. apply add32_assoc. }
  rewrite !E.
  assert (W1 : words (set_nth v a (add32 (add32 (get v a) (get v b)) x)))
    by (apply words_set; [exact W|apply add32_word]).
  set (v1 := set_nth v a (add32 (add32 (get v a) (get v b)) x)) in *. clearbody v1. clear W.
  rewrite (y_rotr_ok (N.lxor (get v1 d) (get v1 a))) by (apply xor32_word; now apply words_get).
  change (N.lxor (get v1 d) (get v1 a)) with (xor32 (get v1 d) (get v1 a)).
  assert (W2 : words (set_nth v1 d (rotr32 (xor32 (get v1 d) (get v1 a)) 16)))
    by (apply words_set; [exact W1|apply rotr32_word]).
  set (v2 := set_nth v1 d (rotr32 (xor32 (get v1 d) (get v1 a)) 16)) in *. clearbody v2. clear v1 W1.
  rewrite (y_add_ok (get v2 c) (get v2 d)).
  assert (W3 : words (set_nth v2 c (add32 (get v2 c) (get v2 d))))
    by (apply words_set; [exact W2|apply add32_word]).
  set (v3 := set_nth v2 c (add32 (get v2 c) (get v2 d))) in *. clearbody v3. clear v2 W2.
  rewrite (y_rotr_ok (N.lxor (get v3 b) (get v3 c))) by (apply xor32_word; now apply words_get).
  change (N.lxor (get v3 b) (get v3 c)) with (xor32 (get v3 b) (get v3 c)).
  assert (W4 : words (set_nth v3 b (rotr32 (xor32 (get v3 b) (get v3 c)) 12)))
    by (apply words_set; [exact W3|apply rotr32_word]).
  set (v4 := set_nth v3 b (rotr32 (xor32 (get v3 b) (get v3 c)) 12)) in *. clearbody v4. clear v3 W3.
  assert (W5 : words (set_nth v4 a (add32 (add32 (get v4 a) (get v4 b)) y)))
    by (apply words_set; [exact W4|apply add32_word]).
  set (v5 := set_nth v4 a (add32 (add32 (get v4 a) (get v4 b)) y)) in *. clearbody v5. clear v4 W4.
  rewrite (y_rotr_ok (N.lxor (get v5 d) (get v5 a))) by (apply xor32_word; now apply words_get).
  change (N.lxor (get v5 d) (get v5 a)) with (xor32 (get v5 d) (get v5 a)).
  assert (W6 : words (set_nth v5 d (rotr32 (xor32 (get v5 d) (get v5 a)) 8)))
    by (apply words_set; [exact W5|apply rotr32_word]).
  set (v6 := set_nth v5 d (rotr32 (xor32 (get v5 d) (get v5 a)) 8)) in *. clearbody v6. clear v5 W5.
  rewrite (y_add_ok (get v6 c) (get v6 d)).
  assert (W7 : words (set_nth v6 c (add32 (get v6 c) (get v6 d))))
    by (apply words_set; [exact W6|apply add32_word]).
  set (v7 := set_nth v6 c (add32 (get v6 c) (get v6 d))) in *. clearbody v7. clear v6 W6.
  rewrite (y_rotr_ok (N.lxor (get v7 b) (get v7 c))) by (apply xor32_word; now apply words_get).
  split; [reflexivity|]. apply words_set; [exact W7|apply rotr32_word].
Qed.

Lemma y_round_ok : forall v m s, words v -> y_round v m s = r_round v m s /\ words (r_round v m s).
Proof.
  intros v m s W. unfold y_round, r_round.
  destruct (y_g_ok v 0 4 8 12 (get m (nth 0 s O)) (get m (nth 1 s O)) W) as [-> W1].
  destruct (y_g_ok _ 1 5 9 13 (get m (nth 2 s O)) (get m (nth 3 s O)) W1) as [-> W2].
  destruct (y_g_ok _ 2 6 10 14 (get m (nth 4 s O)) (get m (nth 5 s O)) W2) as [-> W3].
  destruct (y_g_ok _ 3 7 11 15 (get m (nth 6 s O)) (get m (nth 7 s O)) W3) as [-> W4].
  destruct (y_g_ok _ 0 5 10 15 (get m (nth 8 s O)) (get m (nth 9 s O)) W4) as [-> W5].
  destruct (y_g_ok _ 1 6 11 12 (get m (nth 10 s O)) (get m (nth 11 s O)) W5) as [-> W6].
  destruct (y_g_ok _ 2 7 8 13 (get m (nth 12 s O)) (get m (nth 13 s O)) W6) as [-> W7].
  destruct (y_g_ok _ 3 4 9 14 (get m (nth 14 s O)) (get m (nth 15 s O)) W7) as [-> W8].
  split; [reflexivity|exact W8].
Qed.

Lemma fold_inv : forall (A B : Type) (P : A -> Prop) (f g : A -> B -> A) l v, P v ->
  (forall x r, P x -> f x r = g x r /\ P (g x r)) -> fold_left f l v = fold_left g l v.
Proof.
  induction l as [|r l IH]; intros v H E; cbn [fold_left]; [reflexivity|].
  destruct (E v r H) as [-> H']. now apply IH.
Qed.

Lemma y_rounds_ok : forall m rs v, words v ->
  fold_left (fun st r => y_round st m (nth r y_MSG_SCHEDULE [])) rs v
  = fold_left (fun st r => r_round st m (nth r r_MSG_SCHEDULE [])) rs v.
Proof.
  intros m rs v W. rewrite (eq_refl : r_MSG_SCHEDULE = y_MSG_SCHEDULE).
  apply (fold_inv _ _ words); [exact W|]. intros x r H. apply y_round_ok. exact H.
Qed.

(* ---- words and bytes ---- *)

Lemma y_words_ok : forall buf, y_words_from_bytes buf = words_of_bytes buf.
Proof.
  intros buf. unfold y_words_from_bytes, y_WORD_BYTES.
  induction buf as [l Hl|a b c d r IH] using list4_ind.
  - replace (len l / 4) with 0 by (unfold len; lia). cbn [N.to_nat seq map].
    destruct l as [|a [|b [|c [|d r]]]]; cbn in Hl |- *; try reflexivity; lia.
  - cbn [words_of_bytes]. rewrite <- IH.
    replace (N.to_nat (len (a :: b :: c :: d :: r) / 4)) with (S (N.to_nat (len r / 4)))
      by (rewrite !len_cons; lia).
    cbn [seq map]. rewrite <- seq_shift, map_map. f_equal.
    + change (take ((N.of_nat 0 + 1) * 4 - N.of_nat 0 * 4) (drop (N.of_nat 0 * 4) (a :: b :: c :: d :: r)))
        with [a; b; c; d]. cbn [y_from_bytes]. unfold word32. lia.
    + apply map_ext. intros i. f_equal.
      replace (N.of_nat (S i) * 4) with (N.of_nat i * 4 + 4) by lia.
      rewrite <- drop_drop. change (drop 4 (a :: b :: c :: d :: r)) with r. f_equal. lia.
Qed.

Lemma y_bytes_ok : forall ws, words ws -> y_bytes_from_words ws = Ok (bytes_of_words ws).
Proof.
  induction ws as [|w ws IH]; intros H; [reflexivity|]. inversion H as [|? ? Hw Hs]; subst.
  cbn [y_bytes_from_words]. change (2 ^ (8 * y_WORD_BYTES)) with W32.
  rewrite (proj2 (N.ltb_lt _ _)) by exact Hw. rewrite IH by auto. reflexivity.
Qed.

(* ---- compression ---- *)

Lemma get_firstn8 : forall l i, (i < 8)%nat -> get (firstn 8 l) i = get l i.
Proof.
  assert (X : forall n l i, (i < n)%nat -> nth i (firstn n l) 0 = nth i l 0).
  { induction n as [|n IH]; intros l i H; [lia|]. destruct l as [|x l]; [reflexivity|].
    destruct i as [|i]; [reflexivity|]. cbn [firstn nth]. apply IH. lia. }
  intros l i H. apply X. exact H.
Qed.

Lemma fold_in : forall (A B : Type) (f g : A -> B -> A) l v,
  (forall x r, In r l -> f x r = g x r) -> fold_left f l v = fold_left g l v.
Proof.
  induction l as [|r l IH]; intros v E; cbn [fold_left]; [reflexivity|].
  rewrite E by (left; reflexivity). apply IH. intros x q Hq. apply E. right. exact Hq.
Qed.

(* The compression function with offsets modulo 2^64, as in the specification WrapSpec. *)
Notation WF := (wrapped blake_compress).

Lemma low_mod : forall x, x mod W32 = (x mod W64) mod W32.
Proof.
  intros x. change W64 with (W32 * W32). rewrite N.mod_mul_r by discriminate.
  rewrite (N.mul_comm W32), N.mod_add, N.mod_mod by discriminate. reflexivity.
Qed.
Lemma high_mod : forall x, N.shiftr x 32 mod W32 = N.shiftr (x mod W64) 32 mod W32.
Proof.
  intros x. rewrite !N.shiftr_div_pow2. change (2 ^ 32) with W32. change W64 with (W32 * W32).
  rewrite N.mod_mul_r by discriminate. rewrite (N.mul_comm W32), N.div_add by discriminate.
  rewrite (N.div_small (x mod W32)) by (apply N.mod_lt; discriminate).
  rewrite N.add_0_l, N.mod_mod by discriminate. reflexivity.
Qed.

Lemma W_shape : forall cv block blen off flags, length cv = 8%nat -> words cv ->
  length (WF cv block blen off flags) = 16%nat /\ words (WF cv block blen off flags).
Proof. intros. now apply blake_shape. Qed.
Lemma W_shape8 : forall cv block blen off flags, length cv = 8%nat -> words cv ->
  length (firstn 8 (WF cv block blen off flags)) = 8%nat /\
  words (firstn 8 (WF cv block blen off flags)).
Proof. intros. now apply blake_shape8. Qed.
Lemma W_blocks_cons : forall cv off flags start b bs, bs <> [] ->
  chunk_blocks WF cv off flags start (b :: bs)
  = chunk_blocks WF (firstn 8 (WF cv b 64 off (N.lor flags start))) off flags 0 bs.
Proof. intros cv off flags start b [|b' bs] H; [congruence|reflexivity]. Qed.

Lemma firstn8_length : forall A (l : list A), 8 <= len l -> length (firstn 8 l) = 8%nat.
Proof. intros A l H. rewrite firstn_length. unfold len in H. lia. Qed.
Lemma firstn8_words : forall l, words l -> words (firstn 8 l).
Proof. intros l H. now apply (Forall_take _ _ 8). Qed.

Lemma y_compress_ok : forall cv block blen off flags, 8 <= len cv -> words cv ->
  length block = 64%nat -> word blen -> word flags ->
  y_compress cv block blen off flags = Ok (WF (firstn 8 cv) block blen off flags).
Proof.
  intros cv block blen off flags Lc Wc Lb Wb Wf.
  unfold y_compress. rewrite y_words_ok.
  rewrite (proj2 (N.ltb_ge (len cv) 8)) by exact Lc.
  pose proof (length_words_of_block block Lb) as Lm.
  rewrite (proj2 (N.ltb_ge (len (words_of_bytes block)) 16)) by (unfold len; lia).
  f_equal.
  unfold wrapped. change (2 ^ 64) with W64.
  rewrite <- r_compress_ok; auto.
  2: { rewrite firstn_length. unfold len in Lc. lia. }
  2: { apply N.mod_lt. discriminate. }
  unfold r_compress. rewrite !y_mask.
  rewrite low_mod, high_mod.
  assert (Ecv : forall i, (i < 8)%nat -> get cv i = get (firstn 8 cv) i) by (intros; now rewrite get_firstn8).
  rewrite (Ecv 0%nat), (Ecv 1%nat), (Ecv 2%nat), (Ecv 3%nat), (Ecv 4%nat), (Ecv 5%nat), (Ecv 6%nat),
    (Ecv 7%nat) by lia.
  change y_IV with r_IV. change y_WORD_BITS with 32. rewrite y_rounds_ok.
  - unfold r_ROUNDS. apply fold_in. intros st i Hi. apply in_seq in Hi.
    rewrite (Ecv i) by lia. reflexivity.
  - assert (W0 : words (firstn 8 cv)) by now apply (Forall_take _ _ 8).
    unfold words. repeat (apply Forall_cons; [first [apply words_get; exact W0|exact Wb|exact Wf|idtac]|]).
    all: try constructor; try (unfold word, W32; cbn; lia);
      try (apply N.mod_upper_bound; unfold W32; lia).
Qed.

Lemma y_compress_short : forall cv block blen off flags, len cv < 8 ->
  y_compress cv block blen off flags = Panic.
Proof.
  intros. unfold y_compress. now rewrite (proj2 (N.ltb_lt (len cv) 8)).
Qed.

(* ---- outputs ---- *)

(* o stands for the node nd; of the chaining value, only the first eight words count *)
Record y_rel (o : y_output) (nd : node) : Prop :=
  { yr_cv : firstn 8 (yo_cv o) = nd_cv nd; yr_len : 8 <= len (yo_cv o); yr_words : words (yo_cv o);
    yr_block : yo_block o = nd_block nd; yr_blen : yo_block_len o = nd_blen nd;
    yr_off : yo_offset o = nd_off nd; yr_flags : yo_flags o = nd_flags nd;
    yr_block64 : length (nd_block nd) = 64%nat; yr_b : word (nd_blen nd); yr_f : nd_flags nd < 64 }.

Lemma small_word : forall f, f < 64 -> word f.
Proof. intros f H. unfold word, W32. lia. Qed.

Lemma y_cv8 : forall o nd, y_rel o nd -> length (nd_cv nd) = 8%nat /\ words (nd_cv nd).
Proof.
  intros o nd R. rewrite <- (yr_cv _ _ R). destruct R.
  auto using firstn8_length, firstn8_words.
Qed.

Lemma W_root_len : forall o nd k, y_rel o nd -> len (root_block WF nd k) = 64.
Proof.
  intros o nd k R. destruct (y_cv8 _ _ R) as [L W]. unfold root_block. rewrite len_bytes_of_words.
  unfold len. rewrite (proj1 (W_shape _ _ _ _ _ L W)). reflexivity.
Qed.

Lemma W_chain_len : forall o nd, y_rel o nd -> len (chain WF nd) = 32.
Proof.
  intros o nd R. destruct (y_cv8 _ _ R) as [L W]. unfold chain. rewrite len_bytes_of_words.
  unfold len. rewrite (proj1 (W_shape8 _ _ _ _ _ L W)). reflexivity.
Qed.

Lemma y_cv_ok : forall o nd, y_rel o nd -> y_chaining_value o = Ok (chain WF nd).
Proof.
  intros o nd [R1 R2 R3 R4 R5 R6 R7 R8 R9 R10].
  unfold y_chaining_value. rewrite R4, R5, R6, R7.
  rewrite y_compress_ok by (auto using small_word). cbn [bind]. rewrite R1.
  rewrite y_bytes_ok by (apply W_shape8; rewrite <- R1; auto using firstn8_length, firstn8_words). reflexivity.
Qed.

Lemma y_root_ok : forall o nd fuel n k pre, y_rel o nd ->
  len pre = 64 * k -> 64 * k <= n -> (N.to_nat (n - 64 * k) <= fuel)%nat ->
  y_root_loop fuel o n (pre ++ zeros (n - 64 * k)) (64 * k)
  = Ok (pre ++ take (n - 64 * k) (flat_map (fun i => root_block WF nd (k + N.of_nat i))
                                   (seq 0 (N.to_nat ((n - 64 * k + 63) / 64))))).
Proof.
  intros o nd fuel. induction fuel as [|fuel IH]; intros n k pre R Lp Hk Hf.
  - assert (E : 64 * k = n) by lia. cbn [y_root_loop]. rewrite (proj2 (N.ltb_ge _ _)) by lia.
    replace (n - 64 * k) with 0 by lia. reflexivity.
  - cbn [y_root_loop]. destruct (N.ltb_spec (64 * k) n) as [G|G].
    2: { replace (n - 64 * k) with 0 by lia. reflexivity. }
    pose proof R as [R1 R2 R3 R4 R5 R6 R7 R8 R9 R10].
    rewrite R4, R5, R7. change y_ROOT with Spec.ROOT.
    rewrite y_compress_ok; auto; try lia.
    2: { apply small_word. apply (lor_lt 6); [exact R10|reflexivity]. }
    cbn [bind]. rewrite y_bytes_ok by (apply W_shape; auto using firstn8_length, firstn8_words).
    cbn [bind]. rewrite R1.
    change (bytes_of_words (WF (nd_cv nd) (nd_block nd) (nd_blen nd) (64 * k) (N.lor (nd_flags nd) Spec.ROOT)))
      with (root_block WF nd k).
    pose proof (W_root_len o nd k R) as RL. rewrite RL.
    set (t := N.min 64 (n - 64 * k)).
    assert (Lt : len (take t (root_block WF nd k)) = t) by (rewrite len_take, RL; lia).
    assert (Eb : y_set_slice (pre ++ zeros (n - 64 * k)) (64 * k) (64 * k + t) (take t (root_block WF nd k))
                 = (pre ++ take t (root_block WF nd k)) ++ zeros (n - 64 * k - t)).
    { unfold y_set_slice. rewrite take_app_eq by exact Lp. rewrite N.max_r by lia.
      rewrite drop_app_ge by lia. rewrite Lp, zeros_drop, <- app_assoc. do 3 f_equal. lia. }
    rewrite Eb.
    assert (Q : N.to_nat ((n - 64 * k + 63) / 64) = S (N.to_nat ((n - 64 * k - t + 63) / 64))) by lia.
    rewrite Q. cbn [seq flat_map]. rewrite <- seq_shift, !flat_map_concat_map, map_map.
    replace (k + N.of_nat 0) with k by lia.
    destruct (N.le_gt_cases 64 (n - 64 * k)) as [G2|G2].
    + assert (Et : t = 64) by lia. rewrite Et in *.
      replace (n - 64 * k - 64) with (n - 64 * (k + 1)) by lia.
      replace (64 * k + 64) with (64 * (k + 1)) by lia.
      rewrite (IH n (k + 1)); auto; try lia.
      2: { rewrite len_app, Lt. lia. }
      rewrite (take_all _ 64) by lia. rewrite <- app_assoc. do 2 f_equal.
      rewrite take_app_ge by lia. rewrite RL. f_equal.
      replace (n - 64 * k - 64) with (n - 64 * (k + 1)) by lia. f_equal.
      rewrite flat_map_concat_map. f_equal. apply map_ext. intros i. f_equal. lia.
    + assert (Et : t = n - 64 * k) by lia.
      replace (64 * k + t) with n by lia.
      assert (Ed : forall f b, y_root_loop f o n b n = Ok b).
      { intros [|f] b; cbn [y_root_loop]; now rewrite N.ltb_irrefl. }
      rewrite Ed. replace (n - 64 * k - t) with 0 by lia. change (zeros 0) with (@nil N).
      rewrite app_nil_r. rewrite Et, take_app_le by lia. reflexivity.
Qed.

Lemma y_left_ok : forall n, 2048 < n -> y_left_len n = Ok (2048 * left_chunks n).
Proof.
  intros n H. unfold y_left_len, left_chunks. change y_CHUNK_LEN with 2048.
  assert (A : 1 <= (n - 1) / 2048) by lia.
  rewrite (proj2 (N.eqb_neq _ _)) by lia. do 3 f_equal.
  destruct ((n - 1) / 2048) as [|p]; [lia|]. rewrite N.size_log2 by discriminate. lia.
Qed.

Section Key.
Variable kw : list N.
Variable flags : N.
Hypothesis Lkw : 8 <= len kw.
Hypothesis Wkw : words kw.
Hypothesis Hflags : flags = 0 \/ flags = Spec.KEYED_HASH \/ flags = Spec.DERIVE_KEY.

Lemma flags_small : flags < 64.
Proof. destruct Hflags as [E|[E|E]]; rewrite E; unfold Spec.KEYED_HASH, Spec.DERIVE_KEY; lia. Qed.
Lemma flags_or : forall x, x < 64 -> N.lor flags x < 64.
Proof. intros x H. apply (lor_lt 6); [apply flags_small|exact H]. Qed.

Notation key := (firstn 8 kw).

Lemma Lkey : length key = 8%nat.
Proof. rewrite firstn_length. unfold len in Lkw. lia. Qed.
Lemma Wkey : words key.
Proof. now apply (Forall_take _ _ 8). Qed.

(* the loop over the blocks, from position 64 * j on *)
Lemma y_chunk_ok : forall fuel chunk cv off st j, 8 <= len cv -> words cv ->
  bytes chunk -> st < 64 -> 64 * j <= len chunk -> (j = 0 \/ 64 * j < len chunk) ->
  (N.to_nat (len chunk - 64 * j) <= fuel)%nat ->
  exists cv' st' j',
    y_chunk_loop fuel chunk cv off flags (N.lor flags st) (64 * j) = Ok (cv', N.lor flags st', 64 * j') /\
    64 * j' <= len chunk /\ len chunk - 64 * j' <= 64 /\ 8 <= len cv' /\ words cv' /\ st' < 64 /\
    chunk_blocks WF (firstn 8 cv) off flags st (pieces 64 (drop (64 * j) chunk))
    = Nd (firstn 8 cv') (pad64 (drop (64 * j') chunk)) (len chunk - 64 * j') off
         (N.lor (N.lor flags st') Spec.CHUNK_END).
Proof.
  induction fuel as [|fuel IH]; intros chunk cv off st j Lc Wc B Hs Hj Hne Hf.
  - exists cv, st, j. cbn [y_chunk_loop]. change y_BLOCK_LEN with 64.
    rewrite (proj2 (N.ltb_ge _ _)) by lia. split; [reflexivity|].
    repeat (split; [auto; lia|]).
    rewrite pieces_short by (rewrite ?len_drop; lia). cbn [chunk_blocks]. now rewrite len_drop.
  - cbn [y_chunk_loop]. change y_BLOCK_LEN with 64.
    destruct (N.ltb_spec 64 (len chunk - 64 * j)) as [G|G].
    + replace (64 * j + 64 - 64 * j) with 64 by lia.
      set (b := take 64 (drop (64 * j) chunk)).
      assert (Lb : length b = 64%nat)
        by (apply (len_length _ _ 64); unfold b; rewrite len_take, len_drop; lia).
      rewrite y_compress_ok; auto.
      2: { unfold word, W32. lia. }
      2: { apply small_word. now apply flags_or. }
      cbn [bind].
      assert (C8 : length (firstn 8 cv) = 8%nat) by (rewrite firstn_length; unfold len in Lc; lia).
      assert (CW : words (firstn 8 cv)) by now apply (Forall_take _ _ 8).
      destruct (W_shape8 (firstn 8 cv) b 64 off (N.lor flags st) C8 CW) as [S1 S2].
      replace (64 * j + 64) with (64 * (j + 1)) by lia.
      destruct (IH chunk (firstn 8 (WF (firstn 8 cv) b 64 off (N.lor flags st))) off 0 (j + 1))
        as (cv' & st' & j' & E & H1 & H2 & H3 & H4 & H5 & H6); auto; try lia.
      { unfold len. rewrite S1. lia. }
      rewrite N.lor_0_r in E. exists cv', st', j'. split; [exact E|]. repeat (split; [auto|]).
      rewrite pieces_step by (rewrite ?len_drop; lia). rewrite drop_drop.
      rewrite W_blocks_cons by (apply pieces_nonnil; lia). fold b.
      rewrite firstn_firstn in H6. replace (64 + 64 * j) with (64 * (j + 1)) by lia. exact H6.
    + exists cv, st, j. split; [reflexivity|]. repeat (split; [auto; lia|]).
      rewrite pieces_short by (rewrite ?len_drop; lia). cbn [chunk_blocks]. now rewrite len_drop.
Qed.

Lemma y_hash_chunk_ok : forall chunk i, bytes chunk ->
  exists o, y_hash_chunk chunk kw (2048 * i) flags = Ok o /\ y_rel o (chunk_node WF key flags i chunk).
Proof.
  intros chunk i B. unfold y_hash_chunk.
  destruct (y_chunk_ok (length chunk) chunk kw (2048 * i) y_CHUNK_START 0)
    as (cv' & st' & j' & E & H1 & H2 & H3 & H4 & H5 & H6); auto; try lia.
  { reflexivity. }
  { unfold len. lia. }
  change (64 * 0) with 0 in *. rewrite E. cbn [bind]. rewrite drop_0 in H6.
  eexists. split; [reflexivity|].
  unfold chunk_node in *. change y_CHUNK_START with Spec.CHUNK_START in H6. rewrite H6 in *.
  constructor; cbn [yo_cv yo_block yo_block_len yo_offset yo_flags nd_cv nd_block nd_blen nd_off nd_flags]; auto.
  - unfold y_set_slice, pad64. change y_BLOCK_LEN with 64.
    rewrite take_0, N.max_r, zeros_drop, len_drop by lia. reflexivity.
  - apply (len_length _ _ 64). unfold pad64. rewrite len_app, len_zeros, len_drop. lia.
  - unfold word, W32. lia.
  - apply (lor_lt 6); [now apply flags_or|reflexivity].
Qed.

Lemma y_recurse_ok : forall fuel input i, bytes input ->
  (length input <= fuel)%nat ->
  exists o, y_hash_recurse fuel input kw (2048 * i) flags = Ok o /\
            y_rel o (tree WF key flags i input).
Proof.
  induction fuel as [|fuel IH]; intros input i B Hf.
  - destruct input; [|cbn in Hf; lia]. cbn [y_hash_recurse]. change (len [] <=? y_CHUNK_LEN) with true.
    rewrite tree_one by (rewrite len_nil; lia). now apply y_hash_chunk_ok.
  - cbn [y_hash_recurse]. change y_CHUNK_LEN with 2048.
    destruct (N.leb_spec (len input) 2048) as [G|G].
    { rewrite tree_one by auto. now apply y_hash_chunk_ok. }
    rewrite y_left_ok by auto. cbn [bind].
    destruct (left_chunks_spec (len input) G) as (A1 & A2 & A3).
    set (n := 2048 * left_chunks (len input)) in *.
    assert (Lt : len (take n input) = n) by (rewrite len_take; lia). rewrite Lt.
    destruct (IH (take n input) i) as (ol & El & Rl).
    { now apply bytes_take. } { unfold len in *. lia. }
    rewrite El. cbn [bind].
    replace (2048 * i + n) with (2048 * (i + left_chunks (len input))) by (unfold n; lia).
    destruct (IH (drop n input) (i + left_chunks (len input))) as (or & Er & Rr).
    { now apply bytes_drop. }
    { pose proof (len_drop _ n input). unfold len in *. lia. }
    rewrite Er. cbn [bind]. unfold y_hash_parent. rewrite (y_cv_ok _ _ Rl), (y_cv_ok _ _ Rr). cbn [bind].
    eexists. split; [reflexivity|].
    rewrite (tree_halves WF key flags i input (N.log2 ((len input - 1) / 2048))).
    2: { exact A1. }
    2: { rewrite N.pow_add_r. unfold n, left_chunks in A2. lia. }
    fold (left_chunks (len input)). fold n.
    pose proof (W_chain_len _ _ Rl) as C1. pose proof (W_chain_len _ _ Rr) as D1.
    constructor; cbn [yo_cv yo_block yo_block_len yo_offset yo_flags parent_node nd_cv nd_block nd_blen nd_off nd_flags]; auto.
    + apply N.lor_comm.
    + apply (len_length _ _ 64). rewrite len_app. lia.
    + unfold word, W32. lia.
    + now apply flags_or.
Qed.

Lemma y_internal_ok : forall input n, bytes input ->
  y_hash_internal input kw flags n
  = Ok (take n (flat_map (fun i => root_block WF (root_node WF key flags input) (N.of_nat i))
                         (seq 0 (N.to_nat ((n + 63) / 64))))).
Proof.
  intros input n B. unfold y_hash_internal.
  destruct (y_recurse_ok (length input) input 0 B (le_n _)) as (o & E & R).
  change (2048 * 0) with 0 in E. rewrite E. cbn [bind]. unfold y_root_output_bytes.
  pose proof (y_root_ok o _ (N.to_nat n) n 0 [] R eq_refl) as Q.
  change (64 * 0) with 0 in Q. rewrite N.sub_0_r in Q. cbn [app] in Q. rewrite Q by lia.
  reflexivity.
Qed.

End Key.

(* ---- a key that is too short ---- *)

Lemma y_short_recurse : forall kw flags, len kw < 8 -> forall fuel input off,
  (length input <= fuel)%nat ->
  (64 < len input -> y_hash_recurse fuel input kw off flags = Panic) /\
  (len input <= 64 -> exists o, y_hash_recurse fuel input kw off flags = Ok o /\ yo_cv o = kw).
Proof.
  intros kw flags Lk.
  assert (C : forall chunk off,
    (64 < len chunk -> y_hash_chunk chunk kw off flags = Panic) /\
    (len chunk <= 64 -> exists o, y_hash_chunk chunk kw off flags = Ok o /\ yo_cv o = kw)).
  { intros chunk off. unfold y_hash_chunk. split; intros G.
    - destruct chunk as [|x chunk]; [rewrite len_nil in G; lia|].
      cbn [length y_chunk_loop]. change y_BLOCK_LEN with 64.
      rewrite (proj2 (N.ltb_lt _ _)) by lia. rewrite y_compress_short by auto. reflexivity.
    - assert (E : forall f, y_chunk_loop f chunk kw off flags (N.lor flags y_CHUNK_START) 0
                 = Ok (kw, N.lor flags y_CHUNK_START, 0)).
      { intros f. assert (X : (y_BLOCK_LEN <? len chunk - 0) = false)
          by (apply N.ltb_ge; change y_BLOCK_LEN with 64; lia).
        destruct f; cbn [y_chunk_loop]; now rewrite X. }
      rewrite E. cbn [bind]. eexists. split; reflexivity. }
  induction fuel as [|fuel IH]; intros input off Hf.
  - destruct input; [|cbn in Hf; lia]. exact (C [] off).
  - cbn [y_hash_recurse]. change y_CHUNK_LEN with 2048.
    destruct (N.leb_spec (len input) 2048) as [G|G]; [apply C|].
    split; [|lia]. intros _. rewrite y_left_ok by auto. cbn [bind].
    destruct (left_chunks_spec (len input) G) as (A1 & A2 & A3).
    set (n := 2048 * left_chunks (len input)) in *.
    destruct (IH (take n input) off) as [P _].
    { pose proof (len_take _ n input). unfold len in *. lia. }
    rewrite P; [reflexivity|]. rewrite len_take. lia.
Qed.

Lemma y_short : forall kw flags input n, len kw < 8 -> 1 <= n ->
  y_hash_internal input kw flags n = Panic.
Proof.
  intros kw flags input n Lk Ln. unfold y_hash_internal.
  destruct (y_short_recurse kw flags Lk (length input) input 0 (le_n _)) as [P1 P2].
  destruct (N.le_gt_cases (len input) 64) as [L|G].
  - destruct (P2 L) as (o & E & Eo). rewrite E. cbn [bind]. unfold y_root_output_bytes.
    destruct (N.to_nat n) eqn:En; [lia|]. cbn [y_root_loop].
    rewrite (proj2 (N.ltb_lt _ _)) by lia. rewrite Eo, y_compress_short by auto. reflexivity.
  - rewrite P1 by auto. reflexivity.
Qed.

(* ---- offsets below 2^64 ---- *)

Lemma W_small : forall cv block blen off flags, off < W64 ->
  WF cv block blen off flags = F cv block blen off flags.
Proof. intros. unfold wrapped. change (2 ^ 64) with W64. now rewrite N.mod_small. Qed.

Lemma W_blocks : forall bs cv off flags start, off < W64 ->
  chunk_blocks WF cv off flags start bs = chunk_blocks F cv off flags start bs.
Proof.
  induction bs as [|b bs IH]; intros cv off flags start H; [reflexivity|].
  destruct bs as [|b' bs]; [reflexivity|].
  rewrite W_blocks_cons, chunk_blocks_cons by discriminate. rewrite W_small by exact H. now apply IH.
Qed.

Lemma chunk_blocks_off : forall bs cv off flags start,
  nd_off (chunk_blocks F cv off flags start bs) = off.
Proof.
  induction bs as [|b bs IH]; intros; [reflexivity|]. destruct bs as [|b' bs]; [reflexivity|].
  rewrite chunk_blocks_cons by discriminate. apply IH.
Qed.

Lemma W_tree : forall n key flags i input, (length input <= n)%nat -> 2048 * i + len input <= W64 ->
  2048 * i < W64 ->
  tree WF key flags i input = tree F key flags i input /\ nd_off (tree F key flags i input) < W64.
Proof.
  induction n as [|n IH]; intros key flags i input Hn H Hi.
  - destruct input; [|cbn in Hn; lia]. rewrite !tree_one by (rewrite len_nil; lia).
    unfold chunk_node. rewrite W_blocks, chunk_blocks_off by exact Hi. auto.
  - destruct (N.le_gt_cases (len input) 2048) as [G|G].
    { rewrite !tree_one by exact G. unfold chunk_node. rewrite W_blocks, chunk_blocks_off by exact Hi. auto. }
    destruct (left_chunks_spec (len input) G) as (A1 & A2 & A3). unfold left_chunks in *.
    set (k := N.log2 ((len input - 1) / 2048)) in *. pose proof (pow2_pos k) as P.
    assert (H2 : len input <= 2048 * 2 ^ (k + 1)) by (rewrite N.pow_add_r; lia).
    rewrite (tree_halves WF key flags i input k A1 H2), (tree_halves F key flags i input k A1 H2).
    destruct (IH key flags i (take (2048 * 2 ^ k) input)) as [E1 O1].
    { pose proof (len_take _ (2048 * 2 ^ k) input). unfold len in *. lia. }
    { rewrite len_take. lia. } { exact Hi. }
    destruct (IH key flags (i + 2 ^ k) (drop (2048 * 2 ^ k) input)) as [E2 O2].
    { pose proof (len_drop _ (2048 * 2 ^ k) input). unfold len in *. lia. }
    { rewrite len_drop. lia. } { lia. }
    split; [|reflexivity]. rewrite E1, E2. unfold chain. now rewrite !W_small by assumption.
Qed.

Lemma W_xof : forall m input n, len input <= W64 -> n <= W64 ->
  spec_xof WF m input n = spec_xof F m input n.
Proof.
  intros m input n H Hn. unfold spec_xof. f_equal. rewrite !flat_map_concat_map. f_equal.
  apply map_ext_in. intros k Hk. apply in_seq in Hk. unfold spec_block, spec_root.
  change (root_node WF (mode_key m) (mode_flags m) input) with (tree WF (mode_key m) (mode_flags m) 0 input).
  change (root_node F (mode_key m) (mode_flags m) input) with (tree F (mode_key m) (mode_flags m) 0 input).
  destruct (W_tree (length input) (mode_key m) (mode_flags m) 0 input (le_n _)) as [-> O]; [lia|reflexivity|].
  unfold root_block. rewrite W_small; [reflexivity|]. unfold W64 in *. lia.
Qed.

(* ---- the public functions ---- *)

Lemma python_hash : forall input n, bytes input -> y_hash input n = Ok (spec_xof WF Hashing input n).
Proof.
  intros input n B. unfold y_hash. rewrite y_internal_ok; auto.
  - cbn. lia.
  - unfold words, word, y_IV, W32. repeat constructor; lia.
Qed.

Lemma firstn_words : forall k, 32 <= len k -> firstn 8 (words_of_bytes k) = words_of_bytes (take 32 k).
Proof.
  intros k H. rewrite <- (take_drop _ 32 k) at 1.
  assert (L : len (take 32 k) = 32) by (rewrite len_take; lia).
  rewrite words_of_bytes_app by (rewrite L; reflexivity).
  apply (take_app_eq _ 8). rewrite len_words_of_bytes, L. reflexivity.
Qed.

Lemma python_keyed : forall key input n, bytes key -> 32 <= len key -> bytes input ->
  y_keyed_hash key input n = Ok (spec_xof WF (Keyed (take 32 key)) input n) /\
  y_derive_key key input n = Ok (spec_xof WF (Deriving (take 32 key)) input n).
Proof.
  intros key input n Bk Lk B. unfold y_keyed_hash, y_derive_key. rewrite y_words_ok.
  assert (L8 : 8 <= len (words_of_bytes key)) by (rewrite len_words_of_bytes; lia).
  assert (W8 : words (words_of_bytes key)) by now apply words_of_bytes_words.
  rewrite !y_internal_ok by auto. rewrite firstn_words by auto. split; reflexivity.
Qed.

Lemma python_keyed_small : forall key input n, bytes key -> 32 <= len key -> bytes input ->
  len input <= W64 -> n <= W64 ->
  y_keyed_hash key input n = Ok (spec_xof F (Keyed (take 32 key)) input n) /\
  y_derive_key key input n = Ok (spec_xof F (Deriving (take 32 key)) input n).
Proof.
  intros key input n Bk Lk B L Ln. destruct (python_keyed key input n Bk Lk B) as [-> ->].
  now rewrite !W_xof by assumption.
Qed.

Lemma python_short_key : forall key input n, len key < 32 -> 1 <= n ->
  y_keyed_hash key input n = Panic /\ y_derive_key key input n = Panic.
Proof.
  intros key input n L Ln. unfold y_keyed_hash, y_derive_key. rewrite y_words_ok.
  rewrite !y_short by (rewrite ?len_words_of_bytes; lia). auto.
Qed.

Lemma python_run : forall m input n, mode_ok m -> bytes input ->
  y_run m input n = Ok (spec_xof WF m input n).
Proof.
  intros [|k|k] input n M B; cbn [y_run].
  - now apply python_hash.
  - destruct M as [M1 M2]. destruct (python_keyed k input n M2) as [-> _]; auto; [unfold len; lia|].
    rewrite take_all by (unfold len; lia). reflexivity.
  - destruct M as [M1 M2]. destruct (python_keyed k input n M2) as [_ ->]; auto; [unfold len; lia|].
    rewrite take_all by (unfold len; lia). reflexivity.
Qed.

Lemma python_run_small : forall m input n, mode_ok m -> bytes input -> len input <= W64 -> n <= W64 ->
  y_run m input n = Ok (spec_xof F m input n).
Proof. intros. rewrite python_run by assumption. now rewrite W_xof. Qed.

Lemma python_lib : forall c p m input n k, platform_ok c p -> mode_ok m -> bytes input ->
  len input < WU c -> N.of_nat k < MAX_BLOCKS -> n <= 64 * N.of_nat k ->
  exists o bs o', oneshot_xof c p m input = Ok o /\ reads c k o = Ok (bs, o') /\
    y_run m input n = Ok (take n (concat bs)).
Proof.
  intros c p m input n k P M B L Hk Hn.
  destruct (xof_stream c p m input k P M B L Hk) as (o & bs & o' & E1 & E2 & _ & E3 & _).
  exists o, bs, o'. split; [exact E1|]. split; [exact E2|].
  assert (LW : WU c <= W64) by (unfold WU, W64, W32; destruct (w64 c); lia).
  rewrite python_run_small; auto; [|lia|unfold MAX_BLOCKS, W64 in *; lia].
  rewrite E3. f_equal. symmetry. apply xof_prefix; auto.
Qed.
