(* The C compression functions are the specified one, and every C hash_many hashes each
   input on its own. *)
From Coq Require Import NArith List Bool Lia ZArith.
From Coq Require Import ZifyBool ZifyNat ZifyN.
From Verif Require Import Base BaseFacts Spec Simd SimdGen SimdHash CompressFacts SimdFacts.
From Verif Require Import RowFacts RowCompress ManySpec ManyFacts WrapSpec WrapFacts CSimd.
From Verif Require Portable Sse41 Avx2.
Import ListNotations.
Open Scope N_scope.

(* ---- words and bytes ---- *)

Lemma load32_word32 : forall b0 b1 b2 b3 r, byte b0 -> byte b1 -> byte b2 -> byte b3 ->
  load32 (b0 :: b1 :: b2 :: b3 :: r) = word32 b0 b1 b2 b3.
Proof.
  intros b0 b1 b2 b3 r H0 H1 H2 H3. unfold load32, word32, get, byte in *. cbn [nth].
  rewrite !N.shiftl_mul_pow2.
  change (2 ^ 0) with 1. change (2 ^ 8) with 256. change (2 ^ 16) with 65536. change (2 ^ 24) with 16777216.
  rewrite !N.mod_small by (unfold W32; lia). rewrite N.mul_1_r.
  rewrite (lor_disjoint 8 b0 b1 H0 : N.lor b0 (b1 * 256) = b0 + b1 * 256).
  rewrite (lor_disjoint 16 (b0 + b1 * 256) b2 ltac:(change (2 ^ 16) with 65536; lia)
           : N.lor _ (b2 * 65536) = b0 + b1 * 256 + b2 * 65536).
  rewrite (lor_disjoint 24 (b0 + b1 * 256 + b2 * 65536) b3 ltac:(change (2 ^ 24) with 16777216; lia)
           : N.lor _ (b3 * 16777216) = b0 + b1 * 256 + b2 * 65536 + b3 * 16777216).
  lia.
Qed.

Lemma load_words_ok : forall n l, length l = (4 * n)%nat -> bytes l ->
  load_words n l = words_of_bytes l.
Proof.
  intros n. unfold load_words. induction n as [|n IH]; intros l L B.
  - destruct l; [reflexivity|discriminate L].
  - do 4 (destruct l as [|? l]; [cbn in L; lia|]). cbn [seq map words_of_bytes].
    unfold bytes in B.
    repeat match goal with H : Forall _ (_ :: _) |- _ => inversion H; clear H; subst end.
    change (4 * 0)%nat with 0%nat. cbn [skipn]. f_equal; [now apply load32_word32|].
    rewrite <- (IH l) by (auto; cbn in L; lia). rewrite <- seq_shift, map_map.
    apply map_ext. intros i. replace (4 * S i)%nat with (S (S (S (S (4 * i))))) by lia. reflexivity.
Qed.

Lemma store32_bytes32 : forall w, store32 w = bytes32 w.
Proof.
  intros w. unfold store32, bytes32. rewrite !N.shiftr_div_pow2.
  change (2 ^ 0) with 1. change (2 ^ 8) with 256. change (2 ^ 16) with 65536. change (2 ^ 24) with 16777216.
  now rewrite N.div_1_r.
Qed.

Lemma write_state_bytes_ok : forall st, length st = 8%nat -> write_state_bytes st = bytes_of_words st.
Proof.
  intros st L. destruct (list8 st L) as (a0 & a1 & a2 & a3 & a4 & a5 & a6 & a7 & ->).
  unfold write_state_bytes, bytes_of_words. cbn [seq flat_map get nth].
  now rewrite !store32_bytes32.
Qed.

(* ---- the compression functions ---- *)

Lemma c_g_eq : forall s s' a b c d x y, s = s' -> c_g s a b c d x y = Portable.g s' a b c d x y.
Proof. intros s s' a b c d x y ->. cbv delta [c_g Portable.g xor32 c_rotr32 rotr32] beta. reflexivity. Qed.

Lemma c_round_eq : forall s s' m r, s = s' -> c_round s m r = Portable.round s' m r.
Proof.
  intros s s' m r ->. unfold c_round, Portable.round, Portable.msg_at.
  change c_sched with Portable.sched. cbv zeta. do 8 apply c_g_eq. reflexivity.
Qed.

Lemma c_portable_comp_ok : comp_ok compress_portable.
Proof.
  intros cv block blen off flags Lc Lb B Ho.
  rewrite <- portable_compress by auto.
  unfold compress_portable. rewrite load_words_ok by auto.
  unfold Portable.compress, Portable.compress_inner, Portable.words_from_block.
  cbv zeta.
  match goal with |- [N.lxor (get ?a 0) _; _; _; _; _; _; _; _] = map (fun i => xor32 (get ?b i) _) _ =>
    replace a with b; [generalize b; intros f|]
  end.
  - cbn [seq map Nat.add]. reflexivity.
  - symmetry. do 7 apply c_round_eq. reflexivity.
Qed.

Lemma s_lanewise : lanewise 4 s_ops.
Proof.
  constructor; cbn [s_ops v_nil v_add v_xor v_rot16 v_rot12 v_rot8 v_rot7]; auto; intros v H.
  - destruct (list4 _ v H) as (a & b & c & d & ->). exact (shuffle16 a b c d).
  - apply xor_shift_rot; reflexivity.
  - destruct (list4 _ v H) as (a & b & c & d & ->). exact (shuffle8 a b c d).
  - apply xor_shift_rot; reflexivity.
Qed.

Lemma a_lanewise : lanewise 8 a_ops.
Proof.
  constructor; cbn [a_ops v_nil v_add v_xor v_rot16 v_rot12 v_rot8 v_rot7]; auto; intros v H.
  - destruct (list8p _ v H) as (a & b & c & d & e & f & g & h & ->).
    unfold a_rot16, mm256_shuffle_epi8. cbn [firstn skipn mm_set_epi8 rev app].
    rewrite !shuffle16. reflexivity.
  - apply xor_shift_rot; reflexivity.
  - destruct (list8p _ v H) as (a & b & c & d & e & f & g & h & ->).
    unfold a_rot8, mm256_shuffle_epi8. cbn [firstn skipn mm_set_epi8 rev app].
    rewrite !shuffle8. reflexivity.
  - apply xor_shift_rot; reflexivity.
Qed.

Lemma z_lanewise : forall n, lanewise n z_ops.
Proof.
  intros n. constructor; cbn [z_ops v_nil v_add v_xor v_rot16 v_rot12 v_rot8 v_rot7]; auto.
Qed.

Lemma n_lanewise : lanewise 4 n_ops.
Proof.
  constructor; cbn [n_ops v_nil v_add v_xor v_rot16 v_rot12 v_rot8 v_rot7]; auto; intros v H;
    unfold n_rot; apply or_shift_rot; reflexivity.
Qed.

Lemma compress_sse41_rows : forall cv block blen off flags,
  compress_sse41 cv block blen off flags =
  let rl := compose7 (c_sse41_row_round1 s_ops) (c_sse41_row_round2 s_ops) (c_sse41_row_round3 s_ops)
              (c_sse41_row_round4 s_ops) (c_sse41_row_round5 s_ops) (c_sse41_row_round6 s_ops)
              (c_sse41_row_round7 s_ops)
              (words_of_bytes (take 16 (drop 0 block))) (words_of_bytes (take 16 (drop 16 block)))
              (words_of_bytes (take 16 (drop 32 block))) (words_of_bytes (take 16 (drop 48 block)))
              (firstn 4 cv) (firstn 4 (skipn 4 cv)) (firstn 4 IV)
              [c_offset_low off; c_offset_high off; blen; flags] in
  xor_si (nth 0 rl []) (nth 2 rl []) ++ xor_si (nth 1 rl []) (nth 3 rl []).
Proof.
  intros. unfold compress_sse41, compose7.
  change [get C_IV 0; get C_IV 1; get C_IV 2; get C_IV 3] with (firstn 4 IV).
  cbv zeta.
  destruct (c_sse41_row_round1 _ _ _ _ _ _ _ _ _) as [[[? ?] ?] ?].
  destruct (c_sse41_row_round2 _ _ _ _ _ _ _ _ _) as [[[? ?] ?] ?].
  destruct (c_sse41_row_round3 _ _ _ _ _ _ _ _ _) as [[[? ?] ?] ?].
  destruct (c_sse41_row_round4 _ _ _ _ _ _ _ _ _) as [[[? ?] ?] ?].
  destruct (c_sse41_row_round5 _ _ _ _ _ _ _ _ _) as [[[? ?] ?] ?].
  destruct (c_sse41_row_round6 _ _ _ _ _ _ _ _ _) as [[[? ?] ?] ?].
  destruct (c_sse41_row_round7 _ _ _ _ _ _ _ _ _) as [[[? ?] ?] ?].
  reflexivity.
Qed.

Lemma c_sse41_comp_ok : comp_ok compress_sse41.
Proof.
  intros cv block blen off flags Lc Lb B Ho. rewrite compress_sse41_rows.
  change c_offset_high with Portable.offset_high. rewrite offset_high_div by exact Ho.
  change (c_offset_low off) with (off mod W32).
  refine (proj1 (rows_compress cv block blen off flags _ Lc _)).
  apply compose7_inner; auto.
  - exact (c_sse41_row1 _ s_lanewise).
  - exact (c_sse41_row2 _ s_lanewise).
  - exact (c_sse41_row3 _ s_lanewise).
  - exact (c_sse41_row4 _ s_lanewise).
  - exact (c_sse41_row5 _ s_lanewise).
  - exact (c_sse41_row6 _ s_lanewise).
  - exact (c_sse41_row7 _ s_lanewise).
Qed.

Lemma compress_avx512_rows : forall cv block blen off flags,
  compress_avx512 cv block blen off flags =
  let rl := compose7 (c_avx512_row_round1 z_ops) (c_avx512_row_round2 z_ops) (c_avx512_row_round3 z_ops)
              (c_avx512_row_round4 z_ops) (c_avx512_row_round5 z_ops) (c_avx512_row_round6 z_ops)
              (c_avx512_row_round7 z_ops)
              (words_of_bytes (take 16 (drop 0 block))) (words_of_bytes (take 16 (drop 16 block)))
              (words_of_bytes (take 16 (drop 32 block))) (words_of_bytes (take 16 (drop 48 block)))
              (firstn 4 cv) (firstn 4 (skipn 4 cv)) (firstn 4 IV)
              [c_offset_low off; c_offset_high off; blen; flags] in
  xor_si (nth 0 rl []) (nth 2 rl []) ++ xor_si (nth 1 rl []) (nth 3 rl []).
Proof.
  intros. unfold compress_avx512, compose7.
  change [get C_IV 0; get C_IV 1; get C_IV 2; get C_IV 3] with (firstn 4 IV).
  cbv zeta.
  destruct (c_avx512_row_round1 _ _ _ _ _ _ _ _ _) as [[[? ?] ?] ?].
  destruct (c_avx512_row_round2 _ _ _ _ _ _ _ _ _) as [[[? ?] ?] ?].
  destruct (c_avx512_row_round3 _ _ _ _ _ _ _ _ _) as [[[? ?] ?] ?].
  destruct (c_avx512_row_round4 _ _ _ _ _ _ _ _ _) as [[[? ?] ?] ?].
  destruct (c_avx512_row_round5 _ _ _ _ _ _ _ _ _) as [[[? ?] ?] ?].
  destruct (c_avx512_row_round6 _ _ _ _ _ _ _ _ _) as [[[? ?] ?] ?].
  destruct (c_avx512_row_round7 _ _ _ _ _ _ _ _ _) as [[[? ?] ?] ?].
  reflexivity.
Qed.

Lemma c_avx512_comp_ok : comp_ok compress_avx512.
Proof.
  intros cv block blen off flags Lc Lb B Ho. rewrite compress_avx512_rows.
  change c_offset_high with Portable.offset_high. rewrite offset_high_div by exact Ho.
  change (c_offset_low off) with (off mod W32).
  refine (proj1 (rows_compress cv block blen off flags _ Lc _)).
  apply compose7_inner; auto.
  - exact (c_avx512_row1 _ (z_lanewise 4)).
  - exact (c_avx512_row2 _ (z_lanewise 4)).
  - exact (c_avx512_row3 _ (z_lanewise 4)).
  - exact (c_avx512_row4 _ (z_lanewise 4)).
  - exact (c_avx512_row5 _ (z_lanewise 4)).
  - exact (c_avx512_row6 _ (z_lanewise 4)).
  - exact (c_avx512_row7 _ (z_lanewise 4)).
Qed.

(* ---- one input ---- *)

Lemma blks_take : forall t l, blks t (take (64 * N.of_nat t) l) = blks t l.
Proof.
  induction t as [|t IH]; intros l; [reflexivity|]. cbn [blks].
  replace (64 * N.of_nat (S t)) with (64 + 64 * N.of_nat t) by lia.
  rewrite take_take, N.min_l by lia. f_equal. rewrite drop_take. apply IH.
Qed.

Lemma hash_one_loop_ok : forall comp, comp_ok comp -> forall t input cv off bf flags fe,
  64 * N.of_nat t <= len input -> bytes input -> length cv = 8%nat -> words cv -> off < W64 ->
  hash_one_loop comp t cv input off bf flags fe
  = Ok (many_blocks blake_compress cv off bf flags fe (blks t input)).
Proof.
  intros comp C t. induction t as [|t IH]; intros input cv off bf flags fe L B Lcv Wcv Ho; [reflexivity|].
  cbn [hash_one_loop]. unfold C_BLOCK_LEN. rewrite slice_ok by lia. cbn [bind]. rewrite drop_0.
  assert (L1 : length (take 64 input) = 64%nat) by (apply (len_length _ _ 64); lenlia).
  rewrite C by (auto; now apply bytes_take).
  rewrite IH; [|lenlia|now apply bytes_drop|now apply blake_shape8|now apply blake_shape8|auto].
  cbn [blks many_blocks]. destruct t; reflexivity.
Qed.

(* What hash_one_* returns, with either way of writing the state. *)
Lemma hash_one_ok : forall comp ser, comp_ok comp ->
  (forall st, length st = 8%nat -> ser st = bytes_of_words st) ->
  forall input blocks key off flags fs fe,
  64 * blocks <= len input -> bytes input -> length key = 8%nat -> words key -> off < W64 ->
  (let* state := hash_one_loop comp (N.to_nat blocks) key input off (N.lor flags fs) flags fe in
   Ok (ser state))
  = Ok (hash_one blake_compress key flags fs fe off (take (64 * blocks) input)).
Proof.
  intros comp ser C S input blocks key off flags fs fe L B Lk Wk Ho.
  rewrite (hash_one_loop_ok comp C) by (auto; lia). cbn [bind].
  rewrite S by now apply many_blocks_shape. unfold hash_one.
  replace (len (take (64 * blocks) input) / 64) with blocks by (rewrite len_take, N.min_l by lia; lia).
  f_equal. rewrite <- (blks_take (N.to_nat blocks) input).
  replace (64 * N.of_nat (N.to_nat blocks)) with (64 * blocks) by lia. reflexivity.
Qed.

(* ---- several inputs ---- *)

(* The first k multiples of delta, as 64-bit numbers. *)
Definition multiples (k : nat) (delta : N) : list N :=
  map (fun i => (N.of_nat i * delta) mod W64) (seq 0 k).

(* The table of offset deltas starts with them. *)
Definition dtable (k : nat) (delta : N) (deltas : list N) : Prop :=
  firstn k deltas = multiples k delta.

Lemma index_multiples : forall k delta deltas i, dtable k delta deltas -> (i < k)%nat ->
  index deltas (N.of_nat i) = Ok ((N.of_nat i * delta) mod W64).
Proof.
  intros k delta deltas i T Hi. unfold index. rewrite Nat2N.id.
  rewrite <- (firstn_skipn k deltas), T.
  assert (L : length (multiples k delta) = k) by (unfold multiples; now rewrite map_length, seq_length).
  rewrite nth_error_app1 by lia. unfold multiples.
  rewrite (map_nth_error (fun i => (N.of_nat i * delta) mod W64) i (seq 0 k) (d := i)); [reflexivity|].
  rewrite (nth_error_nth' _ 0%nat) by (rewrite seq_length; lia). now rewrite seq_nth by lia.
Qed.

Lemma dtable_length : forall k delta deltas, dtable k delta deltas -> (k <= length deltas)%nat.
Proof.
  intros k delta deltas T.
  assert (L : length (multiples k delta) = k) by (unfold multiples; now rewrite map_length, seq_length).
  rewrite <- T in L. rewrite firstn_length in L. lia.
Qed.

Lemma dtable_less : forall k k' delta deltas, dtable k delta deltas -> (k' <= k)%nat ->
  dtable k' delta deltas.
Proof.
  intros k k' delta deltas T H. unfold dtable in *.
  replace (firstn k' deltas) with (firstn k' (firstn k deltas)) by (rewrite firstn_firstn; f_equal; lia).
  rewrite T. unfold multiples. rewrite firstn_map. f_equal.
  replace k with (k' + (k - k'))%nat by lia. rewrite seq_app.
  rewrite firstn_app, seq_length, Nat.sub_diag. cbn [firstn].
  rewrite app_nil_r. apply firstn_all2. rewrite seq_length. lia.
Qed.

Lemma dtable_multiples : forall k delta, dtable k delta (multiples k delta).
Proof.
  intros. unfold dtable. apply firstn_all2. unfold multiples. now rewrite map_length, seq_length.
Qed.

(* The inputs are readable for the given number of bytes. *)
Definition readable (n : N) (input : list N) : Prop := n <= len input /\ bytes input.

Lemma many_loop_ok : forall degree hashN rest key flags fs fe delta deltas cap,
  0 < degree -> dtable (N.to_nat degree + 1) delta deltas -> length key = 8%nat -> words key ->
  (forall inputs off, len inputs = degree -> Forall (readable cap) inputs ->
     off < W64 ->
     hashN inputs off
     = Ok (concat (hash_all WF key flags fs fe off delta (map (take cap) inputs)))) ->
  (forall inputs off out, len inputs < degree -> Forall (readable cap) inputs ->
     32 * len inputs <= len out -> off < W64 ->
     rest inputs off out
     = Ok (concat (hash_all WF key flags fs fe off delta (map (take cap) inputs))
           ++ drop (32 * len inputs) out)) ->
  forall fuel inputs off out, (length inputs <= fuel)%nat ->
  Forall (readable cap) inputs ->
  32 * len inputs <= len out -> off < W64 ->
  many_loop fuel degree hashN rest inputs off deltas out
  = Ok (concat (hash_all WF key flags fs fe off delta (map (take cap) inputs))
        ++ drop (32 * len inputs) out).
Proof.
  intros degree hashN rest key flags fs fe delta deltas cap Hd Hd16 Lk Wk HN HR.
  induction fuel as [|fuel IH]; intros inputs off out Hf Fi Lo Ho.
  - destruct inputs; [|cbn in Hf; lia]. cbn [many_loop].
    rewrite (proj2 (N.leb_gt _ _)) by (rewrite len_nil; lia). apply HR; auto.
  - cbn [many_loop].
    destruct (N.leb_spec degree (len inputs)) as [Hle|Hgt]; [|now apply HR].
    assert (T : len (take degree inputs) = degree) by lenlia.
    assert (D : len (drop degree inputs) = len inputs - degree) by lenlia.
    rewrite HN; [|exact T|now apply Forall_take|exact Ho]. cbn [bind].
    replace degree with (N.of_nat (N.to_nat degree)) at 1 by lia.
    rewrite (index_multiples _ _ _ _ Hd16) by lia. cbn [bind]. rewrite N2Nat.id.
    unfold C_OUT_LEN. rewrite slice_from_ok by lia. cbn [bind].
    rewrite IH; [|unfold len in *; lia|now apply Forall_drop|lenlia|apply mod64].
    cbn [bind]. rewrite app_assoc, <- concat_app.
    rewrite drop_drop. rewrite D.
    replace (32 * (len inputs - degree) + degree * 32) with (32 * len inputs) by lia.
    do 3 f_equal. rewrite N.add_mod_idemp_r by discriminate. rewrite hash_all_mod.
    rewrite <- (take_drop _ degree inputs) at 3. rewrite map_app, hash_all_app.
    rewrite len_map, T. reflexivity.
Qed.

Lemma single_loop_ok : forall h1 key flags fs fe delta deltas cap,
  dtable 2 delta deltas -> length key = 8%nat -> words key ->
  (forall i off, readable cap i -> off < W64 ->
     h1 i off = Ok (hash_one F key flags fs fe off (take cap i))) ->
  forall inputs off out, Forall (readable cap) inputs ->
  32 * len inputs <= len out -> off < W64 ->
  single_loop h1 deltas inputs off out
  = Ok (concat (hash_all WF key flags fs fe off delta (map (take cap) inputs))
        ++ drop (32 * len inputs) out).
Proof.
  intros h1 key flags fs fe delta deltas cap T Lk Wk H1 inputs off out Fi Lo Ho. unfold single_loop.
  apply many_loop_ok; auto; try lia.
  - intros ins o Li Fin O1. destruct ins as [|i [|? ?]]; try (rewrite ?len_cons, ?len_nil in Li; lia).
    cbn [index nth_error N.to_nat bind]. rewrite H1; [|now inversion Fin|exact O1].
    cbn [map hash_all concat]. rewrite wrapped_one, N.mod_small by exact O1. now rewrite app_nil_r.
  - intros ins o ou Li Fin Lou Oo. assert (E : len ins = 0) by lia. apply len_0_nil in E. subst ins.
    reflexivity.
Qed.

(* The loops that hash n inputs at once. *)
Lemma lanes_hash : forall n O load st inputs cap key off delta flags fs fe lo hi,
  lanewise n O -> (0 < n)%nat -> length inputs = n -> Forall (readable cap) inputs ->
  cap mod 64 = 0 -> length key = 8%nat ->
  off < W64 ->
  (forall bo, bo + 64 <= cap -> exists msg,
     load bo = Ok msg /\ length msg = 16%nat /\ Forall (vn n) msg /\
     forall i, (i < n)%nat ->
       lanes i msg = words_of_bytes (take 64 (drop bo (nth i (map (take cap) inputs) [])))) ->
  (forall h, length h = 8%nat -> Forall (vn n) h ->
     st h = concat (map (fun i => bytes_of_words (lanes i h)) (seq 0 n))) ->
  lo = map c_offset_low (map (fun i => (off + N.of_nat i * delta) mod W64) (seq 0 n)) ->
  hi = map c_offset_high (map (fun i => (off + N.of_nat i * delta) mod W64) (seq 0 n)) ->
  (let* h := vec_hash_loop O sse41_round_code (set1_epi32 n) load (N.to_nat (cap / 64)) 0 (cap / 64)
               (map (fun i => set1_epi32 n (get key i)) (seq 0 8)) lo hi
               (N.lor flags fs) flags fe in
   Ok (st h))
  = Ok (concat (hash_all WF key flags fs fe off delta (map (take cap) inputs))).
Proof.
  intros n O load st inputs cap key off delta flags fs fe lo hi LW NP Li Fi Hc Lk Ho LOAD ST Elo Ehi.
  destruct (vec_hash_loop_ok n O LW NP (map (take cap) inputs) load cap LOAD)
    with (todo := N.to_nat (cap / 64)) (block := 0)
         (blocks := cap / 64) (h := map (fun i => set1_epi32 n (get key i)) (seq 0 8))
         (lo := lo) (hi := hi) (off := fun i => (off + N.of_nat i * delta) mod W64)
         (bf := N.lor flags fs) (flags := flags) (fe := fe)
    as (h' & E & L' & F' & X).
  - lia.
  - lia.
  - now rewrite map_length, seq_length.
  - apply key_vn.
  - unfold vn. rewrite Elo, !map_length. apply seq_length.
  - unfold vn. rewrite Ehi, !map_length. apply seq_length.
  - intros i Hi. rewrite Elo. now rewrite offs_lanes_any.
  - intros i Hi. rewrite Ehi. rewrite offs_lanes_any by auto. apply offset_high_div. apply mod64.
  - rewrite E. cbn [bind]. rewrite ST by auto. f_equal.
    apply (lane_results_any n (map (take cap) inputs) cap key off delta flags fs fe h'); auto.
    + now rewrite map_length.
    + apply Forall_map. eapply Forall_impl; [|exact Fi]. cbn. intros i [R B]. split; [lenlia|].
      now apply bytes_take.
Qed.

(* ---- four inputs ---- *)

Lemma loadu_take : forall n cap i off, off + n <= cap -> cap <= len i ->
  loadu n (take cap i) off = loadu n i off.
Proof.
  intros n cap i off H1 H2. unfold loadu. rewrite !slice_ok by lenlia. cbn [bind].
  do 2 f_equal.
  rewrite <- (take_drop _ cap i) at 2. rewrite drop_app_le by lenlia.
  rewrite take_app_le by lenlia. reflexivity.
Qed.

Lemma load_grid_take : forall n cap inputs bo cols,
  Forall (readable cap) inputs -> Forall (fun col => bo + col + n <= cap) cols ->
  load_grid n inputs bo cols = load_grid n (map (take cap) inputs) bo cols.
Proof.
  intros n cap inputs bo cols Fi Fc. unfold load_grid. f_equal.
  induction Fc as [|col cols Hc Fc IH]; [reflexivity|]. cbn [flat_map]. f_equal; [|exact IH].
  rewrite map_map. apply map_ext_in. intros i Hi. rewrite Forall_forall in Fi.
  destruct (Fi i Hi) as [R _]. symmetry. now apply loadu_take.
Qed.

(* T transposes four vectors of four lanes. *)
Definition transposes4 (T : list vec -> list vec) : Prop :=
  forall a b c d : vec, length a = 4%nat -> length b = 4%nat -> length c = 4%nat -> length d = 4%nat ->
  T [a; b; c; d] = Sse41.transpose_vecs [a; b; c; d].

Lemma s_transposes : transposes4 s_transpose.
Proof. intros a b c d _ _ _ _. reflexivity. Qed.
Lemma z_transposes : transposes4 z_transpose4.
Proof. intros a b c d _ _ _ _. reflexivity. Qed.
Lemma n_transposes : transposes4 n_transpose.
Proof.
  intros a b c d Ha Hb Hc Hd.
  destruct (list4 _ a Ha) as (a0 & a1 & a2 & a3 & ->).
  destruct (list4 _ b Hb) as (b0 & b1 & b2 & b3 & ->).
  destruct (list4 _ c Hc) as (c0 & c1 & c2 & c3 & ->).
  destruct (list4 _ d Hd) as (d0 & d1 & d2 & d3 & ->).
  reflexivity.
Qed.

Lemma msg4_ok : forall T inputs cap, transposes4 T -> length inputs = 4%nat ->
  Forall (readable cap) inputs ->
  forall bo, bo + 64 <= cap -> exists msg,
  msg4 T inputs bo = Ok msg /\ length msg = 16%nat /\ Forall (vn 4) msg /\
  forall i, (i < 4)%nat ->
    lanes i msg = words_of_bytes (take 64 (drop bo (nth i (map (take cap) inputs) []))).
Proof.
  intros T inputs cap HT Li Fi bo Hbo.
  destruct (list4 _ inputs Li) as (i0 & i1 & i2 & i3 & ->).
  assert (Ls : Forall (fun i => len (take cap i) = cap) [i0; i1; i2; i3]).
  { eapply Forall_impl; [|exact Fi]. cbn. intros i [R _]. lenlia. }
  unfold msg4. rewrite (load_grid_take 16 cap) by (auto; repeat constructor; lia).
  inversion Ls as [|? ? E0 Ls1]; subst. inversion Ls1 as [|? ? E1 Ls2]; subst.
  inversion Ls2 as [|? ? E2 Ls3]; subst. inversion Ls3 as [|? ? E3 Ls4]; subst.
  clear Ls Ls1 Ls2 Ls3 Ls4. cbn [map].
  destruct (sse41_load _ _ _ _ cap E0 E1 E2 E3 bo Hbo) as (msg & E & L & F & X).
  exists msg. split; [|auto]. rewrite <- E. unfold Sse41.transpose_msg_vecs.
  rewrite load_grid_ok.
  2: { intros i col Hi Hcol. cbn in Hi, Hcol. intuition (subst; lia). }
  cbn [bind flat_map map app firstn skipn].
  assert (LL : forall inp col, len inp = cap -> col <= 48 ->
     length (words_of_bytes (take 16 (drop (bo + col) inp))) = 4%nat).
  { intros inp col E' C. apply words_vn. lenlia. }
  rewrite !HT by (apply LL; [assumption|lia]). reflexivity.
Qed.

Lemma store4_ok : forall T h, transposes4 T -> length h = 8%nat -> Forall (vn 4) h ->
  store4 T h = concat (map (fun i => bytes_of_words (lanes i h)) (seq 0 4)).
Proof.
  intros T h HT L F. rewrite <- sse41_store by auto. unfold store4.
  destruct (vn8 4 h L F) as (h0 & h1 & h2 & h3 & h4 & h5 & h6 & h7 & -> & L0 & L1 & L2 & L3 & L4 & L5 & L6 & L7).
  cbn [firstn skipn]. rewrite !HT by assumption. reflexivity.
Qed.

Lemma delta_offsets_ok : forall n off delta deltas, dtable n delta deltas ->
  delta_offsets n off deltas = Ok (map (fun i => (off + N.of_nat i * delta) mod W64) (seq 0 n)).
Proof.
  intros n off delta deltas T. unfold delta_offsets. rewrite <- seq_res_ok, map_map. f_equal.
  apply map_ext_in. intros i Hi. apply in_seq in Hi. rewrite (index_multiples _ _ _ _ T) by lia. cbn [bind].
  f_equal. apply N.add_mod_idemp_r. discriminate.
Qed.

Section Hash4.
Variables (inputs : list (list N)) (cap : N) (key : list N) (off delta flags fs fe : N)
          (deltas : list N).
Hypotheses (T : dtable 4 delta deltas) (Li : len inputs = 4) (Fi : Forall (readable cap) inputs) (Hc : cap mod 64 = 0)
           (Lk : length key = 8%nat) (Ho : off < W64).

Lemma hash4_sse41_ok :
  hash4_sse41 inputs (cap / 64) key off deltas flags fs fe
  = Ok (concat (hash_all WF key flags fs fe off delta (map (take cap) inputs))).
Proof.
  unfold hash4_sse41, s_load_offsets. rewrite (delta_offsets_ok _ _ delta) by auto. cbn [bind].
  change c_sse41_round_code with sse41_round_code.
  apply (lanes_hash 4 s_ops); auto; try lia.
  - exact s_lanewise.
  - apply (len_length _ _ 4); auto.
  - unfold s_transpose_msg. apply msg4_ok; [exact s_transposes|apply (len_length _ _ 4); auto|auto].
  - intros. apply store4_ok; auto. exact s_transposes.
Qed.

Lemma hash4_neon_ok :
  hash4_neon inputs (cap / 64) key off deltas flags fs fe
  = Ok (concat (hash_all WF key flags fs fe off delta (map (take cap) inputs))).
Proof.
  unfold hash4_neon, n_load_offsets. rewrite (delta_offsets_ok _ _ delta) by auto. cbn [bind].
  change c_neon_round_code with sse41_round_code.
  apply (lanes_hash 4 n_ops); auto; try lia.
  - exact n_lanewise.
  - apply (len_length _ _ 4); auto.
  - unfold n_transpose_msg. apply msg4_ok; [exact n_transposes|apply (len_length _ _ 4); auto|auto].
  - intros. apply store4_ok; auto. exact n_transposes.
Qed.
End Hash4.

(* ---- the AVX-512 offsets ---- *)

Lemma add_epi64_offsets : forall n off delta k,
  add_epi64 (repeat off n) (map (fun i => (N.of_nat i * delta) mod W64) (seq k n))
  = map (fun i => (off + N.of_nat i * delta) mod W64) (seq k n).
Proof.
  intros n off delta k. unfold add_epi64, map2.
  assert (X : forall m j, (j + m = k + n)%nat ->
    map (fun p => (fst p + snd p) mod W64) (combine (repeat off m) (map (fun i => (N.of_nat i * delta) mod W64) (seq j m)))
    = map (fun i => (off + N.of_nat i * delta) mod W64) (seq j m)).
  { induction m as [|m IH]; intros j E; [reflexivity|].
    cbn [repeat seq map combine fst snd]. rewrite IH by lia. f_equal.
    apply N.add_mod_idemp_r. discriminate. }
  apply X. reflexivity.
Qed.

Lemma slice_multiples : forall j delta deltas k n, dtable j delta deltas -> (k + n <= j)%nat ->
  slice deltas (N.of_nat k) (N.of_nat n)
  = Ok (map (fun i => (N.of_nat i * delta) mod W64) (seq k n)).
Proof.
  intros j delta deltas k n T H. pose proof (dtable_length _ _ _ T) as L.
  apply dtable_less with (k' := (k + n)%nat) in T; [|lia].
  rewrite slice_ok by (unfold len; lia).
  f_equal. unfold take, drop. rewrite !Nat2N.id.
  rewrite <- (firstn_skipn (k + n) deltas), T. unfold multiples. rewrite seq_app, map_app.
  rewrite <- app_assoc. rewrite skipn_app, skipn_all2 by (rewrite map_length, seq_length; lia).
  rewrite map_length, seq_length, Nat.sub_diag. cbn [skipn app Nat.add].
  rewrite firstn_app, firstn_all2 by (rewrite map_length, seq_length; lia).
  rewrite map_length, seq_length, Nat.sub_diag. cbn [firstn]. apply app_nil_r.
Qed.

Lemma cvt_low : forall l, cvtepi64_epi32 l = map c_offset_low l.
Proof. reflexivity. Qed.
Lemma cvt_high : forall l, cvtepi64_epi32 (srli_epi64 l 32) = map c_offset_high l.
Proof. intros. unfold cvtepi64_epi32, srli_epi64. rewrite map_map. reflexivity. Qed.

Lemma z_load_offsets4_ok : forall off delta deltas, dtable 4 delta deltas -> off < W64 ->
  z_load_offsets4 off deltas
  = Ok (map c_offset_low (map (fun i => (off + N.of_nat i * delta) mod W64) (seq 0 4)),
        map c_offset_high (map (fun i => (off + N.of_nat i * delta) mod W64) (seq 0 4))).
Proof.
  intros off delta deltas T H. unfold z_load_offsets4.
  rewrite (slice_multiples _ delta _ 0 4 T ltac:(lia) : slice _ 0 4 = _). cbn [bind].
  rewrite (add_epi64_offsets 4 off delta 0). rewrite cvt_low, cvt_high. reflexivity.
Qed.

Lemma z_load_offsets8_ok : forall off delta deltas, dtable 8 delta deltas -> off < W64 ->
  z_load_offsets8 off deltas
  = Ok (map c_offset_low (map (fun i => (off + N.of_nat i * delta) mod W64) (seq 0 8)),
        map c_offset_high (map (fun i => (off + N.of_nat i * delta) mod W64) (seq 0 8))).
Proof.
  intros off delta deltas T H. unfold z_load_offsets8.
  rewrite (slice_multiples _ delta _ 0 8 T ltac:(lia) : slice _ 0 8 = _). cbn [bind].
  rewrite (add_epi64_offsets 8 off delta 0). rewrite cvt_low, cvt_high. reflexivity.
Qed.

Lemma high_div : forall x, x / W32 mod W32 = c_offset_high x.
Proof. intros. unfold c_offset_high. now rewrite N.shiftr_div_pow2. Qed.

Lemma permute_offsets : forall a b : list N, length a = 8%nat -> length b = 8%nat ->
  permutex2var_epi32 (as_epi32 a) [0; 2; 4; 6; 8; 10; 12; 14; 16; 18; 20; 22; 24; 26; 28; 30] (as_epi32 b)
  = map c_offset_low (a ++ b) /\
  permutex2var_epi32 (as_epi32 a) [1; 3; 5; 7; 9; 11; 13; 15; 17; 19; 21; 23; 25; 27; 29; 31] (as_epi32 b)
  = map c_offset_high (a ++ b).
Proof.
  intros a b Ha Hb.
  destruct (list8 a Ha) as (a0 & a1 & a2 & a3 & a4 & a5 & a6 & a7 & ->).
  destruct (list8 b Hb) as (b0 & b1 & b2 & b3 & b4 & b5 & b6 & b7 & ->).
  unfold permutex2var_epi32, as_epi32. cbn [flat_map app].
  rewrite !high_div.
  generalize (fun x => eq_refl (c_offset_low x) : x mod W32 = c_offset_low x). intros EL.
  rewrite !EL. clear EL. generalize c_offset_low c_offset_high. intros f g.
  split; reflexivity.
Qed.

Lemma z_load_offsets16_ok : forall off delta deltas, dtable 16 delta deltas -> off < W64 ->
  z_load_offsets16 off deltas
  = Ok (map c_offset_low (map (fun i => (off + N.of_nat i * delta) mod W64) (seq 0 16)),
        map c_offset_high (map (fun i => (off + N.of_nat i * delta) mod W64) (seq 0 16))).
Proof.
  intros off delta deltas T H. unfold z_load_offsets16.
  rewrite (slice_multiples _ delta _ 0 8 T ltac:(lia) : slice _ 0 8 = _). cbn [bind].
  rewrite (slice_multiples _ delta _ 8 8 T ltac:(lia) : slice _ 8 8 = _). cbn [bind]. cbv zeta.
  rewrite (add_epi64_offsets 8 off delta 8).
  rewrite (add_epi64_offsets 8 off delta 0).
  destruct (permute_offsets (map (fun i => (off + N.of_nat i * delta) mod W64) (seq 0 8))
                            (map (fun i => (off + N.of_nat i * delta) mod W64) (seq 8 8)) eq_refl eq_refl) as [-> ->].
  rewrite <- map_app, <- seq_app. reflexivity.
Qed.

(* ---- eight inputs ---- *)

Lemma a_transpose_eq : forall v, a_transpose v = Avx2.transpose_vecs v.
Proof. reflexivity. Qed.

Lemma a_transpose_msg_ok : forall inputs cap, length inputs = 8%nat -> Forall (readable cap) inputs ->
  forall bo, bo + 64 <= cap -> exists msg,
  a_transpose_msg inputs bo = Ok msg /\ length msg = 16%nat /\ Forall (vn 8) msg /\
  forall i, (i < 8)%nat ->
    lanes i msg = words_of_bytes (take 64 (drop bo (nth i (map (take cap) inputs) []))).
Proof.
  intros inputs cap Li Fi bo Hbo.
  assert (Ls : Forall (fun i => len i = cap) (map (take cap) inputs)).
  { apply Forall_map. eapply Forall_impl; [|exact Fi]. cbn. intros i [R _]. lenlia. }
  destruct (avx2_load (map (take cap) inputs) cap ltac:(now rewrite map_length) Ls bo Hbo)
    as (msg & E & L & F & X).
  exists msg. split; [|auto]. rewrite <- E. unfold a_transpose_msg, Avx2.transpose_msg_vecs.
  rewrite (load_grid_take 32 cap) by (auto; repeat constructor; lia).
  destruct (load_grid 32 (map (take cap) inputs) bo [0; 32]); [|reflexivity|reflexivity].
  cbn [bind]. now rewrite !a_transpose_eq.
Qed.

Lemma store8_ok : forall h, length h = 8%nat -> Forall (vn 8) h ->
  store8 h = concat (map (fun i => bytes_of_words (lanes i h)) (seq 0 8)).
Proof.
  intros h L F. rewrite <- avx2_store by auto. unfold store8. rewrite a_transpose_eq. reflexivity.
Qed.

(* ---- sixteen inputs ---- *)

Lemma transpose16 : forall v, length v = 16%nat -> Forall (vn 16) v ->
  length (z_transpose16 v) = 16%nat /\ Forall (vn 16) (z_transpose16 v) /\
  (forall i, (i < 16)%nat -> lanes i (z_transpose16 v) = nth i v []) /\
  (forall i, (i < 16)%nat -> nth i (z_transpose16 v) [] = lanes i v).
Proof.
  intros v L F.
  destruct (list16p _ v L) as (v0 & v1 & v2 & v3 & v4 & v5 & v6 & v7 & v8 & v9 & v10 & v11 & v12 & v13 & v14 & v15 & ->).
  repeat match goal with H : Forall _ (_ :: _) |- _ => inversion H; clear H; subst end.
  repeat match goal with H : vn 16 ?x |- _ =>
    destruct (list16p _ x H) as (? & ? & ? & ? & ? & ? & ? & ? & ? & ? & ? & ? & ? & ? & ? & ? & ->); clear H end.
  match goal with |- context [z_transpose16 ?x] => set (w := z_transpose16 x) end.
  vm_compute in w. subst w.
  split; [reflexivity|]. split; [repeat constructor|].
  split; intros i Hi; lane_cases i Hi; reflexivity.
Qed.

Lemma z_transpose_msg16_ok : forall inputs cap, length inputs = 16%nat -> Forall (readable cap) inputs ->
  forall bo, bo + 64 <= cap -> exists msg,
  z_transpose_msg16 inputs bo = Ok msg /\ length msg = 16%nat /\ Forall (vn 16) msg /\
  forall i, (i < 16)%nat ->
    lanes i msg = words_of_bytes (take 64 (drop bo (nth i (map (take cap) inputs) []))).
Proof.
  intros inputs cap Li Fi bo Hbo. unfold z_transpose_msg16.
  rewrite (load_grid_take 64 cap) by (auto; repeat constructor; lia).
  assert (Ls : Forall (fun i => len i = cap) (map (take cap) inputs)).
  { apply Forall_map. eapply Forall_impl; [|exact Fi]. cbn. intros i [R _]. lenlia. }
  assert (Lm : length (map (take cap) inputs) = 16%nat) by now rewrite map_length.
  set (ins := map (take cap) inputs) in *. clearbody ins. clear Fi Li inputs.
  rewrite load_grid_ok.
  2: { intros i col Hi Hcol. rewrite Forall_forall in Ls. rewrite (Ls i Hi). cbn in Hcol. intuition (subst; lia). }
  cbn [bind flat_map]. rewrite app_nil_r, N.add_0_r.
  destruct (transpose16 (map (fun i => words_of_bytes (take 64 (drop bo i))) ins)) as (A & B & C & _).
  - now rewrite map_length.
  - apply Forall_map. eapply Forall_impl; [|exact Ls]. cbn beta. intros i E.
    apply words_vn.
    lenlia.
  - eexists. split; [reflexivity|]. split; [exact A|]. split; [exact B|].
    intros i Hi. rewrite C by exact Hi.
    rewrite (nth_indep _ [] (words_of_bytes (take 64 (drop bo [])))) by (rewrite map_length; lia).
    apply (map_nth (fun i => words_of_bytes (take 64 (drop bo i)))).
Qed.

Lemma store16_ok : forall h, length h = 8%nat -> Forall (vn 16) h ->
  store16 h = concat (map (fun i => bytes_of_words (lanes i h)) (seq 0 16)).
Proof.
  intros h L F. unfold store16. cbv zeta.
  destruct (transpose16 (h ++ repeat (set1_epi32 16 0) 8)) as (_ & _ & _ & C).
  - rewrite app_length, L. reflexivity.
  - apply Forall_app. split; [exact F|]. apply Forall_forall. intros x Hx.
    apply repeat_spec in Hx. subst x. reflexivity.
  - rewrite flat_map_concat_map. f_equal. apply map_ext_in. intros i Hi. apply in_seq in Hi.
    unfold vrow. rewrite C by lia. rewrite lanes_app. unfold storeu. f_equal.
    rewrite firstn_app. replace (8 - length (lanes i h))%nat with 0%nat by (unfold lanes; rewrite map_length; lia).
    rewrite firstn_all2 by (unfold lanes; rewrite map_length; lia). apply app_nil_r.
Qed.

Section HashN.
Variables (inputs : list (list N)) (cap : N) (key : list N) (off delta flags fs fe : N)
          (deltas : list N).
Hypotheses (Fi : Forall (readable cap) inputs) (Hc : cap mod 64 = 0) (Lk : length key = 8%nat).

Lemma hash4_avx512_ok : dtable 4 delta deltas -> len inputs = 4 -> off < W64 ->
  hash4_avx512 inputs (cap / 64) key off deltas flags fs fe
  = Ok (concat (hash_all WF key flags fs fe off delta (map (take cap) inputs))).
Proof.
  intros T Li Ho. unfold hash4_avx512. rewrite (z_load_offsets4_ok _ delta) by auto. cbn [bind].
  change c_avx512_round4_code with sse41_round_code.
  apply (lanes_hash 4 z_ops); auto; try lia.
  - exact (z_lanewise 4).
  - apply (len_length _ _ 4); auto.
  - unfold z_transpose_msg4. apply msg4_ok; [exact z_transposes|apply (len_length _ _ 4); auto|auto].
  - intros. apply store4_ok; auto. exact z_transposes.
Qed.

Lemma hash8_avx2_ok : dtable 8 delta deltas -> len inputs = 8 -> off < W64 ->
  hash8_avx2 inputs (cap / 64) key off deltas flags fs fe
  = Ok (concat (hash_all WF key flags fs fe off delta (map (take cap) inputs))).
Proof.
  intros T Li Ho. unfold hash8_avx2, a_load_offsets. rewrite (delta_offsets_ok _ _ delta) by auto. cbn [bind].
  change c_avx2_round_code with sse41_round_code.
  apply (lanes_hash 8 a_ops); auto; try lia.
  - exact a_lanewise.
  - apply (len_length _ _ 8); auto.
  - apply a_transpose_msg_ok; [apply (len_length _ _ 8); auto|auto].
  - intros. apply store8_ok; auto.
Qed.

Lemma hash8_avx512_ok : dtable 8 delta deltas -> len inputs = 8 -> off < W64 ->
  hash8_avx512 inputs (cap / 64) key off deltas flags fs fe
  = Ok (concat (hash_all WF key flags fs fe off delta (map (take cap) inputs))).
Proof.
  intros T Li Ho. unfold hash8_avx512. rewrite (z_load_offsets8_ok _ delta) by auto. cbn [bind].
  change c_avx512_round8_code with sse41_round_code.
  apply (lanes_hash 8 z_ops); auto; try lia.
  - exact (z_lanewise 8).
  - apply (len_length _ _ 8); auto.
  - apply a_transpose_msg_ok; [apply (len_length _ _ 8); auto|auto].
  - intros. apply store8_ok; auto.
Qed.

Lemma hash16_avx512_ok : dtable 16 delta deltas -> len inputs = 16 -> off < W64 ->
  hash16_avx512 inputs (cap / 64) key off deltas flags fs fe
  = Ok (concat (hash_all WF key flags fs fe off delta (map (take cap) inputs))).
Proof.
  intros T Li Ho. unfold hash16_avx512. rewrite (z_load_offsets16_ok _ delta) by auto. cbn [bind].
  change c_avx512_round16_code with sse41_round_code.
  apply (lanes_hash 16 z_ops); auto; try lia.
  - exact (z_lanewise 16).
  - apply (len_length _ _ 16); auto.
  - apply z_transpose_msg16_ok; [apply (len_length _ _ 16); auto|auto].
  - intros. apply store16_ok; auto.
Qed.
End HashN.

(* ---- hash_many ---- *)

(* What every hash_many writes: the hashes of the inputs, one after the other; the rest of
   out is unchanged. *)
Definition many_result (inputs : list (list N)) (blocks : N) (key : list N)
  (off delta flags fs fe : N) (out : list N) : list N :=
  concat (hash_all WF key flags fs fe off delta (map (take (64 * blocks)) inputs))
  ++ drop (32 * len inputs) out.

(* As long as the last offset is 64-bit, nothing wraps. *)
Lemma hash_all_last : forall key flags fs fe delta inputs off, off < W64 ->
  (0 < len inputs -> off + (len inputs - 1) * delta < W64) ->
  hash_all WF key flags fs fe off delta inputs = hash_all F key flags fs fe off delta inputs.
Proof.
  intros key flags fs fe delta inputs off H1 H2. destruct inputs as [|i inputs]; [reflexivity|].
  apply hash_all_small. rewrite len_cons in *. specialize (H2 ltac:(lia)). nia.
Qed.

Ltac dt := match goal with T : dtable _ _ _ |- dtable _ _ _ => apply (dtable_less _ _ _ _ T); cbn; lia end.

Section Many.
Variables (blocks : N) (key : list N) (delta flags fs fe : N) (deltas : list N).
Hypotheses (Lk : length key = 8%nat) (Wk : words key).

Definition many_ok (k : nat) (hm : list (list N) -> N -> list N -> N -> list N -> N -> N -> N -> list N -> res (list N))
  : Prop :=
  dtable k delta deltas ->
  forall inputs off out, Forall (readable (64 * blocks)) inputs ->
  32 * len inputs <= len out -> off < W64 ->
  hm inputs blocks key off deltas flags fs fe out
  = Ok (many_result inputs blocks key off delta flags fs fe out).

Lemma blocks_div : 64 * blocks / 64 = blocks.
Proof. lia. Qed.

Lemma hash_many_portable_ok : many_ok 2 hash_many_portable.
Proof.
  intros T inputs off out Fi Lo Ho. unfold hash_many_portable.
  apply single_loop_ok; auto; try dt. intros i o [R B] Hoo.
  apply hash_one_ok; auto. { exact c_portable_comp_ok. } exact write_state_bytes_ok.
Qed.

Lemma hash_many_sse41_ok : many_ok 5 hash_many_sse41.
Proof.
  intros T inputs off out Fi Lo Ho. unfold hash_many_sse41.
  apply many_loop_ok; auto; try lia; try dt.
  - intros ins o Li F O1. rewrite <- blocks_div at 1. apply hash4_sse41_ok; auto; try lia; dt.
  - intros ins o ou Li F Lou Oo. apply single_loop_ok; auto; try dt. intros i o' [R B] Hoo.
    apply hash_one_ok; auto. exact c_sse41_comp_ok.
Qed.

Lemma hash_many_avx2_ok : many_ok 9 hash_many_avx2.
Proof.
  intros T inputs off out Fi Lo Ho. unfold hash_many_avx2.
  apply many_loop_ok; auto; try lia; try dt.
  - intros ins o Li F O1. rewrite <- blocks_div at 1. apply hash8_avx2_ok; auto; try lia; dt.
  - intros ins o ou Li F Lou Oo. apply hash_many_sse41_ok; auto; dt.
Qed.

Lemma hash_many_avx512_ok : many_ok 17 hash_many_avx512.
Proof.
  intros T inputs off out Fi Lo Ho. unfold hash_many_avx512.
  apply many_loop_ok; auto; try lia; try dt.
  - intros ins o Li F O1. rewrite <- blocks_div at 1. apply hash16_avx512_ok; auto; try lia; dt.
  - clear inputs off out Fi Lo Ho. intros inputs off out _ Fi Lo Ho.
    apply many_loop_ok; auto; try lia; try dt.
    + intros ins o Li F O1. rewrite <- blocks_div at 1. apply hash8_avx512_ok; auto; try lia; dt.
    + clear inputs off out Fi Lo Ho. intros inputs off out _ Fi Lo Ho.
      apply many_loop_ok; auto; try lia; try dt.
      * intros ins o Li F O1. rewrite <- blocks_div at 1. apply hash4_avx512_ok; auto; try lia; dt.
      * intros ins o ou Li F Lou Oo. apply single_loop_ok; auto; try dt. intros i o' [R B] Hoo.
        apply hash_one_ok; auto. exact c_avx512_comp_ok.
Qed.

Lemma hash_many_neon_ok : many_ok 5 hash_many_neon.
Proof.
  intros T inputs off out Fi Lo Ho. unfold hash_many_neon.
  apply many_loop_ok; auto; try lia; try dt.
  - intros ins o Li F O1. rewrite <- blocks_div at 1. apply hash4_neon_ok; auto; try lia; dt.
  - intros ins o ou Li F Lou Oo. apply single_loop_ok; auto; try dt. intros i o' [R B] Hoo.
    apply hash_one_ok; auto. exact c_portable_comp_ok.
Qed.
End Many.
