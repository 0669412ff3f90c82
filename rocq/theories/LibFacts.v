(* The one-shot functions of lib.rs compute the specified root node. *)
From Coq Require Import NArith List Bool Lia ZArith.
From Coq Require Import ZifyBool ZifyNat ZifyN.
From Verif Require Import Base BaseFacts Spec TreeFacts CompressFacts ManyFacts SpecFacts.
From Verif Require Import Portable Platform Lib ChunkFacts.
Import ListNotations.
Open Scope N_scope.

(* ---- left_len ---- *)

Lemma log2_up_half : forall n, 1 <= n -> N.log2_up (n / 2 + 1) = N.log2 n.
Proof.
  intros n H. destruct (N.eq_dec n 1) as [->|N1]; [reflexivity|].
  assert (H2 : 2 <= n) by lia.
  rewrite N.log2_up_eqn by lia. replace (N.pred (n / 2 + 1)) with (n / 2) by lia.
  rewrite <- N.div2_div, N.div2_spec.
  rewrite N.log2_shiftr by lia. 
  pose proof (N.log2_le_mono 2 n H2) as L. change (N.log2 2) with 1 in L. lia.
Qed.

(* the number of chunks in the left subtree *)
Definition left_chunks (n : N) : N := 2 ^ N.log2 ((n - 1) / 2048).

Lemma left_chunks_spec : forall n, 2048 < n ->
  2048 * left_chunks n < n /\ n <= 2 * (2048 * left_chunks n) /\ 1 <= left_chunks n.
Proof.
  intros n H. unfold left_chunks. remember ((n - 1) / 2048) as k eqn:Ek.
  assert (Hk : 1 <= k) by lia.
  pose proof (N.log2_spec k ltac:(lia)) as [L1 L2]. rewrite N.pow_succ_r' in L2.
  pose proof (pow2_pos (N.log2 k)). lia.
Qed.

Lemma left_len_ok : forall c n, 2048 < n -> n < WU c ->
  left_len c n = Ok (2048 * left_chunks n).
Proof.
  intros c n H1 H2. unfold left_len. change CHUNK_LEN with 2048.
  destruct (left_chunks_spec n H1) as (A1 & A2 & A3).
  rewrite dassert_ok by lia. cbn [bind]. rewrite subU_ok by lia. cbn [bind].
  unfold largest_power_of_two_leq. rewrite addU_ok by lia. cbn [bind].
  unfold next_power_of_two. rewrite log2_up_half by lia.
  fold (left_chunks n). 
  rewrite (proj2 (N.ltb_lt _ _)) by lia. cbn [bind]. rewrite mulU_ok by lia. f_equal. lia.
Qed.

Section Key.
Variable c : cfg.
Variable p : platform.
Variable key : list N.
Variable flags : N.
Hypothesis Pok : platform_ok c p.
Hypothesis Lkey : length key = 8%nat.
Hypothesis Wkey : words key.

Notation cvs := (SpecFacts.cvs key flags).
Notation ccv := (SpecFacts.ccv key flags).
Notation pcv := (SpecFacts.pcv key flags).
Notation is32 := (fun h : list N => len h = 32 /\ bytes h).
Notation lbf := (TreeFacts.lbf (@nil N) pcv).
Notation topf := (TreeFacts.topf (@nil N) pcv).

Definition D : N := N.max (simd_degree p) 2.

Lemma D_pow : exists i, 1 <= i /\ D = 2 ^ i.
Proof.
  unfold D. destruct p; [exists 1|exists 2|exists 3]; split; reflexivity || (cbn; lia).
Qed.

Lemma D_max : D <= MAX_SIMD_DEGREE_OR_2 c.
Proof.
  unfold D, MAX_SIMD_DEGREE_OR_2, platform_ok in *.
  destruct p; cbn in *; destruct (x86 c); try discriminate; lia.
Qed.

(* What hash_recurse leaves in out. *)
Record compressed (l cv : list (list N)) : Prop :=
  { cm_32 : Forall is32 l;
    cm_1 : 1 <= len l;
    cm_max : len l <= N.min (len cv) D;
    cm_lbf : lbf l = lbf cv;
    cm_topf : 2 <= len cv -> 2 <= len l /\ topf l = topf cv;
    cm_pow : forall j, len cv = 2 ^ j -> D <= len cv -> len l = D }.

Lemma compressed_self : forall cv, Forall is32 cv -> 1 <= len cv -> len cv <= D ->
  compressed cv cv.
Proof. intros cv H H1 H2. constructor; auto; lia. Qed.

Lemma compressed_pair : forall a b, Forall is32 (a ++ b) -> len a = 1 -> len b = 1 ->
  forall ca cb, len ca = 1 -> len cb = 1 -> lbf a = lbf ca -> lbf b = lbf cb ->
  D = 2 -> compressed (a ++ b) (ca ++ cb).
Proof.
  intros a b H La Lb ca cb Lca Lcb Ea Eb HD.
  assert (T : topf (a ++ b) = topf (ca ++ cb)) by (apply (topf_join _ _ _ 0 0); auto; cbn; lia).
  constructor; rewrite ?len_app; auto; try lia.
  - rewrite !lbf_topf by (rewrite len_app; lia). now rewrite T.
  - intros _. split; [lia|exact T].
Qed.

Lemma compressed_join : forall a b ca cb j, compressed a ca -> compressed b cb ->
  len ca = 2 ^ j -> D <= len ca -> 1 <= len cb -> len cb <= len ca ->
  compressed (pairs pcv (a ++ b)) (ca ++ cb).
Proof.
  intros a b ca cb j A B Hj HD H1 H2. destruct D_pow as (i & Hi1 & Hi).
  destruct A as [A1 A2 A3 A4 A5 A6]. destruct B as [B1 B2 B3 B4 B5 B6].
  specialize (A6 j Hj HD).
  assert (HD2 : 2 <= D) by (unfold D; lia).
  assert (T : topf (a ++ b) = topf (ca ++ cb)).
  { apply (topf_join _ _ _ j i); auto; lia. }
  assert (Ln : len (pairs pcv (a ++ b)) = (D + len b + 1) / 2).
  { rewrite len_pairs, len_app, A6. reflexivity. }
  assert (F32 : Forall is32 (a ++ b)) by (apply Forall_app; auto).
  assert (TP : topf (pairs pcv (a ++ b)) = topf (ca ++ cb)).
  { rewrite topf_pairs by (rewrite len_app; lia). exact T. }
  constructor.
  - now apply pairs_shape.
  - lia.
  - rewrite Ln, len_app. lia.
  - rewrite !lbf_topf; try (rewrite ?Ln, ?len_app; lia). now rewrite TP.
  - intros _. split; [lia|exact TP].
  - intros j' Hj' _. rewrite Ln. rewrite len_app in Hj'.
    assert (E : len cb = len ca).
    { rewrite Hj in *. assert (Hlt : j < j'). { apply (N.pow_lt_mono_r_iff 2); lia. }
      pose proof (N.pow_le_mono_r 2 (j + 1) j' ltac:(lia) ltac:(lia)) as Q.
      rewrite pow2_S in Q. lia. }
    rewrite (B6 j) by lia. lia.
Qed.

Lemma pieces_left : forall input : list N, 2048 < len input ->
  let k := left_chunks (len input) in
  pieces 2048 input
  = pieces 2048 (take (2048 * k) input) ++ pieces 2048 (drop (2048 * k) input) /\
  len (pieces 2048 (take (2048 * k) input)) = k /\
  1 <= len (pieces 2048 (drop (2048 * k) input)) /\
  len (pieces 2048 (drop (2048 * k) input)) <= k.
Proof.
  intros input H k. destruct (left_chunks_spec _ H) as (A1 & A2 & A3). fold k in A1, A2, A3.
  assert (Lt : len (take (2048 * k) input) = 2048 * k) by lenlia.
  assert (Ld : len (drop (2048 * k) input) = len input - 2048 * k) by lenlia.
  repeat split.
  - rewrite <- (take_drop _ (2048 * k) input) at 1. apply (pieces_app _ _ _ k); lia.
  - rewrite pieces_len by lia. rewrite Lt. lia.
  - rewrite pieces_len by lia. rewrite Ld. lia.
  - rewrite pieces_len by lia. rewrite Ld. lia.
Qed.

Lemma hash_recurse_ok : forall fuel input i out,
  bytes input -> 1 <= len input -> len input < WU c -> 2048 * i + len input < W64 ->
  len input <= 2048 * 2 ^ N.of_nat fuel ->
  32 * N.min (len (pieces 2048 input)) D <= len out ->
  exists l, compressed l (cvs i (pieces 2048 input)) /\
    hash_recurse c p fuel input key (2048 * i) flags out
    = Ok (concat l ++ drop (32 * len l) out, len l).
Proof.
  pose proof (simd_degree_max c p Pok) as SM.
  assert (S1 : 1 <= simd_degree p) by (destruct p; cbn; lia).
  assert (Small : forall fuel input i out,
    bytes input -> 1 <= len input -> 2048 * i + len input < W64 ->
    32 * N.min (len (pieces 2048 input)) D <= len out ->
    len input <= simd_degree p * 2048 ->
    exists l, compressed l (cvs i (pieces 2048 input)) /\
      hash_recurse c p fuel input key (2048 * i) flags out
      = Ok (concat l ++ drop (32 * len l) out, len l)).
  { intros fuel input i out B H1 H3 H5 Hs.
    exists (cvs i (pieces 2048 input)). rewrite len_cvs.
    pose proof (pieces_len _ 2048 input eq_refl H1) as PL.
    assert (len (pieces 2048 input) <= D) by (unfold D; lia).
    split.
    - apply compressed_self; rewrite ?len_cvs; try lia.
      apply cvs_shape; auto. now apply pieces_Forall.
    - destruct fuel; cbn [hash_recurse]; change CHUNK_LEN with 2048;
        rewrite (proj2 (N.leb_le _ _) Hs); apply hash_chunks_parallel_ok; auto; nia. }
  induction fuel as [|fuel IH]; intros input i out B H1 H2 H3 H4 H5.
  { cbn in H4. apply Small; auto. nia. }
  destruct (N.le_gt_cases (len input) (simd_degree p * 2048)) as [Hs|Hs]; [now apply Small|].
  cbn [hash_recurse]. change CHUNK_LEN with 2048.
  rewrite (proj2 (N.leb_gt _ _) Hs).
  pose proof (pieces_len _ 2048 input eq_refl H1) as PL.
  assert (Hb : 2048 < len input) by nia.
  destruct (pieces_left _ Hb) as (P1 & P2 & P3 & P4).
  destruct (left_chunks_spec _ Hb) as (A1 & A2 & A3).
  rewrite left_len_ok by auto. cbn [bind].
  remember (left_chunks (len input)) as k eqn:Ek.
  assert (Kp : k = 2 ^ N.log2 ((len input - 1) / 2048)) by exact Ek.
  unfold split_at at 1. rewrite (proj2 (N.leb_le _ _)) by lia. cbn [bind].
  rewrite len_take, N.min_l by lia.
  rewrite add64_ok by lia. cbn [bind].
  rewrite dassert_ok by (destruct p; reflexivity). cbn [bind].
  pose proof D_max as DM. assert (D2 : 2 <= D) by (unfold D; lia).
  change OUT_LEN with 32.
  set (deg := if 2048 * k =? 2048 then 1 else N.max (simd_degree p) 2).
  assert (Hdeg : (k = 1 /\ deg = 1 /\ D = 2) \/ (2 <= k /\ deg = D /\ D <= k)).
  { unfold deg. destruct (N.eqb_spec (2048 * k) 2048) as [E|E].
    - left. split; [lia|]. split; [reflexivity|]. unfold D.
      assert (len input <= 4096) by lia. destruct p; cbn in *; lia.
    - right. split; [lia|]. split; [reflexivity|]. unfold D.
      assert (simd_degree p < 2 * k) by lia.
      assert (simd_degree p <= k); [|lia].
      assert (X : forall t, 2 ^ t < 2 * k -> 2 ^ t <= k).
      { intros t Ht. rewrite Kp in *. rewrite <- N.pow_succ_r' in Ht.
        apply N.pow_lt_mono_r_iff in Ht; [|lia]. apply N.pow_le_mono_r; lia. }
      destruct p; [apply (X 0)|apply (X 2)|apply (X 3)]; cbn in *; lia. }
  unfold split_at. rewrite len_zeros.
  rewrite (proj2 (N.leb_le _ _)) by lia. cbn [bind].
  assert (Bt : bytes (take (2048 * k) input)) by now apply bytes_take.
  assert (Bd : bytes (drop (2048 * k) input)) by now apply bytes_drop.
  assert (Lt : len (take (2048 * k) input) = 2048 * k) by lenlia.
  assert (Ld : len (drop (2048 * k) input) = len input - 2048 * k) by lenlia.
  assert (H4' : k <= 2 ^ N.of_nat fuel).
  { rewrite Nat2N.inj_succ in H4. rewrite Kp in *.
    assert (Q : 2 ^ N.log2 ((len input - 1) / 2048) < 2 ^ N.succ (N.of_nat fuel)) by lia.
    apply N.pow_lt_mono_r_iff in Q; [|lia]. apply N.pow_le_mono_r; lia. }
  destruct (IH (take (2048 * k) input) i (take (deg * 32) (zeros (2 * MAX_SIMD_DEGREE_OR_2 c * 32))))
    as (ll & Cl & El); auto; try lia.
  { rewrite P2, len_take, len_zeros. lia. }
  rewrite El. cbn [bind].
  destruct (IH (drop (2048 * k) input) (i + k) (drop (deg * 32) (zeros (2 * MAX_SIMD_DEGREE_OR_2 c * 32))))
    as (lr & Cr & Er); auto; try lia.
  { rewrite len_drop, len_zeros. lia. }
  replace (2048 * i + 2048 * k) with (2048 * (i + k)) by lia.
  rewrite Er. cbn [bind].
  pose proof Cl as [L1 L2 L3 L4 L5 L6]. pose proof Cr as [R1 R2 R3 R4 R5 R6].
  rewrite len_cvs in L3, L5, L6, R3, R5, R6.
  assert (Hll : len ll = deg).
  { destruct Hdeg as [(K1 & D1 & _)|(K1 & D1 & DK)]; [lia|].
    rewrite D1. eapply L6; rewrite P2; [exact Kp|lia]. }
  rewrite dassert_ok by lia. cbn [bind].
  rewrite dassert_ok by lia. cbn [bind].
  rewrite (drop_all _ (32 * len ll)) by (rewrite len_take; lia). rewrite app_nil_r.
  rewrite app_assoc, <- concat_app.
  assert (Lc : len (concat (ll ++ lr)) = 32 * (len ll + len lr)).
  { rewrite concat_32, len_app by (apply Forall_app; auto). lia. }
  rewrite P1, cvs_app, P2.
  destruct Hdeg as [(K1 & D1 & DD)|(K1 & D1 & DK)].
  - rewrite (proj2 (N.eqb_eq (len ll) 1)) by lia.
    assert (len lr = 1) by lia.
    exists (ll ++ lr). split.
    + apply compressed_pair; auto; rewrite ?len_cvs; try lia. apply Forall_app; auto.
    + rewrite slice_to_ok by lia. cbn [bind].
      rewrite slice_to_ok by (rewrite len_app; lia). cbn [bind].
      rewrite (take_app_eq _ (2 * 32)) by lia.
      rewrite copy_at_ok by lia. cbn [bind].
      rewrite take_0, N.add_0_l, Lc, len_app. cbn [app].
      replace (len ll + len lr) with 2 by lia. reflexivity.
  - rewrite (proj2 (N.eqb_neq (len ll) 1)) by lia.
    rewrite slice_to_ok by (rewrite len_app; lia). cbn [bind].
    rewrite (take_app_eq _ ((len ll + len lr) * 32)) by lia.
    pose proof (len_pairs _ pcv (ll ++ lr)) as LP. rewrite len_app in LP.
    exists (pairs pcv (ll ++ lr)). split.
    + eapply compressed_join; eauto; rewrite ?len_cvs, ?P2; try lia. exact Kp.
    + apply hash_parents_parallel_ok; auto; rewrite ?len_app; try lia. apply Forall_app; auto.
Qed.

(* ---- condense_root ---- *)

Lemma condense_loop_ok : forall fuel l out, Forall is32 l -> 2 <= len l ->
  len l <= 2 * MAX_SIMD_DEGREE_OR_2 c -> (2 < len l -> 32 * ((len l + 1) / 2) <= len out) ->
  len l <= N.of_nat fuel + 2 ->
  exists x y, condense_loop c p fuel (concat l) key flags out = Ok (x ++ y) /\
    is32 x /\ is32 y /\ topf l = (x, y).
Proof.
  induction fuel as [|fuel IH]; intros l out H1 H2 H3 H4 H5.
  - destruct l as [|x [|y [|z l]]]; rewrite ?len_cons, ?len_nil in *; try lia.
    inversion H1 as [|? ? Hx H1']; subst. inversion H1' as [|? ? Hy _]; subst.
    exists x, y. cbn [condense_loop concat]. rewrite app_nil_r.
    change BLOCK_LEN with 64. rewrite (proj2 (N.ltb_ge _ _)) by (rewrite len_app; lia).
    split; [reflexivity|]. split; [exact Hx|]. split; [exact Hy|]. apply topf_two.
  - cbn [condense_loop]. change BLOCK_LEN with 64. rewrite concat_32 by auto.
    destruct (N.ltb_spec 64 (32 * len l)) as [G|G].
    + pose proof (len_pairs _ pcv l) as LP.
      rewrite hash_parents_parallel_ok by (auto; lia). cbn [bind]. change OUT_LEN with 32.
      assert (PS : Forall is32 (pairs pcv l)) by now apply pairs_shape.
      assert (Lc : len (concat (pairs pcv l)) = 32 * len (pairs pcv l)) by now apply concat_32.
      rewrite slice_to_ok by (rewrite concat_32 by auto; lia). cbn [bind].
      rewrite slice_to_ok by (rewrite len_app; lia). cbn [bind].
      rewrite take_app_eq by lia.
      rewrite copy_at_ok by (rewrite (concat_32 l), Lc by auto; lia). cbn [bind].
      rewrite take_0. cbn [app].
      rewrite slice_to_ok by (rewrite len_app; lia). cbn [bind].
      rewrite take_app_eq by lia.
      destruct (IH (pairs pcv l) (concat (pairs pcv l) ++ drop (32 * len (pairs pcv l)) out))
        as (x & y & E & Hx & Hy & T); auto; try lia.
      { intros _. rewrite len_app, Lc, len_drop. lia. }
      exists x, y. rewrite E. split; [reflexivity|]. split; [exact Hx|]. split; [exact Hy|].
      rewrite <- T. symmetry. apply topf_pairs. lia.
    + destruct l as [|x [|y [|z l]]]; rewrite ?len_cons, ?len_nil in *; try lia.
      inversion H1 as [|? ? Hx H1']; subst. inversion H1' as [|? ? Hy _]; subst.
      exists x, y. cbn [concat]. rewrite app_nil_r.
      split; [reflexivity|]. split; [exact Hx|]. split; [exact Hy|]. apply topf_two.
Qed.

Lemma condense_root_ok : forall l, Forall is32 l -> 2 <= len l -> len l <= D ->
  condense_root c p (concat l) key flags
  = Ok (out_of p (parent_node key flags (fst (topf l)) (snd (topf l))) Root) /\
  is32 (fst (topf l)) /\ is32 (snd (topf l)).
Proof.
  intros l H1 H2 H3. unfold condense_root. change OUT_LEN with 32. change BLOCK_LEN with 64.
  rewrite concat_32 by auto. pose proof D_max as DM.
  rewrite dassert_ok by lia. cbn [bind]. rewrite dassert_ok by lia. cbn [bind].
  destruct (condense_loop_ok (length (concat l)) l (zeros (MAX_SIMD_DEGREE c * 32 / 2)))
    as (x & y & E & Hx & Hy & T); auto; try lia.
  { intros G. rewrite len_zeros. unfold D, MAX_SIMD_DEGREE, platform_ok in *.
    destruct p; cbn [simd_degree] in *; try lia; rewrite Pok; lia. }
  { pose proof (concat_32 l H1) as L. unfold len in *. lia. }
  rewrite E. cbn [bind]. rewrite slice_ok by (rewrite len_app; lia). cbn [bind].
  rewrite drop_0, take_all by (rewrite len_app; lia). rewrite T. cbn [fst snd]. auto.
Qed.

Lemma hash_internal_wf : forall input, bytes input -> len input < WU c ->
  hash_internal c p input key flags = Ok (out_of p (root_node F key flags input) Root) /\
  nd_wf (root_node F key flags input) /\ nd_off (root_node F key flags input) = 0.
Proof.
  intros input B H. unfold hash_internal. change CHUNK_LEN with 2048.
  assert (HW : WU c <= W64) by (unfold WU; destruct (w64 c); unfold W32, W64; lia).
  destruct (N.leb_spec (len input) 2048) as [L|G].
  - rewrite root_node_small by auto. split; [|now apply chunk_node_wf].
    apply (hash_one_chunk_ok c p key flags Lkey Wkey 0); auto. reflexivity.
  - pose proof D_max as DM.
    destruct (hash_recurse_ok (depth_fuel input) input 0 (zeros (MAX_SIMD_DEGREE_OR_2 c * OUT_LEN)))
      as (l & [C1 C2 C3 C4 C5 C6] & E); auto; try lia.
    { unfold depth_fuel. rewrite N2Nat.id. pose proof (N.size_gt (len input)). lia. }
    { rewrite len_zeros. change OUT_LEN with 32. lia. }
    change (2048 * 0) with 0 in E. rewrite E. cbn [bind]. change OUT_LEN with 32.
    rewrite slice_to_ok by (rewrite len_app, concat_32 by auto; lia). cbn [bind].
    rewrite take_app_eq by (rewrite concat_32 by auto; lia).
    destruct C5 as [C5 C5'].
    { rewrite len_cvs, pieces_len by lia. lia. }
    rewrite root_node_large by auto. cbv zeta. rewrite <- C5'.
    destruct (condense_root_ok l) as (E' & Hx & Hy); auto; try lia.
    rewrite E'. split; [reflexivity|]. split; [|reflexivity].
    apply parent_node_wf; tauto.
Qed.

End Key.
