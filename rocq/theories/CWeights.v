(* The calls made by the C hasher, see WeightFacts.v and StreamWeights.v. *)
From Coq Require Import NArith List Bool Lia ZArith.
From Coq Require Import ZifyBool ZifyNat ZifyN.
From Verif Require Import Base BaseFacts Spec TreeFacts CompressFacts ManySpec ManyFacts SpecFacts ChunkFacts.
From Verif Require Import Platform HasherFacts CSimd CSimdFacts CSimdProps CImpl CImplFacts CSpec.
From Verif Require Import Calls LibCalls TraceFacts WeightFacts StreamWeights CCalls CTraceFacts.
Import ListNotations.
Open Scope N_scope.

Notation CHUNK_START := Spec.CHUNK_START.
Notation CHUNK_END := Spec.CHUNK_END.
Notation PARENT := Spec.PARENT.

(* ---- hash_many ---- *)

(* the calls depend on the compression function only through its values *)
Lemma hash1_calls_ext : forall o p fuel cv l off bf fl fe,
  length cv = 8%nat -> words cv -> off < W64 -> bytes l ->
  hash1_calls (c_compress o) fuel cv l off bf fl fe = hash1_calls (Platform.compress p) fuel cv l off bf fl fe.
Proof.
  intros o p. induction fuel as [|fuel IH]; intros cv l off bf fl fe Lc Wc Ho B; [reflexivity|].
  cbn [hash1_calls]. change Portable.BLOCK_LEN with 64.
  destruct (N.leb_spec 64 (len l)) as [G|G]; [|reflexivity]. f_equal.
  assert (Lb : length (take 64 l) = 64%nat) by (apply (len_length _ _ 64); lenlia).
  assert (Bb : bytes (take 64 l)) by now apply bytes_take.
  rewrite (c_compress_ok o) by auto. rewrite compress_eq by auto.
  apply IH; auto; try now apply blake_shape8. now apply bytes_drop.
Qed.

Section Weight.
Variable w : node -> N.
Notation W := (WeightFacts.W w).

Section Key.
Variable o : copts.
Variable key : list N.
Variable flags : N.
Hypothesis Lkey : length key = 8%nat.
Hypothesis Wkey : words key.
Variable cap : N.

Notation cvs := (SpecFacts.cvs key flags).
Notation ccv := (SpecFacts.ccv key flags).
Notation pcv := (SpecFacts.pcv key flags).
Notation is32 := (fun h : list N => len h = 32 /\ bytes h).
Notation fullc := (fun ch : list N => len ch = 2048 /\ bytes ch).
Notation apar := (WeightFacts.apar w key flags).
Notation acv := (WeightFacts.acv w key flags).
Notation acvs := (WeightFacts.acvs w key flags).
Notation cw := (WeightFacts.cw w key flags).
Notation below := (WeightFacts.below w key flags).
Notation lbf := (TreeFacts.lbf ad apar).
Notation rep := (TreeFacts.rep ad apar).
Notation inter := (StreamWeights.inter w key flags).
Notation ck_at := (CImplFacts.ck_at key flags).
Notation ck_holds := (CImplFacts.ck_holds key flags).
Notation stk := (CImplFacts.stk cap).
Notation limit := (CImplFacts.limit o cap).

Lemma one_calls_chunk : forall input i, readable 2048 input -> 2048 * i < W64 ->
  one_calls o input 32 key (2048 * i) flags C_CHUNK_START C_CHUNK_END
  = chunk_calls F key (2048 * i) flags CHUNK_START (pieces 64 (take 2048 input))
    ++ [chunk_node F key flags i (take 2048 input)].
Proof.
  intros input i [L B] Hi. unfold one_calls. change (32 * C_BLOCK_LEN) with 2048.
  assert (Bt : bytes (take 2048 input)) by now apply bytes_take.
  rewrite (hash1_calls_ext o PPortable) by auto.
  change C_CHUNK_START with CHUNK_START. change C_CHUNK_END with CHUNK_END.
  apply (hash1_calls_chunk PPortable key flags Lkey 31); auto.
  rewrite len_take. lia.
Qed.

Lemma c_many_calls_chunks : forall ptrs i, Forall (readable 2048) ptrs ->
  2048 * (i + len ptrs) <= W64 ->
  W (c_many_calls o ptrs 32 key (2048 * i) 2048 flags C_CHUNK_START C_CHUNK_END)
  = sum (acvs i (map (take 2048) ptrs)).
Proof.
  induction ptrs as [|x ptrs IH]; intros i R L; [reflexivity|].
  inversion R as [|? ? Rx R']; subst. rewrite len_cons in L.
  cbn [c_many_calls map WeightFacts.acvs sum fold_right].
  fold (sum (acvs (i + 1) (map (take 2048) ptrs))).
  rewrite one_calls_chunk by (auto; lia).
  rewrite !W_app, W_cons, W_nil. replace (2048 * i + 2048) with (2048 * (i + 1)) by lia.
  replace (W (c_many_calls o ptrs 32 key (2048 * (i + 1) mod W64) 2048 flags C_CHUNK_START C_CHUNK_END))
    with (sum (acvs (i + 1) (map (take 2048) ptrs))).
  { unfold WeightFacts.acv, WeightFacts.cw. cbn [snd]. lia. }
  destruct ptrs as [|y ptrs]; [reflexivity|].
  rewrite N.mod_small by (rewrite len_cons in L; lia). symmetry. apply IH; auto. lia.
Qed.

(* ---- the chunk state ---- *)

Lemma n_block_w : forall s i dn b bf lg, 2048 * i < W64 -> ck_at s i dn bf -> len b = 64 ->
  W (fst (n_chunk_state_block o s b lg)) + cw i (dn ++ [0]) = W lg + cw i ((dn ++ b) ++ [0]).
Proof.
  intros s i dn b bf lg Hi A Lb.
  destruct A as [A1 A2 A3 A4 A5 A6 A7 A8 A9 A10 A11 A12 A13 Run].
  rewrite (cw_block w key flags Lkey i dn b (k_state s)); auto.
  2: { rewrite Run. { rewrite pieces_short by lia. reflexivity. }
       intros ->. rewrite len_nil in Lb. lia. }
  unfold n_chunk_state_block. rewrite A3, A2.
  erewrite tbind_eq by reflexivity. cbv beta. cbn [lift fst]. rewrite W_app, W_cons, W_nil.
  unfold chunk_state_maybe_start_flag. rewrite A4. change C_BLOCK_LEN with 64.
  change C_CHUNK_START with CHUNK_START. lia.
Qed.

Lemma n_loop_ok : forall fuel s i dn input lg, ck_at s i dn [] -> bytes input ->
  len dn + len input <= 2048 -> (length input <= fuel)%nat -> 2048 * i < W64 ->
  exists s' blocks rest lg', n_chunk_state_loop o fuel s input lg = (lg', Ok (s', rest)) /\
    input = blocks ++ rest /\ len rest <= 64 /\ (rest = [] -> input = []) /\
    len (dn ++ blocks) mod 64 = 0 /\
    W lg' + cw i (dn ++ [0]) = W lg + cw i ((dn ++ blocks) ++ [0]).
Proof.
  induction fuel as [|fuel IH]; intros s i dn input lg M B L Hf Hi.
  - destruct input; [|cbn in Hf; lia]. exists s, [], [], lg. rewrite (app_nil_r dn).
    split; [reflexivity|]. split; [reflexivity|]. split; [rewrite len_nil; lia|]. split; auto.
    split; [apply M|reflexivity].
  - cbn [n_chunk_state_loop]. change C_BLOCK_LEN with 64.
    destruct (N.ltb_spec 64 (len input)) as [G|G].
    + erewrite lift_ok by (apply slice_ok; lia).
      rewrite drop_0.
      destruct (ck_block o key flags Lkey s i dn (take 64 input) []) as (cv' & E & C1 & C2 & C3);
        auto; try lenlia.
      { now apply bytes_take. }
      pose proof (n_block_w s i dn (take 64 input) [] lg Hi M ltac:(lenlia)) as TW.
      erewrite (tbind_eq _ _ (n_chunk_state_block o s (take 64 input))).
      2: { rewrite (run_pair _ _ _ lg (ret_n_block o s (take 64 input))), E. reflexivity. }
      destruct M as [A1 A2 A3 A4 A5 A6 A7 A8 A9 A10 A11 A12 A13 Run].
      rewrite A6, A7.
      destruct (IH (CChunk cv' key (2048 * i) (len (dn ++ take 64 input)) (pad64 []) (len (@nil N)) flags)
                   i (dn ++ take 64 input) (drop 64 input) (fst (n_chunk_state_block o s (take 64 input) lg)))
        as (s' & bl & rest & lg' & E1 & E2 & E3 & E4 & E5 & E6).
      * constructor; cbn [k_key k_flags k_offset k_count k_buf k_buf_len k_state];
          auto; try lenlia.
        intros E0. apply (f_equal len) in E0. revert E0. lenlia.
      * now apply bytes_drop.
      * lenlia.
      * unfold len in G. pose proof (len_drop _ 64 input) as Q. unfold len in Q. lia.
      * auto.
      * exists s', (take 64 input ++ bl), rest, lg'. rewrite E1. split; [reflexivity|].
        split; [rewrite <- app_assoc, <- E2; symmetry; apply take_drop|]. split; auto.
        split.
        -- intros Er. specialize (E4 Er). apply (f_equal len) in E4. rewrite len_drop, len_nil in E4. lia.
        -- rewrite (app_assoc dn). split; [exact E5|]. lia.
    + exists s, [], input, lg. rewrite (app_nil_r dn). split; [reflexivity|]. split; [reflexivity|].
      split; [exact G|]. split; auto. split; [apply M|reflexivity].
Qed.

Lemma n_update_chunk_ok : forall s i data input lg, ck_holds s i data -> bytes input ->
  len data + len input <= 2048 -> 2048 * i < W64 ->
  exists s' lg', n_chunk_state_update o s input lg = (lg', Ok s') /\ ck_holds s' i (data ++ input) /\
    W lg' + cw i data = W lg + cw i (data ++ input).
Proof.
  intros s i data input lg H B L Hi.
  destruct (ck_update_ok o key flags Lkey s i data input H B L Hi) as (s' & E & H').
  exists s', (fst (n_chunk_state_update o s input lg)). split; [|split; [exact H'|]].
  { rewrite (run_pair _ _ _ lg (ret_n_chunk_update o s input)) at 1. now rewrite E. }
  clear s' E H'. destruct H as (dn & bf & -> & A & Ne). rewrite len_app in L.
  assert (Hw : cw i (dn ++ bf) = cw i (dn ++ [0])).
  { destruct bf as [|x bf].
    - rewrite Ne by auto. reflexivity.
    - destruct A. apply cw_mult; auto; rewrite len_cons; rewrite ?len_nil; lia. }
  rewrite Hw. clear Hw.
  assert (Fin : forall s dn input lg, ck_at s i dn [] -> bytes input -> len dn + len input <= 2048 ->
    (input = [] -> dn = []) ->
    W (fst ((let! (s, input) := n_chunk_state_loop o (length input) s input in
       let! (s, input) := lift (chunk_state_fill_buf o s input) in
       lift (Ok s)) lg)) + cw i (dn ++ [0]) = W lg + cw i (dn ++ input)).
  { clear s dn bf input lg A B L Ne. intros s dn input lg M B L Hne.
    destruct (n_loop_ok (length input) s i dn input lg M B L (le_n _) Hi)
      as (s1 & bl & rest & lg' & E1 & E2 & L1 & N1 & M1 & W1).
    erewrite tbind_eq by exact E1. cbv beta iota.
    rewrite fst_tbind_lift by (intros [s2 i2] l2; reflexivity).
    rewrite W1, E2, app_assoc.
    destruct rest as [|x rest].
    - specialize (N1 eq_refl). rewrite N1 in *. symmetry in E2. apply app_eq_nil in E2. destruct E2 as [-> _].
      rewrite (Hne eq_refl). cbn [app]. reflexivity.
    - rewrite (cw_mult w key flags i (dn ++ bl) [0] (x :: rest)); auto; rewrite ?len_cons, ?len_nil in *; lia. }
  unfold n_chunk_state_update. pose proof A as A'.
  destruct A as [A1 A2 A3 A4 A5 A6 A7 A8 A9 A10 A11 A12 A13 Run].
  rewrite A7. destruct (N.ltb_spec 0 (len bf)) as [G|G].
  - set (n := N.min (64 - len bf) (len input)).
    destruct (N.ltb_spec 0 (len (drop n input))) as [Z|Z].
    + (* the buffer is full and more follows *)
      rewrite len_drop in Z.
      assert (Ln : n = 64 - len bf) by lia.
      assert (Lb : len (bf ++ take n input) = 64) by lenlia.
      assert (Pb : pad64 (bf ++ take n input) = bf ++ take n input).
      { unfold pad64. rewrite Lb. apply app_nil_r. }
      assert (Bb : bytes (bf ++ take n input)) by (apply bytes_app; split; [auto|now apply bytes_take]).
      set (s0 := CChunk (k_state s) (k_key s) (k_offset s) (k_count s) (pad64 (bf ++ take n input))
          (len (bf ++ take n input)) (k_flags s)).
      assert (A0 : ck_at s0 i dn (bf ++ take n input)).
      { unfold s0. constructor; cbn [k_key k_flags k_offset k_count k_buf k_buf_len k_state]; auto; lia. }
      destruct (ck_block o key flags Lkey s0 i dn (bf ++ take n input) (bf ++ take n input))
        as (cv' & E & C1 & C2 & C3); auto; try lia.
      pose proof (n_block_w s0 i dn (bf ++ take n input) _ lg Hi A0 Lb) as TW.
      erewrite tbind_eq.
      2: { erewrite lift_ok by (apply (ck_fill_ok o key Lkey s input bf); auto). cbv beta iota.
           fold n. rewrite (proj2 (N.ltb_lt 0 (len (drop n input)))) by (rewrite len_drop; lia).
           cbn [k_buf]. fold s0. rewrite Pb.
           erewrite tbind_eq.
           2: { rewrite (run_pair _ _ _ lg (ret_n_block o s0 (bf ++ take n input))), E. reflexivity. }
           cbv beta. cbn [k_key k_flags k_offset k_count k_buf k_buf_len k_state]. reflexivity. }
      cbv beta iota.
      specialize (Fin (CChunk cv' key (2048 * i) (len (dn ++ bf ++ take n input)) (zeros C_BLOCK_LEN) 0 flags)
                  (dn ++ bf ++ take n input) (drop n input)
                  (fst (n_chunk_state_block o s0 (bf ++ take n input) lg))).
      replace ((dn ++ bf) ++ input) with ((dn ++ bf ++ take n input) ++ drop n input)
        by (rewrite <- !app_assoc, take_drop; reflexivity).
      enough (forall a b x d e f : N, a + b = e + f -> e + x = d + b -> a + x = d + f) as Ar.
      { eapply Ar; [apply Fin|exact TW].
        * constructor; cbn [k_key k_flags k_offset k_count k_buf k_buf_len k_state]; auto.
          -- rewrite len_app, Lb. lia.
          -- rewrite len_nil. lia.
          -- constructor.
          -- rewrite len_app, Lb, len_nil. lia.
          -- intros E0. apply (f_equal len) in E0. rewrite len_app, Lb, len_nil in E0. lia.
        * now apply bytes_drop.
        * rewrite len_app, Lb, len_drop. lia.
        * intros E0. apply (f_equal len) in E0. rewrite len_drop, len_nil in E0. lia. }
      intros; lia.
    + (* nothing left *)
      assert (Z' : len (drop n input) = 0) by lia.
      assert (Ln : n = len input) by (rewrite len_drop in Z; lia).
      erewrite tbind_eq.
      2: { erewrite lift_ok by (apply (ck_fill_ok o key Lkey s input bf); auto). cbv beta iota.
           fold n. rewrite (proj2 (N.ltb_ge 0 (len (drop n input)))) by lia. reflexivity. }
      cbv beta iota. rewrite (len_0_nil _ _ Z'). cbn [length n_chunk_state_loop].
      change (C_BLOCK_LEN <? len []) with false. cbv iota.
      rewrite (lift_ok _ _ (Ok _) _ lg _ eq_refl). cbv beta iota.
      rewrite fst_tbind_lift by (intros [s2 i2] l2; reflexivity).
      rewrite <- app_assoc. rewrite (cw_mult w key flags i dn [0] (bf ++ input)); auto;
        rewrite ?len_app, ?len_cons, ?len_nil; lia.
  - rewrite (lift_ok _ _ (Ok _) _ lg _ eq_refl). cbv beta iota.
    assert (Ebf : bf = []) by (apply len_0_nil; lia).
    pose proof (Ne Ebf) as Edn. subst bf dn.
    apply (Fin s [] input lg); auto.
Qed.

Lemma n_finalize_chunk_ok : forall s i data lg, ck_holds s i data -> bytes data -> 2048 * i < W64 ->
  n_chunk_state_finalize o s false lg
  = (lg ++ [chunk_node F key flags i data], Ok (ccv i data)).
Proof.
  intros s i data lg H B Hi.
  rewrite (run_pair _ _ _ lg (ret_n_chunk_finalize o s false)).
  rewrite (ck_finalize_chain o key flags Lkey Wkey s i data H B Hi). f_equal.
  rewrite (ck_node key flags Lkey s i data H). reflexivity.
Qed.

Lemma n_parent_ok : forall l r lg, is32 l -> is32 r ->
  n_hash_one_parent o (l ++ r) key false flags lg
  = (lg ++ [parent_node key flags l r], Ok (pcv l r)).
Proof.
  intros l r lg Hl Hr.
  rewrite (run_pair _ _ _ lg (ret_n_parent o (l ++ r) key false flags)).
  rewrite (parent_hash_ok o key flags Lkey Wkey l r Hl Hr). reflexivity.
Qed.

(* ---- the stack ---- *)

Lemma n_merge_parent_ok : forall h st x y lg, stk h (vals (st ++ [x; y])) ->
  k_key (c_chunk_of h) = key -> k_flags (c_chunk_of h) = flags ->
  exists h' lg', n_merge_parent o h lg = (lg', Ok h') /\ c_chunk_of h' = c_chunk_of h /\
    stk h' (vals (st ++ [apar x y])) /\
    W lg' + sum (st ++ [x; y]) = W lg + sum (st ++ [apar x y]).
Proof.
  intros h st x y lg S Hk Hf. rewrite vals_app in S. cbn [vals map] in S. fold (vals st) in S.
  destruct (c_merge_parent_ok o key flags Lkey Wkey cap h (vals st) (fst x) (fst y) S Hk Hf)
    as (h' & E & C & S').
  exists h', (fst (n_merge_parent o h lg)). split.
  { rewrite (run_pair _ _ _ lg (ret_n_merge_parent o h)) at 1. now rewrite E. }
  split; [exact C|]. split; [rewrite vals_app; exact S'|]. clear h' E C S'.
  destruct S as (E1 & Fs & L & junk & E2 & L2).
  apply Forall_app in Fs. destruct Fs as [Fs Fxy].
  pose proof (Forall_inv Fxy) as Fx. pose proof (Forall_inv (Forall_inv_tail Fxy)) as Fy.
  unfold n_merge_parent. rewrite len_app, !len_cons, len_nil in L, E1.
  rewrite E1. rewrite sub_size_ok by (unfold W32; lia).
  replace (len (vals st) + (1 + (1 + 0)) - 2) with (len (vals st)) by lia.
  change C_OUT_LEN with 32. change C_BLOCK_LEN with 64.
  rewrite mod_WS by (unfold W32; lia).
  assert (Cs : len (concat (vals st)) = len (vals st) * 32) by (rewrite concat_32 by auto; lia).
  assert (Cap : len (vals st) * 32 + 64 <= len (c_stack h)).
  { rewrite E2, len_app, concat_app, len_app, Cs. cbn [concat]. rewrite !len_app.
    cbn beta in *. lia. }
  erewrite lift_ok by (apply slice_ok; lia).
  assert (Eb : take 64 (drop (len (vals st) * 32) (c_stack h)) = fst x ++ fst y).
  { rewrite E2, concat_app. cbn [concat]. rewrite app_nil_r, <- app_assoc.
    rewrite drop_app_eq by auto. rewrite take_app_eq; [reflexivity|]. rewrite len_app. cbn beta in *. lia. }
  rewrite Eb, Hk, Hf.
  erewrite tbind_eq by (apply n_parent_ok; auto). cbv beta.
  rewrite fst_tbind_lift by reflexivity.
  rewrite W_app, W_cons, W_nil, !(sum_app key Lkey), (sum_one key Lkey).
  unfold WeightFacts.apar. cbn [snd sum fold_right]. lia.
Qed.

Lemma n_merge_loop_gen : forall fuel h st l x t off lg,
  rep st l -> len x = 2 ^ t -> len l mod 2 ^ t = 0 -> stk h (vals (st ++ [lbf x])) ->
  len st <= N.of_nat fuel -> off / 2048 = len (l ++ x) -> off < W64 ->
  k_key (c_chunk_of h) = key -> k_flags (c_chunk_of h) = flags ->
  exists h' st' lg', n_merge_loop o fuel h off lg = (lg', Ok h') /\ c_chunk_of h' = c_chunk_of h /\
    stk h' (vals st') /\ rep st' (l ++ x) /\ W lg' + sum (st ++ [lbf x]) = W lg + sum st'.
Proof.
  induction fuel as [|fuel IH]; intros h st l x t off lg R Hx Hm E Hf Ho Hw Hk Hfl.
  - assert (st = []) by (apply len_0_nil; lia). subst st.
    destruct (rep_step _ _ _ _ _ _ _ R Hx Hm) as [[R' P]|(st' & l' & y & E' & _)];
      [|now destruct st'].
    exists h, ([] ++ [lbf x]), lg. cbn [n_merge_loop].
    erewrite lift_ok by (apply (c_needs_merge o key Lkey cap _ _ _ E Hw)).
    rewrite Ho, len_vals, <- P. rewrite (proj2 (N.ltb_ge _ _)); [|reflexivity]. auto 6.
  - cbn [n_merge_loop]. erewrite lift_ok by (apply (c_needs_merge o key Lkey cap _ _ _ E Hw)).
    rewrite Ho, len_vals.
    destruct (rep_step _ _ _ _ _ _ _ R Hx Hm) as [[R' P]|(st' & l' & y & E1 & E2 & R' & Hy & Hm' & J & P)].
    + rewrite <- P, len_app, len_cons, len_nil. rewrite (proj2 (N.ltb_ge _ _)) by lia.
      exists h, (st ++ [lbf x]), lg. auto 6.
    + rewrite (len_app _ st), len_cons, len_nil. rewrite (proj2 (N.ltb_lt _ _)) by lia.
      subst st l. rewrite <- app_assoc in E. cbn [app] in E.
      destruct (n_merge_parent_ok h st' (lbf y) (lbf x) lg E Hk Hfl) as (h1 & lg1 & E1 & C1 & S1 & W1).
      erewrite tbind_eq by exact E1. cbv beta. rewrite <- !app_assoc.
      destruct (IH h1 st' l' (y ++ x) (t + 1) off lg1) as (h2 & st2 & lg2 & E2 & C2 & S2 & R2 & W2); auto.
      * rewrite len_app, pow2_S. lia.
      * now rewrite J.
      * rewrite len_app, len_cons, len_nil in Hf. lia.
      * now rewrite app_assoc.
      * now rewrite C1.
      * now rewrite C1.
      * exists h2, st2, lg2. rewrite C2, C1. split; [exact E2|]. split; auto. split; auto. split; auto.
        rewrite J in W2. cbn [app] in *. lia.
Qed.

(* the annotations do not matter *)
Lemma rep_vals : forall st l, rep st l -> TreeFacts.rep (@nil N) pcv (vals st) (vals l).
Proof.
  intros st l R. induction R as [|st l x t R IH Hx Hm]; [constructor|].
  rewrite !vals_app. cbn [vals map]. rewrite (fst_lbf w key flags Lkey)
    by (pose proof (pow2_pos t); lia).
  apply (TreeFacts.rep_snoc _ _ _ _ _ _ t); auto; now rewrite len_vals.
Qed.

Lemma n_merge_id : forall h st l fuel lg, stk h (vals st) -> rep st l -> 2048 * len l < W64 ->
  n_merge_loop o fuel h (2048 * len l) lg = (lg, Ok h).
Proof.
  intros h st l fuel lg S R H. pose proof (rep_len _ _ _ _ _ R) as P.
  destruct fuel; cbn [n_merge_loop];
    (erewrite lift_ok by (apply (c_needs_merge o key Lkey cap _ _ _ S H)));
    replace (2048 * len l / 2048) with (len l) by lia; rewrite len_vals, P;
    rewrite (proj2 (N.ltb_ge _ _)) by lia; reflexivity.
Qed.

Lemma n_merge_ok : forall h st l lg, stk h (vals st) -> (inter st l \/ rep st l) ->
  2048 * len l < W64 ->
  k_key (c_chunk_of h) = key -> k_flags (c_chunk_of h) = flags ->
  exists h' st' lg', n_merge_all o h (2048 * len l) lg = (lg', Ok h') /\
    c_chunk_of h' = c_chunk_of h /\ stk h' (vals st') /\ rep st' l /\
    W lg' + sum st = W lg + sum st'.
Proof.
  intros h st l lg S I Hl Hk Hf. unfold n_merge_all.
  destruct I as [[[E1 E2]|(st0 & l0 & x & E1 & E2 & R)]|R].
  - subst st l. exists h, [], lg. assert (R : rep [] []) by constructor.
    rewrite (n_merge_id h [] []) by auto. auto 6.
  - subst st l. apply (n_merge_loop_gen _ _ st0 l0 [x] 0); auto.
    + rewrite N.pow_0_r. apply N.mod_1_r.
    + destruct S as (-> & _). rewrite len_vals, len_app. lia.
    + lia.
  - exists h, st, lg. rewrite (n_merge_id h st l); auto 6.
Qed.

Lemma inter_vals : forall st l, inter st l \/ rep st l ->
  HasherFacts.inter key flags (vals st) (vals l) \/ TreeFacts.rep (@nil N) pcv (vals st) (vals l).
Proof.
  intros st l [[[-> ->]|(st0 & l0 & x & -> & -> & R)]|R].
  - left. now left.
  - left. right. exists (vals st0), (vals l0), (fst x). rewrite !vals_app. split; auto. split; auto.
    now apply rep_vals.
  - right. now apply rep_vals.
Qed.

Lemma n_push_ok : forall h st l x lg, stk h (vals st) -> inter st l \/ rep st l -> is32 (fst x) ->
  k_key (c_chunk_of h) = key -> k_flags (c_chunk_of h) = flags ->
  limit (2048 * (len l + 1)) ->
  exists h' st' lg', n_push_chunk_hash o h (fst x) (2048 * len l) lg = (lg', Ok h') /\
    c_chunk_of h' = c_chunk_of h /\ stk h' (vals (st' ++ [x])) /\ rep st' l /\
    W lg' + sum st = W lg + sum st'.
Proof.
  intros h st l x lg S I Sx Hk Hf Lim. unfold n_push_chunk_hash.
  pose proof S as (E & _). rewrite E.
  erewrite lift_ok.
  2: { apply (push_room o key flags Lkey (vals st) (vals l)); [now apply inter_vals|].
       rewrite len_vals. apply Lim. }
  pose proof (limit_room o key Lkey cap _ Lim) as Room. destruct Lim as [Lim _].
  destruct (n_merge_ok h st l lg) as (h1 & st1 & lg1 & E1 & C1 & (S1 & F1 & L1 & junk & S2 & S3) & R1 & W1); auto.
  { lia. }
  erewrite tbind_eq by exact E1. cbv beta. rewrite S1. change C_OUT_LEN with 32.
  pose proof (rep_len _ _ _ _ _ R1) as P. pose proof (pop53 key Lkey (len l) Lim) as P53. rewrite <- P in P53, Room.
  destruct Sx as [Lx Bx].
  assert (Cs : len (concat (vals st1)) = len (vals st1) * 32) by (rewrite concat_32 by auto; lia).
  rewrite len_vals in *.
  erewrite lift_ok by (apply copy_at_ok; lia).
  eexists. exists st1, lg1. split; [reflexivity|]. split; [exact C1|]. split; [|auto].
  rewrite vals_app. cbn [vals map]. fold (vals st1).
  split; [|split; [|split]].
  - cbn [c_stack_len]. rewrite N.mod_small by (unfold W8; lia). rewrite len_app, len_vals. reflexivity.
  - apply Forall_app. split; auto.
  - rewrite len_app, len_vals, len_cons, len_nil. lia.
  - cbn [c_stack]. exists (drop (len st1 * 32 + len (fst x)) (c_stack h1)).
    rewrite concat_app. cbn [concat]. rewrite app_nil_r, <- app_assoc. split.
    + f_equal. rewrite S2. now rewrite take_app_eq by auto.
    + rewrite !len_app, len_take, len_drop, Lx. lia.
Qed.

Lemma n_push_chunks_ok : forall xs idx h st l pre r lg, stk h (vals st) -> inter st l ->
  Forall is32 (vals xs) ->
  ck_holds (c_chunk_of h) (len l) [] -> limit (2048 * (len l + len xs)) -> len pre = idx * 32 ->
  exists h' st' lg', n_push_chunks o (length xs) idx h (pre ++ concat (vals xs) ++ r) lg = (lg', Ok h') /\
    stk h' (vals st') /\ inter st' (l ++ xs) /\ ck_holds (c_chunk_of h') (len (l ++ xs)) [] /\
    W lg' + sum st + sum xs = W lg + sum st'.
Proof.
  induction xs as [|x xs IH]; intros idx h st l pre r lg S I Fx H Lim Lp;
    cbn [n_push_chunks length vals map concat].
  - exists h, st, lg. rewrite app_nil_r. split; auto. split; auto. split; auto. split; auto. cbn. lia.
  - fold (vals xs). rewrite len_cons in Lim.
    pose proof (Forall_inv Fx) as Sx.
    change C_OUT_LEN with 32. rewrite <- app_assoc.
    assert (Lx : len (fst x) = 32) by (cbn beta in Sx; tauto).
    erewrite lift_ok by (apply slice_ok; rewrite !len_app; lia).
    rewrite drop_app_eq by auto. rewrite take_app_eq by auto.
    destruct (ck_fields _ _ _ _ _ H) as (Hk & Hf & Ho). rewrite Ho.
    destruct (n_push_ok h st l x lg) as (h1 & st1 & lg1 & E1 & C1 & S1 & R1 & W1); auto.
    { apply (limit_le o key Lkey cap _ (2048 * (len l + (1 + len xs)))); auto. lia. }
    erewrite tbind_eq by exact E1. cbv beta zeta. rewrite C1, Ho. change C_CHUNK_LEN with 2048.
    rewrite N.mod_small by (destruct Lim; lia).
    replace (2048 * len l + 2048) with (2048 * len (l ++ [x])) by lenlia.
    rewrite (app_assoc pre (fst x)).
    destruct (IH (idx + 1) (CHasher (CChunk (k_state (c_chunk_of h)) (k_key (c_chunk_of h))
                   (2048 * len (l ++ [x])) (k_count (c_chunk_of h)) (k_buf (c_chunk_of h))
                   (k_buf_len (c_chunk_of h)) (k_flags (c_chunk_of h))) (c_stack_len h1) (c_stack h1))
                 (st1 ++ [x]) (l ++ [x]) (pre ++ fst x) r lg1) as (h' & st' & lg' & E' & S' & I' & H' & W').
    + exact S1.
    + right. exists st1, l, x. auto.
    + exact (Forall_inv_tail Fx).
    + cbn [c_chunk_of]. now apply ck_move with (i := len l).
    + rewrite len_app, len_cons, len_nil. apply (limit_le o key Lkey cap _ (2048 * (len l + (1 + len xs)))); auto. lia.
    + rewrite len_app. lia.
    + exists h', st', lg'. rewrite <- app_assoc in I', H'. split; [exact E'|]. split; auto. split; auto.
      split; auto. rewrite (sum_app key Lkey), (sum_one key Lkey) in W'. cbn [sum fold_right]. fold (sum xs). lia.
Qed.

(* one batch: the chunks ba are hashed and their hashes pushed *)
Lemma n_batch_pushed : forall fuel input h st cs out lg, stk h (vals st) -> Forall fullc cs ->
  inter st (acvs 0 cs) -> ck_holds (c_chunk_of h) (len cs) [] ->
  bytes input -> 2048 <= len input -> limit (2048 * len cs + len input) -> len out = 512 ->
  exists h' st' ba rest out' lg', input = concat ba ++ rest /\ Forall fullc ba /\ 1 <= len ba /\
    len out' = 512 /\
    stk h' (vals st') /\ inter st' (acvs 0 (cs ++ ba)) /\ ck_holds (c_chunk_of h') (len (cs ++ ba)) [] /\
    W lg' + sum st = W lg + sum st' /\
    n_chunks_loop o (S fuel) h input out lg = n_chunks_loop o fuel h' rest out' lg'.
Proof.
  intros fuel input h st cs out lg S Fc I H B G Lim Lo. pose proof Lim as [LimW _].
  cbn [n_chunks_loop]. change C_CHUNK_LEN with 2048.
  rewrite (proj2 (N.leb_le _ _) G).
  destruct (gather_ok key Lkey (N.to_nat C_MAX_SIMD_DEGREE) input B)
    as (ptrs & ba & rest & E1 & E2 & E3 & E4 & E5 & E6 & E7).
  rewrite E1. change (N.to_nat C_MAX_SIMD_DEGREE) with 16%nat in *.
  destruct (ck_fields _ _ _ _ _ H) as (Hk & Hfl & Ho). cbv zeta. rewrite Hk, Hfl, Ho.
  assert (Lp : len ptrs = len ba) by (rewrite <- E4; unfold len; now rewrite map_length).
  assert (L16 : len ba <= 16) by (unfold len; lia).
  assert (Lin : len input = 2048 * len ba + len rest).
  { rewrite E2 at 1. rewrite len_app, len_concat_full by auto. lia. }
  assert (E8 : len ba = 16 \/ len rest < 2048).
  { destruct E7 as [E7|E7]; [left; unfold len; lia|auto]. }
  assert (L1 : 1 <= len ba) by lia.
  assert (Sb : Forall is32 (cvs (len cs) ba)) by (apply cvs_shape; auto; now apply full_bytes).
  change (2048 / C_BLOCK_LEN) with 32.
  assert (HM : c_hash_many o ptrs 32 key (2048 * len cs) CHUNK_OFFSET_DELTAS flags C_CHUNK_START C_CHUNK_END out
    = Ok (concat (cvs (len cs) ba) ++ drop (32 * len ba) out)).
  { rewrite (c_hash_many_ok o 32 key 2048 flags _ _ CHUNK_OFFSET_DELTAS Lkey Wkey eq_refl).
    4: { lia. }
    2: { exact E5. }
    2: { lia. }
    unfold many_result. change (64 * 32) with 2048. rewrite E4, Lp.
    rewrite hash_all_last by lia.
    change (hash_all F key flags C_CHUNK_START C_CHUNK_END (2048 * len cs) 2048 ba)
      with (hash_all F key flags CHUNK_START CHUNK_END (2048 * len cs) 2048 ba).
    rewrite hash_all_cvs by (eapply Forall_impl; [|exact E3]; cbn beta; tauto). reflexivity. }
  set (lg0 := lg ++ c_many_calls o ptrs 32 key (2048 * len cs) 2048 flags C_CHUNK_START C_CHUNK_END).
  erewrite (tbind_eq _ _ (n_hash_many o ptrs 32 key (2048 * len cs) CHUNK_OFFSET_DELTAS flags
                            C_CHUNK_START C_CHUNK_END out) _ lg lg0).
  2: { unfold n_hash_many, note, tbind, lift. rewrite HM. reflexivity. }
  cbv beta.
  assert (W0 : W lg0 = W lg + sum (acvs (len cs) ba)).
  { unfold lg0. rewrite W_app, c_many_calls_chunks by (auto; lia). now rewrite E4. }
  destruct (n_push_chunks_ok (acvs (len cs) ba) 0 h st (acvs 0 cs) [] (drop (32 * len ba) out) lg0)
    as (h1 & st1 & lg1 & E9 & S1 & I1 & H1 & W1); auto.
  - now rewrite vals_acvs.
  - now rewrite len_acvs.
  - rewrite !len_acvs. eapply (limit_le o key Lkey); [|exact Lim]. lia.
  - cbn [app] in E9. rewrite vals_acvs in E9.
    assert (Ecv : acvs 0 cs ++ acvs (len cs) ba = acvs 0 (cs ++ ba)) by (rewrite (acvs_app w key flags Lkey); f_equal).
    rewrite Ecv in I1, H1. rewrite len_acvs in H1.
    exists h1, st1, ba, rest, (concat (cvs (len cs) ba) ++ drop (32 * len ba) out), lg1.
    split; [exact E2|]. split; [exact E3|]. split; [exact L1|].
    split. { rewrite len_app, concat_32, len_cvs, len_drop by auto. lia. }
    split; [exact S1|]. split; [exact I1|]. split; [exact H1|]. split; [lia|].
    assert (El : length ptrs = length (acvs (len cs) ba)).
    { apply Nat2N.inj. change (len ptrs = len (acvs (len cs) ba)). now rewrite len_acvs. }
    rewrite El. erewrite tbind_eq by exact E9. reflexivity.
Qed.

Lemma n_chunks_loop_ok : forall fuel input h st cs out lg, stk h (vals st) ->
  Forall fullc cs -> bytes input -> (length input <= fuel)%nat ->
  inter st (acvs 0 cs) -> ck_holds (c_chunk_of h) (len cs) [] ->
  limit (2048 * len cs + len input) -> len out = 512 ->
  exists h' st' ch rest lg', n_chunks_loop o fuel h input out lg = (lg', Ok (h', rest)) /\
    input = concat ch ++ rest /\ len rest < 2048 /\ Forall fullc ch /\
    stk h' (vals st') /\ inter st' (acvs 0 (cs ++ ch)) /\ ck_holds (c_chunk_of h') (len (cs ++ ch)) [] /\
    W lg' + sum st = W lg + sum st'.
Proof.
  induction fuel as [|fuel IH]; intros input h st cs out lg S Fc B Hf I H Lim Lo.
  - destruct input; [|cbn in Hf; lia]. exists h, st, [], [], lg. rewrite (app_nil_r cs).
    cbn [n_chunks_loop]. change (C_CHUNK_LEN <=? len []) with false. cbn [concat app].
    split; [reflexivity|]. split; [reflexivity|]. split; [rewrite len_nil; lia|]. split; [constructor|]. auto.
  - destruct (N.le_gt_cases 2048 (len input)) as [G|G].
    + destruct (n_batch_pushed fuel input h st cs out lg) as
        (h1 & st1 & ba & rest & out1 & lg1 & E1 & E2 & E3 & Lo1 & S1 & I1 & H1 & W1 & E5); auto.
      assert (Lin : len input = 2048 * len ba + len rest).
      { rewrite E1 at 1. rewrite len_app, len_concat_full by auto. lia. }
      destruct (IH rest h1 st1 (cs ++ ba) out1 lg1)
        as (h2 & st2 & ch & rest2 & lg2 & E9 & E10 & E11 & E12 & S2 & I2 & H2 & W2); auto.
      * apply Forall_app; auto.
      * rewrite E1 in B. apply bytes_app in B. tauto.
      * unfold len in *. lia.
      * eapply (limit_le o key Lkey); [|exact Lim]. rewrite len_app. lia.
      * exists h2, st2, (ba ++ ch), rest2, lg2. rewrite E5, E9. split; [reflexivity|].
        split. { rewrite concat_app, <- app_assoc, <- E10. exact E1. }
        split; [exact E11|]. split; [apply Forall_app; auto|]. split; [exact S2|].
        rewrite <- app_assoc in I2, H2. split; auto. split; auto. lia.
    + cbn [n_chunks_loop]. change C_CHUNK_LEN with 2048. rewrite (proj2 (N.leb_gt _ _) G).
      exists h, st, [], input, lg. rewrite (app_nil_r cs). cbn [concat app]. auto 10.
Qed.

(* ---- the whole hasher ---- *)

(* h has been given data, and calls of total weight n were made for it *)
Definition n_holds (h : c_hasher) (data : list N) (n : N) : Prop :=
  exists cs rest st, stk h (vals st) /\ Forall fullc cs /\ bytes rest /\ data = concat cs ++ rest /\
    ck_holds (c_chunk_of h) (len cs) rest /\ len rest <= 2048 /\
    ((rep st (acvs 0 cs) /\ (rest = [] -> cs = [])) \/
     (rest = [] /\ 2 <= len cs /\ inter st (acvs 0 cs))) /\
    n = sum st + cw (len cs) rest.

Lemma n_update_rest_ok : forall junk h st cs input lg, stk h (vals st) -> len junk = 512 ->
  Forall fullc cs -> inter st (acvs 0 cs) -> ck_holds (c_chunk_of h) (len cs) [] ->
  bytes input -> limit (2048 * len cs + len input) ->
  (len cs + len input / 2048 = 1 -> len input mod 2048 <> 0) ->
  exists h' n' lg', n_update_rest o junk h input lg = (lg', Ok h') /\
    n_holds h' (concat cs ++ input) n' /\ W lg' + sum st = W lg + n'.
Proof.
  intros junk h st cs input lg S Lj Fc I H B Lim Hn. unfold n_update_rest.
  destruct (n_chunks_loop_ok (length input) input h st cs junk lg)
    as (h1 & st1 & ch & rm & lg1 & E1 & C1 & C2 & Fk & S1 & I1 & H1 & W1); auto.
  erewrite tbind_eq by exact E1. cbv beta iota.
  assert (Li : len input = 2048 * len ch + len rm) by (rewrite C1, len_app, len_concat_full by auto; lia).
  assert (Br : bytes rm) by (rewrite C1 in B; apply bytes_app in B; tauto).
  assert (Fa : Forall fullc (cs ++ ch)) by (apply Forall_app; auto).
  destruct (ck_fields _ _ _ _ _ H1) as (Hk & Hfl & Ho). pose proof Lim as [LimW _].
  destruct (N.ltb_spec 0 (len rm)) as [Z|Z].
  - rewrite Ho. rewrite <- (len_acvs w key flags (cs ++ ch) 0).
    destruct (n_merge_ok h1 st1 (acvs 0 (cs ++ ch)) lg1) as (h2 & st2 & lg2 & E & C3 & S2 & R & W2); auto.
    { rewrite len_acvs, len_app. lia. }
    erewrite tbind_eq by exact E. cbv beta. rewrite C3.
    destruct (n_update_chunk_ok (c_chunk_of h1) (len (cs ++ ch)) [] rm lg2) as (s' & lg3 & E' & H' & W3); auto.
    { rewrite len_nil. lia. }
    { rewrite len_app. lia. }
    erewrite tbind_eq by exact E'. cbv beta. cbn [app] in H', W3.
    eexists. exists (sum st2 + cw (len (cs ++ ch)) rm), lg3. split; [reflexivity|].
    rewrite cw_nil in W3. split; [|lia].
    exists (cs ++ ch), rm, st2. cbn [c_chunk_of].
    split; [exact S2|]. split; [exact Fa|]. split; [exact Br|].
    split; [now rewrite concat_app, <- app_assoc, <- C1|]. split; [exact H'|]. split; [lia|].
    split; [|reflexivity]. left. split; auto. intros ->. rewrite len_nil in Z. lia.
  - exists h1, (sum st1), lg1. split; [reflexivity|]. split; [|exact W1].
    assert (Erm : rm = []) by (apply len_0_nil; lia). subst rm.
    rewrite app_nil_r in C1. rewrite len_nil in *.
    exists (cs ++ ch), [], st1. rewrite app_nil_r, concat_app, <- C1.
    split; [exact S1|]. split; [exact Fa|]. split; [constructor|]. split; [reflexivity|].
    split; [exact H1|]. split; [rewrite len_nil; lia|]. split; [|rewrite cw_nil; lia].
    destruct (N.eq_dec (len (cs ++ ch)) 0) as [Z0|Z0].
    + left. pose proof (len_0_nil _ _ Z0) as E0. rewrite E0 in *. split; auto.
      destruct I1 as [[-> _]|(st0 & l0 & x & _ & E & _)]; [constructor|].
      cbn in E. now destruct l0.
    + right. split; auto. split; auto. rewrite len_app in *. lia.
Qed.

Lemma n_update_ok : forall junk h data n input lg, n_holds h data n -> bytes input -> len junk = 512 ->
  limit (len data + len input) ->
  exists h' n' lg', n_hasher_update o junk h input lg = (lg', Ok h') /\ n_holds h' (data ++ input) n' /\
    W lg' + n = W lg + n'.
Proof.
  intros junk h data n input lg (cs & rest & st & S & Fc & Br & -> & H & Lr & Cs & ->) B Lj Lim.
  rewrite len_app, len_concat_full in Lim by auto. pose proof Lim as [LimW _].
  destruct (ck_fields _ _ _ _ _ H) as (Hk & Hfl & Ho).
  unfold n_hasher_update. rewrite Ho, (ck_len_ok _ _ Lkey _ _ _ H). change C_CHUNK_LEN with 2048. cbv zeta.
  assert (Z0 : (2048 * len cs =? 0) = (len cs =? 0)).
  { destruct (N.eqb_spec (len cs) 0), (N.eqb_spec (2048 * len cs) 0); auto; lia. }
  rewrite Z0.
  destruct (((len cs =? 0) && (len input =? 2048)) || (0 <? len rest)) eqn:Eb.
  - (* the chunk state takes bytes *)
    assert (R : rep st (acvs 0 cs)).
    { destruct Cs as [[R _]|(E1 & E2 & _)]; auto. subst rest. rewrite len_nil in Eb.
      exfalso. lia. }
    rewrite sub_size_ok by (unfold W32; lia). rewrite min_if, N.min_comm.
    set (n := N.min (2048 - len rest) (len input)).
    erewrite lift_ok by (apply slice_ok; lia). rewrite drop_0.
    destruct (n_update_chunk_ok (c_chunk_of h) (len cs) rest (take n input) lg) as (s1 & lg1 & E1 & H1 & W1);
      auto; try lenlia.
    { now apply bytes_take. }
    erewrite tbind_eq by exact E1. cbv beta. rewrite len_drop.
    destruct (N.ltb_spec 0 (len input - n)) as [Z|Z].
    + assert (Lf : len (rest ++ take n input) = 2048) by lenlia.
      assert (Bf : bytes (rest ++ take n input)) by (apply bytes_app; split; [auto|now apply bytes_take]).
      erewrite tbind_eq by (apply (n_finalize_chunk_ok s1 (len cs) (rest ++ take n input)); auto; lia).
      cbv beta.
      destruct (ck_fields _ _ _ _ _ H1) as (Hk1 & Hfl1 & Ho1). rewrite Ho1.
      set (x := acv (len cs) (rest ++ take n input)).
      assert (Sx : is32 (fst x)) by (apply ccv_shape; auto).
      destruct (n_push_ok (CHasher s1 (c_stack_len h) (c_stack h)) st (acvs 0 cs) x
                  (lg1 ++ [chunk_node F key flags (len cs) (rest ++ take n input)]))
        as (h1 & st1 & lg2 & E2 & C2 & S2 & R2 & W2); auto.
      { rewrite len_acvs. apply (limit_le o key Lkey cap _ (2048 * len cs + len rest + len input)); auto. lia. }
      rewrite len_acvs in E2. erewrite tbind_eq by exact E2. cbv beta. rewrite C2. cbn [c_chunk_of]. rewrite Ho1.
      rewrite N.mod_small by lia.
      replace (2048 * len cs + 2048) with (2048 * (len cs + 1)) by lia.
      unfold chunk_state_reset. rewrite Hk1, Hfl1.
      match goal with |- context [n_update_rest o junk ?h0 _] =>
        destruct (n_update_rest_ok junk h0 (st1 ++ [x]) (cs ++ [rest ++ take n input]) (drop n input) lg2)
          as (h' & n' & lg' & E4 & H4 & W4) end; auto.
      * apply Forall_app. split; auto.
      * right. exists st1, (acvs 0 cs), x. rewrite (acvs_app w key flags Lkey). cbn [WeightFacts.acvs]. auto.
      * cbn [c_chunk_of]. rewrite len_app. now apply ck_fresh.
      * now apply bytes_drop.
      * apply (limit_le o key Lkey cap _ (2048 * len cs + len rest + len input)); auto.
        rewrite len_app, len_cons, len_nil, len_drop. lia.
      * rewrite len_app, len_cons, len_nil, len_drop. lia.
      * exists h', n', lg'. split; [exact E4|]. split.
        -- rewrite concat_app in H4. cbn [concat] in H4. rewrite app_nil_r in H4.
           rewrite <- !app_assoc, take_drop in H4. now rewrite <- app_assoc.
        -- rewrite W_app, W_cons, W_nil in W2. rewrite (sum_app key Lkey), (sum_one key Lkey) in W4.
           unfold x, WeightFacts.acv in W4. cbn [snd] in W4. lia.
    + rewrite take_all in H1, W1 by lia.
      eexists. exists (sum st + cw (len cs) (rest ++ input)), lg1. split; [reflexivity|]. split; [|lia].
      exists cs, (rest ++ input), st. cbn [c_chunk_of].
      split; [exact S|]. split; [exact Fc|]. split; [apply bytes_app; auto|].
      split; [now rewrite app_assoc|]. split; [exact H1|]. split; [rewrite len_app; lia|].
      split; [|reflexivity]. left. split; auto. intros E. apply app_eq_nil in E. destruct E as [-> ->].
      rewrite !len_nil in Eb. exfalso. lia.
  - (* the chunk state is empty *)
    assert (Er : rest = []) by (apply len_0_nil; lia). subst rest. rewrite app_nil_r, cw_nil, N.add_0_r.
    apply (n_update_rest_ok junk h st); auto.
    + destruct Cs as [[R E]|(_ & _ & I)]; auto. rewrite (E eq_refl) in *. left.
      split; [|reflexivity]. apply len_0_nil. rewrite (rep_len _ _ _ _ _ R). reflexivity.
    + apply (limit_le o key Lkey cap _ (2048 * len cs + len (@nil N) + len input)); auto. rewrite len_nil. lia.
    + destruct Cs as [[R E]|(_ & E & _)]; [|lia]. specialize (E eq_refl). subst cs.
      rewrite len_nil in *. cbn [orb] in Eb. lia.
Qed.

Lemma n_updates_ok : forall us h data n lg, n_holds h data n -> c_updates_ok us ->
  limit (len data + len (c_data us)) ->
  exists h' n' lg', n_updates o h us lg = (lg', Ok h') /\ n_holds h' (data ++ c_data us) n' /\
    W lg' + n = W lg + n'.
Proof.
  induction us as [|[input junk] us IH]; intros h data n lg H Ok1 L.
  - exists h, n, lg. cbn. rewrite app_nil_r. auto.
  - cbn [n_updates]. unfold c_data in *. cbn [map concat fst] in *. rewrite len_app in L.
    pose proof (Forall_inv Ok1) as [B J]. cbn [fst snd] in *.
    destruct (n_update_ok junk h data n input lg) as (h1 & n1 & lg1 & E1 & H1 & W1); auto.
    { eapply (limit_le o key Lkey); [|exact L]. lia. }
    erewrite tbind_eq by exact E1. cbv beta.
    destruct (IH h1 (data ++ input) n1 lg1) as (h2 & n2 & lg2 & E2 & H2 & W2); auto.
    { exact (Forall_inv_tail Ok1). }
    { rewrite len_app. eapply (limit_le o key Lkey); [|exact L]. lia. }
    exists h2, n2, lg2. rewrite E2, app_assoc. split; auto. split; auto. lia.
Qed.

(* ---- finalize ---- *)

Definition root_call_of (nd : node) : node :=
  Nd (nd_cv nd) (nd_block nd) (nd_blen nd) 0 (N.lor (nd_flags nd) ROOT).

Lemma n_finalize_up_ok : forall st fuel h wa x tl lg,
  c_stack h = concat (vals (x :: st)) ++ tl -> Forall is32 (vals (x :: st)) -> is32 (fst wa) ->
  k_key (c_chunk_of h) = key -> k_flags (c_chunk_of h) = flags ->
  (length st <= fuel)%nat -> len st <= 53 ->
  exists l, fst (n_finalize_up o fuel h (fst wa) (len st * 32) lg)
    = l ++ [root_call_of (parent_node key flags (fst x) (fst (roll _ apar st wa)))] /\
    W l + sum st + snd wa = W lg + snd (roll _ apar st wa).
Proof.
  intros st. induction st as [|y st IH] using rev_ind; intros fuel h wa x tl lg E S Hw Hk Hf Hfu Lj.
  - exists lg. split; [|cbn [sum fold_right roll]; lia].
    pose proof (Forall_inv S) as Sx. assert (Lx : len (fst x) = 32) by (cbn beta in Sx; tauto).
    rewrite len_nil. change (0 * 32) with 0.
    destruct fuel; cbn [n_finalize_up]; rewrite E; cbn [vals map concat N.eqb roll]; change C_OUT_LEN with 32;
      rewrite app_nil_r; (erewrite lift_ok by (apply slice_ok; rewrite len_app; lia));
      rewrite drop_0, take_app_eq by auto; rewrite Hk, Hf;
      (erewrite tbind_eq by reflexivity); reflexivity.
  - destruct fuel as [|fuel]; [rewrite app_length in Hfu; cbn in Hfu; lia|].
    assert (S' : Forall is32 (vals (x :: st)) /\ is32 (fst y)).
    { change (x :: st ++ [y]) with ((x :: st) ++ [y]) in S. rewrite vals_app in S.
      apply Forall_app in S. destruct S as [S1 S2]. split; [exact S1|exact (Forall_inv S2)]. }
    destruct S' as [S' Sy]. assert (Ly : len (fst y) = 32) by (cbn beta in Sy; tauto).
    assert (Lc : len (concat (vals (x :: st))) = len (st ++ [y]) * 32).
    { rewrite concat_32 by auto. rewrite len_vals, len_app, !len_cons, len_nil. lia. }
    cbn [n_finalize_up]. rewrite E. change C_OUT_LEN with 32.
    change (x :: st ++ [y]) with ((x :: st) ++ [y]).
    rewrite vals_app, concat_app. cbn [vals map concat]. cbn [vals map concat] in Lc. fold (vals st) in *.
    rewrite app_nil_r, <- app_assoc.
    erewrite lift_ok by (apply slice_ok; rewrite !len_app, <- !len_app; rewrite !len_app in *; lia).
    rewrite drop_app_eq by exact Lc. rewrite take_app_eq by auto.
    rewrite len_app, len_cons, len_nil in *.
    rewrite (proj2 (N.eqb_neq _ _)) by lia.
    rewrite sub_size_ok by (unfold W32; lia).
    rewrite Hk, Hf.
    erewrite tbind_eq by (apply n_parent_ok; auto). cbv beta.
    replace ((len st + (1 + 0)) * 32 - 32) with (len st * 32) by lia.
    change (pcv (fst y) (fst wa)) with (fst (apar y wa)).
    destruct (IH fuel h (apar y wa) x (fst y ++ tl) (lg ++ [parent_node key flags (fst y) (fst wa)]))
      as (l & E' & W'); auto.
    + rewrite E. change (x :: st ++ [y]) with ((x :: st) ++ [y]).
      rewrite vals_app, concat_app. cbn [vals map concat]. now rewrite app_nil_r, <- !app_assoc.
    + now apply pcv_shape.
    + rewrite app_length in Hfu. cbn in Hfu. lia.
    + lia.
    + exists l. rewrite roll_snoc. split; [exact E'|].
      rewrite W_app, W_cons, W_nil in W'. rewrite (sum_app key Lkey), (sum_one key Lkey).
      unfold WeightFacts.apar in W' at 1. cbn [snd] in W'. lia.
Qed.

Lemma n_finalize_ok : forall h data n lg, n_holds h data n -> len data < W64 ->
  exists l, fst (n_hasher_finalize o h lg) = l ++ [root_call_of (root_node F key flags data)] /\
    W l + n = W lg + below data.
Proof.
  intros h data n lg (cs & rest & st & S & Fc & Br & -> & H & Lr & Cs & ->) L.
  destruct (ck_fields _ _ _ _ _ H) as (Hk & Hfl & Ho).
  assert (Sc : Forall is32 (cvs 0 cs)) by (apply cvs_shape; auto; now apply full_bytes).
  rewrite len_app, len_concat_full in L by auto.
  destruct S as (S1 & S2 & S3 & junk & S4 & S5). rewrite len_vals in *.
  unfold n_hasher_finalize. rewrite S1.
  destruct (N.eq_dec (len cs) 0) as [Z|Z].
  - (* a single chunk *)
    pose proof (len_0_nil _ _ Z). subst cs.
    assert (Es : st = []).
    { destruct Cs as [[R _]|(_ & E & _)]; [|rewrite len_nil in E; lia].
      apply len_0_nil. rewrite (rep_len _ _ _ _ _ R). reflexivity. }
    rewrite Es. cbn [len length N.of_nat N.eqb concat app].
    rewrite root_node_small by auto. rewrite (below_small w key flags Lkey) by auto.
    exists lg. split; [|cbn [sum fold_right]; lia].
    rewrite (ck_node key flags Lkey _ 0 rest H). unfold n_chunk_state_finalize.
    cbn [len length N.of_nat N.mul] in Ho. rewrite Ho. reflexivity.
  - (* a tree: st0 covers all but the last chunk, whose hash is wa *)
    assert (X : exists st0 cs0 last tl lg1, rep st0 (acvs 0 cs0) /\ cs0 <> [] /\ bytes last /\
      Forall fullc cs0 /\
      pieces 2048 (concat cs ++ rest) = cs0 ++ [last] /\
      st = st0 ++ tl /\
      W lg1 + (sum st + cw (len cs) rest) = W lg + sum st0 + snd (acv (len cs0) last) /\
      (if 0 <? chunk_state_len (c_chunk_of h) then
         let! w := n_chunk_state_finalize o (c_chunk_of h) false in
         lift (Ok (w, (sub_size o (len st) 1 * C_OUT_LEN) mod WS o))
       else
         let last_hash_start := (sub_size o (len st) 1 * C_OUT_LEN) mod WS o in
         let! w := lift (slice (c_stack h) last_hash_start C_OUT_LEN) in
         lift (Ok (w, (sub_size o (len st) 2 * C_OUT_LEN) mod WS o))) lg
      = (lg1, Ok (fst (acv (len cs0) last), (len st0 - 1) * 32))).
    { rewrite (ck_len_ok _ _ Lkey _ _ _ H). change C_OUT_LEN with 32.
      destruct Cs as [[R E]|(E & L2 & I)].
      - exists st, cs, rest, [], (lg ++ [chunk_node F key flags (len cs) rest]).
        assert (Nr : 1 <= len rest).
        { destruct rest; [|rewrite len_cons; lia]. rewrite E in Z by auto. now rewrite len_nil in Z. }
        assert (Ncs : cs <> []) by (intros ->; now rewrite len_nil in Z).
        assert (N1 : 1 <= len st).
        { destruct st as [|z st]; [|rewrite len_cons; lia].
          exfalso. apply rep_nil in R. now apply acvs_nil in R. }
        split; auto. split; auto. split; auto. split; auto. split; [|split; [now rewrite app_nil_r|split]].
        + rewrite (pieces_app _ _ _ (len cs)); rewrite ?len_concat_full; try lia; auto.
          rewrite (pieces_full key Lkey), pieces_short by (auto; lia). reflexivity.
        + rewrite W_app, W_cons, W_nil. unfold WeightFacts.acv. cbn [snd]. lia.
        + rewrite (proj2 (N.ltb_lt _ _)) by lia.
          erewrite tbind_eq by (apply (n_finalize_chunk_ok _ (len cs) rest); auto; lia).
          cbv beta. rewrite sub_size_ok by (unfold W32; lia).
          rewrite mod_WS by (unfold W32; lia). reflexivity.
      - subst rest. rewrite len_nil in *.
        destruct I as [[_ E]|(st0 & l0 & x & E1 & E2 & R)].
        { destruct cs; [rewrite len_nil in L2; lia|discriminate]. }
        destruct (exists_last (l := cs)) as (cs0 & last & ->).
        { intros ->. rewrite len_nil in L2. lia. }
        rewrite (acvs_app w key flags Lkey) in E2. cbn [WeightFacts.acvs] in E2. apply app_inj_tail in E2.
        destruct E2 as [<- <-]. rewrite len_app, len_cons, len_nil in L2.
        assert (Ncs : cs0 <> []) by (intros ->; rewrite len_nil in L2; lia).
        exists st0, cs0, last, [acv (0 + len cs0) last], lg.
        pose proof Fc as Fc'. apply Forall_app in Fc'. destruct Fc' as [F0 F1].
        pose proof (Forall_inv F1) as F2.
        split; auto. split; auto. split; [cbn beta in F2; tauto|]. split; auto. split; [|split; [auto|split]].
        + rewrite app_nil_r. apply (pieces_full key Lkey); [exact Fc|]. intros Q. apply app_eq_nil in Q. destruct Q; discriminate.
        + rewrite E1, (sum_app key Lkey), (sum_one key Lkey), cw_nil, N.add_0_l. lia.
        + assert (N0 : 1 <= len st0).
          { destruct st0 as [|z st0]; [|rewrite len_cons; lia].
            exfalso. apply rep_nil in R. now apply acvs_nil in R. }
          rewrite E1 in *. clear E1. rewrite len_app, len_cons, len_nil in S3.
          rewrite vals_app in *. cbn [vals map] in *. fold (vals st0) in *.
          rewrite !len_app, !len_cons, !len_nil.
          rewrite !sub_size_ok by (unfold W32; lia).
          rewrite !mod_WS by (unfold W32; lia). cbn [N.ltb N.compare]. cbv zeta.
          apply Forall_app in S2. destruct S2 as [S2 S2'].
          assert (Ls : len (concat (vals st0)) = (len st0 + (1 + 0) - 1) * 32) by (rewrite concat_32, len_vals by auto; lia).
          assert (Lx : len (fst (acv (0 + len cs0) last)) = 32) by (pose proof (Forall_inv S2') as Q; cbn beta in Q; tauto).
          erewrite lift_ok.
          2: { apply slice_ok. rewrite S4, concat_app, !len_app, Ls. cbn [concat]. rewrite app_nil_r. lia. }
          rewrite S4, concat_app, <- app_assoc. rewrite drop_app_eq by exact Ls.
          cbn [concat]. rewrite app_nil_r, take_app_eq by exact Lx.
          rewrite N.add_0_l. unfold lift. do 3 f_equal. lia. }
    destruct X as (st0 & cs0 & last & tl & lg1 & R & Ncs & Bl & F0 & P & Est & W1 & E).
    assert (S0 : Forall is32 (vals (acvs 0 cs0))).
    { rewrite vals_acvs. apply cvs_shape; auto. now apply full_bytes. }
    pose proof (StreamWeights.rep_shape w key flags Lkey Wkey _ _ R S0) as Ss.
    destruct st0 as [|x st0].
    { exfalso. apply rep_nil in R. now apply acvs_nil in R. }
    rewrite (proj2 (N.eqb_neq (len st) 0)) by (rewrite Est, len_app, len_cons; lia).
    cbv zeta in E |- *. erewrite tbind_eq by exact E. cbv beta iota.
    rewrite len_cons. replace (1 + len st0 - 1) with (len st0) by lia.
    assert (Sl : is32 (fst (acv (len cs0) last))) by now apply ccv_shape.
    assert (Lst : len (x :: st0) <= len st) by (rewrite Est, len_app; lia).
    destruct (n_finalize_up_ok st0 (N.to_nat (len st)) h (acv (len cs0) last) x (concat (vals tl) ++ junk) lg1)
      as (l & E' & W'); auto.
    { rewrite S4, Est, vals_app, concat_app, <- app_assoc. reflexivity. }
    { unfold len in *. cbn in Lst. lia. }
    { rewrite len_cons in Lst. lia. }
    assert (L0 : 1 <= len cs0) by (destruct cs0; [congruence|rewrite len_cons; lia]).
    assert (Lp : 2048 < len (concat cs ++ rest)).
    { destruct (N.le_gt_cases (len (concat cs ++ rest)) 2048) as [Q|Q]; auto.
      exfalso. rewrite pieces_short in P by lia. apply (f_equal len) in P.
      rewrite len_app, !len_cons, !len_nil in P. lia. }
    destruct (below_large w key flags Lkey (concat cs ++ rest) Lp) as [B1 B2].
    rewrite P, (acvs_app w key flags Lkey) in B1, B2. cbn [WeightFacts.acvs] in B1, B2.
    rewrite N.add_0_l in B1, B2.
    rewrite (rep_top _ _ _ _ _ R ltac:(discriminate) _ 0) in B1, B2; try (cbn; lia).
    cbn [hd List.tl fst snd] in B1, B2. rewrite lbf_one in B1, B2.
    exists l. rewrite B1, B2. split; [exact E'|].
    cbn [sum fold_right] in W1. fold (sum st0) in W1. lia.
Qed.

Lemma n_init_holds : forall junk, len junk = cap ->
  n_holds (CHasher (chunk_state_init key flags) 0 junk) [] 0.
Proof.
  intros junk L. exists [], [], [].
  split. { split; [reflexivity|]. split; [constructor|]. split; [cbn; lia|].
           exists junk. auto. }
  split; [constructor|]. split; [constructor|]. split; [reflexivity|].
  split; [apply (ck_fresh key flags Lkey Wkey 0)|]. split; [cbn; lia|].
  split; [left; split; [constructor|auto]|reflexivity].
Qed.

End Key.
End Weight.
