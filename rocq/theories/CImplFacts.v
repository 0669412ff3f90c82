(* The C hasher: its chunk state, its stack of subtree hashes, and finalisation. *)
From Coq Require Import NArith List Bool Lia ZArith.
From Coq Require Import ZifyBool ZifyNat ZifyN.
From Verif Require Import Base BaseFacts Spec TreeFacts CompressFacts ManyFacts SpecFacts ChunkFacts.
From Verif Require Import HasherFacts CSimd CSimdFacts CSimdProps CImpl.
Import ListNotations.
Open Scope N_scope.

Lemma WS_W32 : forall o, W32 <= WS o.
Proof. intros o. unfold WS, W32, W64. destruct (size32 o); lia. Qed.

Lemma sub_size_ok : forall o a b, b <= a -> a < W32 -> sub_size o a b = a - b.
Proof.
  intros o a b H1 H2. unfold sub_size. pose proof (WS_W32 o) as H3. unfold W32 in *.
  replace (a + (WS o - b)) with (a - b + 1 * WS o) by lia.
  rewrite N.mod_add by lia. apply N.mod_small. lia.
Qed.
Lemma mod_WS : forall o a, a < W32 -> a mod WS o = a.
Proof. intros o a H. pose proof (WS_W32 o). apply N.mod_small. lia. Qed.

Lemma min_if : forall a b, (if a <? b then a else b) = N.min a b.
Proof. intros a b. destruct (N.ltb_spec a b); lia. Qed.

Lemma c_compress_ok : forall o, comp_ok (c_compress o).
Proof.
  intros o. unfold c_compress. destruct (use_avx512 o); [exact c_avx512_comp_ok|].
  destruct (use_sse41 o); [exact c_sse41_comp_ok|exact c_portable_comp_ok].
Qed.

Lemma c_hash_many_ok : forall o blocks key delta flags fs fe deltas, length key = 8%nat -> words key ->
  many_ok blocks key delta flags fs fe deltas 17 (c_hash_many o).
Proof.
  intros o blocks key delta flags fs fe deltas Lk Wk T. unfold c_hash_many.
  destruct (use_avx512 o); [apply hash_many_avx512_ok; auto; dt|].
  destruct (use_avx2 o); [apply hash_many_avx2_ok; auto; dt|].
  destruct (use_sse41 o); [apply hash_many_sse41_ok; auto; dt|].
  destruct (use_neon o); [apply hash_many_neon_ok; auto; dt|apply hash_many_portable_ok; auto; dt].
Qed.

Section Key.
Variable o : copts.
Variable key : list N.
Variable flags : N.
Hypothesis Lkey : length key = 8%nat.
Hypothesis Wkey : words key.
(* the number of bytes that may be written to as subtree_hashes *)
Variable cap : N.

Notation cvs := (SpecFacts.cvs key flags).
Notation ccv := (SpecFacts.ccv key flags).
Notation pcv := (SpecFacts.pcv key flags).
Notation is32 := (fun h : list N => len h = 32 /\ bytes h).
Notation lbf := (TreeFacts.lbf (@nil N) pcv).
Notation topf := (TreeFacts.topf (@nil N) pcv).
Notation rep := (TreeFacts.rep (@nil N) pcv).
Notation fullc := (fun ch : list N => len ch = 2048 /\ bytes ch).
Notation inter := (HasherFacts.inter key flags).

(* ---- the chunk state ---- *)

Definition run_ok (cv : list N) (i : N) (dn : list N) : Prop :=
  forall rest, (rest = [] -> dn = []) ->
      chunk_blocks F key (2048 * i) flags CHUNK_START (pieces 64 (dn ++ rest))
      = chunk_blocks F cv (2048 * i) flags (if len dn =? 0 then CHUNK_START else 0)
          (pieces 64 rest).

(* s has absorbed, in chunk i, whole blocks dn and then the bytes bf in the buffer *)
Record ck_at (s : c_chunk) (i : N) (dn bf : list N) : Prop :=
  { ca_key : k_key s = key; ca_flags : k_flags s = flags;
    ca_off : k_offset s = 2048 * i;
    ca_count : k_count s = len dn; ca_mult : len dn mod 64 = 0;
    ca_buf : k_buf s = pad64 bf; ca_buf_len : k_buf_len s = len bf; ca_bf : len bf <= 64;
    ca_bb : bytes bf; ca_max : len dn + len bf <= 2048;
    ca_cv : length (k_state s) = 8%nat; ca_cvw : words (k_state s);
    ca_start : dn = [] -> k_state s = key;
    ca_run : run_ok (k_state s) i dn }.

(* the buffer is only empty if nothing has been absorbed *)
Definition ck_holds (s : c_chunk) (i : N) (data : list N) : Prop :=
  exists dn bf, data = dn ++ bf /\ ck_at s i dn bf /\ (bf = [] -> dn = []).

Lemma ck_fresh : forall i, ck_holds (CChunk key key (2048 * i) 0 (zeros C_BLOCK_LEN) 0 flags) i [].
Proof.
  intros i. exists [], []. split; [reflexivity|]. split; auto.
  constructor; cbn [k_key k_flags k_offset k_count k_buf k_buf_len k_state];
    auto; try reflexivity; try discriminate; try constructor; try (cbn; lia).
Qed.

(* compressing one full block *)
Lemma ck_block : forall s i dn b bf, 2048 * i < W64 -> ck_at s i dn bf -> len dn + 64 <= 2048 ->
  len b = 64 -> bytes b ->
  exists cv', chunk_state_block o s b
    = CChunk cv' key (2048 * i) (len (dn ++ b)) (k_buf s) (k_buf_len s) flags /\
    length cv' = 8%nat /\ words cv' /\ run_ok cv' i (dn ++ b).
Proof.
  intros s i dn b bf Hi A Hm Lb Bb. destruct A as [A1 A2 A3 A4 A5 A6 A7 A8 A9 A10 A11 A12 A13 Run].
  assert (Lb' : length b = 64%nat) by now apply (len_length _ _ 64).
  unfold chunk_state_block. rewrite A1, A2, A3, A4. rewrite c_compress_ok by auto.
  rewrite N.mod_small by (change C_BLOCK_LEN with 64; lia).
  unfold chunk_state_maybe_start_flag. rewrite A4.
  eexists. split; [rewrite len_app, Lb; reflexivity|].
  split; [now apply blake_shape8|]. split; [now apply blake_shape8|].
  intros rest Hr. rewrite <- app_assoc.
  assert (Ne : rest <> []).
  { intros E. specialize (Hr E). apply app_eq_nil in Hr. destruct Hr as [_ ->]. cbn in Lb. lia. }
  rewrite Run. 2: { intros E. apply app_eq_nil in E. tauto. }
  rewrite pieces_cons64 by auto.
  rewrite chunk_blocks_cons by (apply pieces_nonnil; lia).
  rewrite len_app, Lb. rewrite (proj2 (N.eqb_neq (len dn + 64) 0)) by lia. reflexivity.
Qed.

Lemma ck_loop_ok : forall fuel s i dn input, ck_at s i dn [] -> bytes input ->
  len dn + len input <= 2048 -> (length input <= fuel)%nat -> 2048 * i < W64 ->
  exists s' blocks rest, chunk_state_loop o fuel s input = Ok (s', rest) /\
    input = blocks ++ rest /\ ck_at s' i (dn ++ blocks) [] /\ len rest <= 64 /\
    (rest = [] -> input = []).
Proof.
  induction fuel as [|fuel IH]; intros s i dn input M B L Hf Hi.
  - destruct input; [|cbn in Hf; lia]. exists s, [], []. cbn. rewrite app_nil_r.
    repeat split; auto; try apply M; lia.
  - cbn [chunk_state_loop]. change C_BLOCK_LEN with 64.
    destruct (N.ltb_spec 64 (len input)) as [G|G].
    + rewrite slice_ok by lia. cbn [bind]. rewrite drop_0.
      destruct (ck_block s i dn (take 64 input) []) as (cv' & E & C1 & C2 & C3); auto; try lenlia.
      { now apply bytes_take. }
      rewrite E.
      destruct M as [A1 A2 A3 A4 A5 A6 A7 A8 A9 A10 A11 A12 A13 Run].
      rewrite A6, A7 in *.
      destruct (IH (CChunk cv' key (2048 * i) (len (dn ++ take 64 input)) (pad64 []) (len (@nil N)) flags)
                   i (dn ++ take 64 input) (drop 64 input)) as (s' & bl & rest & E1 & E2 & E3 & E4 & E5).
      * constructor; cbn [k_key k_flags k_offset k_count k_buf k_buf_len k_state];
          auto; try lenlia.
        intros E0. apply (f_equal len) in E0. revert E0. lenlia.
      * now apply bytes_drop.
      * lenlia.
      * unfold len in G. pose proof (len_drop _ 64 input) as Q. unfold len in Q. lia.
      * auto.
      * exists s', (take 64 input ++ bl), rest. rewrite E1. split; [reflexivity|].
        split; [rewrite <- app_assoc, <- E2; symmetry; apply take_drop|].
        split; [now rewrite app_assoc|]. split; auto.
        intros Er. specialize (E5 Er). apply (f_equal len) in E5. rewrite len_drop, len_nil in E5. lia.
    + exists s, [], input. rewrite app_nil_r. repeat split; auto; apply M.
Qed.

Lemma ck_fill_ok : forall s input bf, k_buf s = pad64 bf -> k_buf_len s = len bf -> len bf <= 64 ->
  let n := N.min (64 - len bf) (len input) in
  chunk_state_fill_buf o s input
  = Ok (CChunk (k_state s) (k_key s) (k_offset s) (k_count s) (pad64 (bf ++ take n input))
          (len (bf ++ take n input)) (k_flags s), drop n input).
Proof.
  intros s input bf Hb Hl H n. unfold chunk_state_fill_buf. change C_BLOCK_LEN with 64. rewrite Hl, Hb.
  cbv zeta. rewrite sub_size_ok by (unfold W32; lia). rewrite min_if, N.min_comm. fold n.
  rewrite slice_ok by lia. cbn [bind]. rewrite drop_0.
  assert (Lt : len (take n input) = n) by lenlia.
  rewrite copy_at_ok by (rewrite pad64_len, Lt by auto; lia). cbn [bind].
  rewrite !N.mod_small by (unfold W8; lia).
  rewrite len_app, Lt. do 3 f_equal. unfold pad64.
  rewrite take_app_eq by reflexivity. rewrite drop_app_ge by lia.
  rewrite zeros_drop, len_app, Lt, <- app_assoc. do 3 f_equal. lia.
Qed.

Lemma ck_update_ok : forall s i data input, ck_holds s i data -> bytes input ->
  len data + len input <= 2048 -> 2048 * i < W64 ->
  exists s', chunk_state_update o s input = Ok s' /\ ck_holds s' i (data ++ input).
Proof.
  intros s i data input (dn & bf & -> & A & Ne) B L Hi. rewrite len_app in L.
  assert (Fin : forall s dn input, ck_at s i dn [] -> bytes input -> len dn + len input <= 2048 ->
    (input = [] -> dn = []) ->
    exists s', (let* (s, input) := chunk_state_loop o (length input) s input in
                let* (s, input) := chunk_state_fill_buf o s input in
                Ok s) = Ok s' /\
               ck_holds s' i (dn ++ input)).
  { clear s dn bf input A B L Ne. intros s dn input M B L Hne.
    destruct (ck_loop_ok (length input) s i dn input M B L (le_n _) Hi)
      as (s1 & bl & rest & E1 & E2 & M1 & L1 & N1).
    rewrite E1. cbn [bind]. destruct M1 as [A1 A2 A3 A4 A5 A6 A7 A8 A9 A10 A11 A12 A13 Run].
    rewrite (ck_fill_ok s1 rest []) by (first [exact A6|exact A7|rewrite len_nil; lia]).
    cbn [bind app]. rewrite len_nil, N.sub_0_r, N.min_r by lia.
    rewrite take_all by lia.
    assert (L2 : len (dn ++ bl) + len rest <= 2048).
    { rewrite E2 in L. rewrite len_app in L |- *. lia. }
    eexists. split; [reflexivity|].
    exists (dn ++ bl), rest. split; [now rewrite E2, app_assoc|]. split.
    - constructor; cbn [k_key k_flags k_offset k_count k_buf k_buf_len k_state]; auto.
      rewrite E2 in B. apply bytes_app in B. tauto.
    - intros E. specialize (N1 E). rewrite N1 in E2. symmetry in E2. apply app_eq_nil in E2.
      destruct E2 as [-> _]. rewrite (Hne N1). reflexivity. }
  unfold chunk_state_update. pose proof A as A'.
  destruct A as [A1 A2 A3 A4 A5 A6 A7 A8 A9 A10 A11 A12 A13 Run].
  rewrite A7. destruct (N.ltb_spec 0 (len bf)) as [G|G].
  - rewrite (ck_fill_ok s input bf) by auto. cbn [bind].
    set (n := N.min (64 - len bf) (len input)).
    assert (Bn : bytes (bf ++ take n input)) by (apply bytes_app; split; [auto|now apply bytes_take]).
    destruct (N.ltb_spec 0 (len (drop n input))) as [Z|Z]; rewrite len_drop in Z.
    + (* the buffer is full and more follows *)
      assert (Ln : n = 64 - len bf) by lia.
      assert (Lb : len (bf ++ take n input) = 64) by lenlia.
      cbn [k_buf].
      assert (Pb : pad64 (bf ++ take n input) = bf ++ take n input).
      { unfold pad64. rewrite Lb. apply app_nil_r. }
      rewrite Pb.
      match goal with |- context [chunk_state_block o ?s0 _] =>
        destruct (ck_block s0 i dn (bf ++ take n input) (bf ++ take n input)) as (cv' & E & C1 & C2 & C3);
          auto; try lia
      end.
      { constructor; cbn [k_key k_flags k_offset k_count k_buf k_buf_len k_state]; auto; lia. }
      rewrite E. cbn [bind k_key k_flags k_offset k_count k_buf k_buf_len k_state].
      destruct (Fin (CChunk cv' key (2048 * i) (len (dn ++ bf ++ take n input))
                   (zeros C_BLOCK_LEN) 0 flags)
                  (dn ++ bf ++ take n input) (drop n input)) as (s' & E' & H').
      * constructor; cbn [k_key k_flags k_offset k_count k_buf k_buf_len k_state]; auto.
        -- rewrite len_app, Lb. lia.
        -- rewrite len_nil. lia.
        -- constructor.
        -- rewrite len_app, Lb, len_nil. lia.
        -- intros E0. apply (f_equal len) in E0. rewrite len_app, Lb, len_nil in E0. lia.
      * now apply bytes_drop.
      * rewrite len_app, Lb, len_drop. lia.
      * intros E0. apply (f_equal len) in E0. rewrite len_drop, len_nil in E0. lia.
      * exists s'. split; [exact E'|].
        replace ((dn ++ bf) ++ input) with ((dn ++ bf ++ take n input) ++ drop n input); auto.
        rewrite <- !app_assoc, take_drop. reflexivity.
    + (* nothing left *)
      cbn [bind]. assert (Ln : n = len input) by lia.
      rewrite drop_all by lia. cbn [length chunk_state_loop len N.of_nat].
      change (C_BLOCK_LEN <? 0) with false. cbn [bind].
      rewrite (ck_fill_ok _ [] (bf ++ take n input)); cbn [k_buf k_buf_len]; auto.
      2: { lenlia. }
      cbn [bind k_key k_flags k_offset k_count k_state]. rewrite len_nil, N.min_0_r, take_0, app_nil_r.
      rewrite Ln, take_all in * by lia.
      eexists. split; [reflexivity|].
      exists dn, (bf ++ input). split; [now rewrite app_assoc|]. split.
      * constructor; cbn [k_key k_flags k_offset k_count k_buf k_buf_len k_state]; auto;
          rewrite len_app; lia.
      * intros E. apply app_eq_nil in E. tauto.
  - cbn [bind]. assert (Ebf : bf = []) by (apply len_0_nil; lia).
    pose proof (Ne Ebf) as Edn. subst bf dn.
    apply (Fin s [] input); auto.
Qed.

Definition root_bit (r : bool) : N := if r then ROOT else 0.

Lemma ck_node : forall s i data, ck_holds s i data ->
  chunk_node F key flags i data
  = Nd (k_state s) (k_buf s) (k_buf_len s) (k_offset s)
       (N.lor (N.lor (k_flags s) (chunk_state_maybe_start_flag s)) CHUNK_END).
Proof.
  intros s i data (dn & bf & -> & A & Ne).
  destruct A as [A1 A2 A3 A4 A5 A6 A7 A8 A9 A10 A11 A12 A13 Run].
  unfold chunk_node. rewrite Run by auto. rewrite pieces_short by lia. cbn [chunk_blocks].
  unfold chunk_state_maybe_start_flag. rewrite A2, A3, A4, A6, A7. reflexivity.
Qed.

Lemma ck_finalize_chain : forall s i data, ck_holds s i data -> bytes data -> 2048 * i < W64 ->
  chunk_state_finalize o s false = ccv i data.
Proof.
  intros s i data H B Hi. pose proof (ck_node s i data H) as E.
  unfold SpecFacts.ccv, chain. rewrite E. cbn [nd_cv nd_block nd_blen nd_off nd_flags].
  destruct (chunk_node_wf key flags Lkey Wkey i data) as [[W1 W2 W3 W4 W5] _]; auto.
  rewrite E in W1, W2, W3, W4, W5. cbn [nd_cv nd_block nd_off] in *.
  unfold chunk_state_finalize. cbv zeta. change C_CHUNK_END with CHUNK_END.
  rewrite c_compress_ok by auto. apply write_state_bytes_ok. now apply blake_shape8.
Qed.

Lemma ck_finalize_root : forall s data, ck_holds s 0 data -> bytes data ->
  chunk_state_finalize o s true = take 32 (root_block F (chunk_node F key flags 0 data) 0).
Proof.
  intros s data H B. pose proof (ck_node s 0 data H) as E.
  unfold root_block. rewrite E. cbn [nd_cv nd_block nd_blen nd_off nd_flags].
  destruct (chunk_node_wf key flags Lkey Wkey 0 data) as [[W1 W2 W3 W4 W5] _]; auto; try reflexivity.
  rewrite E in W1, W2, W3, W4, W5. cbn [nd_cv nd_block nd_off] in *.
  unfold chunk_state_finalize. cbv zeta. change C_CHUNK_END with CHUNK_END. change C_ROOT with ROOT.
  destruct H as (dn & bf & _ & A & _). rewrite (ca_off _ _ _ _ A). change (2048 * 0) with 0.
  rewrite c_compress_ok by (auto; reflexivity). rewrite write_state_bytes_ok by now apply blake_shape8.
  change 32 with (4 * 8). rewrite take_bytes_of_words. reflexivity.
Qed.

Lemma ck_len_ok : forall s i data, ck_holds s i data -> chunk_state_len s = len data.
Proof.
  intros s i data (dn & bf & -> & A & _). destruct A. unfold chunk_state_len. rewrite len_app. lia.
Qed.

Lemma ck_fields : forall s i data, ck_holds s i data ->
  k_key s = key /\ k_flags s = flags /\ k_offset s = 2048 * i.
Proof. intros s i data (dn & bf & -> & A & _). destruct A. auto. Qed.

Lemma ck_move : forall s i j, ck_holds s i [] ->
  ck_holds (CChunk (k_state s) (k_key s) (2048 * j) (k_count s) (k_buf s) (k_buf_len s) (k_flags s)) j [].
Proof.
  intros s i j (dn & bf & E & A & _). symmetry in E. apply app_eq_nil in E. destruct E as [-> ->].
  destruct A as [A1 A2 A3 A4 A5 A6 A7 A8 A9 A10 A11 A12 A13 Run].
  exists [], []. split; auto. split; auto.
  constructor; cbn [k_key k_flags k_offset k_count k_buf k_buf_len k_state]; auto.
  intros rest _. rewrite A13 by auto. reflexivity.
Qed.

(* ---- the stack ---- *)

(* the array holds the hashes st, followed by anything *)
Definition stk (h : c_hasher) (st : list (list N)) : Prop :=
  c_stack_len h = len st /\ Forall is32 st /\ len st <= 53 /\
  exists junk, c_stack h = concat st ++ junk /\ len (c_stack h) = cap.

Lemma parent_hash_ok : forall l r, is32 l -> is32 r ->
  c_hash_one_parent o (l ++ r) key false flags = pcv l r.
Proof.
  intros l r [Ll Bl] [Lr Br]. unfold c_hash_one_parent. cbv zeta.
  destruct (parent_node_wf key flags Lkey Wkey l r) as [W1 W2 W3 W4 W5]; auto.
  cbn [parent_node nd_cv nd_block nd_off] in *.
  rewrite c_compress_ok by auto. apply write_state_bytes_ok. now apply blake_shape8.
Qed.

Lemma parent_root_ok : forall l r, is32 l -> is32 r ->
  c_hash_one_parent o (l ++ r) key true flags
  = take 32 (root_block F (parent_node key flags l r) 0).
Proof.
  intros l r [Ll Bl] [Lr Br]. unfold c_hash_one_parent, root_block. cbv zeta.
  destruct (parent_node_wf key flags Lkey Wkey l r) as [W1 W2 W3 W4 W5]; auto.
  cbn [parent_node nd_cv nd_block nd_off nd_blen nd_flags] in *.
  rewrite c_compress_ok by auto. rewrite write_state_bytes_ok by now apply blake_shape8.
  change 32 with (4 * 8). rewrite take_bytes_of_words. reflexivity.
Qed.

Lemma c_merge_parent_ok : forall h st x y, stk h (st ++ [x; y]) ->
  k_key (c_chunk_of h) = key -> k_flags (c_chunk_of h) = flags ->
  exists h', hasher_merge_parent o h = Ok h' /\ c_chunk_of h' = c_chunk_of h /\
    stk h' (st ++ [pcv x y]).
Proof.
  intros h st x y (E1 & Fs & L & junk & E2 & L2) Hk Hf. unfold hasher_merge_parent.
  apply Forall_app in Fs. destruct Fs as [Fs Fxy].
  pose proof (Forall_inv Fxy) as Fx. pose proof (Forall_inv (Forall_inv_tail Fxy)) as Fy.
  rewrite len_app, !len_cons, len_nil in L, E1.
  rewrite E1. rewrite sub_size_ok by (unfold W32; lia).
  replace (len st + (1 + (1 + 0)) - 2) with (len st) by lia.
  change C_OUT_LEN with 32. change C_BLOCK_LEN with 64.
  rewrite mod_WS by (unfold W32; lia).
  assert (Cs : len (concat st) = len st * 32) by (rewrite concat_32 by auto; lia).
  assert (Cap : len st * 32 + 64 <= len (c_stack h)).
  { rewrite E2, len_app, concat_app, len_app, Cs. cbn [concat]. rewrite !len_app.
    cbn beta in *. lia. }
  rewrite slice_ok by lia. cbn [bind].
  assert (Eb : take 64 (drop (len st * 32) (c_stack h)) = x ++ y).
  { rewrite E2, concat_app. cbn [concat]. rewrite app_nil_r, <- app_assoc.
    rewrite drop_app_eq by auto. rewrite take_app_eq; [reflexivity|]. rewrite len_app. cbn beta in *. lia. }
  rewrite Eb, Hk, Hf, parent_hash_ok by auto.
  assert (Sp : is32 (pcv x y)) by now apply pcv_shape.
  rewrite copy_at_ok by (cbn beta in *; lia). cbn [bind].
  eexists. split; [reflexivity|]. split; [reflexivity|].
  split; [|split; [|split]].
  - cbn [c_stack_len]. rewrite len_app, len_cons, len_nil. unfold W8.
    replace (len st + (1 + (1 + 0)) + 255) with (len st + 1 + 1 * 256) by lia.
    rewrite N.mod_add by lia. rewrite N.mod_small by lia. lia.
  - apply Forall_app. auto.
  - rewrite len_app, len_cons, len_nil. lia.
  - cbn [c_stack]. exists (drop (len st * 32 + 32) (c_stack h)).
    destruct Sp as [Sp _].
    rewrite Sp. rewrite concat_app. cbn [concat]. rewrite app_nil_r, <- app_assoc. split.
    + f_equal. rewrite E2, concat_app, <- app_assoc. now rewrite take_app_eq by auto.
    + rewrite !len_app, len_take, len_drop, Sp. lia.
Qed.

Lemma c_needs_merge : forall h st total, stk h st -> total < W64 ->
  hasher_needs_merge o h total = Ok (popcount (total / 2048) <? len st).
Proof.
  intros h st total (E & _) H. unfold hasher_needs_merge. change C_CHUNK_LEN with 2048.
  rewrite popcnt_ok by (unfold W64 in *; lia). cbn [bind]. now rewrite E.
Qed.

Lemma c_merge_loop_gen : forall fuel h st l x t off,
  rep st l -> len x = 2 ^ t -> len l mod 2 ^ t = 0 -> stk h (st ++ [lbf x]) ->
  Forall is32 (l ++ x) -> len st <= N.of_nat fuel -> off / 2048 = len (l ++ x) -> off < W64 ->
  k_key (c_chunk_of h) = key -> k_flags (c_chunk_of h) = flags ->
  exists h' st', hasher_merge_loop o fuel h off = Ok h' /\ c_chunk_of h' = c_chunk_of h /\
    stk h' st' /\ rep st' (l ++ x).
Proof.
  induction fuel as [|fuel IH]; intros h st l x t off R Hx Hm E S Hf Ho Hw Hk Hfl.
  - assert (st = []) by (apply len_0_nil; lia). subst st.
    destruct (rep_step _ _ _ _ _ _ _ R Hx Hm) as [[R' P]|(st' & l' & y & E' & _)];
      [|now destruct st'].
    exists h, ([] ++ [lbf x]). cbn [hasher_merge_loop]. rewrite (c_needs_merge _ _ _ E Hw). cbn [bind].
    rewrite Ho, <- P. rewrite (proj2 (N.ltb_ge _ _)); [|reflexivity]. auto.
  - cbn [hasher_merge_loop]. rewrite (c_needs_merge _ _ _ E Hw). cbn [bind]. rewrite Ho.
    destruct (rep_step _ _ _ _ _ _ _ R Hx Hm) as [[R' P]|(st' & l' & y & E1 & E2 & R' & Hy & Hm' & J & P)].
    + rewrite <- P, len_app, len_cons, len_nil. rewrite (proj2 (N.ltb_ge _ _)) by lia.
      exists h, (st ++ [lbf x]). auto.
    + rewrite (len_app _ st), len_cons, len_nil. rewrite (proj2 (N.ltb_lt _ _)) by lia.
      subst st l. rewrite <- app_assoc in E. cbn [app] in E.
      destruct (c_merge_parent_ok h st' (lbf y) (lbf x) E Hk Hfl) as (h1 & E1 & C1 & S1).
      rewrite E1. cbn [bind]. rewrite <- app_assoc.
      destruct (IH h1 st' l' (y ++ x) (t + 1) off) as (h2 & st2 & E2 & C2 & S2 & R2); auto.
      * rewrite len_app, pow2_S. lia.
      * now rewrite J.
      * now rewrite app_assoc.
      * rewrite len_app, len_cons, len_nil in Hf. lia.
      * now rewrite app_assoc.
      * now rewrite C1.
      * now rewrite C1.
      * exists h2, st2. rewrite C2, C1. auto.
Qed.

Lemma c_merge_id : forall h st l fuel, stk h st -> rep st l -> 2048 * len l < W64 ->
  hasher_merge_loop o fuel h (2048 * len l) = Ok h.
Proof.
  intros h st l fuel S R H. pose proof (rep_len _ _ _ _ _ R) as P.
  destruct fuel; cbn [hasher_merge_loop]; rewrite (c_needs_merge _ _ _ S H); cbn [bind];
    replace (2048 * len l / 2048) with (len l) by lia; rewrite P;
    rewrite (proj2 (N.ltb_ge _ _)) by lia; reflexivity.
Qed.

Lemma c_merge_ok : forall h st l, stk h st -> (inter st l \/ rep st l) -> Forall is32 l ->
  2048 * len l < W64 ->
  k_key (c_chunk_of h) = key -> k_flags (c_chunk_of h) = flags ->
  exists h' st', hasher_merge_all o h (2048 * len l) = Ok h' /\ c_chunk_of h' = c_chunk_of h /\
    stk h' st' /\ rep st' l.
Proof.
  intros h st l S I F Hl Hk Hf. unfold hasher_merge_all.
  destruct I as [[[E1 E2]|(st0 & l0 & x & E1 & E2 & R)]|R].
  - subst st l. exists h, []. rewrite (c_merge_id h [] []); auto; try constructor. auto.
    split; auto. split; auto. constructor.
  - subst st l. apply (c_merge_loop_gen _ _ st0 l0 [x] 0); auto.
    + rewrite N.pow_0_r. apply N.mod_1_r.
    + destruct S as (-> & _). rewrite len_app. lia.
    + lia.
  - exists h, st. rewrite (c_merge_id h st l); auto.
Qed.

(* With assertions the stack may not be full when a hash is pushed, and the last of the 53
   entries is only needed for 2^63 bytes and more. *)
Definition limit (total : N) : Prop :=
  total < W64 /\ (ndebug o = true \/ total < 2 ^ 63 + 2048) /\
  (53 * 32 <= cap \/ 52 * 32 <= cap /\ total < 2 ^ 63).

Lemma limit_le : forall a b, a <= b -> limit b -> limit a.
Proof. intros a b H (H1 & H2 & H3). split; [lia|]. split.
  - destruct H2; [auto|right; lia].
  - destruct H3 as [H3|[H3 H4]]; [auto|right; split; [auto|lia]].
Qed.

Lemma limit_room : forall m, limit (2048 * (m + 1)) -> popcount m * 32 + 32 <= cap.
Proof.
  intros m (H1 & _ & H3). pose proof (pop53 key Lkey m H1) as P.
  destruct H3 as [H3|[H3 H4]]; [lia|].
  assert (popcount m < 52); [|lia].
  apply popcount_bound_1. change (2 ^ 52) with 4503599627370496.
  change (2 ^ 63) with 9223372036854775808 in H4. lia.
Qed.

Lemma inter_len : forall st l, inter st l -> len st <= popcount (len l - 1) + 1.
Proof.
  intros st l [[-> ->]|(st0 & l0 & x & -> & -> & R)]; [rewrite len_nil; lia|].
  rewrite !len_app, !len_cons, !len_nil, (rep_len _ _ _ _ _ R).
  replace (len l0 + (1 + 0) - 1) with (len l0) by lia. lia.
Qed.

Lemma push_room : forall st l, inter st l \/ rep st l ->
  (ndebug o = true \/ 2048 * (len l + 1) < 2 ^ 63 + 2048) ->
  (if ndebug o then Ok tt else assert_ (len st <? C_MAX_DEPTH)) = Ok tt.
Proof.
  intros st l I H2. destruct (ndebug o); auto. destruct H2 as [H2|H2]; [discriminate|].
  change (2 ^ 63) with 9223372036854775808 in H2.
  assert (L : len st < 53).
  { destruct I as [I|R].
    - apply inter_len in I.
      assert (popcount (len l - 1) < 52); [|lia].
      destruct (N.eq_dec (len l) 0) as [->|Z]; [reflexivity|].
      apply popcount_bound_1. change (2 ^ 52) with 4503599627370496. lia.
    - rewrite (rep_len _ _ _ _ _ R).
      assert (popcount (len l) <= 52); [|lia].
      apply popcount_bound. change (2 ^ 52) with 4503599627370496. lia. }
  change C_MAX_DEPTH with 53. unfold assert_. now rewrite (proj2 (N.ltb_lt _ _) L).
Qed.

Lemma c_push_ok : forall h st l x, stk h st -> inter st l \/ rep st l -> Forall is32 l -> is32 x ->
  k_key (c_chunk_of h) = key -> k_flags (c_chunk_of h) = flags ->
  limit (2048 * (len l + 1)) ->
  exists h' st', hasher_push_chunk_hash o h x (2048 * len l) = Ok h' /\
    c_chunk_of h' = c_chunk_of h /\ stk h' (st' ++ [x]) /\ rep st' l.
Proof.
  intros h st l x S I F Sx Hk Hf Lim. unfold hasher_push_chunk_hash.
  pose proof S as (E & _). rewrite E. rewrite (push_room st l) by (auto; apply Lim). cbn [bind].
  pose proof (limit_room _ Lim) as Room. destruct Lim as [Lim _].
  destruct (c_merge_ok h st l) as (h1 & st1 & E1 & C1 & (S1 & F1 & L1 & junk & S2 & S3) & R1); auto.
  { lia. }
  rewrite E1. cbn [bind]. rewrite S1. change C_OUT_LEN with 32.
  pose proof (rep_len _ _ _ _ _ R1) as P. pose proof (pop53 key Lkey (len l) Lim) as P53. rewrite <- P in P53, Room.
  destruct Sx as [Lx Bx].
  assert (Cs : len (concat st1) = len st1 * 32) by (rewrite concat_32 by auto; lia).
  rewrite copy_at_ok by lia. cbn [bind].
  eexists. exists st1. split; [reflexivity|]. split; [exact C1|]. split; [|exact R1].
  split; [|split; [|split]].
  - cbn [c_stack_len]. rewrite N.mod_small by (unfold W8; lia). rewrite len_app. reflexivity.
  - apply Forall_app. split; auto.
  - rewrite len_app, len_cons, len_nil. lia.
  - cbn [c_stack]. exists (drop (len st1 * 32 + len x) (c_stack h1)).
    rewrite concat_app. cbn [concat]. rewrite app_nil_r, <- app_assoc. split.
    + f_equal. rewrite S2. now rewrite take_app_eq by auto.
    + rewrite !len_app, len_take, len_drop, Lx. lia.
Qed.

Lemma push_chunks_ok : forall xs idx h st l pre r, stk h st -> inter st l -> Forall is32 (l ++ xs) ->
  ck_holds (c_chunk_of h) (len l) [] -> limit (2048 * (len l + len xs)) -> len pre = idx * 32 ->
  exists h' st', push_chunks o (length xs) idx h (pre ++ concat xs ++ r) = Ok h' /\
    stk h' st' /\ inter st' (l ++ xs) /\ ck_holds (c_chunk_of h') (len (l ++ xs)) [].
Proof.
  induction xs as [|x xs IH]; intros idx h st l pre r S I F H Lim Lp; cbn [push_chunks length concat].
  - exists h, st. rewrite app_nil_r. auto.
  - rewrite len_cons in Lim. apply Forall_app in F. destruct F as [Fl Fx].
    pose proof (Forall_inv Fx) as Sx.
    change C_OUT_LEN with 32. rewrite <- app_assoc.
    assert (Lx : len x = 32) by (cbn beta in Sx; tauto).
    rewrite slice_ok by (rewrite !len_app; lia). cbn [bind].
    rewrite drop_app_eq by auto. rewrite take_app_eq by auto.
    destruct (ck_fields _ _ _ H) as (Hk & Hf & Ho). rewrite Ho.
    destruct (c_push_ok h st l x) as (h1 & st1 & E1 & C1 & S1 & R1); auto.
    { apply (limit_le _ (2048 * (len l + (1 + len xs)))); auto. lia. }
    rewrite E1. cbn [bind]. rewrite C1, Ho. change C_CHUNK_LEN with 2048.
    rewrite N.mod_small by (destruct Lim; lia).
    replace (2048 * len l + 2048) with (2048 * len (l ++ [x])) by lenlia.
    rewrite (app_assoc pre x).
    destruct (IH (idx + 1) (CHasher (CChunk (k_state (c_chunk_of h)) (k_key (c_chunk_of h))
                   (2048 * len (l ++ [x])) (k_count (c_chunk_of h)) (k_buf (c_chunk_of h))
                   (k_buf_len (c_chunk_of h)) (k_flags (c_chunk_of h))) (c_stack_len h1) (c_stack h1))
                 (st1 ++ [x]) (l ++ [x]) (pre ++ x) r) as (h' & st' & E' & S' & I' & H').
    + exact S1.
    + right. exists st1, l, x. auto.
    + rewrite <- app_assoc. apply Forall_app. auto.
    + cbn [c_chunk_of]. now apply ck_move with (i := len l).
    + rewrite len_app, len_cons, len_nil. apply (limit_le _ (2048 * (len l + (1 + len xs)))); auto. lia.
    + rewrite len_app. lia.
    + exists h', st'. rewrite <- app_assoc in I', H'. auto.
Qed.

Lemma gather_ok : forall room input, bytes input ->
  exists ptrs cs rest, gather_chunks room input = (ptrs, rest) /\
    input = concat cs ++ rest /\ Forall fullc cs /\ map (take 2048) ptrs = cs /\
    Forall (readable 2048) ptrs /\ (length cs <= room)%nat /\
    ((length cs = room) \/ len rest < 2048).
Proof.
  induction room as [|room IH]; intros input B; cbn [gather_chunks]; change C_CHUNK_LEN with 2048.
  - exists [], [], input. destruct (2048 <=? len input); repeat split; auto; constructor.
  - destruct (N.leb_spec 2048 (len input)) as [G|G].
    + destruct (IH (drop 2048 input)) as (ptrs & cs & rest & E1 & E2 & E3 & E4 & E5 & E6 & E7).
      { now apply bytes_drop. }
      rewrite E1. exists (input :: ptrs), (take 2048 input :: cs), rest.
      split; [reflexivity|]. cbn [concat map length].
      split. { rewrite <- app_assoc, <- E2. symmetry. apply take_drop. }
      split. { constructor; auto. split; [lenlia|now apply bytes_take]. }
      split. { now rewrite E4. }
      split. { constructor; auto. split; auto. }
      split; [lia|]. destruct E7; [left; lia|auto].
    + exists [], [], input. repeat split; auto; try constructor; try lia. cbn. lia.
Qed.

(* one batch: the chunks ba are hashed and their hashes pushed *)
Lemma batch_ok : forall fuel input h (cs : list (list N)) out, bytes input -> 2048 <= len input ->
  ck_holds (c_chunk_of h) (len cs) [] -> 2048 * len cs + len input < W64 -> len out = 512 ->
  exists ba rest, input = concat ba ++ rest /\ Forall fullc ba /\ 1 <= len ba <= 16 /\
    (len ba = 16 \/ len rest < 2048) /\
    Forall is32 (cvs (len cs) ba) /\
    let out' := concat (cvs (len cs) ba) ++ drop (32 * len ba) out in
    len out' = 512 /\
    chunks_loop o (S fuel) h input out
    = bind (push_chunks o (length (cvs (len cs) ba)) 0 h out')
           (fun h => chunks_loop o fuel h rest out').
Proof.
  intros fuel input h cs out B G H LimW Lo.
  cbn [chunks_loop]. change C_CHUNK_LEN with 2048.
  rewrite (proj2 (N.leb_le _ _) G).
  destruct (gather_ok (N.to_nat C_MAX_SIMD_DEGREE) input B)
    as (ptrs & ba & rest & E1 & E2 & E3 & E4 & E5 & E6 & E7).
  rewrite E1. change (N.to_nat C_MAX_SIMD_DEGREE) with 16%nat in *.
  destruct (ck_fields _ _ _ H) as (Hk & Hfl & Ho). rewrite Hk, Hfl, Ho.
  assert (Lp : len ptrs = len ba) by (rewrite <- E4; unfold len; now rewrite map_length).
  assert (L16 : len ba <= 16) by (unfold len; lia).
  assert (Lin : len input = 2048 * len ba + len rest).
  { rewrite E2 at 1. rewrite len_app, len_concat_full by auto. lia. }
  assert (E8 : len ba = 16 \/ len rest < 2048).
  { destruct E7 as [E7|E7]; [left; unfold len; lia|auto]. }
  assert (L1 : 1 <= len ba) by lia.
  assert (Sb : Forall is32 (cvs (len cs) ba)) by (apply cvs_shape; auto; now apply full_bytes).
  exists ba, rest. split; [exact E2|]. split; [exact E3|]. split; [lia|]. split; [exact E8|].
  split; [exact Sb|]. cbv zeta.
  split. { rewrite len_app, concat_32, len_cvs, len_drop by auto. lia. }
  change (2048 / C_BLOCK_LEN) with 32.
  rewrite (c_hash_many_ok o 32 key 2048 flags _ _ CHUNK_OFFSET_DELTAS Lkey Wkey eq_refl).
  4: { lia. }
  2: { exact E5. }
  2: { lia. }
  cbn [bind]. unfold many_result. change (64 * 32) with 2048. rewrite E4, Lp.
  rewrite hash_all_last by lia.
  change (hash_all F key flags C_CHUNK_START C_CHUNK_END (2048 * len cs) 2048 ba)
    with (hash_all F key flags CHUNK_START CHUNK_END (2048 * len cs) 2048 ba).
  rewrite hash_all_cvs by (eapply Forall_impl; [|exact E3]; cbn beta; tauto).
  replace (length ptrs) with (length (cvs (len cs) ba)); [reflexivity|].
  apply Nat2N.inj. etransitivity; [exact (len_cvs key flags ba (len cs))|now symmetry].
Qed.

Lemma cvs_join : forall (cs ba : list (list N)), cvs 0 cs ++ cvs (len cs) ba = cvs 0 (cs ++ ba).
Proof. intros. rewrite cvs_app. f_equal. Qed.

(* one batch, pushed *)
Lemma batch_pushed : forall fuel input h st cs out, stk h st -> Forall fullc cs ->
  inter st (cvs 0 cs) -> ck_holds (c_chunk_of h) (len cs) [] ->
  bytes input -> 2048 <= len input -> 2048 * len cs + len input < W64 ->
  limit (2048 * (len cs + N.min 16 (len input / 2048))) -> len out = 512 ->
  exists h' st' ba rest out', input = concat ba ++ rest /\ Forall fullc ba /\ 1 <= len ba <= 16 /\
    (len ba = 16 \/ len rest < 2048) /\ len out' = 512 /\
    stk h' st' /\ inter st' (cvs 0 (cs ++ ba)) /\ ck_holds (c_chunk_of h') (len (cs ++ ba)) [] /\
    chunks_loop o (S fuel) h input out = chunks_loop o fuel h' rest out'.
Proof.
  intros fuel input h st cs out S Fc I H B G LimW Lim Lo.
  destruct (batch_ok fuel input h cs out) as (ba & rest & E1 & E2 & E3 & E4 & E5 & E6); auto.
  cbv zeta in E6. destruct E6 as [E6 E7].
  assert (Lin : len input = 2048 * len ba + len rest).
  { rewrite E1 at 1. rewrite len_app, len_concat_full by auto. lia. }
  destruct (push_chunks_ok (cvs (len cs) ba) 0 h st (cvs 0 cs) [] (drop (32 * len ba) out))
    as (h1 & st1 & E8 & S1 & I1 & H1); auto.
  + apply Forall_app. split; auto. apply cvs_shape; auto. now apply full_bytes.
  + now rewrite len_cvs.
  + rewrite !len_cvs. eapply limit_le; [|exact Lim]. lia.
  + cbn [app] in E8. rewrite cvs_join in I1, H1. rewrite len_cvs in H1.
    exists h1, st1, ba, rest, (concat (cvs (len cs) ba) ++ drop (32 * len ba) out).
    rewrite E7, E8. cbn [bind]. auto 15.
Qed.

Lemma chunks_loop_ok : forall fuel input h st cs out, stk h st ->
  Forall fullc cs -> bytes input -> (length input <= fuel)%nat ->
  inter st (cvs 0 cs) -> ck_holds (c_chunk_of h) (len cs) [] ->
  limit (2048 * len cs + len input) -> len out = 512 ->
  exists h' st' ch rest, chunks_loop o fuel h input out = Ok (h', rest) /\
    input = concat ch ++ rest /\ len rest < 2048 /\ Forall fullc ch /\
    stk h' st' /\ inter st' (cvs 0 (cs ++ ch)) /\ ck_holds (c_chunk_of h') (len (cs ++ ch)) [].
Proof.
  induction fuel as [|fuel IH]; intros input h st cs out S Fc B Hf I H Lim Lo.
  - destruct input; [|cbn in Hf; lia]. exists h, st, [], []. rewrite (app_nil_r cs).
    cbn [chunks_loop]. change (C_CHUNK_LEN <=? len []) with false. cbn [concat app].
    split; [reflexivity|]. split; [reflexivity|]. split; [rewrite len_nil; lia|]. split; [constructor|]. auto.
  - destruct (N.le_gt_cases 2048 (len input)) as [G|G].
    + pose proof Lim as [LimW _].
      destruct (batch_pushed fuel input h st cs out) as
        (h1 & st1 & ba & rest & out1 & E1 & E2 & E3 & E4 & Lo1 & S1 & I1 & H1 & E5); auto.
      { eapply limit_le; [|exact Lim]. lia. }
      assert (Lin : len input = 2048 * len ba + len rest).
      { rewrite E1 at 1. rewrite len_app, len_concat_full by auto. lia. }
      destruct (IH rest h1 st1 (cs ++ ba) out1)
        as (h2 & st2 & ch & rest2 & E9 & E10 & E11 & E12 & S2 & I2 & H2); auto.
      * apply Forall_app; auto.
      * rewrite E1 in B. apply bytes_app in B. tauto.
      * unfold len in *. lia.
      * eapply limit_le; [|exact Lim]. rewrite len_app. lia.
      * exists h2, st2, (ba ++ ch), rest2. rewrite E5, E9. split; [reflexivity|].
        split. { rewrite concat_app, <- app_assoc, <- E10. exact E1. }
        split; [exact E11|]. split; [apply Forall_app; auto|]. split; [exact S2|].
        rewrite <- app_assoc in I2, H2. auto.
    + cbn [chunks_loop]. change C_CHUNK_LEN with 2048. rewrite (proj2 (N.leb_gt _ _) G).
      exists h, st, [], input. rewrite (app_nil_r cs). cbn [concat app]. auto 10.
Qed.

(* n batches of 16 chunks, whatever follows *)
Lemma chunks_loop_batches : forall n fuel input h st cs out, stk h st ->
  Forall fullc cs -> bytes input -> inter st (cvs 0 cs) -> ck_holds (c_chunk_of h) (len cs) [] ->
  32768 * N.of_nat n <= len input -> 2048 * len cs + len input < W64 ->
  limit (2048 * len cs + 32768 * N.of_nat n) -> len out = 512 ->
  exists h' st' ch rest out', input = concat ch ++ rest /\ Forall fullc ch /\
    len ch = 16 * N.of_nat n /\ len out' = 512 /\
    stk h' st' /\ inter st' (cvs 0 (cs ++ ch)) /\ ck_holds (c_chunk_of h') (len (cs ++ ch)) [] /\
    chunks_loop o (n + fuel) h input out = chunks_loop o fuel h' rest out'.
Proof.
  induction n as [|n IH]; intros fuel input h st cs out S Fc B I H Li LimW Lim Lo.
  - exists h, st, [], input, out. rewrite (app_nil_r cs). cbn [concat app Nat.add]. auto 15.
  - rewrite Nat2N.inj_succ in *.
    destruct (batch_pushed (n + fuel) input h st cs out) as
      (h1 & st1 & ba & rest & out1 & E1 & E2 & E3 & E4 & Lo1 & S1 & I1 & H1 & E5); auto; try lia.
    { eapply limit_le; [|exact Lim]. lia. }
    assert (Lin : len input = 2048 * len ba + len rest).
    { rewrite E1 at 1. rewrite len_app, len_concat_full by auto. lia. }
    assert (Lb : len ba = 16) by lia.
    destruct (IH fuel rest h1 st1 (cs ++ ba) out1)
      as (h2 & st2 & ch & rest2 & out2 & F1 & F2 & F3 & Lo2 & S2 & I2 & H2 & F4); auto.
    + apply Forall_app; auto.
    + rewrite E1 in B. apply bytes_app in B. tauto.
    + lia.
    + rewrite len_app. lia.
    + eapply limit_le; [|exact Lim]. rewrite len_app. lia.
    + exists h2, st2, (ba ++ ch), rest2, out2. rewrite <- app_assoc in I2, H2.
      split. { rewrite concat_app, <- app_assoc, <- F1. exact E1. }
      split; [apply Forall_app; auto|]. split; [rewrite len_app; lia|].
      split; [exact Lo2|]. split; [exact S2|]. split; [exact I2|]. split; [exact H2|].
      cbn [Nat.add]. now rewrite E5.
Qed.

(* ---- the whole hasher ---- *)

(* h has been given data *)
Definition c_holds (h : c_hasher) (data : list N) : Prop :=
  exists cs rest st, stk h st /\ Forall fullc cs /\ bytes rest /\ data = concat cs ++ rest /\
    ck_holds (c_chunk_of h) (len cs) rest /\ len rest <= 2048 /\
    ((rep st (cvs 0 cs) /\ (rest = [] -> cs = [])) \/
     (rest = [] /\ 2 <= len cs /\ inter st (cvs 0 cs))).

Lemma c_update_rest_ok : forall junk h st cs input, stk h st -> len junk = 512 ->
  Forall fullc cs -> inter st (cvs 0 cs) -> ck_holds (c_chunk_of h) (len cs) [] ->
  bytes input -> limit (2048 * len cs + len input) ->
  (len cs + len input / 2048 = 1 -> len input mod 2048 <> 0) ->
  exists h', hasher_update_rest o junk h input = Ok h' /\ c_holds h' (concat cs ++ input).
Proof.
  intros junk h st cs input S Lj Fc I H B Lim Hn. unfold hasher_update_rest.
  destruct (chunks_loop_ok (length input) input h st cs junk)
    as (h1 & st1 & ch & rm & E1 & C1 & C2 & Fk & S1 & I1 & H1); auto.
  rewrite E1. cbn [bind].
  assert (Li : len input = 2048 * len ch + len rm) by (rewrite C1, len_app, len_concat_full by auto; lia).
  assert (Br : bytes rm) by (rewrite C1 in B; apply bytes_app in B; tauto).
  assert (Fa : Forall fullc (cs ++ ch)) by (apply Forall_app; auto).
  destruct (ck_fields _ _ _ H1) as (Hk & Hfl & Ho). pose proof Lim as [LimW _].
  destruct (N.ltb_spec 0 (len rm)) as [Z|Z].
  - rewrite Ho. rewrite <- (len_cvs key flags (cs ++ ch) 0).
    destruct (c_merge_ok h1 st1 (cvs 0 (cs ++ ch))) as (h2 & st2 & E & C3 & S2 & R); auto.
    { apply cvs_shape; auto. now apply full_bytes. }
    { rewrite len_cvs, len_app. lia. }
    rewrite E. cbn [bind]. rewrite C3.
    destruct (ck_update_ok (c_chunk_of h1) (len (cs ++ ch)) [] rm) as (s' & E' & H'); auto.
    { rewrite len_nil. lia. }
    { rewrite len_app. lia. }
    rewrite E'. cbn [bind]. eexists. split; [reflexivity|].
    exists (cs ++ ch), rm, st2. cbn [c_chunk_of]. cbn [app] in H'.
    split; [exact S2|]. split; [exact Fa|]. split; [exact Br|].
    split; [now rewrite concat_app, <- app_assoc, <- C1|]. split; [exact H'|]. split; [lia|].
    left. split; auto. intros ->. rewrite len_nil in Z. lia.
  - exists h1. split; auto. assert (Erm : rm = []) by (apply len_0_nil; lia). subst rm.
    rewrite app_nil_r in C1. rewrite len_nil in *.
    exists (cs ++ ch), [], st1. rewrite app_nil_r, concat_app, <- C1.
    split; [exact S1|]. split; [exact Fa|]. split; [constructor|]. split; [reflexivity|].
    split; [exact H1|]. split; [rewrite len_nil; lia|].
    destruct (N.eq_dec (len (cs ++ ch)) 0) as [Z0|Z0].
    + left. pose proof (len_0_nil _ _ Z0) as E0. rewrite E0 in *. split; auto.
      destruct I1 as [[-> _]|(st0 & l0 & x & _ & E & _)]; [constructor|].
      cbn in E. now destruct l0.
    + right. split; auto. split; auto. rewrite len_app in *. lia.
Qed.

Lemma c_update_ok : forall junk h data input, c_holds h data -> bytes input -> len junk = 512 ->
  limit (len data + len input) ->
  exists h', hasher_update o junk h input = Ok h' /\ c_holds h' (data ++ input).
Proof.
  intros junk h data input (cs & rest & st & S & Fc & Br & -> & H & Lr & Cs) B Lj Lim.
  rewrite len_app, len_concat_full in Lim by auto. pose proof Lim as [LimW _].
  destruct (ck_fields _ _ _ H) as (Hk & Hfl & Ho).
  unfold hasher_update. rewrite Ho, (ck_len_ok _ _ _ H). change C_CHUNK_LEN with 2048. cbv zeta.
  assert (Sc : Forall is32 (cvs 0 cs)) by (apply cvs_shape; auto; now apply full_bytes).
  assert (Z0 : (2048 * len cs =? 0) = (len cs =? 0)).
  { destruct (N.eqb_spec (len cs) 0), (N.eqb_spec (2048 * len cs) 0); auto; lia. }
  rewrite Z0.
  destruct (((len cs =? 0) && (len input =? 2048)) || (0 <? len rest)) eqn:Eb.
  - (* the chunk state takes bytes *)
    assert (R : rep st (cvs 0 cs)).
    { destruct Cs as [[R _]|(E1 & E2 & _)]; auto. subst rest. rewrite len_nil in Eb.
      exfalso. lia. }
    rewrite sub_size_ok by (unfold W32; lia). rewrite min_if, N.min_comm.
    set (n := N.min (2048 - len rest) (len input)).
    rewrite slice_ok by lia. cbn [bind]. rewrite drop_0.
    destruct (ck_update_ok (c_chunk_of h) (len cs) rest (take n input)) as (s1 & E1 & H1); auto; try lenlia.
    { now apply bytes_take. }
    rewrite E1. cbn [bind]. rewrite len_drop.
    destruct (N.ltb_spec 0 (len input - n)) as [Z|Z].
    + assert (Lf : len (rest ++ take n input) = 2048) by lenlia.
      assert (Bf : bytes (rest ++ take n input)) by (apply bytes_app; split; [auto|now apply bytes_take]).
      rewrite (ck_finalize_chain s1 (len cs) (rest ++ take n input)) by (auto; lia).
      destruct (ck_fields _ _ _ H1) as (Hk1 & Hfl1 & Ho1). rewrite Ho1.
      set (x := ccv (len cs) (rest ++ take n input)).
      assert (Sx : is32 x) by (apply ccv_shape; auto).
      destruct (c_push_ok (CHasher s1 (c_stack_len h) (c_stack h)) st (cvs 0 cs) x)
        as (h1 & st1 & E2 & C2 & S2 & R2); auto.
      { rewrite len_cvs. apply (limit_le _ (2048 * len cs + len rest + len input)); auto. lia. }
      rewrite len_cvs in E2. rewrite E2. cbn [bind]. rewrite C2. cbn [c_chunk_of]. rewrite Ho1.
      rewrite N.mod_small by lia.
      replace (2048 * len cs + 2048) with (2048 * (len cs + 1)) by lia.
      unfold chunk_state_reset. rewrite Hk1, Hfl1.
      match goal with |- context [hasher_update_rest o junk ?h0 _] =>
        destruct (c_update_rest_ok junk h0 (st1 ++ [x]) (cs ++ [rest ++ take n input]) (drop n input))
          as (h' & E4 & H4) end; auto.
      * apply Forall_app. split; auto.
      * right. exists st1, (cvs 0 cs), x. rewrite cvs_app. cbn [SpecFacts.cvs]. auto.
      * cbn [c_chunk_of]. rewrite len_app. apply ck_fresh.
      * now apply bytes_drop.
      * apply (limit_le _ (2048 * len cs + len rest + len input)); auto.
        rewrite len_app, len_cons, len_nil, len_drop. lia.
      * rewrite len_app, len_cons, len_nil, len_drop. lia.
      * exists h'. split; [exact E4|].
        rewrite concat_app in H4. cbn [concat] in H4. rewrite app_nil_r in H4.
        rewrite <- !app_assoc, take_drop in H4. now rewrite <- app_assoc.
    + eexists. split; [reflexivity|].
      rewrite take_all in H1 by lia.
      exists cs, (rest ++ input), st. cbn [c_chunk_of].
      split; [exact S|]. split; [exact Fc|]. split; [apply bytes_app; auto|].
      split; [now rewrite app_assoc|]. split; [exact H1|]. split; [rewrite len_app; lia|].
      left. split; auto. intros E. apply app_eq_nil in E. destruct E as [-> ->].
      rewrite !len_nil in Eb. exfalso. lia.
  - (* the chunk state is empty *)
    assert (Er : rest = []) by (apply len_0_nil; lia). subst rest. rewrite app_nil_r.
    apply (c_update_rest_ok junk h st); auto.
    + destruct Cs as [[R E]|(_ & _ & I)]; auto. rewrite (E eq_refl) in *. left.
      split; [|reflexivity]. apply len_0_nil. rewrite (rep_len _ _ _ _ _ R). reflexivity.
    + apply (limit_le _ (2048 * len cs + len (@nil N) + len input)); auto. rewrite len_nil. lia.
    + destruct Cs as [[R E]|(_ & E & _)]; [|lia]. specialize (E eq_refl). subst cs.
      rewrite len_nil in *. cbn [orb] in Eb. lia.
Qed.

(* ---- finalize ---- *)

Lemma finalize_up_ok : forall st fuel h w x tl junk,
  c_stack h = concat (x :: st) ++ tl -> Forall is32 (x :: st) -> is32 w ->
  k_key (c_chunk_of h) = key -> k_flags (c_chunk_of h) = flags ->
  (length st <= fuel)%nat -> len st <= junk -> junk <= 53 ->
  finalize_up o fuel h w (len st * 32)
  = Ok (take 32 (root_block F (parent_node key flags x (roll _ pcv st w)) 0)).
Proof.
  intros st. induction st as [|y st IH] using rev_ind; intros fuel h w x tl junk E S Hw Hk Hf Hfu Lj Lj'.
  - pose proof (Forall_inv S) as Sx. assert (Lx : len x = 32) by (cbn beta in Sx; tauto).
    rewrite len_nil. change (0 * 32) with 0.
    destruct fuel; cbn [finalize_up]; rewrite E; cbn [concat N.eqb roll]; change C_OUT_LEN with 32;
      rewrite app_nil_r; rewrite slice_ok by (rewrite len_app; lia);
      rewrite drop_0, take_app_eq by auto; cbn [bind];
      rewrite Hk, Hf, parent_root_ok by auto; reflexivity.
  - destruct fuel as [|fuel]; [rewrite app_length in Hfu; cbn in Hfu; lia|].
    assert (S' : Forall is32 (x :: st) /\ is32 y).
    { change (x :: st ++ [y]) with ((x :: st) ++ [y]) in S. apply Forall_app in S.
      destruct S as [S1 S2]. split; [exact S1|exact (Forall_inv S2)]. }
    destruct S' as [S' Sy]. assert (Ly : len y = 32) by (cbn beta in Sy; tauto).
    assert (Lc : len (concat (x :: st)) = len (st ++ [y]) * 32).
    { rewrite concat_32 by auto. rewrite len_app, !len_cons, len_nil. lia. }
    cbn [finalize_up]. rewrite E. change C_OUT_LEN with 32.
    change (concat (x :: st ++ [y])) with (concat ((x :: st) ++ [y])).
    rewrite concat_app. cbn [concat]. cbn [concat] in Lc. rewrite app_nil_r, <- app_assoc.
    rewrite slice_ok by (rewrite !len_app, <- !len_app; rewrite !len_app in *; lia).
    rewrite drop_app_eq by exact Lc. rewrite take_app_eq by auto. cbn [bind].
    rewrite len_app, len_cons, len_nil in *.
    rewrite (proj2 (N.eqb_neq _ _)) by lia.
    rewrite sub_size_ok by (unfold W32; lia).
    rewrite Hk, Hf, parent_hash_ok by auto.
    replace ((len st + (1 + 0)) * 32 - 32) with (len st * 32) by lia.
    rewrite (IH fuel h (pcv y w) x (y ++ tl) junk); auto.
    + now rewrite roll_snoc.
    + rewrite E. change (concat (x :: st ++ [y])) with (concat ((x :: st) ++ [y])).
      rewrite concat_app. cbn [concat]. now rewrite app_nil_r, <- !app_assoc.
    + now apply pcv_shape.
    + rewrite app_length in Hfu. cbn in Hfu. lia.
    + lia.
Qed.

Lemma rep_nonempty : forall st cs, rep st (cvs 0 cs) -> cs <> [] -> 1 <= len st.
Proof.
  intros st cs R Ne. destruct st as [|z st]; [|rewrite len_cons; lia].
  exfalso. inversion R as [Q1 Q2|? ? ? ? ? ? ? Q]; [|now destruct st].
  destruct cs; [congruence|discriminate].
Qed.

Lemma c_finalize_ok : forall h data, c_holds h data -> len data <= W64 ->
  hasher_finalize o h = Ok (take 32 (root_block F (root_node F key flags data) 0)).
Proof.
  intros h data (cs & rest & st & S & Fc & Br & -> & H & Lr & Cs) L.
  destruct (ck_fields _ _ _ H) as (Hk & Hfl & Ho).
  assert (Sc : Forall is32 (cvs 0 cs)) by (apply cvs_shape; auto; now apply full_bytes).
  rewrite len_app, len_concat_full in L by auto.
  destruct S as (S1 & S2 & S3 & junk & S4 & S5).
  unfold hasher_finalize. rewrite S1.
  destruct (N.eq_dec (len cs) 0) as [Z|Z].
  - (* a single chunk *)
    pose proof (len_0_nil _ _ Z). subst cs.
    assert (Es : len st = 0).
    { destruct Cs as [[R _]|(_ & E & _)]; [|rewrite len_nil in E; lia].
      rewrite (rep_len _ _ _ _ _ R). reflexivity. }
    rewrite Es. cbn [N.eqb concat app].
    rewrite root_node_small by auto. f_equal. now apply ck_finalize_root.
  - (* a tree: st0 covers all but the last chunk, whose hash is w *)
    assert (X : exists st0 cs0 last tl, rep st0 (cvs 0 cs0) /\ cs0 <> [] /\ bytes last /\
      Forall fullc cs0 /\
      pieces 2048 (concat cs ++ rest) = cs0 ++ [last] /\
      st = st0 ++ tl /\
      (if 0 <? chunk_state_len (c_chunk_of h) then
         Ok (chunk_state_finalize o (c_chunk_of h) false,
             (sub_size o (len st) 1 * C_OUT_LEN) mod WS o)
       else
         let last_hash_start := (sub_size o (len st) 1 * C_OUT_LEN) mod WS o in
         let* w := slice (c_stack h) last_hash_start C_OUT_LEN in
         Ok (w, (sub_size o (len st) 2 * C_OUT_LEN) mod WS o))
      = Ok (ccv (len cs0) last, (len st0 - 1) * 32)).
    { rewrite (ck_len_ok _ _ _ H). change C_OUT_LEN with 32.
      destruct Cs as [[R E]|(E & L2 & I)].
      - exists st, cs, rest, [].
        assert (Nr : 1 <= len rest).
        { destruct rest; [|rewrite len_cons; lia]. rewrite E in Z by auto. now rewrite len_nil in Z. }
        assert (Ncs : cs <> []) by (intros ->; now rewrite len_nil in Z).
        pose proof (rep_nonempty _ _ R Ncs) as N1.
        split; auto. split; auto. split; auto. split; auto. split; [|split; [now rewrite app_nil_r|]].
        + rewrite (pieces_app _ _ _ (len cs)); rewrite ?len_concat_full; try lia; auto.
          rewrite (pieces_full key Lkey), pieces_short by (auto; lia). reflexivity.
        + rewrite (proj2 (N.ltb_lt _ _)) by lia.
          rewrite sub_size_ok by (unfold W32; lia).
          rewrite mod_WS by (unfold W32; lia).
          now rewrite (ck_finalize_chain _ (len cs) rest) by (auto; lia).
      - subst rest. rewrite len_nil in *.
        destruct I as [[_ E]|(st0 & l0 & x & E1 & E2 & R)].
        { destruct cs; [rewrite len_nil in L2; lia|discriminate]. }
        destruct (exists_last (l := cs)) as (cs0 & last & ->).
        { intros ->. rewrite len_nil in L2. lia. }
        rewrite cvs_app in E2. cbn [SpecFacts.cvs] in E2. apply app_inj_tail in E2.
        destruct E2 as [<- <-]. rewrite len_app, len_cons, len_nil in L2.
        assert (Ncs : cs0 <> []) by (intros ->; rewrite len_nil in L2; lia).
        exists st0, cs0, last, [ccv (0 + len cs0) last].
        pose proof Fc as Fc'. apply Forall_app in Fc'. destruct Fc' as [F0 F1].
        pose proof (Forall_inv F1) as F2.
        split; auto. split; auto. split; [cbn beta in F2; tauto|]. split; auto. split; [|split; auto].
        + rewrite app_nil_r. apply (pieces_full key Lkey); [exact Fc|]. intros Q. apply app_eq_nil in Q. destruct Q; discriminate.
        + pose proof (rep_nonempty _ _ R Ncs) as N0.
          rewrite E1 in *. clear E1. rewrite len_app, len_cons, len_nil in S3.
          rewrite !len_app, !len_cons, !len_nil.
          rewrite !sub_size_ok by (unfold W32; lia).
          rewrite !mod_WS by (unfold W32; lia). cbn [N.ltb N.compare]. cbv zeta.
          apply Forall_app in S2. destruct S2 as [S2 S2'].
          assert (Ls : len (concat st0) = (len st0 + (1 + 0) - 1) * 32) by (rewrite concat_32 by auto; lia).
          assert (Lx : len (ccv (0 + len cs0) last) = 32) by (pose proof (Forall_inv S2') as Q; cbn beta in Q; tauto).
          rewrite slice_ok.
          2: { rewrite S4, concat_app, !len_app, Ls. cbn [concat]. rewrite app_nil_r. lia. }
          rewrite S4, concat_app, <- app_assoc. rewrite drop_app_eq by exact Ls.
          cbn [concat]. rewrite app_nil_r, take_app_eq by exact Lx. cbn [bind].
          rewrite N.add_0_l. do 3 f_equal. lia. }
    destruct X as (st0 & cs0 & last & tl & R & Ncs & Bl & F0 & P & Est & E).
    assert (S0 : Forall is32 (cvs 0 cs0)) by (apply cvs_shape; auto; now apply full_bytes).
    pose proof (rep_shape _ _ Lkey Wkey _ _ R S0) as Ss.
    pose proof (rep_nonempty _ _ R Ncs) as N0.
    rewrite (proj2 (N.eqb_neq (len st) 0)) by (rewrite Est, len_app; lia).
    cbv zeta in E |- *. rewrite E. cbn [bind].
    destruct st0 as [|x st0]; [rewrite len_nil in N0; lia|]. rewrite len_cons.
    replace (1 + len st0 - 1) with (len st0) by lia.
    assert (Sl : is32 (ccv (len cs0) last)) by now apply ccv_shape.
    assert (Lst : len (x :: st0) <= len st) by (rewrite Est, len_app; lia).
    rewrite (finalize_up_ok st0 _ h _ x (concat tl ++ junk) 53); auto; try lia.
    2: { rewrite S4, Est, concat_app, <- app_assoc. reflexivity. }
    2: { unfold len in *. cbn in Lst. lia. }
    2: { rewrite len_cons in Lst. lia. }
    assert (L0 : 1 <= len cs0) by (destruct cs0; [congruence|rewrite len_cons; lia]).
    assert (Lp : 2048 < len (concat cs ++ rest)).
    { destruct (N.le_gt_cases (len (concat cs ++ rest)) 2048) as [Q|Q]; auto.
      exfalso. rewrite pieces_short in P by lia. apply (f_equal len) in P.
      rewrite len_app, !len_cons, !len_nil in P. lia. }
    rewrite root_node_large by auto. cbv zeta. rewrite P, cvs_app. cbn [SpecFacts.cvs].
    rewrite N.add_0_l.
    rewrite (rep_top _ _ _ _ _ R ltac:(discriminate) _ 0); try (cbn; lia).
    cbn [hd List.tl fst snd]. rewrite lbf_one. reflexivity.
Qed.

Lemma c_init_holds : forall junk, len junk = cap ->
  c_holds (CHasher (chunk_state_init key flags) 0 junk) [].
Proof.
  intros junk L. exists [], [], [].
  split. { split; [reflexivity|]. split; [constructor|]. split; [cbn; lia|].
           exists junk. auto. }
  split; [constructor|]. split; [constructor|]. split; [reflexivity|].
  split; [apply (ck_fresh 0)|]. split; [cbn; lia|].
  left. split; [constructor|auto].
Qed.

End Key.
