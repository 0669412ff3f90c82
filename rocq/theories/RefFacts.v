(* The reference implementation computes the specified function. *)
From Coq Require Import NArith List Bool Lia ZArith.
From Coq Require Import ZifyBool ZifyNat ZifyN.
From Verif Require Import Base BaseFacts Spec TreeFacts CompressFacts ManyFacts SpecFacts.
From Verif Require Import Platform Lib SessionSpec Session HasherFacts ApiFacts OneShotFacts StreamFacts.
From Verif Require Import RefImpl.
Import ListNotations.
Open Scope N_scope.

Notation F := blake_compress.
Notation wds := words_of_bytes.

(* ---- compression ---- *)

Lemma r_round_ok : forall r v m, (r < 7)%nat -> length v = 16%nat -> length m = 16%nat ->
  r_round v m (nth r r_MSG_SCHEDULE []) = spec_round v (permute (nth r SIGMA []) m).
Proof.
  intros r v m Hr Hv Hm.
  destruct (list16 v Hv) as (v0 & v1 & v2 & v3 & v4 & v5 & v6 & v7 & v8 & v9 & v10 & v11 & v12 & v13 & v14 & v15 & ->).
  destruct (list16 m Hm) as (m0 & m1 & m2 & m3 & m4 & m5 & m6 & m7 & m8 & m9 & m10 & m11 & m12 & m13 & m14 & m15 & ->).
  do 7 (destruct r as [|r]; [reflexivity|]). lia.
Qed.

Lemma r_compress_ok : forall cv block blen off flags,
  length cv = 8%nat -> length block = 64%nat -> off < W64 ->
  r_compress cv (wds block) off blen flags = F cv block blen off flags.
Proof.
  intros cv block blen off flags Hcv Hb Hoff.
  pose proof (length_words_of_block block Hb) as Hm.
  destruct (list8 cv Hcv) as (a0 & a1 & a2 & a3 & a4 & a5 & a6 & a7 & ->).
  rewrite blake_unfold. cbv zeta. unfold r_compress.
  replace (N.shiftr off 32 mod W32) with (off / W32).
  2: { rewrite N.shiftr_div_pow2. change (2 ^ 32) with W32. symmetry. apply N.mod_small.
       unfold W32, W64 in *. lia. }
  set (m := wds block) in *. set (cv := [a0; a1; a2; a3; a4; a5; a6; a7]).
  change [get cv 0; get cv 1; get cv 2; get cv 3; get cv 4; get cv 5; get cv 6; get cv 7;
          get r_IV 0; get r_IV 1; get r_IV 2; get r_IV 3; off mod W32; off / W32; blen; flags]
    with (init_state cv blen off flags).
  assert (R : fold_left (fun state r => r_round state m (nth r r_MSG_SCHEDULE []))
                (seq 0 r_ROUNDS) (init_state cv blen off flags)
              = rounds7 (init_state cv blen off flags) m).
  { set (v := init_state cv blen off flags).
    assert (Hv : length v = 16%nat) by reflexivity. clearbody v.
    assert (E : forall r x, (r < 7)%nat -> length x = 16%nat ->
      r_round x m (nth r r_MSG_SCHEDULE []) = spec_round x (permute (nth r SIGMA []) m) /\
      length (spec_round x (permute (nth r SIGMA []) m)) = 16%nat).
    { intros r x Hr Hx. split; [now apply r_round_ok|].
      apply spec_round_length; auto. rewrite permute_length.
      do 7 (destruct r as [|r]; [reflexivity|]). lia. }
    unfold rounds7.
    change SIGMA with [nth 0 SIGMA []; nth 1 SIGMA []; nth 2 SIGMA []; nth 3 SIGMA [];
                       nth 4 SIGMA []; nth 5 SIGMA []; nth 6 SIGMA []] at 1.
    unfold r_ROUNDS. cbn [seq fold_left].
    destruct (E 0%nat v) as [-> L0]; [lia|exact Hv|].
    destruct (E 1%nat _ ltac:(lia) L0) as [-> L1].
    destruct (E 2%nat _ ltac:(lia) L1) as [-> L2].
    destruct (E 3%nat _ ltac:(lia) L2) as [-> L3].
    destruct (E 4%nat _ ltac:(lia) L3) as [-> L4].
    destruct (E 5%nat _ ltac:(lia) L4) as [-> L5].
    destruct (E 6%nat _ ltac:(lia) L5) as [-> L6].
    reflexivity. }
  rewrite R. clear R.
  pose proof (rounds7_length _ m (init_state_length cv blen off flags Hcv)) as L.
  revert L. generalize (rounds7 (init_state cv blen off flags) m). intros v L.
  destruct (list16 v L) as (v0 & v1 & v2 & v3 & v4 & v5 & v6 & v7 & v8 & v9 & v10 & v11 & v12 & v13 & v14 & v15 & ->).
  reflexivity.
Qed.

Lemma r_words_ok : forall bs ws, len bs = 4 * len ws -> r_words_from_bytes bs ws = wds bs.
Proof.
  intros bs. induction bs as [l Hl|a b c d r IH] using list4_ind; intros ws H.
  - destruct ws as [|w ws].
    + rewrite len_nil in H. rewrite (len_0_nil _ _ H). reflexivity.
    + rewrite len_cons in H. unfold len in H. lia.
  - destruct ws as [|w ws]; [rewrite !len_cons, len_nil in H; lia|].
    cbn [r_words_from_bytes words_of_bytes]. f_equal. apply IH. rewrite !len_cons in H. lia.
Qed.

(* ---- outputs ---- *)

Definition r_of (nd : node) : r_output :=
  ROutput (nd_cv nd) (wds (nd_block nd)) (nd_off nd) (nd_blen nd) (nd_flags nd).

Lemma r_cv_ok : forall nd, nd_wf nd -> r_chaining_value (r_of nd) = wds (chain F nd).
Proof.
  intros nd [L W Lb Bb Ho]. unfold r_chaining_value, r_of, chain, r_first_8_words.
  cbn [ro_cv ro_block_words ro_offset ro_block_len ro_flags].
  rewrite r_compress_ok by auto. rewrite words_of_bytes_of_words; [reflexivity|].
  now apply blake_shape8.
Qed.

Lemma r_parent_ok : forall key flags l r, len l = 32 ->
  r_parent_output (wds l) (wds r) key flags = r_of (parent_node key flags l r).
Proof.
  intros key flags l r L. unfold r_parent_output, r_of, parent_node.
  cbn [nd_cv nd_block nd_off nd_blen nd_flags].
  rewrite words_of_bytes_app by (rewrite L; reflexivity). rewrite N.lor_comm. reflexivity.
Qed.

Lemma r_fill_ok : forall ws out, len out <= 4 * len ws ->
  r_fill ws out = take (len out) (bytes_of_words ws).
Proof.
  induction ws as [|w ws IH]; intros out H.
  - rewrite len_nil in H. rewrite (len_0_nil _ out) by lia. reflexivity.
  - destruct out as [|b out]; [reflexivity|]. cbn [r_fill]. set (o := b :: out) in *.
    change (bytes_of_words (w :: ws)) with (bytes32 w ++ bytes_of_words ws).
    rewrite len_cons in H. destruct (N.le_gt_cases (len o) 4) as [L|G].
    + rewrite N.min_r by lia. rewrite drop_all by lia.
      rewrite take_app_le by (change (len (bytes32 w)) with 4; lia).
      rewrite (IH []) by (rewrite len_nil; lia). apply app_nil_r.
    + rewrite N.min_l by lia. rewrite IH by (rewrite len_drop; lia).
      rewrite take_app_ge by (change (len (bytes32 w)) with 4; lia).
      change (len (bytes32 w)) with 4. rewrite len_drop. f_equal.
Qed.

Lemma r_root_ok : forall c nd fuel out k, nd_wf nd -> (length out <= fuel)%nat ->
  64 * k + 64 * ((len out + 63) / 64) < W64 ->
  r_root_loop c fuel (r_of nd) (64 * k) out
  = Ok (take (len out) (flat_map (fun i => root_block F nd (k + N.of_nat i))
                                 (seq 0 (N.to_nat ((len out + 63) / 64))))).
Proof.
  intros c nd fuel. induction fuel as [|fuel IH]; intros out k W Hf H.
  - destruct out; [reflexivity|cbn in Hf; lia].
  - destruct out as [|b out]; [reflexivity|]. cbn [r_root_loop]. set (o := b :: out) in *.
    assert (L1 : 1 <= len o) by (unfold o; rewrite len_cons; lia).
    change (2 * r_OUT_LEN) with 64. rewrite add64_ok by lia. cbn [bind].
    replace (64 * k + 64) with (64 * (k + 1)) by lia.
    set (n := N.min 64 (len o)).
    rewrite IH; auto.
    2: { assert (len (drop n o) + 1 <= len o) by (rewrite len_drop; lia). unfold len in *. lia. }
    2: { rewrite len_drop. lia. }
    cbn [bind]. f_equal.
    assert (Q : N.to_nat ((len o + 63) / 64) = S (N.to_nat ((len (drop n o) + 63) / 64))).
    { rewrite len_drop. unfold n. lia. }
    rewrite Q. cbn [seq flat_map]. rewrite <- seq_shift.
    rewrite !flat_map_concat_map, map_map.
    replace (k + N.of_nat 0) with k by lia.
    pose proof (root_block_len nd k W) as RL. pose proof W as [Lc Wc Lb Bb Ho].
    assert (Fl : r_fill (r_compress (ro_cv (r_of nd)) (ro_block_words (r_of nd)) (64 * k)
                   (ro_block_len (r_of nd)) (N.lor (ro_flags (r_of nd)) r_ROOT)) (take n o)
                 = take n (root_block F nd k)).
    { unfold r_of. cbn [ro_cv ro_block_words ro_block_len ro_flags].
      rewrite r_compress_ok by (auto; lia). rewrite r_fill_ok.
      - rewrite len_take. replace (N.min n (len o)) with n by lia. reflexivity.
      - rewrite len_take. pose proof (proj1 (blake_shape (nd_cv nd) (nd_block nd) (nd_blen nd) (64 * k)
          (N.lor (nd_flags nd) r_ROOT) Lc Wc)) as Q'. unfold len at 2. rewrite Q'. lia. }
    rewrite Fl. rewrite (map_ext _ (fun i => root_block F nd (k + N.of_nat (S i)))).
    2: { intros i. f_equal. lia. }
    destruct (N.le_gt_cases (len o) 64) as [G|G].
    + replace n with (len o) by lia. rewrite drop_all by lia.
      rewrite take_app_le by (rewrite RL; lia). rewrite len_nil, take_0, app_nil_r. reflexivity.
    + replace n with 64 by lia. rewrite take_app_ge by (rewrite RL; lia).
      rewrite RL, (take_all _ 64) by (rewrite RL; lia). rewrite len_drop. reflexivity.
Qed.

Section Key.
Variable c : cfg.
Variable key : list N.
Variable flags : N.
Hypothesis Lkey : length key = 8%nat.
Hypothesis Wkey : words key.

Notation cvs := (SpecFacts.cvs key flags).
Notation ccv := (SpecFacts.ccv key flags).
Notation pcv := (SpecFacts.pcv key flags).
Notation is32 := (fun h : list N => len h = 32 /\ bytes h).
Notation lbf := (TreeFacts.lbf (@nil N) pcv).
Notation rep := (TreeFacts.rep (@nil N) pcv).
Notation fullc := (fun ch : list N => len ch = 2048 /\ bytes ch).

(* ---- the chunk state ---- *)

(* s has absorbed, in chunk i, whole blocks dn and then the bytes bf *)
Record rc_at (s : r_chunk) (i : N) (dn bf : list N) : Prop :=
  { ra_flags : rc_flags s = flags; ra_off : rc_offset s = 2048 * i;
    ra_count : 64 * rc_blocks_compressed s = len dn;
    ra_block : rc_block s = pad64 bf; ra_blen : rc_block_len s = len bf; ra_bf : len bf <= 64;
    ra_ne : bf = [] -> dn = []; ra_bb : bytes bf; ra_max : len dn + len bf <= 2048;
    ra_cv : length (rc_cv s) = 8%nat; ra_cvw : words (rc_cv s);
    ra_run : forall rest, (rest = [] -> dn = []) ->
      chunk_blocks F key (2048 * i) flags CHUNK_START (pieces 64 (dn ++ rest))
      = chunk_blocks F (rc_cv s) (2048 * i) flags (if len dn =? 0 then CHUNK_START else 0)
          (pieces 64 rest) }.
Definition rc_holds (s : r_chunk) (i : N) (data : list N) : Prop :=
  exists dn bf, data = dn ++ bf /\ rc_at s i dn bf.

Lemma rc_fresh : forall i, rc_holds (r_chunk_new key (2048 * i) flags) i [].
Proof.
  intros i. exists [], []. split; [reflexivity|].
  constructor; unfold r_chunk_new;
    cbn [rc_cv rc_offset rc_block rc_block_len rc_blocks_compressed rc_flags];
    auto; try reflexivity; try discriminate; try constructor; try (cbn; lia).
Qed.

Lemma rc_start : forall s i dn bf, rc_at s i dn bf ->
  r_start_flag s = if len dn =? 0 then CHUNK_START else 0.
Proof.
  intros s i dn bf A. pose proof (ra_count _ _ _ _ A) as C. unfold r_start_flag.
  destruct (N.eqb_spec (rc_blocks_compressed s) 0), (N.eqb_spec (len dn) 0); auto; lia.
Qed.

Lemma rc_len : forall s i data, rc_holds s i data -> r_chunk_len s = len data.
Proof.
  intros s i data (dn & bf & -> & A). unfold r_chunk_len. change r_BLOCK_LEN with 64.
  rewrite (ra_count _ _ _ _ A), (ra_blen _ _ _ _ A), len_app. reflexivity.
Qed.

(* adding bytes to the block *)
Lemma rc_add : forall s i dn bf x, rc_at s i dn bf -> bytes x -> len bf + len x <= 64 ->
  len dn + len bf + len x <= 2048 ->
  rc_at (RChunk (rc_cv s) (rc_offset s) (pad64 (bf ++ x)) (len (bf ++ x)) (rc_blocks_compressed s)
           (rc_flags s)) i dn (bf ++ x).
Proof.
  intros s i dn bf x [A1 A2 A3 A4 A5 A6 A7 A8 A9 A10 A11 A12] B L M.
  constructor; cbn [rc_cv rc_offset rc_block rc_block_len rc_blocks_compressed rc_flags]; auto.
  - rewrite len_app. lia.
  - intros E. apply app_eq_nil in E. tauto.
  - apply bytes_app; auto.
  - rewrite len_app. lia.
Qed.

Lemma pad64_copy : forall bf x, len bf + len x <= 64 ->
  copy_at (pad64 bf) (len bf) x = Ok (pad64 (bf ++ x)).
Proof.
  intros bf x H. rewrite copy_at_ok by (rewrite pad64_len by lia; lia).
  unfold pad64. rewrite take_app_eq by reflexivity. rewrite drop_app_ge by lia.
  rewrite zeros_drop, len_app, <- app_assoc. do 4 f_equal. lia.
Qed.

(* compressing a full block; the block is empty afterwards although something was absorbed,
   so only the part of the invariant needed for the bytes that follow is given *)
Lemma rc_block_ok : forall s i dn bf x, rc_at s i dn bf -> len bf = 64 -> 2048 * i < W64 ->
  bytes x -> 1 <= len x -> len x <= 64 -> len dn + 64 + len x <= 2048 ->
  let cv := r_first_8_words
              (r_compress (rc_cv s) (r_words_from_bytes (rc_block s) (zeros 16)) (rc_offset s)
                 (r_BLOCK_LEN mod W32) (N.lor (rc_flags s) (r_start_flag s))) in
  rc_at (RChunk cv (rc_offset s) (pad64 x) (len x) (rc_blocks_compressed s + 1) (rc_flags s))
    i (dn ++ bf) x.
Proof.
  intros s i dn bf x A Lb Hi Bx L1 L2 L3 cv.
  pose proof (rc_start _ _ _ _ A) as St. destruct A as [A1 A2 A3 A4 A5 A6 A7 A8 A9 A10 A11 A12].
  assert (Pb : pad64 bf = bf) by (unfold pad64; rewrite Lb; apply app_nil_r).
  assert (Lb' : length bf = 64%nat) by now apply (len_length _ _ 64).
  assert (Ecv : cv = firstn 8 (F (rc_cv s) bf 64 (2048 * i)
                  (N.lor flags (if len dn =? 0 then CHUNK_START else 0)))).
  { unfold cv, r_first_8_words. rewrite A4, Pb, r_words_ok by (rewrite Lb; reflexivity).
    change (r_BLOCK_LEN mod W32) with 64. rewrite r_compress_ok by (auto; lia).
    rewrite A1, A2, St. reflexivity. }
  rewrite Ecv.
  constructor; cbn [rc_cv rc_offset rc_block rc_block_len rc_blocks_compressed rc_flags]; auto.
  - rewrite len_app. lia.
  - intros E. subst x. rewrite len_nil in L1. lia.
  - rewrite len_app. lia.
  - now apply blake_shape8.
  - now apply blake_shape8.
  - intros rest Hr. rewrite <- app_assoc.
    assert (Ne : rest <> []).
    { intros E. specialize (Hr E). apply app_eq_nil in Hr. destruct Hr as [_ ->].
      rewrite len_nil in Lb. lia. }
    rewrite A12. 2: { intros E. apply app_eq_nil in E. tauto. }
    rewrite pieces_cons64 by auto.
    rewrite chunk_blocks_cons by (apply pieces_nonnil; lia).
    rewrite len_app, Lb. rewrite (proj2 (N.eqb_neq (len dn + 64) 0)) by lia. reflexivity.
Qed.

Lemma r_chunk_update_ok : forall fuel s i data input, rc_holds s i data -> bytes input ->
  len data + len input <= 2048 -> 2048 * i < W64 -> (length input <= fuel)%nat ->
  exists s', r_chunk_update c fuel s input = Ok s' /\ rc_holds s' i (data ++ input).
Proof.
  induction fuel as [|fuel IH]; intros s i data input H B L Hi Hf.
  - destruct input; [|cbn in Hf; lia]. exists s. rewrite app_nil_r. auto.
  - destruct input as [|b inp]; [exists s; rewrite app_nil_r; auto|].
    cbn [r_chunk_update]. set (input := b :: inp) in *.
    assert (L1 : 1 <= len input) by (unfold input; rewrite len_cons; lia).
    change r_BLOCK_LEN with 64.
    destruct H as (dn & bf & -> & A). rewrite len_app in L.
    pose proof (ra_blen _ _ _ _ A) as Abl. pose proof (ra_bf _ _ _ _ A) as Abf.
    pose proof (ra_block _ _ _ _ A) as Abk. pose proof (ra_count _ _ _ _ A) as Ac.
    rewrite Abl. destruct (N.eqb_spec (len bf) 64) as [E|E].
    + rewrite addw_ok by (unfold W8; lia).
      cbn [bind rc_cv rc_offset rc_block rc_block_len rc_blocks_compressed rc_flags].
      rewrite subU_ok by lia. cbn [bind]. rewrite N.sub_0_r.
      set (n := N.min 64 (len input)). rewrite slice_to_ok by lia. cbn [bind].
      assert (Lt : len (take n input) = n) by (rewrite len_take; lia).
      change (zeros 64) with (pad64 []).
      pose proof (pad64_copy [] (take n input)) as PC. rewrite len_nil in PC.
      rewrite PC by lia. cbn [app bind].
      rewrite N.mod_small by (unfold W8; lia). rewrite addw_ok by (unfold W8; lia). cbn [bind].
      rewrite slice_from_ok by lia. cbn [bind]. rewrite N.add_0_l.
      pose proof (rc_block_ok s i dn bf (take n input) A E Hi) as R. cbv zeta in R.
      rewrite Lt in R. change (r_BLOCK_LEN mod W32) with (64 mod W32) in R.
      match goal with |- context [r_chunk_update c fuel ?s1 _] =>
        destruct (IH s1 i ((dn ++ bf) ++ take n input) (drop n input)) as (s' & E' & H') end.
      * exists (dn ++ bf), (take n input). split; [reflexivity|].
        apply R; try lia. now apply bytes_take.
      * now apply bytes_drop.
      * rewrite !len_app, Lt, len_drop. lia.
      * exact Hi.
      * pose proof (len_drop _ n input) as Q. unfold len in *. lia.
      * exists s'. rewrite <- app_assoc, take_drop in H'. auto.
    + cbn [bind]. rewrite Abl. rewrite subU_ok by lia. cbn [bind].
      set (n := N.min (64 - len bf) (len input)). rewrite slice_to_ok by lia. cbn [bind].
      assert (Lt : len (take n input) = n) by (rewrite len_take; lia).
      rewrite Abk, pad64_copy by lia. cbn [bind].
      rewrite N.mod_small by (unfold W8; lia). rewrite addw_ok by (unfold W8; lia). cbn [bind].
      rewrite slice_from_ok by lia. cbn [bind].
      pose proof (rc_add s i dn bf (take n input) A) as R. rewrite len_app, Lt in R.
      match goal with |- context [r_chunk_update c fuel ?s1 _] =>
        destruct (IH s1 i ((dn ++ bf) ++ take n input) (drop n input)) as (s' & E' & H') end.
      * exists dn, (bf ++ take n input). split; [now rewrite app_assoc|].
        apply R; try lia. now apply bytes_take.
      * now apply bytes_drop.
      * rewrite !len_app, Lt, len_drop. lia.
      * exact Hi.
      * pose proof (len_drop _ n input) as Q. unfold len in *. lia.
      * exists s'. rewrite <- app_assoc, take_drop in H'. auto.
Qed.

Lemma r_chunk_output_ok : forall s i data, rc_holds s i data ->
  r_chunk_output s = r_of (chunk_node F key flags i data).
Proof.
  intros s i data (dn & bf & -> & A). pose proof (rc_start _ _ _ _ A) as St.
  destruct A as [A1 A2 A3 A4 A5 A6 A7 A8 A9 A10 A11 A12].
  unfold r_chunk_output, chunk_node. rewrite A12 by auto. rewrite pieces_short by lia.
  cbn [chunk_blocks]. unfold r_of. cbn [nd_cv nd_block nd_blen nd_off nd_flags].
  rewrite A1, A2, A4, A5, St. rewrite r_words_ok by (rewrite pad64_len by auto; reflexivity).
  reflexivity.
Qed.

(* ---- the stack ---- *)

Lemma len_map_stack : forall (st : list (list N)), len (map wds st) = len st.
Proof. intros. apply len_map. Qed.

Lemma r_merge_ok : forall fuel h st l x t junk,
  rep st l -> len x = 2 ^ t -> len l mod 2 ^ t = 0 -> Forall is32 (l ++ x) ->
  rh_stack h = map wds st ++ junk -> rh_stack_len h = len st -> len st <= N.of_nat fuel ->
  rh_key h = key -> rc_flags (rh_chunk h) = flags ->
  exists st' z junk',
    r_merge_loop c fuel h (wds (lbf x)) (popcount (len (l ++ x)))
    = Ok (wds z, RHasher (rh_chunk h) key (map wds st' ++ junk') (len st')) /\
    rep (st' ++ [z]) (l ++ x) /\ len st' + len junk' = len st + len junk.
Proof.
  induction fuel as [|fuel IH]; intros h st l x t junk R Hx Hm S E El Hf Hk Hfl.
  - assert (st = []) by (apply len_0_nil; lia). subst st.
    destruct (rep_step _ _ _ _ _ _ _ R Hx Hm) as [[R' P]|(st' & l' & y & E' & _)];
      [|now destruct st'].
    exists [], (lbf x), junk. cbn [r_merge_loop]. rewrite El, <- P.
    rewrite (proj2 (N.leb_gt _ _)) by lia. split; [|auto].
    destruct h as [h1 h2 h3 h4]; cbn [rh_chunk rh_key rh_stack rh_stack_len] in *. now subst.
  - cbn [r_merge_loop]. rewrite El.
    destruct (rep_step _ _ _ _ _ _ _ R Hx Hm) as [[R' P]|(st' & l' & y & E1 & E2 & R' & Hy & Hm' & J & P)].
    + rewrite <- P. rewrite (proj2 (N.leb_gt _ _)) by lia.
      exists st, (lbf x), junk. split; [|auto].
      destruct h as [h1 h2 h3 h4]; cbn [rh_chunk rh_key rh_stack rh_stack_len] in *. now subst.
    + rewrite (proj2 (N.leb_le _ _)) by lia. subst st l. pose proof (pow2_pos t) as PT.
      assert (Ls : len (st' ++ [lbf y]) = len st' + 1) by (rewrite len_app; reflexivity).
      rewrite Ls in *.
      unfold r_pop_stack. rewrite El, subw_ok by lia. cbn [bind].
      replace (len st' + 1 - 1) with (len st') by lia.
      rewrite E, map_app, <- app_assoc. cbn [map app].
      assert (Ix0 : index (map wds st' ++ wds (lbf y) :: junk) (len st') = Ok (wds (lbf y))).
      { rewrite <- (len_map_stack st'). apply index_app. }
      rewrite Ix0. cbn [bind rh_key rh_chunk].
      rewrite Hk, Hfl.
      assert (Sy : Forall is32 y /\ Forall is32 x).
      { apply Forall_app in S. destruct S as [S1 S2]. apply Forall_app in S1. tauto. }
      assert (Iy : is32 (lbf y)) by (apply lbf_shape; auto; [tauto|lia]).
      assert (Ix : is32 (lbf x)) by (apply lbf_shape; auto; [tauto|lia]).
      cbn beta in Ix, Iy.
      rewrite r_parent_ok, r_cv_ok by (try apply parent_node_wf; tauto).
      change (chain F (parent_node key flags (lbf y) (lbf x))) with (pcv (lbf y) (lbf x)).
      rewrite <- J. rewrite <- app_assoc in S |- *.
      match goal with |- context [r_merge_loop c fuel ?h1 _ _] =>
        destruct (IH h1 st' l' (y ++ x) (t + 1) (wds (lbf y) :: junk)) as (st2 & z & j2 & F1 & F2 & F3) end;
        cbn [rh_stack rh_stack_len rh_key rh_chunk]; auto.
      * rewrite len_app, pow2_S. lia.
      * lia.
      * exists st2, z, j2. split; [exact F1|]. split; auto. rewrite F3, len_cons. lia.
Qed.

Lemma r_push_ok : forall h st l x junk,
  rep st l -> Forall is32 (l ++ [x]) -> rh_stack h = map wds st ++ junk -> rh_stack_len h = len st ->
  len st + len junk = 53 -> rh_key h = key -> rc_flags (rh_chunk h) = flags ->
  2048 * (len l + 1) < W64 ->
  exists st' junk',
    r_push_chunk_chaining_value c h (wds x) (2048 * len l + 2048)
    = Ok (RHasher (rh_chunk h) key (map wds st' ++ junk') (len st')) /\
    rep st' (l ++ [x]) /\ len st' + len junk' = 53.
Proof.
  intros h st l x junk R S E El Lj Hk Hf H. unfold r_push_chunk_chaining_value.
  assert (P : popcount (2048 * len l + 2048) = popcount (len (l ++ [x]))).
  { replace (2048 * len l + 2048) with (2 ^ 11 * len (l ++ [x])).
    - apply popcount_pow_mul.
    - rewrite len_app, len_cons, len_nil. change (2 ^ 11) with 2048. lia. }
  assert (B : popcount (len (l ++ [x])) <= 53).
  { apply popcount_bound. rewrite len_app, len_cons, len_nil. unfold W64 in H.
    change (2 ^ 53) with 9007199254740992. lia. }
  rewrite P, N.mod_small by (unfold W8; lia).
  destruct (r_merge_ok (Datatypes.S (N.to_nat (rh_stack_len h))) h st l [x] 0 junk) as (st' & z & j' & E1 & R1 & L1); auto.
  { rewrite N.pow_0_r. apply N.mod_1_r. }
  { lia. }
  rewrite lbf_one in E1. rewrite E1. cbn [bind].
  pose proof (rep_len _ _ _ _ _ R1) as RL. rewrite len_app, len_cons, len_nil in RL.
  unfold r_push_stack. cbn [rh_stack_len rh_stack rh_chunk rh_key].
  rewrite len_app, len_map_stack. rewrite (proj2 (N.ltb_lt _ _)) by lia.
  rewrite addw_ok by (unfold W8; lia). cbn [bind].
  destruct j' as [|j0 j']; [rewrite len_nil in L1; lia|]. rewrite len_cons in L1.
  exists (st' ++ [z]), j'. split; [|split; [exact R1|]].
  - unfold len at 1. rewrite Nat2N.id. rewrite <- (map_length wds st'), set_nth_app.
    rewrite map_app, <- app_assoc, len_app. reflexivity.
  - rewrite len_app, len_cons, len_nil. lia.
Qed.

(* ---- the whole hasher ---- *)

Definition r_holds (h : r_hasher) (data : list N) : Prop :=
  exists cs rest st junk, Forall fullc cs /\ bytes rest /\ data = concat cs ++ rest /\
    rc_holds (rh_chunk h) (len cs) rest /\ len rest <= 2048 /\ (rest = [] -> cs = []) /\
    rep st (cvs 0 cs) /\ rh_key h = key /\ rh_stack h = map wds st ++ junk /\
    rh_stack_len h = len st /\ len st + len junk = 53.

Lemma r_new_holds : r_holds (r_new_internal key flags) [].
Proof.
  exists [], [], [], (repeat (zeros 8) 53). repeat split; try constructor; auto.
  - apply (rc_fresh 0).
  - cbn. lia.
Qed.

Lemma rc_holds_fields : forall s i data, rc_holds s i data ->
  rc_flags s = flags /\ rc_offset s = 2048 * i.
Proof. intros s i data (dn & bf & -> & A). destruct A. auto. Qed.

(* One iteration, when fewer than 2^64 bytes have been absorbed. *)
Lemma r_update_step : forall fuel h data input, r_holds h data -> bytes input ->
  len data < W64 -> 1 <= len input ->
  exists h' n, r_update_loop c (S fuel) h input = r_update_loop c fuel h' (drop n input) /\
    r_holds h' (data ++ take n input) /\ 1 <= n /\ n <= len input /\ len data + n <= W64.
Proof.
  intros fuel h data input H B L L1.
  destruct input as [|b inp]; [rewrite len_nil in L1; lia|].
  cbn [r_update_loop]. set (input := b :: inp) in *.
  (* the first part leaves room in the chunk *)
  assert (X : exists h1 cs rest st junk,
    (if r_chunk_len (rh_chunk h) =? r_CHUNK_LEN then
       let* new_chunk_offset := add64 c (rc_offset (rh_chunk h)) r_CHUNK_LEN in
       let* h := r_push_chunk_chaining_value c h (r_chaining_value (r_chunk_output (rh_chunk h)))
                   new_chunk_offset in
       Ok (RHasher (r_chunk_new (rh_key h) new_chunk_offset (rc_flags (rh_chunk h)))
                   (rh_key h) (rh_stack h) (rh_stack_len h))
     else Ok h) = Ok h1 /\
    Forall fullc cs /\ bytes rest /\ data = concat cs ++ rest /\
    rc_holds (rh_chunk h1) (len cs) rest /\ len rest < 2048 /\ rep st (cvs 0 cs) /\
    rh_key h1 = key /\ rh_stack h1 = map wds st ++ junk /\
    rh_stack_len h1 = len st /\ len st + len junk = 53).
  { destruct H as (cs & rest & st & junk & Fc & Br & -> & H & Lr & Ne & R & Hk & E & El & Lj).
    rewrite (rc_len _ _ _ H). change r_CHUNK_LEN with 2048.
    rewrite len_app, len_concat_full in L by auto.
    destruct (N.eqb_spec (len rest) 2048) as [Q|Q].
    - destruct (rc_holds_fields _ _ _ H) as [Hfl Ho]. rewrite Ho.
      rewrite add64_ok by lia. cbn [bind].
      rewrite (r_chunk_output_ok _ _ _ H), r_cv_ok by (apply chunk_node_wf; auto; lia).
      change (chain F (chunk_node F key flags (len cs) rest)) with (ccv (len cs) rest).
      destruct (r_push_ok h st (cvs 0 cs) (ccv (len cs) rest) junk) as (st' & j' & E1 & R1 & L'); auto.
      { apply Forall_app. split; [apply cvs_shape; auto; now apply full_bytes|].
        constructor; [now apply ccv_shape|constructor]. }
      { rewrite len_cvs. lia. }
      rewrite len_cvs in E1. rewrite E1. cbn [bind rh_key rh_chunk rh_stack rh_stack_len].
      rewrite Hfl. replace (2048 * len cs + 2048) with (2048 * (len cs + 1)) by lia.
      eexists. exists (cs ++ [rest]), [], st', j'. split; [reflexivity|].
      cbn [rh_key rh_chunk rh_stack rh_stack_len].
      split; [apply Forall_app; auto|]. split; [constructor|].
      split; [rewrite concat_app, app_nil_r; cbn [concat]; now rewrite app_nil_r|].
      split; [rewrite len_app; apply rc_fresh|]. split; [rewrite len_nil; lia|].
      split; [rewrite cvs_app; exact R1|]. auto.
    - exists h, cs, rest, st, junk. repeat (split; [auto; lia|]). auto. }
  destruct X as (h1 & cs & rest & st & junk & E0 & Fc & Br & -> & H1 & Lr & R & Hk & E & El & Lj).
  cbv zeta. rewrite E0. cbn [bind].
  rewrite len_app, len_concat_full in L by auto.
  rewrite (rc_len _ _ _ H1). change r_CHUNK_LEN with 2048. rewrite subU_ok by lia. cbn [bind].
  set (n := N.min (2048 - len rest) (len input)). rewrite slice_to_ok by lia. cbn [bind].
  destruct (r_chunk_update_ok (length (take n input)) (rh_chunk h1) (len cs) rest (take n input))
    as (s2 & E2 & H2); auto.
  { now apply bytes_take. } { rewrite len_take. lia. } { lia. }
  rewrite E2. cbn [bind]. rewrite slice_from_ok by lia. cbn [bind].
  exists (RHasher s2 (rh_key h1) (rh_stack h1) (rh_stack_len h1)), n.
  split; [reflexivity|].
  split; [|rewrite len_app, len_concat_full by auto; unfold W64 in *; lia].
  exists cs, (rest ++ take n input), st, junk.
  cbn [rh_key rh_chunk rh_stack rh_stack_len].
  split; [auto|]. split; [apply bytes_app; split; [auto|now apply bytes_take]|].
  split; [now rewrite <- app_assoc|]. split; [auto|]. split; [rewrite len_app, len_take; lia|].
  split; [|auto]. intros Q. apply (f_equal len) in Q. rewrite len_app, len_take, len_nil in Q. lia.
Qed.

Lemma r_update_ok : forall fuel h data input, r_holds h data -> bytes input ->
  len data + len input <= W64 -> (length input <= fuel)%nat ->
  exists h', r_update_loop c fuel h input = Ok h' /\ r_holds h' (data ++ input).
Proof.
  induction fuel as [|fuel IH]; intros h data input H B L Hf.
  - destruct input; [|cbn in Hf; lia]. exists h. rewrite app_nil_r. auto.
  - destruct input as [|b inp]; [exists h; rewrite app_nil_r; auto|].
    set (input := b :: inp) in *.
    assert (L1 : 1 <= len input) by (unfold input; rewrite len_cons; lia).
    destruct (r_update_step fuel h data input H B ltac:(lia) L1) as (h1 & n & E & H1 & N1 & N2 & N3).
    rewrite E. destruct (IH h1 (data ++ take n input) (drop n input) H1) as (h' & E' & H').
    + now apply bytes_drop.
    + rewrite len_app, len_take, len_drop. lia.
    + pose proof (len_drop _ n input) as Q. unfold len in *. lia.
    + exists h'. split; [exact E'|]. now rewrite <- app_assoc, take_drop in H'.
Qed.

(* A full hasher: the next byte makes it pop more than there is. *)
Lemma r_merge_panic : forall fuel h cv, rh_stack_len h < N.of_nat fuel -> len (rh_stack h) = 53 ->
  r_merge_loop c fuel h cv 0 = Panic.
Proof.
  induction fuel as [|fuel IH]; intros h cv Hf L; [lia|]. cbn [r_merge_loop].
  rewrite (proj2 (N.leb_le _ _)) by lia. unfold r_pop_stack.
  destruct (N.eq_dec (rh_stack_len h) 0) as [Z|Z].
  - rewrite Z. unfold subw. change (1 <=? 0) with false. destruct (dbg c); [reflexivity|].
    change ((0 + W8 - 1) mod W8) with 255. cbn [bind]. unfold index.
    rewrite (proj2 (nth_error_None _ _)) by (unfold len in L; lia). reflexivity.
  - rewrite subw_ok by lia. cbn [bind].
    destruct (index (rh_stack h) (rh_stack_len h - 1)) as [top| |] eqn:Ix; cbn [bind].
    + apply IH; cbn [rh_stack_len rh_stack]; auto. lia.
    + reflexivity.
    + exfalso. unfold index in Ix. destruct (nth_error _ _); discriminate Ix.
Qed.

Lemma r_update_beyond : forall fuel h data input, r_holds h data -> bytes input ->
  len data <= W64 -> W64 < len data + len input -> (length input <= fuel)%nat ->
  r_update_loop c fuel h input = Panic.
Proof.
  induction fuel as [|fuel IH]; intros h data input H B L0 L Hf.
  - exfalso. unfold len in *. lia.
  - assert (L1 : 1 <= len input) by lia.
    destruct (N.eq_dec (len data) W64) as [Q|Q].
    + destruct input as [|b inp]; [rewrite len_nil in L1; lia|]. cbn [r_update_loop].
      destruct H as (cs & rest & st & junk & Fc & Br & -> & H & Lr & Ne & R & Hk & E & El & Lj).
      rewrite len_app, len_concat_full in Q by auto.
      assert (Lc : len rest = 2048).
      { destruct (N.eq_dec (len rest) 0) as [Z|Z]; [|unfold W64 in Q; lia].
        apply len_0_nil in Z. rewrite (Ne Z) in Q. rewrite Z in Q. cbn in Q. discriminate Q. }
      rewrite (rc_len _ _ _ H). change r_CHUNK_LEN with 2048. rewrite Lc, N.eqb_refl.
      destruct (rc_holds_fields _ _ _ H) as [Hfl Ho]. rewrite Ho.
      cbv zeta. unfold add64, addw. rewrite (proj2 (N.leb_le W64 _)) by lia.
      destruct (dbg c); [reflexivity|]. cbn [andb bind].
      replace (2048 * len cs + 2048) with W64 by lia. rewrite N.mod_same by discriminate.
      unfold r_push_chunk_chaining_value. change (popcount 0 mod W8) with 0.
      rewrite r_merge_panic; [reflexivity|lia|].
      rewrite E, len_app, len_map. exact Lj.
    + destruct (r_update_step fuel h data input H B ltac:(lia) L1) as (h1 & n & E & H1 & N1 & N2 & N3).
      rewrite E. apply (IH h1 (data ++ take n input)); auto.
      * now apply bytes_drop.
      * rewrite len_app, len_take. lia.
      * rewrite len_app, len_take, len_drop. lia.
      * pose proof (len_drop _ n input) as Z. unfold len in *. lia.
Qed.

(* ---- finalize ---- *)

Lemma r_finalize_loop_ok : forall st h junk nd, Forall is32 st -> nd_wf nd ->
  rh_stack h = map wds st ++ junk -> rh_key h = key -> rc_flags (rh_chunk h) = flags ->
  len (chain F nd) = 32 -> bytes (chain F nd) ->
  r_finalize_loop c h (r_of nd) (length st)
  = Ok (r_of (match st with
              | [] => nd
              | x :: st => parent_node key flags x (roll _ pcv st (chain F nd))
              end)).
Proof.
  intros st. induction st as [|y st IH] using rev_ind; intros h junk nd S W E Hk Hf Lc Bc.
  - reflexivity.
  - rewrite app_length. cbn [length]. rewrite Nat.add_1_r. cbn [r_finalize_loop].
    apply Forall_app in S. destruct S as [S1 S2]. pose proof (Forall_inv S2) as Sy. cbn beta in Sy.
    rewrite E, map_app, <- app_assoc. cbn [map app].
    replace (N.of_nat (length st)) with (len (map wds st)) by (rewrite len_map; reflexivity).
    rewrite index_app. cbn [bind]. rewrite Hk, Hf.
    rewrite r_cv_ok, r_parent_ok by (auto; apply Sy).
    rewrite (IH h (wds y :: junk)); auto.
    + destruct st as [|x st]; cbn [app]; [reflexivity|].
      change (chain F (parent_node key flags y (chain F nd))) with (pcv y (chain F nd)).
      rewrite roll_snoc. reflexivity.
    + apply parent_node_wf; auto; apply Sy.
    + rewrite E, map_app, <- app_assoc. reflexivity.
    + now apply pcv_shape.
    + now apply pcv_shape.
Qed.

Lemma r_finalize_ok : forall h data out, r_holds h data -> len data <= W64 -> len out + 63 < W64 ->
  r_finalize c h out
  = Ok (take (len out) (flat_map (fun i => root_block F (root_node F key flags data) (N.of_nat i))
                                 (seq 0 (N.to_nat ((len out + 63) / 64))))).
Proof.
  intros h data out (cs & rest & st & junk & Fc & Br & -> & H & Lr & Ne & R & Hk & E & El & Lj) L Lo.
  assert (Sc : Forall is32 (cvs 0 cs)) by (apply cvs_shape; auto; now apply full_bytes).
  pose proof (len_app _ (concat cs) rest) as LA. rewrite len_concat_full in LA by auto.
  destruct (rc_holds_fields _ _ _ H) as [Hfl Ho].
  assert (Hi : 2048 * len cs < W64).
  { destruct (N.eq_dec (len rest) 0) as [Z|Z]; [|lia]. apply len_0_nil in Z. rewrite (Ne Z). reflexivity. }
  pose proof (proj1 (chunk_node_wf key flags Lkey Wkey (len cs) rest Br Hi)) as Wn.
  destruct (ccv_shape key flags Lkey Wkey (len cs) rest Br) as [Lc Bc].
  assert (Ss : Forall is32 st) by now apply (rep_shape key flags Lkey Wkey) with (l := cvs 0 cs).
  unfold r_finalize, r_root_output_bytes. rewrite (r_chunk_output_ok _ _ _ H), El.
  replace (N.to_nat (len st)) with (length st) by (unfold len; lia).
  rewrite (r_finalize_loop_ok st h junk); auto. cbn [bind].
  match goal with |- r_root_loop _ _ (r_of ?n) _ _ = _ => assert (En : n = root_node F key flags (concat cs ++ rest)) end.
  { destruct st as [|x st].
    - assert (cs = []).
      { destruct cs as [|ch cs]; [reflexivity|].
        inversion R as [|? ? ? ? ? ? ? Q]. now destruct st. }
      subst cs. cbn [concat app]. now rewrite root_node_small by auto.
    - assert (Ncs : cs <> []).
      { intros ->. pose proof (rep_len _ _ _ _ _ R) as RL. rewrite len_cons in RL. change (len (cvs 0 [])) with 0 in RL. change (popcount 0) with 0 in RL. lia. }
      assert (L0 : 1 <= len cs) by (destruct cs; [congruence|rewrite len_cons; lia]).
      assert (Nr : 1 <= len rest).
      { destruct rest; [now specialize (Ne eq_refl)|rewrite len_cons; lia]. }
      rewrite root_node_large by lia. cbv zeta.
      rewrite (pieces_app _ _ _ (len cs)); rewrite ?len_concat_full; try lia; auto.
      rewrite (pieces_full key), pieces_short by (auto; lia). rewrite cvs_app. cbn [SpecFacts.cvs].
      rewrite N.add_0_l.
      rewrite (rep_top _ _ _ _ _ R ltac:(discriminate) _ 0); try (cbn; lia).
      cbn [hd List.tl fst snd]. rewrite lbf_one. reflexivity. }
  rewrite En. change 0 with (64 * 0) at 1.
  assert (Bd : bytes (concat cs ++ rest)).
  { apply bytes_app. split; [|exact Br]. clear -Fc.
    induction Fc as [|x cs Hx Hc IH]; [constructor|]. cbn [concat]. apply bytes_app. tauto. }
  rewrite r_root_ok; [reflexivity| |lia|lia]. now apply root_node_wf.
Qed.

End Key.

(* ---- all modes ---- *)

Lemma r_start_holds : forall m, mode_ok m -> r_holds (mode_key m) (mode_flags m) (r_start m) [].
Proof.
  intros m M. destruct (mode_key_ok m M) as [L W].
  destruct m as [|k|k]; cbn [r_start mode_key mode_flags mode_ok] in *.
  - now apply r_new_holds.
  - unfold r_new_keyed. rewrite r_words_ok by (unfold len; rewrite (proj1 M); reflexivity).
    now apply r_new_holds.
  - unfold r_new_derive_key. rewrite r_words_ok by (unfold len; rewrite (proj1 M); reflexivity).
    now apply r_new_holds.
Qed.

Lemma r_feed_ok : forall c m, mode_ok m -> forall inputs h data,
  r_holds (mode_key m) (mode_flags m) h data -> Forall bytes inputs ->
  len data + len (concat inputs) <= W64 ->
  exists h', r_feed c h inputs = Ok h' /\
             r_holds (mode_key m) (mode_flags m) h' (data ++ concat inputs).
Proof.
  intros c m M. destruct (mode_key_ok m M) as [Lk Wk].
  induction inputs as [|x inputs IH]; intros h data H B L.
  - exists h. cbn [concat]. rewrite app_nil_r. auto.
  - cbn [concat r_feed] in *. rewrite len_app in L. inversion B as [|? ? Bx Bi]; subst.
    destruct (r_update_ok c _ _ Lk Wk (length x) h data x H Bx ltac:(lia) (le_n _)) as (h1 & E1 & H1).
    unfold r_update. rewrite E1. cbn [bind].
    destruct (IH h1 (data ++ x) H1 Bi ltac:(rewrite len_app; lia)) as (h2 & E2 & H2).
    exists h2. rewrite app_assoc. auto.
Qed.

Lemma reference_ok : forall c m inputs out, mode_ok m -> Forall bytes inputs ->
  len (concat inputs) <= W64 -> len out + 63 < W64 ->
  exists h, r_feed c (r_start m) inputs = Ok h /\
            r_finalize c h out = Ok (spec_xof F m (concat inputs) (len out)).
Proof.
  intros c m inputs out M B L Lo. destruct (mode_key_ok m M) as [Lk Wk].
  destruct (r_feed_ok c m M inputs (r_start m) [] (r_start_holds m M) B L) as (h & E & H).
  exists h. split; auto. cbn [app] in H.
  rewrite (r_finalize_ok c _ _ Lk Wk h (concat inputs) out H L Lo). reflexivity.
Qed.

Lemma reference_beyond : forall c m inputs, mode_ok m -> Forall bytes inputs ->
  W64 < len (concat inputs) -> r_feed c (r_start m) inputs = Panic.
Proof.
  intros c m inputs M. destruct (mode_key_ok m M) as [Lk Wk].
  assert (G : forall inputs h data, r_holds (mode_key m) (mode_flags m) h data -> len data <= W64 ->
            Forall bytes inputs -> W64 < len data + len (concat inputs) -> r_feed c h inputs = Panic).
  { clear inputs. induction inputs as [|x inputs IH]; intros h data H L0 B L.
    - cbn [concat] in L. rewrite len_nil in L. lia.
    - cbn [concat r_feed] in *. rewrite len_app in L. inversion B as [|? ? Bx Bi]; subst.
      unfold r_update. destruct (N.le_gt_cases (len data + len x) W64) as [C|C].
      + destruct (r_update_ok c _ _ Lk Wk (length x) h data x H Bx C (le_n _)) as (h1 & E1 & H1).
        rewrite E1. cbn [bind]. apply (IH h1 (data ++ x)); auto; rewrite len_app; lia.
      + rewrite (r_update_beyond c _ _ Lk Wk (length x) h data x H Bx L0 C (le_n _)). reflexivity. }
  intros B L. apply (G inputs (r_start m) []); auto.
  - now apply r_start_holds.
  - rewrite len_nil. lia.
Qed.

Lemma reference_lib : forall c p m inputs out n, platform_ok c p -> mode_ok m ->
  Forall bytes inputs -> len (concat inputs) < W64 -> N.of_nat n < MAX_BLOCKS ->
  len out <= 64 * N.of_nat n ->
  exists hr h o bs o',
    r_feed c (r_start m) inputs = Ok hr /\ feed c (start p m) inputs = Ok h /\
    finalize_xof c h = Ok o /\ reads c n o = Ok (bs, o') /\
    r_finalize c hr out = Ok (take (len out) (concat bs)).
Proof.
  intros c p m inputs out n P M B L Ln Lo.
  destruct (reference_ok c m inputs out M B ltac:(lia)) as (hr & E1 & E2).
  { unfold MAX_BLOCKS, W64 in *. lia. }
  destruct (stream_stream c p m inputs n P M B L Ln) as (h & o & bs & o' & F1 & _ & F3 & F4 & F5).
  exists hr, h, o, bs, o'. split; [exact E1|]. split; [exact F1|]. split; [exact F3|].
  split; [exact F4|]. rewrite E2, F5. f_equal. symmetry. apply xof_prefix; auto.
  clear -B. induction B as [|x l Hx Hl IH]; [constructor|]. cbn [concat]. apply bytes_app. auto.
Qed.
