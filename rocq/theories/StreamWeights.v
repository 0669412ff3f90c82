(* The calls made by the streaming Hasher, see WeightFacts.v. *)
From Coq Require Import NArith List Bool Lia ZArith.
From Coq Require Import ZifyBool ZifyNat ZifyN.
From Verif Require Import Base BaseFacts Spec TreeFacts CompressFacts ManySpec ManyFacts SpecFacts.
From Verif Require Import Portable Platform Lib Session ChunkFacts LibFacts HasherFacts.
From Verif Require Import Calls LibCalls TraceFacts WeightFacts.
Import ListNotations.
Open Scope N_scope.

Notation CHUNK_START := Spec.CHUNK_START.
Notation CHUNK_END := Spec.CHUNK_END.
Notation PARENT := Spec.PARENT.

Lemma chunk_calls_last : forall bs cv off fl st x y,
  chunk_calls F cv off fl st (bs ++ [x]) = chunk_calls F cv off fl st (bs ++ [y]).
Proof.
  induction bs as [|b bs IH]; intros cv off fl st x y; [reflexivity|].
  cbn [app]. destruct bs as [|b' bs].
  - reflexivity.
  - change (chunk_calls F cv off fl st (b :: (b' :: bs) ++ [x])) with
      (Nd cv b 64 off (N.lor fl st) ::
       chunk_calls F (firstn 8 (F cv b 64 off (N.lor fl st))) off fl 0 ((b' :: bs) ++ [x])).
    now rewrite (IH _ off fl 0 x y).
Qed.

Lemma chunk_calls_snoc : forall bs cv off fl st b y,
  chunk_calls F cv off fl st (bs ++ [b; y])
  = chunk_calls F cv off fl st (bs ++ [b])
    ++ [Nd (nd_cv (chunk_blocks F cv off fl st (bs ++ [b]))) b 64 off
           (N.lor fl (match bs with [] => st | _ => 0 end))].
Proof.
  induction bs as [|a bs IH]; intros cv off fl st b y; [reflexivity|].
  cbn [app]. destruct bs as [|a' bs].
  - cbn [app]. reflexivity.
  - change (chunk_calls F cv off fl st (a :: (a' :: bs) ++ [b; y])) with
      (Nd cv a 64 off (N.lor fl st) ::
       chunk_calls F (firstn 8 (F cv a 64 off (N.lor fl st))) off fl 0 ((a' :: bs) ++ [b; y])).
    change (chunk_calls F cv off fl st (a :: (a' :: bs) ++ [b])) with
      (Nd cv a 64 off (N.lor fl st) ::
       chunk_calls F (firstn 8 (F cv a 64 off (N.lor fl st))) off fl 0 ((a' :: bs) ++ [b])).
    change (chunk_blocks F cv off fl st (a :: (a' :: bs) ++ [b])) with
      (chunk_blocks F (firstn 8 (F cv a 64 off (N.lor fl st))) off fl 0 ((a' :: bs) ++ [b])).
    rewrite IH. reflexivity.
Qed.

Lemma mult64_pieces : forall (dn b : list N), len dn mod 64 = 0 -> 1 <= len b -> len b <= 64 ->
  pieces 64 (dn ++ b) = (if len dn =? 0 then [] else pieces 64 dn) ++ [b].
Proof.
  intros dn b Hm H1 H2. destruct (N.eqb_spec (len dn) 0) as [Z|Z].
  - rewrite (len_0_nil _ _ Z). cbn [app]. apply pieces_short; lia.
  - rewrite (pieces_app _ 64 b (len dn / 64) dn) by lia. rewrite (pieces_short _ 64 b) by lia. reflexivity.
Qed.

Section Weight.
Variable w : node -> N.
Notation W := (WeightFacts.W w).

Section Key.
Variable c : cfg.
Variable p : platform.
Variable key : list N.
Variable flags : N.
Hypothesis Pok : platform_ok c p.
Hypothesis Lkey : length key = 8%nat.
Hypothesis Wkey : words key.

Notation cvs := (SpecFacts.cvs key flags).
Notation ccv := (SpecFacts.ccv key flags).
Notation pcv := (SpecFacts.pcv key flags).
Notation is32 := (fun h : list N => len h = 32 /\ bytes h).
Notation fullc := (fun ch : list N => len ch = 2048 /\ bytes ch).
Notation apar := (WeightFacts.apar w key flags).
Notation acv := (WeightFacts.acv w key flags).
Notation acvs := (WeightFacts.acvs w key flags).
Notation cw := (WeightFacts.cw w key flags).
Notation below := (WeightFacts.below w key flags).
Notation lbf := (TreeFacts.lbf ad apar).
Notation topf := (TreeFacts.topf ad apar).
Notation rep := (TreeFacts.rep ad apar).
Notation cs_at := (HasherFacts.cs_at p key flags).
Notation cs_mid := (HasherFacts.cs_mid p key flags).
Notation cs_holds := (HasherFacts.cs_holds p key flags).

(* ---- the chunk state ---- *)

Lemma cw_mult : forall i dn b b', len dn mod 64 = 0 -> 1 <= len b -> len b <= 64 ->
  1 <= len b' -> len b' <= 64 -> cw i (dn ++ b) = cw i (dn ++ b').
Proof.
  intros i dn b b' Hm H1 H2 H3 H4. unfold WeightFacts.cw.
  rewrite !mult64_pieces by auto. now rewrite (chunk_calls_last _ _ _ _ _ b b').
Qed.

Lemma cw_nil : forall i, cw i [] = 0.
Proof. reflexivity. Qed.

Lemma cw_block : forall i dn b cv, len dn mod 64 = 0 -> len b = 64 ->
  nd_cv (chunk_blocks F key (2048 * i) flags CHUNK_START (pieces 64 (dn ++ b))) = cv ->
  cw i ((dn ++ b) ++ [0])
  = cw i (dn ++ [0])
    + w (Nd cv b 64 (2048 * i) (N.lor flags (if len dn =? 0 then CHUNK_START else 0))).
Proof.
  intros i dn b cv Hm Hb Hcv. rewrite (cw_mult i dn [0] b) by (auto; rewrite ?len_cons, ?len_nil; lia).
  unfold WeightFacts.cw.
  rewrite (mult64_pieces (dn ++ b) [0]) by (rewrite ?len_app, ?len_cons, ?len_nil; lia).
  rewrite (proj2 (N.eqb_neq (len (dn ++ b)) 0)) by (rewrite len_app; lia).
  rewrite mult64_pieces in * by lia. rewrite <- app_assoc. cbn [app].
  rewrite chunk_calls_snoc, W_app, W_cons, W_nil, Hcv. rewrite N.add_0_r. do 4 f_equal.
  destruct (N.eqb_spec (len dn) 0) as [Z|Z]; [reflexivity|].
  destruct (pieces 64 dn) eqn:E; [|reflexivity].
  now apply pieces_nonnil in E.
Qed.

Lemma holds_at_w : forall s i dn bf, cs_at s i dn bf -> cw i (dn ++ bf) = cw i (dn ++ [0]).
Proof.
  intros s i dn bf A. destruct A.
  destruct bf as [|x bf].
  - rewrite ca_ne by auto. reflexivity.
  - apply cw_mult; auto; rewrite len_cons; rewrite ?len_nil; try lia.
Qed.

Lemma t_run_block : forall s i dn b lg,
  2048 * i < W64 -> length (cs_cv s) = 8%nat -> words (cs_cv s) -> cs_platform s = p ->
  cs_offset s = 2048 * i -> cs_flags s = flags -> cs_count s = len dn -> len dn + 64 <= 2048 ->
  len dn mod 64 = 0 ->
  len b = 64 -> bytes b ->
  (forall rest, (rest = [] -> dn = []) ->
      chunk_blocks F key (2048 * i) flags CHUNK_START (pieces 64 (dn ++ rest))
      = chunk_blocks F (cs_cv s) (2048 * i) flags (if len dn =? 0 then CHUNK_START else 0)
          (pieces 64 rest)) ->
  W (fst (t_cs_compress c s b lg)) + cw i (dn ++ [0]) = W lg + cw i ((dn ++ b) ++ [0]).
Proof.
  intros s i dn b lg Hi Lc Wc Hp Ho Hf Hc Hm Hmu Lb Bb Run.
  rewrite (cw_block i dn b (cs_cv s)); auto.
  2: { rewrite Run. { rewrite pieces_short by lia. reflexivity. }
       intros ->. rewrite len_nil in Lb. lia. }
  unfold t_cs_compress. rewrite Ho, Hf.
  erewrite tbind_eq by reflexivity. cbv beta.
  rewrite fst_tbind_lift by reflexivity. rewrite W_app, W_cons, W_nil.
  unfold cs_maybe_chunk_start_flag. rewrite Hc. change BLOCK_LEN with 64.
  change Lib.CHUNK_START with CHUNK_START. lia.
Qed.

Lemma t_cs_loop_ok : forall fuel s i dn input lg, cs_mid s i dn -> bytes input ->
  len dn + len input <= 2048 -> (length input <= fuel)%nat -> 2048 * i < W64 ->
  exists s' blocks rest lg', t_cs_update_loop c fuel s input lg = (lg', Ok (s', rest)) /\
    input = blocks ++ rest /\ cs_mid s' i (dn ++ blocks) /\ len rest <= 64 /\
    (rest = [] -> input = []) /\
    W lg' + cw i (dn ++ [0]) = W lg + cw i ((dn ++ blocks) ++ [0]).
Proof.
  induction fuel as [|fuel IH]; intros s i dn input lg M B L Hf Hi.
  - destruct input; [|cbn in Hf; lia]. exists s, [], [], lg. rewrite (app_nil_r dn).
    split; [reflexivity|]. split; [reflexivity|]. split; [exact M|]. split; [rewrite len_nil; lia|]. auto.
  - cbn [t_cs_update_loop]. change BLOCK_LEN with 64.
    destruct (N.ltb_spec 64 (len input)) as [G|G].
    + destruct M as [M1 M2 M3 M4 M5 M6 M7 M8 M9 M10 M11 M13 M12].
      rewrite (lift_ok _ _ _ _ _ tt) by (apply dassert_ok; lia).
      erewrite lift_ok by (apply slice_ok; lia).
      rewrite drop_0.
      destruct (run_block c p key flags Lkey s i dn (take 64 input)) as (cv' & E & C1 & C2 & C3);
        auto; try lenlia.
      { now apply bytes_take. }
      assert (TW : W (fst (t_cs_compress c s (take 64 input) lg)) + cw i (dn ++ [0])
                   = W lg + cw i ((dn ++ take 64 input) ++ [0])).
      { apply t_run_block; auto; try lenlia. now apply bytes_take. }
      erewrite (tbind_eq _ _ (t_cs_compress c s (take 64 input))).
      2: { rewrite (run_pair _ _ _ lg (ret_cs_compress c s (take 64 input))), E. reflexivity. }
      erewrite lift_ok by (apply slice_from_ok; lia).
      destruct (IH (ChunkState cv' (cs_key s) (cs_offset s) (len (dn ++ take 64 input))
                     (cs_buf s) (cs_buf_len s) (cs_flags s) (cs_platform s)) i (dn ++ take 64 input)
                   (drop 64 input) (fst (t_cs_compress c s (take 64 input) lg)))
        as (s' & bl & rest & lg' & E1 & E2 & E3 & E4 & E5 & E6).
      * constructor; cbn [cs_key cs_flags cs_platform cs_offset cs_count cs_buf cs_buf_len cs_cv];
          auto; try lenlia.
        intros E0. apply (f_equal len) in E0. revert E0. lenlia.
      * now apply bytes_drop.
      * lenlia.
      * unfold len in G. pose proof (len_drop _ 64 input) as Q. unfold len in Q. lia.
      * auto.
      * exists s', (take 64 input ++ bl), rest, lg'. rewrite E1. split; [reflexivity|].
        split; [rewrite <- app_assoc, <- E2; symmetry; apply take_drop|].
        split; [now rewrite app_assoc|]. split; auto.
        split.
        -- intros Er. specialize (E5 Er). apply (f_equal len) in E5. rewrite len_drop, len_nil in E5. lia.
        -- rewrite (app_assoc dn). lia.
    + exists s, [], input, lg. rewrite (app_nil_r dn). split; [reflexivity|]. split; [reflexivity|].
      split; [exact M|]. auto.
Qed.

Lemma t_cs_update_ok : forall s i data input lg, cs_holds s i data -> bytes input ->
  len data + len input <= 2048 -> 2048 * i < W64 ->
  exists s' lg', t_cs_update c s input lg = (lg', Ok s') /\ cs_holds s' i (data ++ input) /\
    W lg' + cw i data = W lg + cw i (data ++ input).
Proof.
  intros s i data input lg H B L Hi.
  destruct (cs_update_ok c p key flags Lkey s i data input H B L Hi) as (s' & E & H').
  exists s', (fst (t_cs_update c s input lg)). split; [|split; [exact H'|]].
  { rewrite (run_pair _ _ _ lg (ret_cs_update c s input)) at 1. now rewrite E. }
  clear s' E H'. destruct H as (dn & bf & -> & A). rewrite len_app in L.
  rewrite (holds_at_w _ _ _ _ A).
  assert (Fin : forall s dn input lg, cs_mid s i dn -> bytes input -> len dn + len input <= 2048 ->
    (input = [] -> dn = []) ->
    W (fst ((let! (s, input) := t_cs_update_loop c (length input) s input in
       let! (s, input) := lift (cs_fill_buf c s input) in
       lift (dassert c (len input =? 0)) ;!
       lift (dassert c (cs_len s <=? CHUNK_LEN)) ;!
       lift (Ok s)) lg)) + cw i (dn ++ [0]) = W lg + cw i (dn ++ input)).
  { clear s dn bf input lg A B L. intros s dn input lg M B L Hne.
    destruct (t_cs_loop_ok (length input) s i dn input lg M B L (le_n _) Hi)
      as (s1 & bl & rest & lg' & E1 & E2 & M1 & L1 & N1 & W1).
    erewrite tbind_eq by exact E1. cbv beta iota.
    rewrite fst_tbind_lift.
    2: { intros [s2 i2] l2. repeat (apply fst_tbind_lift; intros). reflexivity. }
    destruct M1 as [M1 M2 M3 M4 M5 M6 M7 M8 M9 M10 M11 M13 M12].
    rewrite W1, E2, app_assoc.
    destruct rest as [|x rest].
    - specialize (N1 eq_refl). rewrite N1 in *. symmetry in E2. apply app_eq_nil in E2. destruct E2 as [-> _].
      rewrite (Hne eq_refl). cbn [app]. reflexivity.
    - rewrite (cw_mult i (dn ++ bl) [0] (x :: rest)); auto; rewrite ?len_cons, ?len_nil in *; lia. }
  unfold t_cs_update. destruct A as [A1 A2 A3 A4 A5 A6 A7 A8 A9 A10 A11 A12 A13 A14 A16 A15].
  rewrite A8. destruct (N.ltb_spec 0 (len bf)) as [G|G].
  - set (n := N.min (64 - len bf) (len input)).
    destruct (N.eqb_spec (len (drop n input)) 0) as [Z|Z].
    + (* nothing left *)
      assert (Ln : n = len input) by (rewrite len_drop in Z; lia).
      erewrite tbind_eq.
      2: { erewrite lift_ok by (apply (fill_buf_ok c key Lkey s input bf); auto). cbv beta iota.
           fold n. rewrite (proj2 (N.eqb_eq _ _) Z). cbn [negb]. reflexivity. }
      cbv beta iota. rewrite (len_0_nil _ _ Z). cbn [length t_cs_update_loop].
      change (BLOCK_LEN <? len []) with false. cbv iota.
      rewrite (lift_ok _ _ (Ok _) _ lg _ eq_refl). cbv beta iota.
      rewrite fst_tbind_lift.
      2: { intros [s2 i2] l2. repeat (apply fst_tbind_lift; intros). reflexivity. }
      rewrite <- app_assoc. rewrite (cw_mult i dn [0] (bf ++ input)); auto;
        rewrite ?len_app, ?len_cons, ?len_nil; lia.
    + (* the buffer is full and more follows *)
      assert (Ln : n = 64 - len bf) by (rewrite len_drop in Z; lia).
      assert (Zi : len input - n <> 0) by (rewrite len_drop in Z; lia).
      assert (Lb : len (bf ++ take n input) = 64) by lenlia.
      assert (Pb : pad64 (bf ++ take n input) = bf ++ take n input).
      { unfold pad64. rewrite Lb. apply app_nil_r. }
      assert (Bb : bytes (bf ++ take n input)) by (apply bytes_app; split; [auto|now apply bytes_take]).
      set (s0 := ChunkState (cs_cv s) (cs_key s) (cs_offset s) (cs_count s) (pad64 (bf ++ take n input))
          (len (bf ++ take n input)) (cs_flags s) (cs_platform s)).
      destruct (run_block c p key flags Lkey s0 i dn (bf ++ take n input)) as (cv' & E & C1 & C2 & C3);
          unfold s0; cbn [cs_key cs_flags cs_platform cs_offset cs_count cs_buf cs_buf_len cs_cv]; auto; try lia.
      assert (TW : W (fst (t_cs_compress c s0 (bf ++ take n input) lg)) + cw i (dn ++ [0])
                   = W lg + cw i ((dn ++ bf ++ take n input) ++ [0])).
      { apply t_run_block; unfold s0;
          cbn [cs_key cs_flags cs_platform cs_offset cs_count cs_buf cs_buf_len cs_cv]; auto; try lia. }
      erewrite tbind_eq.
      2: { erewrite lift_ok by (apply (fill_buf_ok c key Lkey s input bf); auto). cbv beta iota.
           fold n. rewrite (proj2 (N.eqb_neq _ _) Z). cbn [negb cs_buf_len].
           rewrite (lift_ok _ _ _ _ _ tt) by (apply dassert_ok; rewrite Lb; reflexivity).
           cbn [cs_buf]. fold s0. rewrite Pb.
           erewrite tbind_eq.
           2: { rewrite (run_pair _ _ _ lg (ret_cs_compress c s0 (bf ++ take n input))), E. reflexivity. }
           cbv beta. cbn [cs_key cs_flags cs_platform cs_offset cs_count cs_buf cs_buf_len cs_cv]. reflexivity. }
      cbv beta iota.
      specialize (Fin (ChunkState cv' (cs_key s0) (cs_offset s0) (len (dn ++ bf ++ take n input))
                   (zeros BLOCK_LEN) 0 (cs_flags s0) (cs_platform s0))
                  (dn ++ bf ++ take n input) (drop n input)
                  (fst (t_cs_compress c s0 (bf ++ take n input) lg))).
      replace ((dn ++ bf) ++ input) with ((dn ++ bf ++ take n input) ++ drop n input)
        by (rewrite <- !app_assoc, take_drop; reflexivity).
      enough (forall a b x d e f : N, a + b = e + f -> e + x = d + b -> a + x = d + f) as Ar.
      { eapply Ar; [apply Fin|exact TW].
        * unfold s0. constructor; cbn [cs_key cs_flags cs_platform cs_offset cs_count cs_buf cs_buf_len cs_cv]; auto.
          -- rewrite len_app, Lb. lia.
          -- rewrite len_app, Lb. lia.
          -- intros E0. apply (f_equal len) in E0. rewrite len_app, Lb, len_nil in E0. lia.
        * now apply bytes_drop.
        * rewrite len_app, Lb, len_drop. lia.
        * intros E0. apply (f_equal len) in E0. rewrite len_drop, len_nil in E0. lia. }
      intros; lia.
  - rewrite (lift_ok _ _ (Ok _) _ lg _ eq_refl). cbv beta iota.
    assert (Ebf : bf = []) by (apply len_0_nil; lia).
    pose proof (A10 Ebf) as Edn. subst bf dn.
    apply (Fin s [] input lg); auto.
    constructor; auto.
Qed.

(* ---- the stack ---- *)

Lemma fst_lbf : forall l, 1 <= len l -> fst (lbf l) = TreeFacts.lbf [] pcv (vals l).
Proof.
  intros l H. unfold TreeFacts.lbf. rewrite len_vals.
  generalize (N.to_nat (N.log2_up (len l))) as k. intros k. revert l H.
  induction k as [|k IH]; intros l H.
  - destruct l; [rewrite len_nil in H; lia|reflexivity].
  - cbn [lb]. rewrite len_vals. pose proof (pow2_pos (N.of_nat k)) as P.
    destruct (N.leb_spec (len l) (2 ^ N.of_nat k)) as [L|G]; [now apply IH|].
    assert (T : forall m, take m (vals l) = vals (take m l)).
    { intros m. unfold take, vals. apply firstn_map. }
    assert (Dr : forall m, drop m (vals l) = vals (drop m l)).
    { intros m. unfold drop, vals. apply skipn_map. }
    unfold WeightFacts.apar at 1. cbn [fst].
    rewrite T, Dr, !IH by (autorewrite with len; lia). reflexivity.
Qed.

Lemma lbf_shape : forall l, Forall is32 (vals l) -> 1 <= len l -> is32 (fst (lbf l)).
Proof.
  intros l H H1. rewrite fst_lbf by auto. apply HasherFacts.lbf_shape; auto. now rewrite len_vals.
Qed.

Lemma t_merge_parent_ok : forall h st x y lg,
  h_stack h = vals (st ++ [x; y]) -> is32 (fst x) -> is32 (fst y) ->
  cs_key (h_chunk h) = key -> cs_flags (h_chunk h) = flags -> cs_platform (h_chunk h) = p ->
  exists lg', t_merge_parent c h lg = (lg', Ok (Hasher (vals (st ++ [apar x y])) (h_chunk h))) /\
    W lg' + sum (st ++ [x; y]) = W lg + sum (st ++ [apar x y]).
Proof.
  intros h st x y lg E Hx Hy Hk Hf Hp.
  exists (fst (t_merge_parent c h lg)). split.
  { rewrite (run_pair _ _ _ lg (ret_merge_parent c h)) at 1.
    rewrite vals_app in E.
    rewrite (merge_parent_ok c p key flags Lkey Wkey h (vals st) (fst x) (fst y)); auto.
    rewrite vals_app. reflexivity. }
  unfold t_merge_parent. rewrite E, len_vals.
  assert (L : len (st ++ [x; y]) = len st + 2) by (rewrite len_app; reflexivity).
  rewrite L. rewrite (lift_ok _ _ _ _ _ tt) by (apply dassert_ok; lia).
  erewrite lift_ok by (apply subU_ok; lia). erewrite lift_ok by (apply subU_ok; lia).
  replace (len st + 2 - 2) with (len st) by lia. replace (len st + 2 - 1) with (len st + 1) by lia.
  rewrite vals_app. cbn [vals map]. fold (vals st).
  rewrite <- (len_vals st).
  erewrite lift_ok by apply index_app. erewrite lift_ok by apply index_last2.
  rewrite Hk, Hf, Hp.
  change (hash_one_parent p (fst x) (fst y) key NotRoot flags)
    with (out_of p (parent_node key flags (fst x) (fst y)) NotRoot).
  erewrite tbind_eq by (apply t_to_hash_ok; auto; apply parent_node_wf; cbn beta in *; tauto).
  cbn [lift fst]. rewrite W_app, W_cons, W_nil, !(sum_app key Lkey), (sum_one key Lkey).
  unfold WeightFacts.apar. cbn [snd sum fold_right]. lia.
Qed.

Lemma t_merge_loop_gen : forall fuel h st l x t off lg,
  rep st l -> len x = 2 ^ t -> len l mod 2 ^ t = 0 -> h_stack h = vals (st ++ [lbf x]) ->
  Forall is32 (vals (l ++ x)) -> len st <= N.of_nat fuel -> off / 2048 = len (l ++ x) ->
  cs_key (h_chunk h) = key -> cs_flags (h_chunk h) = flags -> cs_platform (h_chunk h) = p ->
  exists st' lg', t_merge_loop c fuel h off lg = (lg', Ok (Hasher (vals st') (h_chunk h))) /\
    rep st' (l ++ x) /\ W lg' + sum (st ++ [lbf x]) = W lg + sum st'.
Proof.
  induction fuel as [|fuel IH]; intros h st l x t off lg R Hx Hm E S Hf Ho Hk Hfl Hp.
  - assert (st = []) by (apply len_0_nil; lia). subst st.
    destruct (rep_step _ _ _ _ _ _ _ R Hx Hm) as [[R' P]|(st' & l' & y & E' & _)];
      [|now destruct st'].
    exists ([] ++ [lbf x]), lg. split; [|split; [exact R'|reflexivity]].
    cbn [t_merge_loop]. unfold needs_merge. change CHUNK_LEN with 2048. rewrite Ho, E, <- P.
    rewrite (proj2 (N.ltb_ge _ _)); [|reflexivity]. destruct h; cbn in *. now subst.
  - cbn [t_merge_loop]. unfold needs_merge. change CHUNK_LEN with 2048. rewrite Ho, E, len_vals.
    destruct (rep_step _ _ _ _ _ _ _ R Hx Hm) as [[R' P]|(st' & l' & y & E1 & E2 & R' & Hy & Hm' & J & P)].
    + rewrite <- P, len_app, len_cons, len_nil. rewrite (proj2 (N.ltb_ge _ _)) by lia.
      exists (st ++ [lbf x]), lg. split; [|split; [exact R'|reflexivity]].
      destruct h; cbn in *. now subst.
    + rewrite (len_app _ st), len_cons, len_nil. rewrite (proj2 (N.ltb_lt _ _)) by lia.
      subst st l. pose proof (pow2_pos t) as PT.
      assert (Sy : Forall is32 (vals y) /\ Forall is32 (vals x)).
      { rewrite !vals_app in S. apply Forall_app in S. destruct S as [S1 S2]. apply Forall_app in S1. tauto. }
      destruct (t_merge_parent_ok h st' (lbf y) (lbf x) lg) as (lg1 & Em & Wm); auto;
        try (apply lbf_shape; [tauto|lia]).
      { rewrite E, <- app_assoc. reflexivity. }
      erewrite tbind_eq by exact Em. cbv beta.
      destruct (IH (Hasher (vals (st' ++ [apar (lbf y) (lbf x)])) (h_chunk h)) st' l' (y ++ x) (t + 1) off lg1)
        as (st2 & lg2 & E2 & R2 & W2); auto.
      * rewrite len_app, pow2_S. lia.
      * cbn [h_stack]. now rewrite J.
      * now rewrite app_assoc.
      * rewrite len_app, len_cons, len_nil in Hf. lia.
      * now rewrite app_assoc.
      * exists st2, lg2. rewrite <- app_assoc. split; [exact E2|]. split; [exact R2|].
        rewrite J in W2. rewrite <- app_assoc. cbn [app]. lia.
Qed.

Definition inter (st l : list an) : Prop :=
  (st = [] /\ l = []) \/
  exists st0 l0 x, st = st0 ++ [x] /\ l = l0 ++ [x] /\ rep st0 l0.

Lemma t_merge_loop_ok : forall h st l lg, h_stack h = vals st -> inter st l -> Forall is32 (vals l) ->
  cs_key (h_chunk h) = key -> cs_flags (h_chunk h) = flags -> cs_platform (h_chunk h) = p ->
  exists st' lg', t_merge_loop c (length (h_stack h)) h (2048 * len l) lg
      = (lg', Ok (Hasher (vals st') (h_chunk h))) /\
    rep st' l /\ W lg' + sum st = W lg + sum st'.
Proof.
  intros h st l lg Es [[E1 E2]|(st0 & l0 & x & E1 & E2 & R)] S Hk Hf Hp.
  - subst l st. exists [], lg. split; [|split; [constructor|reflexivity]].
    rewrite Es. cbn [length t_merge_loop vals map].
    unfold needs_merge. rewrite Es. cbn. destruct h; cbn in *. now subst.
  - subst l st.
    destruct (t_merge_loop_gen (length (h_stack h)) h st0 l0 [x] 0 (2048 * len (l0 ++ [x])) lg)
      as (st' & lg' & H); auto.
    + rewrite N.pow_0_r. apply N.mod_1_r.
    + rewrite Es. unfold len, vals. rewrite map_length, app_length. lia.
    + lia.
    + exists st', lg'. exact H.
Qed.

Lemma vals_len : forall l : list an, length (vals l) = length l.
Proof. intros l. apply map_length. Qed.

Lemma t_merge_loop_id : forall h st l fuel lg, h_stack h = vals st -> rep st l ->
  t_merge_loop c fuel h (2048 * len l) lg = (lg, Ok h).
Proof.
  intros h st l fuel lg E R. pose proof (rep_len _ _ _ _ _ R) as P.
  destruct fuel; cbn [t_merge_loop]; unfold needs_merge; change CHUNK_LEN with 2048;
    replace (2048 * len l / 2048) with (len l) by lia; rewrite E, len_vals, P;
    rewrite (proj2 (N.ltb_ge _ _)) by lia; reflexivity.
Qed.

Lemma t_push_ok : forall h st l x lg, h_stack h = vals st -> (inter st l \/ rep st l) ->
  Forall is32 (vals l) ->
  cs_key (h_chunk h) = key -> cs_flags (h_chunk h) = flags -> cs_platform (h_chunk h) = p ->
  2048 * (len l + 1) < W64 ->
  exists st' lg', t_push_chunk_hash c h (fst x) (2048 * len l) lg
      = (lg', Ok (Hasher (vals (st' ++ [x])) (h_chunk h))) /\
    rep st' l /\ W lg' + sum st = W lg + sum st'.
Proof.
  intros h st l x lg Es I S Hk Hf Hp H. unfold t_push_chunk_hash.
  assert (M : exists st' lg', t_merge_loop c (length (h_stack h)) h (2048 * len l) lg
              = (lg', Ok (Hasher (vals st') (h_chunk h))) /\ rep st' l /\ W lg' + sum st = W lg + sum st').
  { destruct I as [I|R]; [now apply t_merge_loop_ok|].
    exists st, lg. split; auto. rewrite (t_merge_loop_id h st) by auto. rewrite <- Es. now destruct h. }
  destruct M as (st' & lg' & E & R & Ws). erewrite tbind_eq by exact E. cbv beta. cbn [h_stack h_chunk].
  exists st', lg'. split; auto.
  erewrite lift_ok.
  2: { apply push_cap_ok. rewrite len_vals, (rep_len _ _ _ _ _ R). change MAX_DEPTH with 53. now apply (pop53 key Lkey). }
  rewrite vals_app. reflexivity.
Qed.

Lemma t_push_batch_ok : forall xs h st l lg, h_stack h = vals st -> inter st l ->
  Forall is32 (vals (l ++ xs)) ->
  cs_holds (h_chunk h) (len l) [] -> 2048 * (len l + len xs) < W64 ->
  exists h' st' lg', t_push_batch c h (vals xs) lg = (lg', Ok h') /\
    h_stack h' = vals st' /\ inter st' (l ++ xs) /\
    cs_holds (h_chunk h') (len (l ++ xs)) [] /\
    W lg' + sum st + sum xs = W lg + sum st'.
Proof.
  induction xs as [|x xs IH]; intros h st l lg Es I S H L; cbn [t_push_batch vals map].
  - exists h, st, lg. rewrite app_nil_r. repeat split; auto. cbn. lia.
  - rewrite len_cons in L.
    destruct (cs_holds_fields _ _ _ _ _ _ H) as (Hk & Hf & Hp & Ho).
    assert (Sl : Forall is32 (vals l)) by (rewrite vals_app in S; apply Forall_app in S; tauto).
    rewrite Ho. destruct (t_push_ok h st l x lg Es (or_introl I) Sl Hk Hf Hp) as (st' & lg1 & E & R & W1); [lia|].
    erewrite tbind_eq by exact E. cbv beta. cbn [h_stack h_chunk]. rewrite Ho. change CHUNK_LEN with 2048.
    erewrite lift_ok by (apply add64_ok; lia).
    replace (2048 * len l + 2048) with (2048 * len (l ++ [x])) by lenlia.
    destruct (IH (Hasher (vals (st' ++ [x])) (set_chunk_offset (h_chunk h) (2048 * len (l ++ [x]))))
                 (st' ++ [x]) (l ++ [x]) lg1) as (h' & st2 & lg2 & E' & Es' & I' & H' & W').
    + reflexivity.
    + right. exists st', l, x. auto.
    + now rewrite <- app_assoc.
    + cbn [h_chunk]. now apply cs_move with (i := len l).
    + rewrite len_app, len_cons, len_nil. lia.
    + exists h', st2, lg2. rewrite <- app_assoc in I', H'. repeat split; auto.
      rewrite (sum_app key Lkey), (sum_one key Lkey) in W'. cbn [sum fold_right]. fold (sum xs). lia.
Qed.

Lemma full_bytes : forall cs, Forall fullc cs -> Forall bytes cs.
Proof. intros cs H. eapply Forall_impl; [|exact H]. cbn. tauto. Qed.
Lemma full_len : forall cs, Forall fullc cs -> Forall (fun ch => len ch = 2048) cs.
Proof. intros cs H. eapply Forall_impl; [|exact H]. cbn. tauto. Qed.

Lemma t_update_chunks_ok : forall fuel chunks h st cs out lg,
  Forall fullc cs -> Forall fullc chunks -> (length chunks <= fuel)%nat ->
  h_stack h = vals st -> inter st (acvs 0 cs) -> cs_holds (h_chunk h) (len cs) [] ->
  2048 * (len cs + len chunks) < W64 -> 32 * MAX_SIMD_DEGREE c <= len out ->
  exists h' st' lg', t_update_chunks c fuel h chunks out lg = (lg', Ok h') /\
    h_stack h' = vals st' /\
    inter st' (acvs 0 (cs ++ chunks)) /\ cs_holds (h_chunk h') (len (cs ++ chunks)) [] /\
    W lg' + sum st = W lg + sum st'.
Proof.
  assert (M1 : 1 <= MAX_SIMD_DEGREE c) by (unfold MAX_SIMD_DEGREE; destruct (x86 c); lia).
  induction fuel as [|fuel IH]; intros chunks h st cs out lg Fc Fk Hf Es I H L Lo.
  - destruct chunks; [|cbn in Hf; lia]. exists h, st, lg. rewrite app_nil_r.
    cbn [t_update_chunks]. unfold take. rewrite firstn_nil. auto.
  - cbn [t_update_chunks].
    destruct (N.eqb_spec (len (take (MAX_SIMD_DEGREE c) chunks)) 0) as [Z|Z].
    + assert (chunks = []) by (apply len_0_nil; rewrite len_take in Z; lia). subst chunks.
      exists h, st, lg. rewrite app_nil_r. auto.
    + destruct (cs_holds_fields _ _ _ _ _ _ H) as (Hk & Hfl & Hp & Ho). rewrite Hk, Hfl, Hp, Ho.
      set (ba := take (MAX_SIMD_DEGREE c) chunks) in *.
      assert (Lb : len ba <= MAX_SIMD_DEGREE c /\ len ba <= len chunks) by (unfold ba; lenlia).
      assert (Fb : Forall fullc ba) by now apply Forall_take.
      change CHUNK_LEN with 2048.
      assert (HM : hash_many c p 2048 ba key (2048 * len cs) 2048 flags CHUNK_START CHUNK_END out
        = Ok (concat (hash_all blake_compress key flags CHUNK_START CHUNK_END (2048 * len cs) 2048 ba)
                ++ drop (32 * len ba) out)).
      { apply hash_many_ok; auto; try reflexivity; try lia. }
      erewrite tbind_eq by (apply t_hash_many_run; exact HM).
      change Lib.CHUNK_START with CHUNK_START. change Lib.CHUNK_END with CHUNK_END.
      cbv beta. change OUT_LEN with 32.
      rewrite hash_all_cvs by now apply full_len.
      assert (Sb : Forall is32 (cvs (len cs) ba)) by (apply cvs_shape; auto; now apply full_bytes).
      pose proof (chunks_exact_concat key Lkey (cvs (len cs) ba) (drop (32 * len ba) out) Sb) as TK.
      rewrite len_cvs in TK. rewrite TK.
      rewrite <- (vals_acvs w key flags ba (len cs)).
      match goal with |- context [tbind _ _ ?l0] => set (lg0 := l0) end.
      assert (W0 : W lg0 = W lg + sum (acvs (len cs) ba)).
      { unfold lg0. rewrite W_app. rewrite many_calls_chunks; auto.
        - now apply full_len.
        - now apply full_bytes.
        - lia. }
      destruct (t_push_batch_ok (acvs (len cs) ba) h st (acvs 0 cs) lg0)
        as (h' & st' & lg1 & E & Es' & I' & H' & W'); auto.
      * rewrite vals_app, !vals_acvs. apply Forall_app. split; auto.
        apply cvs_shape; auto. now apply full_bytes.
      * now rewrite len_acvs.
      * rewrite !len_acvs. lia.
      * erewrite tbind_eq by exact E. cbv beta.
        assert (Ecv : acvs 0 cs ++ acvs (len cs) ba = acvs 0 (cs ++ ba)) by (rewrite (acvs_app w key flags Lkey); f_equal).
        rewrite Ecv in I', H'. rewrite len_acvs in H'.
        match goal with |- context [t_update_chunks c fuel h' ?d ?o] =>
          destruct (IH d h' st' (cs ++ ba) o lg1) as (h2 & st2 & lg2 & E2 & Es2 & I2 & H2 & W2); auto end.
        -- apply Forall_app; auto.
        -- now apply Forall_drop.
        -- pose proof (len_drop _ (MAX_SIMD_DEGREE c) chunks) as Q.
           assert (len chunks <> 0) by lia. unfold len in *. lia.
        -- rewrite len_app, len_drop. unfold ba. rewrite len_take. lia.
        -- rewrite len_app, concat_32, len_vals, len_acvs, len_drop by (rewrite vals_acvs; auto). lia.
        -- exists h2, st2, lg2. rewrite E2. unfold ba in I2, H2.
           rewrite <- app_assoc, take_drop in I2, H2. repeat split; auto. lia.
Qed.

(* ---- the whole hasher ---- *)

(* h has been given data, and calls of total weight n were made for it *)
Definition holds (h : hasher) (data : list N) (n : N) : Prop :=
  exists cs rest st, Forall fullc cs /\ bytes rest /\ data = concat cs ++ rest /\
    cs_holds (h_chunk h) (len cs) rest /\ len rest <= 2048 /\ h_stack h = vals st /\
    ((rep st (acvs 0 cs) /\ (rest = [] -> cs = [])) \/
     (rest = [] /\ 2 <= len cs /\ inter st (acvs 0 cs))) /\
    n = sum st + cw (len cs) rest.

Lemma new_holds : holds (new_internal p key flags) [] 0.
Proof.
  exists [], [], []. repeat split; try constructor; auto.
  - apply (cs_fresh p key flags Lkey Wkey 0).
  - cbn. lia.
  - split; [constructor|auto].
Qed.

Lemma t_update_tail_ok : forall h st cs input lg,
  Forall fullc cs -> h_stack h = vals st -> inter st (acvs 0 cs) -> cs_holds (h_chunk h) (len cs) [] ->
  bytes input -> 2048 * len cs + len input < W64 ->
  (len cs + len input / 2048 = 1 -> len input mod 2048 <> 0) ->
  exists h' n' lg', (let '(chunks, remainder) := chunks_exact CHUNK_LEN input in
    lift (dassert c (cs_len (h_chunk h) =? 0)) ;!
    let! h := t_update_chunks c (length chunks) h chunks
                (zeros (MAX_SIMD_DEGREE c * OUT_LEN)) in
    lift (dassert c (cs_len (h_chunk h) =? 0)) ;!
    lift (dassert c (len remainder <? CHUNK_LEN)) ;!
    if negb (len remainder =? 0) then
      let! h := t_merge_loop c (length (h_stack h)) h (cs_offset (h_chunk h)) in
      let! s := t_cs_update c (h_chunk h) remainder in
      lift (Ok (Hasher (h_stack h) s))
    else lift (Ok h)) lg = (lg', Ok h') /\ holds h' (concat cs ++ input) n' /\
    W lg' + sum st = W lg + n'.
Proof.
  intros h st cs input lg Fc Es I H B L Hn. change CHUNK_LEN with 2048.
  pose proof (chunks_exact_spec _ 2048 input eq_refl) as CS.
  destruct (chunks_exact 2048 input) as [ch rm]. destruct CS as (C1 & C2 & C3 & C4).
  assert (Fk : Forall fullc ch /\ bytes rm).
  { rewrite <- C1 in B. apply bytes_app in B. destruct B as [B1 B2]. split; auto.
    clear -B1 C2. induction C2; constructor; cbn in B1; apply bytes_app in B1; tauto. }
  destruct Fk as [Fk Br].
  assert (Li : len input = 2048 * len ch + len rm) by (rewrite <- C1, len_app, len_concat_full by auto; lia).
  rewrite (lift_ok _ _ _ _ _ tt) by (apply dassert_ok; rewrite (cs_len_ok _ _ _ Lkey _ _ _ H); reflexivity).
  destruct (t_update_chunks_ok (length ch) ch h st cs (zeros (MAX_SIMD_DEGREE c * OUT_LEN)) lg)
    as (h1 & st1 & lg1 & E1 & Es1 & I1 & H1 & W1); auto; try lia.
  { rewrite len_zeros. change OUT_LEN with 32. lia. }
  erewrite tbind_eq by exact E1. cbv beta.
  rewrite (lift_ok _ _ _ _ _ tt) by (apply dassert_ok; rewrite (cs_len_ok _ _ _ Lkey _ _ _ H1); reflexivity).
  rewrite (lift_ok _ _ _ _ _ tt) by (apply dassert_ok; lia).
  assert (Fa : Forall fullc (cs ++ ch)) by (apply Forall_app; auto).
  destruct (cs_holds_fields _ _ _ _ _ _ H1) as (Hk & Hfl & Hp & Ho).
  destruct (N.eqb_spec (len rm) 0) as [Z|Z]; cbn [negb].
  - exists h1, (sum st1), lg1. split; auto. split; [|exact W1].
    pose proof (len_0_nil _ _ Z) as Erm. subst rm. rewrite app_nil_r in C1.
    exists (cs ++ ch), [], st1. rewrite app_nil_r, concat_app, C1.
    split; [exact Fa|]. split; [constructor|]. split; [reflexivity|]. split; [exact H1|].
    split; [rewrite len_nil; lia|]. split; [exact Es1|].
    split; [|rewrite cw_nil; lia].
    { destruct (N.eq_dec (len (cs ++ ch)) 0) as [Z0|Z0].
      * left. pose proof (len_0_nil _ _ Z0) as E0. rewrite E0 in *. split; auto.
        destruct I1 as [[-> _]|(st0 & l0 & x & _ & E & _)]; [constructor|].
        cbn in E. now destruct l0.
      * right. split; auto. split; auto. rewrite len_app in *. lia. }
  - rewrite Ho. rewrite <- (len_acvs w key flags (cs ++ ch) 0).
    destruct (t_merge_loop_ok h1 st1 (acvs 0 (cs ++ ch)) lg1) as (st' & lg2 & E & R & W2); auto.
    { rewrite vals_acvs. apply cvs_shape; auto. now apply full_bytes. }
    erewrite tbind_eq by exact E. cbv beta. cbn [h_chunk h_stack].
    destruct (t_cs_update_ok (h_chunk h1) (len (cs ++ ch)) [] rm lg2) as (s' & lg3 & E' & H' & W3); auto.
    { rewrite len_nil. lia. }
    { rewrite len_app. lia. }
    erewrite tbind_eq by exact E'. cbv beta.
    exists (Hasher (vals st') s'), (sum st' + cw (len (cs ++ ch)) rm), lg3. split; [reflexivity|].
    cbn [app] in H', W3. rewrite cw_nil in W3. split; [|lia].
    exists (cs ++ ch), rm, st'. cbn [h_stack h_chunk].
    repeat split; auto; try lia.
    + now rewrite concat_app, <- app_assoc, C1.
    + left. split; auto. intros ->. now rewrite len_nil in Z.
Qed.

Lemma t_update_ok : forall h data n input lg, holds h data n -> bytes input ->
  len data + len input < W64 ->
  exists h' n' lg', t_update c h input lg = (lg', Ok h') /\ holds h' (data ++ input) n' /\
    W lg' + n = W lg + n'.
Proof.
  intros h data n input lg (cs & rest & st & Fc & Br & -> & H & Lr & Es & Cs & ->) B L.
  rewrite len_app, len_concat_full in L by auto.
  destruct (cs_holds_fields _ _ _ _ _ _ H) as (Hk & Hfl & Hp & Ho).
  unfold t_update. rewrite Ho, (cs_len_ok _ _ _ Lkey _ _ _ H). change CHUNK_LEN with 2048.
  assert (Sc : Forall is32 (vals (acvs 0 cs))).
  { rewrite vals_acvs. apply cvs_shape; auto. now apply full_bytes. }
  assert (Z0 : (2048 * len cs =? 0) = (len cs =? 0)).
  { destruct (N.eqb_spec (len cs) 0), (N.eqb_spec (2048 * len cs) 0); auto; lia. }
  rewrite Z0.
  destruct (((len cs =? 0) && (len input =? 2048)) || (0 <? len rest)) eqn:Eb.
  - (* the chunk state takes bytes *)
    assert (R : rep st (acvs 0 cs)).
    { destruct Cs as [[R _]|(E1 & E2 & _)]; auto. subst rest. rewrite len_nil in Eb.
      exfalso. lia. }
    set (n := N.min (2048 - len rest) (len input)).
    destruct (t_cs_update_ok (h_chunk h) (len cs) rest (take n input) lg) as (s1 & lg1 & E1 & H1 & W1);
      auto; try lenlia.
    { now apply bytes_take. }
    destruct (N.eqb_spec (len input - n) 0) as [Z|Z].
    + erewrite tbind_eq.
      2: { erewrite lift_ok by (apply subU_ok; lia). cbv zeta. fold n.
           erewrite lift_ok by (apply slice_to_ok; lia).
           erewrite tbind_eq by exact E1. cbv beta.
           erewrite lift_ok by (apply slice_from_ok; lia). rewrite len_drop.
           rewrite (proj2 (N.eqb_eq _ _) Z). cbn [negb]. reflexivity. }
      cbv beta iota.
      rewrite take_all in H1, W1 by lia.
      exists (Hasher (h_stack h) s1), (sum st + cw (len cs) (rest ++ input)), lg1.
      split; [reflexivity|]. split; [|lia].
      exists cs, (rest ++ input), st. cbn [h_stack h_chunk].
      repeat split; auto.
      * apply bytes_app; auto.
      * now rewrite app_assoc.
      * rewrite len_app. lia.
      * left. split; auto. intros E. apply app_eq_nil in E. destruct E as [-> ->].
        rewrite !len_nil in Eb. exfalso. lia.
    + assert (Lf : len (rest ++ take n input) = 2048) by lenlia.
      assert (Bf : bytes (rest ++ take n input)) by (apply bytes_app; split; [auto|now apply bytes_take]).
      destruct (cs_holds_fields _ _ _ _ _ _ H1) as (Hk1 & Hfl1 & Hp1 & Ho1).
      destruct (t_push_ok (Hasher (h_stack h) s1) st (acvs 0 cs) (acv (len cs) (rest ++ take n input))
                  (lg1 ++ [chunk_node F key flags (len cs) (rest ++ take n input)]))
        as (st' & lg2 & E2 & R' & W2); auto; [rewrite len_acvs; lia|].
      destruct (cs_reset_ok c p key flags Lkey Wkey _ _ _ (len cs + 1) H1) as (s2 & E3 & H3).
      destruct (t_update_tail_ok (Hasher (vals (st' ++ [acv (len cs) (rest ++ take n input)])) s2)
                  (st' ++ [acv (len cs) (rest ++ take n input)])
                  (cs ++ [rest ++ take n input]) (drop n input) lg2) as (h' & n' & lg' & E4 & H4 & W4).
      * apply Forall_app. split; auto.
      * reflexivity.
      * right. exists st', (acvs 0 cs), (acv (len cs) (rest ++ take n input)).
        rewrite (acvs_app w key flags Lkey). cbn [WeightFacts.acvs]. auto.
      * cbn [h_chunk]. rewrite len_app. exact H3.
      * now apply bytes_drop.
      * rewrite len_app, len_cons, len_nil, len_drop. lia.
      * rewrite len_app, len_cons, len_nil, len_drop. lia.
      * erewrite tbind_eq.
        2: { erewrite lift_ok by (apply subU_ok; lia). cbv zeta. fold n.
             erewrite lift_ok by (apply slice_to_ok; lia).
             erewrite tbind_eq by exact E1. cbv beta.
             erewrite lift_ok by (apply slice_from_ok; lia). rewrite len_drop.
             rewrite (proj2 (N.eqb_neq _ _) Z). cbn [negb].
             rewrite (lift_ok _ _ _ _ _ tt) by (apply dassert_ok; rewrite (cs_len_ok _ _ _ Lkey _ _ _ H1), Lf; reflexivity).
             erewrite lift_ok by (apply (cs_finalize_ok c p key flags Lkey s1 (len cs) (rest ++ take n input)); auto; discriminate).
             erewrite tbind_eq by (apply t_to_hash_ok, chunk_node_wf; auto; lia).
             rewrite Ho1. rewrite len_acvs in E2.
             erewrite tbind_eq by exact E2. cbv beta. cbn [h_stack h_chunk].
             erewrite lift_ok by (apply add64_ok; lia).
             replace (2048 * len cs + 2048) with (2048 * (len cs + 1)) by lia.
             erewrite lift_ok by exact E3. reflexivity. }
        cbv beta iota. exists h', n', lg'. split; [exact E4|]. split.
        -- rewrite concat_app in H4. cbn [concat] in H4. rewrite app_nil_r in H4.
           rewrite <- !app_assoc, take_drop in H4. now rewrite <- app_assoc.
        -- rewrite W_app, W_cons, W_nil in W2. rewrite (sum_app key Lkey), (sum_one key Lkey) in W4.
           unfold WeightFacts.acv in W4 at 1. cbn [snd] in W4. lia.
  - (* the chunk state is empty *)
    assert (Er : rest = []) by (apply len_0_nil; lia). subst rest.
    rewrite (lift_ok _ _ (Ok _) _ lg _ eq_refl). cbv beta iota.
    rewrite app_nil_r, cw_nil.
    destruct (t_update_tail_ok h st cs input lg) as (h' & n' & lg' & E4 & H4 & W4); auto.
    + destruct Cs as [[R E]|(_ & _ & I)]; auto. rewrite (E eq_refl) in *. left.
      cbn [WeightFacts.acvs] in *. inversion R as [Q|? ? ? ? ? ? ? Q1 Q2]; auto.
      exfalso. destruct l; [|discriminate Q2]. destruct x; [|discriminate Q2].
      cbn in H1. pose proof (pow2_pos t). lia.
    + rewrite len_nil in L. lia.
    + destruct Cs as [[R E]|(_ & E & _)]; [|lia]. specialize (E eq_refl). subst cs.
      rewrite len_nil in *. cbn [orb] in Eb. lia.
    + exists h', n', lg'. split; [exact E4|]. split; auto. lia.
Qed.
(* ---- finalizing ---- *)

Lemma fst_roll : forall st wa, fst (roll _ apar st wa) = roll _ pcv (vals st) (fst wa).
Proof. induction st as [|x st IH]; intros wa; cbn [roll vals map]; [reflexivity|]. cbn. now rewrite IH. Qed.

Lemma t_finalize_loop_ok : forall st fuel h wa x rest' lg,
  h_stack h = vals (x :: st) ++ rest' -> Forall is32 (vals (x :: st)) -> is32 (fst wa) ->
  cs_key (h_chunk h) = key -> cs_flags (h_chunk h) = flags -> cs_platform (h_chunk h) = p ->
  (length st <= fuel)%nat ->
  exists lg', t_finalize_loop c fuel h (fst wa) (len st) lg
    = (lg', Ok (out_of p (parent_node key flags (fst x) (fst (roll _ apar st wa))) Root)) /\
    W lg' + sum st + snd wa = W lg + snd (roll _ apar st wa).
Proof.
  intros st. induction st as [|y st IH] using rev_ind; intros fuel h wa x rest' lg E S Hw Hk Hf Hp Hfu.
  - exists lg. split; [|cbn [sum fold_right roll]; lia].
    cbn [len length N.of_nat]. destruct fuel; cbn [t_finalize_loop]; rewrite E; cbn [app vals map];
      change (index (fst x :: rest') 0) with (Ok (fst x)); rewrite (lift_ok _ _ (Ok _) _ lg _ eq_refl);
      cbn [N.eqb roll]; rewrite Hk, Hf, Hp; reflexivity.
  - destruct fuel as [|fuel]; [rewrite app_length in Hfu; cbn in Hfu; lia|].
    cbn [t_finalize_loop]. rewrite E.
    assert (Ix : index (vals (x :: st ++ [y]) ++ rest') (len (st ++ [y])) = Ok (fst y)).
    { change (x :: st ++ [y]) with ((x :: st) ++ [y]). rewrite vals_app, <- app_assoc.
      replace (len (st ++ [y])) with (len (vals (x :: st)))
        by (rewrite len_vals, len_app, !len_cons, len_nil; lia).
      apply index_app. }
    erewrite lift_ok by exact Ix.
    rewrite len_app, len_cons, len_nil.
    rewrite (proj2 (N.eqb_neq (len st + (1 + 0)) 0)) by lia.
    erewrite lift_ok by (apply subU_ok; lia).
    rewrite Hk, Hf, Hp.
    assert (S' : Forall is32 (vals (x :: st)) /\ is32 (fst y)).
    { change (x :: st ++ [y]) with ((x :: st) ++ [y]) in S. rewrite vals_app in S.
      apply Forall_app in S. destruct S as [S2 S3]. split; [exact S2|]. now inversion S3. }
    destruct S' as [S' Sy].
    change (hash_one_parent p (fst y) (fst wa) key NotRoot flags)
      with (out_of p (parent_node key flags (fst y) (fst wa)) NotRoot).
    erewrite tbind_eq by (apply t_to_hash_ok; auto; apply parent_node_wf; cbn beta in *; tauto).
    change (chain F (parent_node key flags (fst y) (fst wa))) with (fst (apar y wa)).
    replace (len st + (1 + 0) - 1) with (len st) by lia.
    destruct (IH fuel h (apar y wa) x (fst y :: rest') (lg ++ [parent_node key flags (fst y) (fst wa)]))
      as (lg' & E' & W'); auto.
    + rewrite E. change (x :: st ++ [y]) with ((x :: st) ++ [y]). rewrite vals_app. now rewrite <- app_assoc.
    + now apply pcv_shape.
    + rewrite app_length in Hfu. cbn in Hfu. lia.
    + exists lg'. rewrite roll_snoc. split; [exact E'|].
      rewrite W_app, W_cons, W_nil in W'. rewrite (sum_app key Lkey), (sum_one key Lkey).
      unfold WeightFacts.apar in W' at 1. cbn [snd] in W'. lia.
Qed.

Lemma rep_shape : forall st l, rep st l -> Forall is32 (vals l) -> Forall is32 (vals st).
Proof.
  intros st l R. induction R as [|st l x t R IH Hx Hm]; intros S; [constructor|].
  rewrite vals_app in *. apply Forall_app in S. apply Forall_app. split; [tauto|]. constructor; [|constructor].
  apply lbf_shape; [tauto|]. pose proof (pow2_pos t). lia.
Qed.

Lemma rep_nil : forall l, rep [] l -> l = [].
Proof.
  intros l R. remember [] as st eqn:E. destruct R as [|st l x]; [reflexivity|].
  exfalso. destruct st; discriminate.
Qed.
Lemma acvs_nil : forall i cs, acvs i cs = [] -> cs = [].
Proof. intros i [|x cs] H; [reflexivity|discriminate]. Qed.

Lemma t_finalize_xof_ok : forall h data n lg, holds h data n -> len data < W64 ->
  exists lg', t_finalize_xof c h lg = (lg', Ok (out_of p (root_node F key flags data) Root)) /\
    W lg' + n = W lg + below data.
Proof.
  intros h data n lg (cs & rest & st & Fc & Br & -> & H & Lr & Es & Cs & ->) L.
  destruct (cs_holds_fields _ _ _ _ _ _ H) as (Hk & Hfl & Hp & Ho).
  assert (Sc : Forall is32 (vals (acvs 0 cs))).
  { rewrite vals_acvs. apply cvs_shape; auto. now apply full_bytes. }
  rewrite len_app, len_concat_full in L by auto.
  unfold t_finalize_xof.
  destruct (N.eq_dec (len cs) 0) as [Z|Z].
  - (* a single chunk *)
    pose proof (len_0_nil _ _ Z). subst cs.
    assert (Est : st = []).
    { destruct Cs as [[R _]|(_ & E & _)]; [|rewrite len_nil in E; lia].
      apply len_0_nil. rewrite (rep_len _ _ _ _ _ R). reflexivity. }
    subst st. rewrite Es. cbn [len length N.of_nat N.eqb concat app vals map].
    exists lg. rewrite root_node_small by auto. rewrite (below_small w key flags Lkey) by auto. split.
    + unfold lift. f_equal. apply (cs_finalize_ok c p key flags Lkey _ 0); auto.
    + cbn [sum fold_right]. lia.
  - (* a tree: st0 covers all but the last chunk, whose hash is wa *)
    assert (X : exists st0 cs0 last lg1, rep st0 (acvs 0 cs0) /\ cs0 <> [] /\ bytes last /\
      Forall fullc cs0 /\
      pieces 2048 (concat cs ++ rest) = cs0 ++ [last] /\
      (exists tl, h_stack h = vals st0 ++ tl) /\
      W lg1 + (sum st + cw (len cs) rest) = W lg + sum st0 + snd (acv (len cs0) last) /\
      (if 0 <? cs_len (h_chunk h) then
         lift (dassert c (negb (needs_merge h (cs_offset (h_chunk h))))) ;!
         let! o := lift (cs_finalize c (h_chunk h) NotRoot) in
         let! i := lift (subU c (len (h_stack h)) 1) in
         let! w := t_to_hash o in
         lift (Ok (w, i))
       else
         lift (dassert c (2 <=? (len (h_stack h)))) ;!
         let! l := lift (subU c (len (h_stack h)) 1) in
         let! last := lift (index (h_stack h) l) in
         let! i := lift (subU c (len (h_stack h)) 2) in
         lift (Ok (last, i))) lg
      = (lg1, Ok (fst (acv (len cs0) last), len st0 - 1))).
    { rewrite (cs_len_ok _ _ _ Lkey _ _ _ H).
      destruct Cs as [[R E]|(E & L2 & I)].
      - exists st, cs, rest, (lg ++ [chunk_node F key flags (len cs) rest]).
        assert (Nr : 1 <= len rest).
        { destruct rest; [|rewrite len_cons; lia]. rewrite E in Z by auto. now rewrite len_nil in Z. }
        assert (Ncs : cs <> []) by (intros ->; now rewrite len_nil in Z).
        repeat split; auto.
        + rewrite (pieces_app _ _ _ (len cs)); rewrite ?len_concat_full; try lia; auto.
          rewrite (pieces_full key Lkey), pieces_short by (auto; lia). reflexivity.
        + exists []. now rewrite app_nil_r.
        + rewrite W_app, W_cons, W_nil. unfold WeightFacts.acv. cbn [snd]. lia.
        + rewrite (proj2 (N.ltb_lt _ _)) by lia.
          pose proof (rep_len _ _ _ _ _ R) as RL. rewrite len_acvs in RL.
          rewrite (lift_ok _ _ _ _ _ tt).
          2: { apply dassert_ok. unfold needs_merge. rewrite Ho, Es, len_vals, RL. change CHUNK_LEN with 2048.
               replace (2048 * len cs / 2048) with (len cs) by lia.
               rewrite (proj2 (N.ltb_ge _ _)) by lia. reflexivity. }
          erewrite lift_ok by (apply (cs_finalize_ok c p key flags Lkey _ (len cs) rest); auto; discriminate).
          erewrite lift_ok.
          2: { apply subU_ok. rewrite Es, len_vals. destruct st as [|z st]; [|rewrite len_cons; lia].
               exfalso. apply rep_nil in R. now apply acvs_nil in R. }
          erewrite tbind_eq by (apply t_to_hash_ok, chunk_node_wf; auto; lia).
          rewrite Es, len_vals. reflexivity.
      - subst rest.
        destruct I as [[_ E]|(st0 & l0 & x & E1 & E2 & R)].
        { destruct cs; [rewrite len_nil in L2; lia|discriminate]. }
        destruct (exists_last (l := cs)) as (cs0 & last & ->).
        { intros ->. rewrite len_nil in L2. lia. }
        rewrite (acvs_app w key flags Lkey) in E2. cbn [WeightFacts.acvs] in E2. apply app_inj_tail in E2.
        destruct E2 as [<- <-]. rewrite len_app, len_cons, len_nil in L2.
        assert (Ncs : cs0 <> []) by (intros ->; rewrite len_nil in L2; lia).
        exists st0, cs0, last, lg.
        pose proof Fc as Fc'. apply Forall_app in Fc'. destruct Fc' as [F0 F1].
        repeat split; auto.
        + inversion F1; tauto.
        + rewrite app_nil_r. apply (pieces_full key Lkey); [exact Fc|]. intros Q. apply app_eq_nil in Q. destruct Q; discriminate.
        + exists [fst (acv (0 + len cs0) last)]. rewrite Es, E1, vals_app. reflexivity.
        + rewrite E1, (sum_app key Lkey), (sum_one key Lkey), cw_nil, N.add_0_l. lia.
        + cbn [len length N.of_nat N.ltb N.compare]. rewrite Es, E1.
          assert (N0 : 1 <= len st0).
          { destruct st0 as [|z st0]; [|rewrite len_cons; lia].
            exfalso. apply rep_nil in R. now apply acvs_nil in R. }
          rewrite len_vals, len_app, len_cons, len_nil.
          rewrite (lift_ok _ _ _ _ _ tt) by (apply dassert_ok; lia).
          erewrite lift_ok by (apply subU_ok; lia).
          replace (len st0 + (1 + 0) - 1) with (len st0) by lia.
          rewrite vals_app, <- (len_vals st0). cbn [vals map]. fold (vals st0).
          erewrite lift_ok by apply index_app.
          erewrite lift_ok by (apply subU_ok; rewrite len_vals; lia).
          rewrite N.add_0_l. unfold lift. do 3 f_equal. lia. }
    destruct X as (st0 & cs0 & last & lg1 & R & Ncs & Bl & F0 & P & (tl & Est) & W1 & E).
    assert (S0 : Forall is32 (vals (acvs 0 cs0))).
    { rewrite vals_acvs. apply cvs_shape; auto. now apply full_bytes. }
    pose proof (rep_shape _ _ R S0) as Ss.
    destruct st0 as [|x st0].
    { exfalso. apply rep_nil in R. now apply acvs_nil in R. }
    rewrite (proj2 (N.eqb_neq (len (h_stack h)) 0)).
    2: { rewrite Est, len_app, len_vals, len_cons. lia. }
    erewrite tbind_eq by exact E. cbv beta iota. rewrite len_cons.
    replace (1 + len st0 - 1) with (len st0) by lia.
    assert (Sl : is32 (fst (acv (len cs0) last))) by now apply ccv_shape.
    destruct (t_finalize_loop_ok st0 (length (h_stack h)) h (acv (len cs0) last) x tl lg1)
      as (lg' & E' & W'); auto.
    { rewrite Est, app_length, vals_len. cbn. lia. }
    assert (L0 : 1 <= len cs0) by (destruct cs0; [congruence|rewrite len_cons; lia]).
    assert (Lp : 2048 < len (concat cs ++ rest)).
    { destruct (N.le_gt_cases (len (concat cs ++ rest)) 2048) as [Q|Q]; auto.
      exfalso. rewrite pieces_short in P by lia. apply (f_equal len) in P.
      rewrite len_app, !len_cons, !len_nil in P. lia. }
    destruct (below_large w key flags Lkey (concat cs ++ rest) Lp) as [B1 B2].
    rewrite P, (acvs_app w key flags Lkey) in B1, B2. cbn [WeightFacts.acvs] in B1, B2.
    rewrite N.add_0_l in B1, B2.
    rewrite (rep_top _ _ _ _ _ R ltac:(discriminate) _ 0) in B1, B2; try (cbn; lia).
    cbn [hd List.tl fst snd] in B1, B2. rewrite lbf_one in B1, B2.
    exists lg'. rewrite B1, B2. split; [exact E'|].
    cbn [sum fold_right] in W1. fold (sum st0) in W1. lia.
Qed.

Lemma t_feed_ok : forall inputs h data n lg, holds h data n -> Forall bytes inputs ->
  len data + len (concat inputs) < W64 ->
  exists h' n' lg', t_feed c h inputs lg = (lg', Ok h') /\ holds h' (data ++ concat inputs) n' /\
    W lg' + n = W lg + n'.
Proof.
  induction inputs as [|x inputs IH]; intros h data n lg H B L; cbn [t_feed concat] in *.
  - exists h, n, lg. rewrite app_nil_r. auto.
  - inversion B as [|? ? B1 B2]; subst. rewrite len_app in L.
    destruct (t_update_ok h data n x lg H B1 ltac:(lia)) as (h1 & n1 & lg1 & E1 & H1 & W1).
    erewrite tbind_eq by exact E1. cbv beta.
    destruct (IH h1 (data ++ x) n1 lg1 H1 B2) as (h2 & n2 & lg2 & E2 & H2 & W2).
    { rewrite len_app. lia. }
    exists h2, n2, lg2. rewrite app_assoc. split; [exact E2|]. split; [exact H2|]. lia.
Qed.

End Key.
End Weight.
