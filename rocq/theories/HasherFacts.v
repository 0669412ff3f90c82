(* The streaming Hasher of lib.rs: its state after any sequence of updates. *)
From Coq Require Import NArith List Bool Lia ZArith.
From Coq Require Import ZifyBool ZifyNat ZifyN.
From Verif Require Import Base BaseFacts Spec TreeFacts CompressFacts ManyFacts SpecFacts.
From Verif Require Import Portable Platform Lib ChunkFacts LibFacts.
Import ListNotations.
Open Scope N_scope.

Lemma pad64_len : forall b, len b <= 64 -> len (pad64 b) = 64.
Proof. intros b H. unfold pad64. lenlia. Qed.

Lemma zeros_drop : forall k n, drop k (zeros n) = zeros (n - k).
Proof.
  intros k n. unfold drop, zeros. rewrite N2Nat.inj_sub.
  generalize (N.to_nat k) as a, (N.to_nat n) as b. clear. intros a b. revert b.
  induction a; intros [|b]; cbn; auto.
Qed.

Lemma pieces_cons64 : forall (b rest : list N), len b = 64 -> rest <> [] ->
  pieces 64 (b ++ rest) = b :: pieces 64 rest.
Proof.
  intros b rest H Ne. assert (0 < len rest).
  { destruct rest; [congruence|rewrite len_cons; lia]. }
  rewrite pieces_step by (rewrite ?len_app; lia).
  rewrite take_app_eq, drop_app_eq by auto. reflexivity.
Qed.

Lemma pieces_nonnil : forall A n (l : list A), 0 < n -> pieces n l <> [].
Proof.
  intros A n l H E. pose proof (pieces_len_1 _ n l H) as P. rewrite E, len_nil in P. lia.
Qed.

Lemma chunk_blocks_cons : forall cv off flags start b bs, bs <> [] ->
  chunk_blocks F cv off flags start (b :: bs)
  = chunk_blocks F (firstn 8 (F cv b 64 off (N.lor flags start))) off flags 0 bs.
Proof. intros cv off flags start b [|b' bs] H; [congruence|reflexivity]. Qed.

Section Key.
Variable c : cfg.
Variable p : platform.
Variable key : list N.
Variable flags : N.
Hypothesis Pok : platform_ok c p.
Hypothesis Lkey : length key = 8%nat.
Hypothesis Wkey : words key.

Notation cvs := (SpecFacts.cvs key flags).
Notation ccv := (SpecFacts.ccv key flags).
Notation pcv := (SpecFacts.pcv key flags).
Notation is32 := (fun h : list N => len h = 32 /\ bytes h).
Notation lbf := (TreeFacts.lbf (@nil N) pcv).
Notation topf := (TreeFacts.topf (@nil N) pcv).
Notation rep := (TreeFacts.rep (@nil N) pcv).

(* ---- the chunk state ---- *)

(* s has absorbed, in chunk i, whole blocks dn and then the bytes bf in the buffer *)
Record cs_at (s : chunk_state) (i : N) (dn bf : list N) : Prop :=
  { ca_key : cs_key s = key; ca_flags : cs_flags s = flags; ca_platform : cs_platform s = p;
    ca_off : cs_offset s = 2048 * i;
    ca_count : cs_count s = len dn; ca_mult : len dn mod 64 = 0;
    ca_buf : cs_buf s = pad64 bf; ca_buf_len : cs_buf_len s = len bf; ca_bf : len bf <= 64;
    ca_ne : bf = [] -> dn = [];
    ca_bb : bytes bf; ca_max : len dn + len bf <= 2048;
    ca_cv : length (cs_cv s) = 8%nat; ca_cvw : words (cs_cv s);
    ca_start : dn = [] -> cs_cv s = key;
    ca_run : forall rest, (rest = [] -> dn = []) ->
      chunk_blocks F key (2048 * i) flags CHUNK_START (pieces 64 (dn ++ rest))
      = chunk_blocks F (cs_cv s) (2048 * i) flags (if len dn =? 0 then CHUNK_START else 0)
          (pieces 64 rest) }.

Definition cs_holds (s : chunk_state) (i : N) (data : list N) : Prop :=
  exists dn bf, data = dn ++ bf /\ cs_at s i dn bf.

(* like cs_at, but the buffer is empty although blocks were absorbed *)
Record cs_mid (s : chunk_state) (i : N) (dn : list N) : Prop :=
  { cm_key : cs_key s = key; cm_flags : cs_flags s = flags; cm_platform : cs_platform s = p;
    cm_off : cs_offset s = 2048 * i;
    cm_count : cs_count s = len dn; cm_mult : len dn mod 64 = 0;
    cm_buf : cs_buf s = zeros 64; cm_buf_len : cs_buf_len s = 0;
    cm_mx : len dn <= 2048;
    cm_cv : length (cs_cv s) = 8%nat; cm_cvw : words (cs_cv s);
    cm_start : dn = [] -> cs_cv s = key;
    cm_run : forall rest, (rest = [] -> dn = []) ->
      chunk_blocks F key (2048 * i) flags CHUNK_START (pieces 64 (dn ++ rest))
      = chunk_blocks F (cs_cv s) (2048 * i) flags (if len dn =? 0 then CHUNK_START else 0)
          (pieces 64 rest) }.

Lemma cs_fresh : forall i, cs_holds (ChunkState key key (2048 * i) 0 (zeros BLOCK_LEN) 0 flags p) i [].
Proof.
  intros i. exists [], []. split; [reflexivity|].
  constructor; cbn [cs_key cs_flags cs_platform cs_offset cs_count cs_buf cs_buf_len cs_cv];
    auto; try reflexivity; try discriminate; try constructor; try (cbn; lia).
Qed.

(* compressing one full block *)
Lemma run_block : forall s i dn b,
  2048 * i < W64 -> length (cs_cv s) = 8%nat -> words (cs_cv s) -> cs_platform s = p ->
  cs_offset s = 2048 * i -> cs_flags s = flags -> cs_count s = len dn -> len dn + 64 <= 2048 ->
  len b = 64 -> bytes b ->
  (forall rest, (rest = [] -> dn = []) ->
      chunk_blocks F key (2048 * i) flags CHUNK_START (pieces 64 (dn ++ rest))
      = chunk_blocks F (cs_cv s) (2048 * i) flags (if len dn =? 0 then CHUNK_START else 0)
          (pieces 64 rest)) ->
  exists cv', cs_compress c s b = Ok (ChunkState cv' (cs_key s) (cs_offset s) (len (dn ++ b))
    (cs_buf s) (cs_buf_len s) (cs_flags s) (cs_platform s)) /\
    length cv' = 8%nat /\ words cv' /\
  (forall rest, (rest = [] -> dn ++ b = []) ->
      chunk_blocks F key (2048 * i) flags CHUNK_START (pieces 64 ((dn ++ b) ++ rest))
      = chunk_blocks F cv' (2048 * i) flags (if len (dn ++ b) =? 0 then CHUNK_START else 0)
          (pieces 64 rest)).
Proof.
  intros s i dn b Hi Lc Wc Hp Ho Hf Hc Hm Lb Bb Run.
  assert (Lb' : length b = 64%nat) by now apply (len_length _ _ 64).
  unfold cs_compress. rewrite Hp, Ho, Hf, Hc. rewrite compress_eq by auto.
  rewrite addw_ok by (change BLOCK_LEN with 64; lia). cbn [bind].
  unfold cs_maybe_chunk_start_flag. rewrite Hc. change BLOCK_LEN with 64.
  change Lib.CHUNK_START with CHUNK_START.
  eexists. split; [rewrite len_app, Lb; reflexivity|].
  repeat split; try now apply blake_shape8.
  intros rest Hr. rewrite <- app_assoc.
  assert (Ne : rest <> []).
  { intros E. specialize (Hr E). apply app_eq_nil in Hr. destruct Hr as [_ ->]. cbn in Lb. lia. }
  rewrite Run. 2: { intros E. apply app_eq_nil in E. tauto. }
  rewrite pieces_cons64 by auto.
  rewrite chunk_blocks_cons by (apply pieces_nonnil; lia).
  rewrite len_app, Lb. rewrite (proj2 (N.eqb_neq (len dn + 64) 0)) by lia. reflexivity.
Qed.

Lemma cs_loop_ok : forall fuel s i dn input, cs_mid s i dn -> bytes input ->
  len dn + len input <= 2048 -> (length input <= fuel)%nat -> 2048 * i < W64 ->
  exists s' blocks rest, cs_update_loop c fuel s input = Ok (s', rest) /\
    input = blocks ++ rest /\ cs_mid s' i (dn ++ blocks) /\ len rest <= 64 /\
    (rest = [] -> input = []).
Proof.
  induction fuel as [|fuel IH]; intros s i dn input M B L Hf Hi.
  - destruct input; [|cbn in Hf; lia]. exists s, [], []. cbn. rewrite app_nil_r.
    repeat split; auto; try apply M; lia.
  - cbn [cs_update_loop]. change BLOCK_LEN with 64.
    destruct (N.ltb_spec 64 (len input)) as [G|G].
    + destruct M as [M1 M2 M3 M4 M5 M6 M7 M8 M9 M10 M11 M13 M12].
      rewrite dassert_ok by lia. cbn [bind]. rewrite slice_ok by lia. cbn [bind].
      rewrite drop_0.
      destruct (run_block s i dn (take 64 input)) as (cv' & E & C1 & C2 & C3); auto; try lenlia.
      { now apply bytes_take. }
      rewrite E. cbn [bind]. rewrite slice_from_ok by lia. cbn [bind].
      destruct (IH (ChunkState cv' (cs_key s) (cs_offset s) (len (dn ++ take 64 input))
                     (cs_buf s) (cs_buf_len s) (cs_flags s) (cs_platform s)) i (dn ++ take 64 input)
                   (drop 64 input)) as (s' & bl & rest & E1 & E2 & E3 & E4 & E5).
      * constructor; cbn [cs_key cs_flags cs_platform cs_offset cs_count cs_buf cs_buf_len cs_cv];
          auto; try lenlia.
        intros E0. apply (f_equal len) in E0. revert E0. lenlia.
      * now apply bytes_drop.
      * lenlia.
      * unfold len in G. pose proof (len_drop _ 64 input) as Q. unfold len in Q. lia.
      * auto.
      * exists s', (take 64 input ++ bl), rest. rewrite E1. split; [reflexivity|].
        split; [rewrite <- app_assoc, <- E2; symmetry; apply take_drop|].
        split; [now rewrite app_assoc|]. split; auto.
        intros Er. specialize (E5 Er). apply (f_equal len) in E5. rewrite len_drop, len_nil in E5. lia.
    + exists s, [], input. rewrite app_nil_r. repeat split; auto; apply M.
Qed.

Lemma fill_buf_ok : forall s input bf, cs_buf s = pad64 bf -> cs_buf_len s = len bf -> len bf <= 64 ->
  let n := N.min (64 - len bf) (len input) in
  cs_fill_buf c s input
  = Ok (ChunkState (cs_cv s) (cs_key s) (cs_offset s) (cs_count s) (pad64 (bf ++ take n input))
          (len (bf ++ take n input)) (cs_flags s) (cs_platform s), drop n input).
Proof.
  intros s input bf Hb Hl H n. unfold cs_fill_buf. change BLOCK_LEN with 64. rewrite Hl, Hb.
  rewrite subU_ok by lia. cbn [bind]. fold n.
  rewrite slice_to_ok by lia. cbn [bind].
  assert (Lt : len (take n input) = n) by lenlia.
  rewrite copy_at_ok by (rewrite pad64_len, Lt by auto; lia). cbn [bind].
  rewrite N.mod_small by (unfold W8; lia).
  rewrite addw_ok by (unfold W8; lia). cbn [bind]. rewrite slice_from_ok by lia. cbn [bind].
  rewrite len_app, Lt. do 3 f_equal. unfold pad64.
  rewrite take_app_eq by reflexivity. rewrite drop_app_ge by lia.
  rewrite zeros_drop, len_app, Lt, <- app_assoc. do 3 f_equal. lia.
Qed.

Lemma cs_update_ok : forall s i data input, cs_holds s i data -> bytes input ->
  len data + len input <= 2048 -> 2048 * i < W64 ->
  exists s', cs_update c s input = Ok s' /\ cs_holds s' i (data ++ input).
Proof.
  intros s i data input (dn & bf & -> & A) B L Hi. rewrite len_app in L.
  assert (Fin : forall s dn input, cs_mid s i dn -> bytes input -> len dn + len input <= 2048 ->
    (input = [] -> dn = []) ->
    exists s', (let* (s, input) := cs_update_loop c (length input) s input in
                let* (s, input) := cs_fill_buf c s input in
                dassert c (len input =? 0) ;;
                dassert c (cs_len s <=? CHUNK_LEN) ;; Ok s) = Ok s' /\
               cs_holds s' i (dn ++ input)).
  { clear s dn bf input A B L. intros s dn input M B L Hne.
    destruct (cs_loop_ok (length input) s i dn input M B L (le_n _) Hi)
      as (s1 & bl & rest & E1 & E2 & M1 & L1 & N1).
    rewrite E1. cbn [bind]. destruct M1 as [M1 M2 M3 M4 M5 M6 M7 M8 M9 M10 M11 M13 M12].
    rewrite (fill_buf_ok s1 rest []) by (first [exact M7|exact M8|rewrite len_nil; lia]).
    cbn [bind app]. rewrite len_nil, N.sub_0_r, N.min_r by lia.
    rewrite take_all, drop_all by lia.
    rewrite dassert_ok by reflexivity. cbn [bind].
    assert (L2 : len (dn ++ bl) + len rest <= 2048).
    { rewrite E2 in L. rewrite len_app in L |- *. lia. }
    rewrite dassert_ok.
    2: { unfold cs_len. cbn [cs_count cs_buf_len]. change CHUNK_LEN with 2048. lia. }
    cbn [bind]. eexists. split; [reflexivity|].
    exists (dn ++ bl), rest. split; [now rewrite E2, app_assoc|].
    constructor; cbn [cs_key cs_flags cs_platform cs_offset cs_count cs_buf cs_buf_len cs_cv]; auto.
    - intros E. specialize (N1 E). rewrite N1 in E2. symmetry in E2. apply app_eq_nil in E2.
      destruct E2 as [-> _]. rewrite (Hne N1). reflexivity.
    - rewrite E2 in B. apply bytes_app in B. tauto. }
  unfold cs_update. destruct A as [A1 A2 A3 A4 A5 A6 A7 A8 A9 A10 A11 A12 A13 A14 A16 A15].
  rewrite A8. destruct (N.ltb_spec 0 (len bf)) as [G|G].
  - rewrite (fill_buf_ok s input bf) by auto. cbn [bind].
    set (n := N.min (64 - len bf) (len input)).
    destruct (N.eqb_spec (len (drop n input)) 0) as [Z|Z].
    + (* nothing left *)
      cbn [negb bind]. assert (Ln : n = len input) by (rewrite len_drop in Z; lia).
      rewrite (len_0_nil _ _ Z). cbn [length cs_update_loop len N.of_nat N.ltb N.compare bind].
      change (BLOCK_LEN <? 0) with false. cbn [bind].
      rewrite (fill_buf_ok _ [] (bf ++ take n input)); cbn [cs_buf cs_buf_len]; auto.
      2: { lenlia. }
      cbn [bind]. rewrite len_nil, N.min_0_r, take_0, drop_0, app_nil_r.
      rewrite dassert_ok by reflexivity. cbn [bind].
      rewrite Ln, take_all in * by lia.
      rewrite dassert_ok.
      2: { unfold cs_len. cbn [cs_count cs_buf_len]. rewrite A5, len_app. change CHUNK_LEN with 2048. lia. }
      cbn [bind]. eexists. split; [reflexivity|].
      exists dn, (bf ++ input). split; [now rewrite app_assoc|].
      constructor; cbn [cs_key cs_flags cs_platform cs_offset cs_count cs_buf cs_buf_len cs_cv]; auto.
      * rewrite len_app. lia.
      * intros E. apply app_eq_nil in E. tauto.
      * apply bytes_app; auto.
      * rewrite len_app. lia.
    + (* the buffer is full and more follows *)
      cbn [negb]. assert (Ln : n = 64 - len bf) by (rewrite len_drop in Z; lia).
      rewrite len_drop in Z.
      assert (Lb : len (bf ++ take n input) = 64) by lenlia.
      cbn [cs_buf_len]. rewrite dassert_ok by (rewrite Lb; reflexivity). cbn [bind cs_buf].
      assert (Pb : pad64 (bf ++ take n input) = bf ++ take n input).
      { unfold pad64. rewrite Lb. apply app_nil_r. }
      rewrite Pb.
      assert (Bb : bytes (bf ++ take n input)) by (apply bytes_app; split; [auto|now apply bytes_take]).
      match goal with |- context [cs_compress c ?s0 _] =>
        destruct (run_block s0 i dn (bf ++ take n input)) as (cv' & E & C1 & C2 & C3);
          cbn [cs_key cs_flags cs_platform cs_offset cs_count cs_buf cs_buf_len cs_cv]; auto; try lia
      end.
      rewrite E. cbn [bind cs_key cs_flags cs_platform cs_offset cs_count cs_buf cs_buf_len cs_cv].
      destruct (Fin (ChunkState cv' (cs_key s) (cs_offset s) (len (dn ++ bf ++ take n input))
                   (zeros BLOCK_LEN) 0 (cs_flags s) (cs_platform s))
                  (dn ++ bf ++ take n input) (drop n input)) as (s' & E' & H').
      * constructor; cbn [cs_key cs_flags cs_platform cs_offset cs_count cs_buf cs_buf_len cs_cv]; auto.
        -- rewrite len_app, Lb. lia.
        -- rewrite len_app, Lb. lia.
        -- intros E0. apply (f_equal len) in E0. rewrite len_app, Lb, len_nil in E0. lia.
      * now apply bytes_drop.
      * rewrite len_app, Lb, len_drop. lia.
      * intros E0. apply (f_equal len) in E0. rewrite len_drop, len_nil in E0. lia.
      * exists s'. split; [exact E'|].
        replace ((dn ++ bf) ++ input) with ((dn ++ bf ++ take n input) ++ drop n input); auto.
        rewrite <- !app_assoc, take_drop. reflexivity.
  - cbn [bind]. assert (Ebf : bf = []) by (apply len_0_nil; lia).
    pose proof (A10 Ebf) as Edn. subst bf dn.
    apply (Fin s [] input); auto.
    constructor; auto.
Qed.

Lemma cs_finalize_ok : forall s i data r, cs_holds s i data -> (r = Root -> i = 0) ->
  cs_finalize c s r = Ok (out_of p (chunk_node F key flags i data) r).
Proof.
  intros s i data r (dn & bf & -> & A) Hr.
  destruct A as [A1 A2 A3 A4 A5 A6 A7 A8 A9 A10 A11 A12 A13 A14 A16 A15].
  unfold cs_finalize. rewrite A4.
  assert (E : (match r with Root => dassert c (2048 * i =? 0) | NotRoot => Ok tt end) = Ok tt).
  { destruct r; [reflexivity|]. rewrite Hr by auto. now apply dassert_ok. }
  rewrite E. cbn [bind]. unfold chunk_node. rewrite A15 by auto.
  rewrite pieces_short by lia. cbn [chunk_blocks]. unfold out_of.
  cbn [nd_cv nd_block nd_blen nd_off nd_flags].
  unfold cs_maybe_chunk_start_flag. rewrite A2, A3, A5, A7, A8. reflexivity.
Qed.

Lemma cs_len_ok : forall s i data, cs_holds s i data -> cs_len s = len data.
Proof.
  intros s i data (dn & bf & -> & A). destruct A. unfold cs_len. rewrite len_app. lia.
Qed.

Lemma cs_reset_ok : forall s i data j, cs_holds s i data ->
  exists s', cs_reset c s (2048 * j) = Ok s' /\ cs_holds s' j [].
Proof.
  intros s i data j (dn & bf & -> & A). unfold cs_reset.
  rewrite dassert_ok by (change CHUNK_LEN with 2048; lia). cbn [bind].
  eexists. split; [reflexivity|]. destruct A. rewrite ca_key0, ca_flags0, ca_platform0. apply cs_fresh.
Qed.

Lemma cs_holds_fields : forall s i data, cs_holds s i data ->
  cs_key s = key /\ cs_flags s = flags /\ cs_platform s = p /\ cs_offset s = 2048 * i.
Proof. intros s i data (dn & bf & -> & A). destruct A. auto. Qed.

Lemma cs_move : forall s i j, cs_holds s i [] -> cs_holds (set_chunk_offset s (2048 * j)) j [].
Proof.
  intros s i j (dn & bf & E & A). symmetry in E. apply app_eq_nil in E. destruct E as [-> ->].
  destruct A as [A1 A2 A3 A4 A5 A6 A7 A8 A9 A10 A11 A12 A13 A14 A16 A15].
  exists [], []. split; auto.
  constructor; cbn [set_chunk_offset cs_key cs_flags cs_platform cs_offset cs_count cs_buf cs_buf_len cs_cv]; auto.
  intros rest _. rewrite A16 by auto. reflexivity.
Qed.


(* ---- the stack ---- *)

Lemma lbf_shape : forall l, Forall is32 l -> 1 <= len l -> is32 (lbf l).
Proof.
  intros l H H1. destruct (N.le_gt_cases 2 (len l)) as [G|G].
  - rewrite lbf_topf by auto. now apply pcv_shape.
  - destruct l as [|x [|y l]]; rewrite ?len_cons, ?len_nil in *; try lia.
    rewrite lbf_one. now inversion H.
Qed.

Lemma index_last2 : forall A (a : list A) x y, index (a ++ [x; y]) (len a + 1) = Ok y.
Proof.
  intros A a x y. change (a ++ [x; y]) with (a ++ [x] ++ [y]). rewrite app_assoc.
  replace (len a + 1) with (len (a ++ [x])) by (rewrite len_app; reflexivity).
  apply index_app.
Qed.

Lemma merge_parent_ok : forall h st x y,
  h_stack h = st ++ [x; y] -> is32 x -> is32 y ->
  cs_key (h_chunk h) = key -> cs_flags (h_chunk h) = flags -> cs_platform (h_chunk h) = p ->
  merge_parent c h = Ok (Hasher (st ++ [pcv x y]) (h_chunk h)).
Proof.
  intros h st x y E Hx Hy Hk Hf Hp. unfold merge_parent. rewrite E.
  assert (L : len (st ++ [x; y]) = len st + 2) by (rewrite len_app; reflexivity).
  rewrite L. rewrite dassert_ok by lia. cbn [bind]. rewrite !subU_ok by lia. cbn [bind].
  replace (len st + 2 - 2) with (len st) by lia. replace (len st + 2 - 1) with (len st + 1) by lia.
  rewrite index_app. cbn [bind]. rewrite index_last2. cbn [bind].
  unfold len at 2. rewrite Nat2N.id, set_nth_app.
  change (st ++ ?a :: [y]) with (st ++ [a] ++ [y]).
  rewrite take_app_ge by lia. replace (len st + 1 - len st) with 1 by lia.
  rewrite take_app_eq by reflexivity. do 4 f_equal.
  rewrite Hk, Hf, Hp.
  change (hash_one_parent p x y key NotRoot flags) with (out_of p (parent_node key flags x y) NotRoot).
  rewrite to_hash_chain; [reflexivity|]. apply parent_node_wf; cbn beta in *; tauto.
Qed.

Lemma merge_loop_gen : forall fuel h st l x t off,
  rep st l -> len x = 2 ^ t -> len l mod 2 ^ t = 0 -> h_stack h = st ++ [lbf x] ->
  Forall is32 (l ++ x) -> len st <= N.of_nat fuel -> off / 2048 = len (l ++ x) ->
  cs_key (h_chunk h) = key -> cs_flags (h_chunk h) = flags -> cs_platform (h_chunk h) = p ->
  exists st', merge_loop c fuel h off = Ok (Hasher st' (h_chunk h)) /\ rep st' (l ++ x).
Proof.
  induction fuel as [|fuel IH]; intros h st l x t off R Hx Hm E S Hf Ho Hk Hfl Hp.
  - assert (st = []) by (apply len_0_nil; lia). subst st.
    destruct (rep_step _ _ _ _ _ _ _ R Hx Hm) as [[R' P]|(st' & l' & y & E' & _)];
      [|now destruct st'].
    exists ([] ++ [lbf x]). split; [|exact R'].
    cbn [merge_loop]. unfold needs_merge. change CHUNK_LEN with 2048. rewrite Ho, E, <- P.
    rewrite (proj2 (N.ltb_ge _ _)); [|reflexivity]. destruct h; cbn in *. now subst.
  - cbn [merge_loop]. unfold needs_merge. change CHUNK_LEN with 2048. rewrite Ho, E.
    destruct (rep_step _ _ _ _ _ _ _ R Hx Hm) as [[R' P]|(st' & l' & y & E1 & E2 & R' & Hy & Hm' & J & P)].
    + rewrite <- P, len_app, len_cons, len_nil. rewrite (proj2 (N.ltb_ge _ _)) by lia.
      exists (st ++ [lbf x]). split; [|exact R']. destruct h; cbn in *. now subst.
    + rewrite (len_app _ st), len_cons, len_nil. rewrite (proj2 (N.ltb_lt _ _)) by lia.
      subst st l. pose proof (pow2_pos t) as PT.
      assert (Sy : Forall is32 y /\ Forall is32 x).
      { apply Forall_app in S. destruct S as [S1 S2]. apply Forall_app in S1. tauto. }
      rewrite (merge_parent_ok h st' (lbf y) (lbf x)); auto;
        try (apply lbf_shape; [tauto|lia]).
      2: { rewrite E, <- app_assoc. reflexivity. }
      cbn [bind]. rewrite <- app_assoc.
      apply (IH (Hasher (st' ++ [pcv (lbf y) (lbf x)]) (h_chunk h)) st' l' (y ++ x) (t + 1) off); auto.
      * rewrite len_app, pow2_S. lia.
      * cbn [h_stack]. now rewrite J.
      * now rewrite app_assoc.
      * rewrite len_app, len_cons, len_nil in Hf. lia.
      * now rewrite app_assoc.
Qed.

(* the stack between two pushes: empty, or with the last hash not merged yet *)
Definition inter (st l : list (list N)) : Prop :=
  (st = [] /\ l = []) \/
  exists st0 l0 x, st = st0 ++ [x] /\ l = l0 ++ [x] /\ rep st0 l0.

Lemma merge_loop_ok : forall h l, inter (h_stack h) l -> Forall is32 l ->
  cs_key (h_chunk h) = key -> cs_flags (h_chunk h) = flags -> cs_platform (h_chunk h) = p ->
  exists st', merge_loop c (length (h_stack h)) h (2048 * len l) = Ok (Hasher st' (h_chunk h)) /\
              rep st' l.
Proof.
  intros h l [[E1 E2]|(st0 & l0 & x & E1 & E2 & R)] S Hk Hf Hp.
  - subst l. exists []. split; [|constructor]. rewrite E1. cbn [length merge_loop].
    unfold needs_merge. rewrite E1. cbn. destruct h; cbn in *. now subst.
  - subst l. apply (merge_loop_gen _ _ st0 l0 [x] 0); auto.
    + rewrite N.pow_0_r. apply N.mod_1_r.
    + rewrite E1. unfold len. rewrite app_length. lia.
    + lia.
Qed.

Lemma merge_loop_id : forall h l fuel, rep (h_stack h) l ->
  merge_loop c fuel h (2048 * len l) = Ok h.
Proof.
  intros h l fuel R. pose proof (rep_len _ _ _ _ _ R) as P.
  destruct fuel; cbn [merge_loop]; unfold needs_merge; change CHUNK_LEN with 2048;
    replace (2048 * len l / 2048) with (len l) by lia; rewrite P;
    rewrite (proj2 (N.ltb_ge _ _)) by lia; reflexivity.
Qed.

Lemma pop53 : forall m, 2048 * (m + 1) < W64 -> popcount m < 53.
Proof. intros m H. apply popcount_bound_1. unfold W64 in H. change (2 ^ 53) with 9007199254740992. lia. Qed.

Lemma push_ok : forall h l x, (inter (h_stack h) l \/ rep (h_stack h) l) -> Forall is32 l ->
  cs_key (h_chunk h) = key -> cs_flags (h_chunk h) = flags -> cs_platform (h_chunk h) = p ->
  2048 * (len l + 1) < W64 ->
  exists st', push_chunk_hash c h x (2048 * len l) = Ok (Hasher (st' ++ [x]) (h_chunk h)) /\
              rep st' l.
Proof.
  intros h l x I S Hk Hf Hp H. unfold push_chunk_hash.
  assert (M : exists st', merge_loop c (length (h_stack h)) h (2048 * len l)
              = Ok (Hasher st' (h_chunk h)) /\ rep st' l).
  { destruct I as [I|R]; [now apply merge_loop_ok|].
    exists (h_stack h). split; auto. rewrite merge_loop_id by auto. now destruct h. }
  destruct M as (st' & E & R). rewrite E. cbn [bind h_stack h_chunk].
  exists st'. split; auto. rewrite push_cap_ok; [reflexivity|].
  rewrite (rep_len _ _ _ _ _ R). change MAX_DEPTH with 53. now apply pop53.
Qed.

Lemma push_batch_ok : forall xs h l, inter (h_stack h) l -> Forall is32 (l ++ xs) ->
  cs_holds (h_chunk h) (len l) [] -> 2048 * (len l + len xs) < W64 ->
  exists h', push_batch c h xs = Ok h' /\ inter (h_stack h') (l ++ xs) /\
             cs_holds (h_chunk h') (len (l ++ xs)) [].
Proof.
  induction xs as [|x xs IH]; intros h l I S H L; cbn [push_batch].
  - exists h. rewrite app_nil_r. auto.
  - rewrite len_cons in L.
    destruct (cs_holds_fields _ _ _ H) as (Hk & Hf & Hp & Ho).
    assert (Sl : Forall is32 l) by (apply Forall_app in S; tauto).
    rewrite Ho. destruct (push_ok h l x (or_introl I) Sl Hk Hf Hp) as (st' & E & R); [lia|].
    rewrite E. cbn [bind h_stack h_chunk]. rewrite Ho. change CHUNK_LEN with 2048.
    rewrite add64_ok by lia. cbn [bind].
    replace (2048 * len l + 2048) with (2048 * len (l ++ [x])) by lenlia.
    destruct (IH (Hasher (st' ++ [x]) (set_chunk_offset (h_chunk h) (2048 * len (l ++ [x]))))
                 (l ++ [x])) as (h' & E' & I' & H').
    + right. exists st', l, x. auto.
    + now rewrite <- app_assoc.
    + cbn [h_chunk]. now apply cs_move with (i := len l).
    + rewrite len_app, len_cons, len_nil. lia.
    + exists h'. rewrite <- app_assoc in I', H'. auto.
Qed.

Lemma chunks_exact_concat : forall (l : list (list N)) r, Forall is32 l ->
  take (len l) (fst (chunks_exact 32 (concat l ++ r))) = l.
Proof.
  induction l as [|x l IH]; intros r H; [apply take_0|].
  inversion H as [|? ? [Lx _] H']; subst. cbn [concat]. rewrite <- app_assoc.
  rewrite chunks_exact_step by (rewrite ?len_app; lia). cbn [fst].
  rewrite take_app_eq, drop_app_eq by auto. rewrite len_cons.
  specialize (IH r H'). revert IH. generalize (fst (chunks_exact 32 (concat l ++ r))) as z.
  intros z IH. unfold take in *. replace (N.to_nat (1 + len l)) with (S (N.to_nat (len l))) by lia.
  cbn [firstn]. now rewrite IH.
Qed.

Notation fullc := (fun ch : list N => len ch = 2048 /\ bytes ch).

Lemma full_bytes : forall cs, Forall fullc cs -> Forall bytes cs.
Proof. intros cs H. eapply Forall_impl; [|exact H]. cbn. tauto. Qed.

Lemma update_chunks_ok : forall fuel chunks h cs out,
  Forall fullc cs -> Forall fullc chunks -> (length chunks <= fuel)%nat ->
  inter (h_stack h) (cvs 0 cs) -> cs_holds (h_chunk h) (len cs) [] ->
  2048 * (len cs + len chunks) < W64 -> 32 * MAX_SIMD_DEGREE c <= len out ->
  exists h', update_chunks c fuel h chunks out = Ok h' /\
    inter (h_stack h') (cvs 0 (cs ++ chunks)) /\ cs_holds (h_chunk h') (len (cs ++ chunks)) [].
Proof.
  assert (M1 : 1 <= MAX_SIMD_DEGREE c) by (unfold MAX_SIMD_DEGREE; destruct (x86 c); lia).
  induction fuel as [|fuel IH]; intros chunks h cs out Fc Fk Hf I H L Lo.
  - destruct chunks; [|cbn in Hf; lia]. exists h. rewrite app_nil_r.
    cbn [update_chunks]. unfold take. rewrite firstn_nil. auto.
  - cbn [update_chunks].
    destruct (N.eqb_spec (len (take (MAX_SIMD_DEGREE c) chunks)) 0) as [Z|Z].
    + assert (chunks = []) by (apply len_0_nil; rewrite len_take in Z; lia). subst chunks.
      exists h. rewrite app_nil_r. auto.
    + destruct (cs_holds_fields _ _ _ H) as (Hk & Hfl & Hp & Ho). rewrite Hk, Hfl, Hp, Ho.
      set (ba := take (MAX_SIMD_DEGREE c) chunks) in *.
      assert (Lb : len ba <= MAX_SIMD_DEGREE c /\ len ba <= len chunks) by (unfold ba; lenlia).
      assert (Fb : Forall fullc ba) by now apply Forall_take.
      change CHUNK_LEN with 2048.
      rewrite hash_many_ok; auto; try reflexivity; try lia.
      cbn [bind]. change OUT_LEN with 32.
      change (hash_all F key flags Lib.CHUNK_START Lib.CHUNK_END (2048 * len cs) 2048 ba)
        with (hash_all F key flags CHUNK_START CHUNK_END (2048 * len cs) 2048 ba).
      rewrite hash_all_cvs by (eapply Forall_impl; [|exact Fb]; cbn; tauto).
      assert (Sb : Forall is32 (cvs (len cs) ba)) by (apply cvs_shape; auto; now apply full_bytes).
      pose proof (chunks_exact_concat (cvs (len cs) ba) (drop (32 * len ba) out) Sb) as TK.
      rewrite len_cvs in TK. rewrite TK.
      destruct (push_batch_ok (cvs (len cs) ba) h (cvs 0 cs)) as (h' & E & I' & H'); auto.
      * apply Forall_app. split; auto. apply cvs_shape; auto. now apply full_bytes.
      * now rewrite len_cvs.
      * rewrite !len_cvs. lia.
      * rewrite E. cbn [bind].
        assert (Ecv : cvs 0 cs ++ cvs (len cs) ba = cvs 0 (cs ++ ba)) by (rewrite cvs_app; f_equal).
        rewrite Ecv in I', H'. rewrite len_cvs in H'.
        match goal with |- context [update_chunks c fuel h' ?d ?o] =>
          destruct (IH d h' (cs ++ ba) o) as (h2 & E2 & I2 & H2); auto end.
        -- apply Forall_app; auto.
        -- now apply Forall_drop.
        -- pose proof (len_drop _ (MAX_SIMD_DEGREE c) chunks) as Q.
           assert (len chunks <> 0) by lia. unfold len in *. lia.
        -- rewrite len_app, len_drop. unfold ba. rewrite len_take. lia.
        -- rewrite len_app, concat_32, len_cvs, len_drop by auto. lia.
        -- exists h2. rewrite E2. unfold ba in I2, H2.
           rewrite <- app_assoc, take_drop in I2, H2. auto.
Qed.

(* ---- the whole hasher ---- *)

(* h has been given data *)
Definition holds (h : hasher) (data : list N) : Prop :=
  exists cs rest, Forall fullc cs /\ bytes rest /\ data = concat cs ++ rest /\
    cs_holds (h_chunk h) (len cs) rest /\ len rest <= 2048 /\
    ((rep (h_stack h) (cvs 0 cs) /\ (rest = [] -> cs = [])) \/
     (rest = [] /\ 2 <= len cs /\ inter (h_stack h) (cvs 0 cs))).

Lemma len_concat_full : forall cs, Forall fullc cs -> len (concat cs) = 2048 * len cs.
Proof.
  intros cs H. apply len_concat_const. eapply Forall_impl; [|exact H]. cbn. tauto.
Qed.

Lemma new_holds : holds (new_internal p key flags) [].
Proof.
  exists [], []. repeat split; try constructor; auto.
  - apply (cs_fresh 0).
  - cbn. lia.
  - split; [constructor|auto].
Qed.

(* second half of update: the chunk state is empty and input remains *)
Lemma update_tail_ok : forall h cs input,
  Forall fullc cs -> inter (h_stack h) (cvs 0 cs) -> cs_holds (h_chunk h) (len cs) [] ->
  bytes input -> 2048 * len cs + len input < W64 ->
  (len cs + len input / 2048 = 1 -> len input mod 2048 <> 0) ->
  exists h', (let '(chunks, remainder) := chunks_exact CHUNK_LEN input in
    dassert c (cs_len (h_chunk h) =? 0) ;;
    let* h := update_chunks c (length chunks) h chunks
                (zeros (MAX_SIMD_DEGREE c * OUT_LEN)) in
    dassert c (cs_len (h_chunk h) =? 0) ;;
    dassert c (len remainder <? CHUNK_LEN) ;;
    if negb (len remainder =? 0) then
      let* h := merge_loop c (length (h_stack h)) h (cs_offset (h_chunk h)) in
      let* s := cs_update c (h_chunk h) remainder in
      Ok (Hasher (h_stack h) s)
    else Ok h) = Ok h' /\ holds h' (concat cs ++ input).
Proof.
  intros h cs input Fc I H B L Hn. change CHUNK_LEN with 2048.
  pose proof (chunks_exact_spec _ 2048 input eq_refl) as CS.
  destruct (chunks_exact 2048 input) as [ch rm]. destruct CS as (C1 & C2 & C3 & C4).
  assert (Fk : Forall fullc ch /\ bytes rm).
  { rewrite <- C1 in B. apply bytes_app in B. destruct B as [B1 B2]. split; auto.
    clear -B1 C2. induction C2; constructor; cbn in B1; apply bytes_app in B1; tauto. }
  destruct Fk as [Fk Br].
  assert (Li : len input = 2048 * len ch + len rm) by (rewrite <- C1, len_app, len_concat_full by auto; lia).
  rewrite dassert_ok by (rewrite (cs_len_ok _ _ _ H); reflexivity). cbn [bind].
  destruct (update_chunks_ok (length ch) ch h cs (zeros (MAX_SIMD_DEGREE c * OUT_LEN)))
    as (h1 & E1 & I1 & H1); auto; try lia.
  { rewrite len_zeros. change OUT_LEN with 32. lia. }
  rewrite E1. cbn [bind].
  rewrite dassert_ok by (rewrite (cs_len_ok _ _ _ H1); reflexivity). cbn [bind].
  rewrite dassert_ok by lia. cbn [bind].
  assert (Fa : Forall fullc (cs ++ ch)) by (apply Forall_app; auto).
  destruct (cs_holds_fields _ _ _ H1) as (Hk & Hfl & Hp & Ho).
  destruct (N.eqb_spec (len rm) 0) as [Z|Z]; cbn [negb].
  - exists h1. split; auto. pose proof (len_0_nil _ _ Z) as Erm. subst rm. rewrite app_nil_r in C1.
    exists (cs ++ ch), []. rewrite app_nil_r, concat_app, C1.
    split; [exact Fa|]. split; [constructor|]. split; [reflexivity|]. split; [exact H1|].
    split; [rewrite len_nil; lia|].
    { destruct (N.eq_dec (len (cs ++ ch)) 0) as [Z0|Z0].
      * left. pose proof (len_0_nil _ _ Z0) as E0. rewrite E0 in *. split; auto.
        destruct I1 as [[-> _]|(st0 & l0 & x & _ & E & _)]; [constructor|].
        cbn in E. now destruct l0.
      * right. split; auto. split; auto. rewrite len_app in *. lia. }
  - rewrite Ho. rewrite <- (len_cvs key flags (cs ++ ch) 0).
    destruct (merge_loop_ok h1 (cvs 0 (cs ++ ch))) as (st' & E & R); auto.
    { apply cvs_shape; auto. now apply full_bytes. }
    rewrite E. cbn [bind h_chunk h_stack].
    destruct (cs_update_ok (h_chunk h1) (len (cs ++ ch)) [] rm) as (s' & E' & H'); auto.
    { rewrite len_nil. lia. }
    { rewrite len_app. lia. }
    rewrite E'. cbn [bind]. eexists. split; [reflexivity|].
    exists (cs ++ ch), rm. cbn [h_stack h_chunk]. cbn [app] in H'.
    repeat split; auto; try lia.
    + now rewrite concat_app, <- app_assoc, C1.
    + left. split; auto. intros ->. now rewrite len_nil in Z.
Qed.

Lemma update_ok : forall h data input, holds h data -> bytes input ->
  len data + len input < W64 ->
  exists h', update c h input = Ok h' /\ holds h' (data ++ input).
Proof.
  intros h data input (cs & rest & Fc & Br & -> & H & Lr & Cs) B L.
  rewrite len_app, len_concat_full in L by auto.
  destruct (cs_holds_fields _ _ _ H) as (Hk & Hfl & Hp & Ho).
  unfold update. rewrite Ho, (cs_len_ok _ _ _ H). change CHUNK_LEN with 2048.
  assert (Sc : Forall is32 (cvs 0 cs)) by (apply cvs_shape; auto; now apply full_bytes).
  assert (Z0 : (2048 * len cs =? 0) = (len cs =? 0)).
  { destruct (N.eqb_spec (len cs) 0), (N.eqb_spec (2048 * len cs) 0); auto; lia. }
  rewrite Z0.
  destruct (((len cs =? 0) && (len input =? 2048)) || (0 <? len rest)) eqn:Eb.
  - (* the chunk state takes bytes *)
    assert (R : rep (h_stack h) (cvs 0 cs)).
    { destruct Cs as [[R _]|(E1 & E2 & _)]; auto. subst rest. rewrite len_nil in Eb.
      exfalso. lia. }
    rewrite subU_ok by lia. cbn [bind].
    set (n := N.min (2048 - len rest) (len input)).
    rewrite slice_to_ok by lia. cbn [bind].
    destruct (cs_update_ok (h_chunk h) (len cs) rest (take n input)) as (s1 & E1 & H1); auto; try lenlia.
    { now apply bytes_take. }
    rewrite E1. cbn [bind]. rewrite slice_from_ok by lia. cbn [bind]. rewrite len_drop.
    destruct (N.eqb_spec (len input - n) 0) as [Z|Z]; cbn [negb].
    + cbn [bind]. eexists. split; [reflexivity|].
      rewrite take_all in H1 by lia.
      exists cs, (rest ++ input). cbn [h_stack h_chunk].
      repeat split; auto.
      * apply bytes_app; auto.
      * now rewrite app_assoc.
      * rewrite len_app. lia.
      * left. split; auto. intros E. apply app_eq_nil in E. destruct E as [-> ->].
        rewrite !len_nil in Eb. exfalso. lia.
    + assert (Lf : len (rest ++ take n input) = 2048) by lenlia.
      rewrite dassert_ok by (rewrite (cs_len_ok _ _ _ H1), Lf; reflexivity). cbn [bind].
      rewrite (cs_finalize_ok s1 (len cs) (rest ++ take n input)) by (auto; discriminate).
      cbn [bind].
      assert (Bf : bytes (rest ++ take n input)) by (apply bytes_app; split; [auto|now apply bytes_take]).
      rewrite to_hash_chain by (apply chunk_node_wf; auto; lia).
      fold (ccv (len cs) (rest ++ take n input)).
      destruct (cs_holds_fields _ _ _ H1) as (Hk1 & Hfl1 & Hp1 & Ho1).
      rewrite Ho1.
      destruct (push_ok (Hasher (h_stack h) s1) (cvs 0 cs) (ccv (len cs) (rest ++ take n input)))
        as (st' & E2 & R'); auto; [rewrite len_cvs; lia|].
      rewrite len_cvs in E2. rewrite E2. cbn [bind h_stack h_chunk]. rewrite add64_ok by lia. cbn [bind].
      replace (2048 * len cs + 2048) with (2048 * (len cs + 1)) by lia.
      destruct (cs_reset_ok _ _ _ (len cs + 1) H1) as (s2 & E3 & H3).
      rewrite E3. cbn [bind].
      destruct (update_tail_ok (Hasher (st' ++ [ccv (len cs) (rest ++ take n input)]) s2)
                  (cs ++ [rest ++ take n input]) (drop n input)) as (h' & E4 & H4).
      * apply Forall_app. split; auto.
      * right. exists st', (cvs 0 cs), (ccv (len cs) (rest ++ take n input)).
        cbn [h_stack]. rewrite cvs_app. cbn [SpecFacts.cvs]. auto.
      * cbn [h_chunk]. rewrite len_app. exact H3.
      * now apply bytes_drop.
      * rewrite len_app, len_cons, len_nil, len_drop. lia.
      * rewrite len_app, len_cons, len_nil, len_drop. lia.
      * exists h'. split; [exact E4|].
        rewrite concat_app in H4. cbn [concat] in H4. rewrite app_nil_r in H4.
        rewrite <- !app_assoc, take_drop in H4. now rewrite <- app_assoc.
  - (* the chunk state is empty *)
    assert (Er : rest = []) by (apply len_0_nil; lia). subst rest. cbn [bind].
    rewrite app_nil_r.
    apply update_tail_ok; auto.
    + destruct Cs as [[R E]|(_ & _ & I)]; auto. rewrite (E eq_refl) in *. left.
      cbn [SpecFacts.cvs] in *. inversion R as [Q|? ? ? ? ? ? ? Q1 Q2]; auto.
      exfalso. destruct l; [|discriminate Q2]. destruct x; [|discriminate Q2].
      cbn in H1. pose proof (pow2_pos t). lia.
    + rewrite len_nil in L. lia.
    + destruct Cs as [[R E]|(_ & E & _)]; [|lia]. specialize (E eq_refl). subst cs.
      rewrite len_nil in *. cbn [orb] in Eb. lia.
Qed.

(* ---- finalize ---- *)

Lemma roll_shape : forall st w, is32 w -> is32 (roll _ pcv st w).
Proof. induction st; intros w H; cbn [roll]; auto. now apply pcv_shape. Qed.

Lemma finalize_loop_ok : forall st fuel h w x rest',
  h_stack h = (x :: st) ++ rest' -> Forall is32 (x :: st) -> is32 w ->
  cs_key (h_chunk h) = key -> cs_flags (h_chunk h) = flags -> cs_platform (h_chunk h) = p ->
  (length st <= fuel)%nat ->
  finalize_loop c fuel h w (len st) = Ok (out_of p (parent_node key flags x (roll _ pcv st w)) Root).
Proof.
  intros st. induction st as [|y st IH] using rev_ind; intros fuel h w x rest' E S Hw Hk Hf Hp Hfu.
  - cbn [len length N.of_nat]. destruct fuel; cbn [finalize_loop]; rewrite E; cbn [app];
      change (index (x :: rest') 0) with (Ok x); cbn [bind N.eqb roll];
      rewrite Hk, Hf, Hp; reflexivity.
  - destruct fuel as [|fuel]; [rewrite app_length in Hfu; cbn in Hfu; lia|].
    cbn [finalize_loop]. rewrite E.
    replace (index ((x :: st ++ [y]) ++ rest') (len (st ++ [y]))) with (Ok y).
    2: { symmetry. change (x :: st ++ [y]) with ((x :: st) ++ [y]). rewrite <- app_assoc.
         replace (len (st ++ [y])) with (len (x :: st)) by (rewrite len_app, !len_cons, len_nil; lia).
         apply index_app. }
    cbn [bind]. rewrite len_app, len_cons, len_nil.
    rewrite (proj2 (N.eqb_neq _ _)) by lia. rewrite subU_ok by lia. cbn [bind].
    rewrite Hk, Hf, Hp.
    assert (S' : Forall is32 (x :: st) /\ is32 y).
    { inversion S as [|? ? S1 S2]; subst. apply Forall_app in S2. destruct S2 as [S2 S3].
      inversion S3; subst. auto. }
    destruct S' as [S' Sy].
    change (hash_one_parent p y w key NotRoot flags) with (out_of p (parent_node key flags y w) NotRoot).
    rewrite to_hash_chain by (apply parent_node_wf; cbn beta in *; tauto).
    change (chain F (parent_node key flags y w)) with (pcv y w).
    replace (len st + (1 + 0) - 1) with (len st) by lia.
    rewrite (IH fuel h (pcv y w) x (y :: rest')); auto.
    + now rewrite roll_snoc.
    + rewrite E. change (x :: st ++ [y]) with ((x :: st) ++ [y]). now rewrite <- app_assoc.
    + now apply pcv_shape.
    + rewrite app_length in Hfu. cbn in Hfu. lia.
Qed.

Lemma rep_shape : forall st l, rep st l -> Forall is32 l -> Forall is32 st.
Proof.
  intros st l R. induction R as [|st l x t R IH Hx Hm]; intros S; [constructor|].
  apply Forall_app in S. apply Forall_app. split; [tauto|]. repeat constructor.
  - apply lbf_shape; [tauto|]. pose proof (pow2_pos t). lia.
  - apply lbf_shape; [tauto|]. pose proof (pow2_pos t). lia.
Qed.

Lemma pieces_full : forall cs : list (list N), Forall fullc cs -> cs <> [] ->
  pieces 2048 (concat cs) = cs.
Proof.
  intros cs H. induction H as [|x cs [Lx Bx] H IH]; intros Ne; [congruence|].
  cbn [concat]. destruct cs as [|y cs].
  - cbn [concat]. rewrite app_nil_r. apply pieces_short; lia.
  - rewrite (pieces_app _ _ _ 1); try lia.
    + rewrite pieces_short by lia. rewrite IH by discriminate. reflexivity.
    + rewrite len_concat_full, len_cons by auto. lia.
Qed.

Lemma finalize_xof_gen : forall h data, holds h data -> cs_offset (h_chunk h) < W64 ->
  finalize_xof c h = Ok (out_of p (root_node F key flags data) Root) /\
  nd_wf (root_node F key flags data) /\ nd_off (root_node F key flags data) = 0.
Proof.
  intros h data (cs & rest & Fc & Br & -> & H & Lr & Cs) L.
  destruct (cs_holds_fields _ _ _ H) as (Hk & Hfl & Hp & Ho).
  assert (Sc : Forall is32 (cvs 0 cs)) by (apply cvs_shape; auto; now apply full_bytes).
  rewrite Ho in L.
  unfold finalize_xof.
  destruct (N.eq_dec (len cs) 0) as [Z|Z].
  - (* a single chunk *)
    pose proof (len_0_nil _ _ Z). subst cs.
    assert (Es : h_stack h = []).
    { destruct Cs as [[R _]|(_ & E & _)]; [|rewrite len_nil in E; lia].
      apply len_0_nil. rewrite (rep_len _ _ _ _ _ R). reflexivity. }
    rewrite Es. cbn [len length N.of_nat N.eqb concat app].
    rewrite root_node_small by auto. split; [now apply cs_finalize_ok with (i := 0)|].
    now apply chunk_node_wf.
  - (* a tree: st0 covers all but the last chunk, whose hash is w *)
    assert (X : exists st0 cs0 last, rep st0 (cvs 0 cs0) /\ cs0 <> [] /\ bytes last /\
      Forall fullc cs0 /\
      pieces 2048 (concat cs ++ rest) = cs0 ++ [last] /\
      exists tl, h_stack h = st0 ++ tl /\
      (let* (working_hash, next_subtree_index) :=
      (if 0 <? cs_len (h_chunk h) then
         dassert c (negb (needs_merge h (cs_offset (h_chunk h)))) ;;
         let* o := cs_finalize c (h_chunk h) NotRoot in
         let* i := subU c (len (h_stack h)) 1 in
         Ok (to_hash o, i)
       else
         dassert c (2 <=? (len (h_stack h))) ;;
         let* l := subU c (len (h_stack h)) 1 in
         let* last := index (h_stack h) l in
         let* i := subU c (len (h_stack h)) 2 in
         Ok (last, i)) in Ok (working_hash, next_subtree_index))
      = Ok (ccv (len cs0) last, len st0 - 1)).
    { rewrite (cs_len_ok _ _ _ H).
      destruct Cs as [[R E]|(E & L2 & I)].
      - exists (h_stack h), cs, rest.
        assert (Nr : 1 <= len rest).
        { destruct rest; [|rewrite len_cons; lia]. rewrite E in Z by auto. now rewrite len_nil in Z. }
        assert (Ncs : cs <> []) by (intros ->; now rewrite len_nil in Z).
        repeat split; auto.
        + rewrite (pieces_app _ _ _ (len cs)); rewrite ?len_concat_full; try lia; auto.
          rewrite pieces_full, pieces_short by (auto; lia). reflexivity.
        + exists []. rewrite app_nil_r. split; auto.
          rewrite (proj2 (N.ltb_lt _ _)) by lia.
          pose proof (rep_len _ _ _ _ _ R) as RL. rewrite len_cvs in RL.
          rewrite dassert_ok.
          2: { unfold needs_merge. rewrite Ho, RL. change CHUNK_LEN with 2048.
               replace (2048 * len cs / 2048) with (len cs) by lia.
               rewrite (proj2 (N.ltb_ge _ _)) by lia. reflexivity. }
          cbn [bind]. rewrite (cs_finalize_ok _ (len cs) rest) by (auto; discriminate). cbn [bind].
          rewrite to_hash_chain by (apply chunk_node_wf; auto; lia).
          rewrite subU_ok. { reflexivity. }
          destruct (h_stack h) as [|z st]; [|rewrite len_cons; lia].
          exfalso. inversion R as [Q1 Q2|? ? ? ? ? ? ? Q]; [|now destruct st].
          destruct cs; [congruence|discriminate].
      - subst rest.
        destruct I as [[_ E]|(st0 & l0 & x & E1 & E2 & R)].
        { destruct cs; [rewrite len_nil in L2; lia|discriminate]. }
        destruct (exists_last (l := cs)) as (cs0 & last & ->).
        { intros ->. rewrite len_nil in L2. lia. }
        rewrite cvs_app in E2. cbn [SpecFacts.cvs] in E2. apply app_inj_tail in E2.
        destruct E2 as [<- <-]. rewrite len_app, len_cons, len_nil in L2.
        assert (Ncs : cs0 <> []) by (intros ->; rewrite len_nil in L2; lia).
        exists st0, cs0, last.
        pose proof Fc as Fc'. apply Forall_app in Fc'. destruct Fc' as [F0 F1].
        repeat split; auto.
        + inversion F1; tauto.
        + rewrite app_nil_r. apply pieces_full; [exact Fc|]. intros Q. apply app_eq_nil in Q. destruct Q; discriminate.
        + exists [ccv (0 + len cs0) last]. split; auto.
          cbn [len length N.of_nat N.ltb N.compare]. rewrite E1.
          assert (N0 : 1 <= len st0).
          { destruct st0 as [|z st0]; [|rewrite len_cons; lia].
            exfalso. inversion R as [Q1 Q2|? ? ? ? ? ? ? Q]; [|now destruct st].
            destruct cs0; [congruence|discriminate]. }
          rewrite len_app, len_cons, len_nil.
          rewrite dassert_ok by lia. cbn [bind]. rewrite subU_ok by lia. cbn [bind].
          replace (len st0 + (1 + 0) - 1) with (len st0) by lia. rewrite index_app. cbn [bind].
          rewrite subU_ok by lia. cbn [bind]. rewrite N.add_0_l. do 2 f_equal. lia. }
    destruct X as (st0 & cs0 & last & R & Ncs & Bl & F0 & P & tl & Est & E).
    assert (S0 : Forall is32 (cvs 0 cs0)) by (apply cvs_shape; auto; now apply full_bytes).
    pose proof (rep_shape _ _ R S0) as Ss.
    destruct st0 as [|x st0].
    { exfalso. inversion R as [Q1 Q2|? ? ? ? ? ? ? Q]; [|now destruct st].
      destruct cs0; [congruence|discriminate]. }
    rewrite (proj2 (N.eqb_neq (len (h_stack h)) 0)) by (rewrite Est, len_app, len_cons; lia).
    match type of E with bind ?e _ = _ => destruct e as [[wh ix]| |] eqn:Ee end; try discriminate.
    cbn [bind] in E. rewrite len_cons in E. replace (1 + len st0 - 1) with (len st0) in E by lia.
    assert (E1 : wh = ccv (len cs0) last) by congruence.
    assert (E2 : ix = len st0) by congruence. rewrite E1, E2. cbn [bind].
    assert (Sl : is32 (ccv (len cs0) last)) by now apply ccv_shape.
    rewrite (finalize_loop_ok st0 _ h _ x tl); auto.
    2: { rewrite Est, app_length. cbn. lia. }
    assert (L0 : 1 <= len cs0) by (destruct cs0; [congruence|rewrite len_cons; lia]).
    assert (Lp : 2048 < len (concat cs ++ rest)).
    { destruct (N.le_gt_cases (len (concat cs ++ rest)) 2048) as [Q|Q]; auto.
      exfalso. rewrite pieces_short in P by lia. apply (f_equal len) in P.
      rewrite len_app, !len_cons, !len_nil in P. lia. }
    rewrite root_node_large by auto. cbv zeta. rewrite P, cvs_app. cbn [SpecFacts.cvs].
    rewrite N.add_0_l.
    rewrite (rep_top _ _ _ _ _ R ltac:(discriminate) _ 0); try (cbn; lia).
    cbn [hd List.tl fst snd]. rewrite lbf_one.
    split; [reflexivity|]. split; [|reflexivity].
    inversion Ss; subst. pose proof (roll_shape st0 _ Sl).
    apply parent_node_wf; cbn beta in *; tauto.
Qed.

Lemma finalize_xof_ok : forall h data, holds h data -> len data < W64 ->
  finalize_xof c h = Ok (out_of p (root_node F key flags data) Root) /\
  nd_wf (root_node F key flags data) /\ nd_off (root_node F key flags data) = 0.
Proof.
  intros h data H L. apply finalize_xof_gen; [exact H|].
  destruct H as (cs & rest & Fc & Br & -> & H & _).
  destruct (cs_holds_fields _ _ _ H) as (_ & _ & _ & ->).
  rewrite len_app, len_concat_full in L by auto. lia.
Qed.

End Key.
