(* The streaming Hasher at and beyond 2^64 bytes. *)
From Coq Require Import NArith List Bool Lia ZArith.
From Coq Require Import ZifyBool ZifyNat ZifyN.
From Verif Require Import Base BaseFacts Spec TreeFacts CompressFacts ManySpec ManyFacts SpecFacts.
From Verif Require Import Portable Platform Lib ChunkFacts LibFacts HasherFacts WrapSpec WrapFacts.
From Verif Require Import SessionSpec Session ApiFacts OneShotFacts.
Import ListNotations.
Open Scope N_scope.

Notation CHUNK_START := Spec.CHUNK_START.
Notation CHUNK_END := Spec.CHUNK_END.
Notation PARENT := Spec.PARENT.

Lemma hash_all_shape : forall key flags fs fe delta inputs off,
  length key = 8%nat -> words key -> Forall bytes inputs ->
  Forall (fun h => len h = 32 /\ bytes h) (hash_all WF key flags fs fe off delta inputs).
Proof.
  intros key flags fs fe delta inputs off Lk Wk. revert off.
  assert (B : forall bs cv off bf, length cv = 8%nat -> words cv -> Forall bytes bs ->
    length (many_blocks F cv off bf flags fe bs) = 8%nat /\
    words (many_blocks F cv off bf flags fe bs)).
  { induction bs as [|b bs IH]; intros cv off bf L W Fb; cbn [many_blocks]; [auto|].
    apply IH; [apply blake_shape8; auto..|now inversion Fb]. }
  assert (K : forall k i, bytes i -> Forall bytes (blks k i)).
  { induction k; intros i Hi; cbn [blks]; constructor; [now apply bytes_take|]. apply IHk. now apply bytes_drop. }
  induction inputs as [|i r IH]; intros off Fi; cbn [hash_all]; [constructor|].
  inversion Fi; subst. constructor; [|now apply IH].
  rewrite wrapped_one. unfold hash_one.
  destruct (B (blks (N.to_nat (len i / 64)) i) key (off mod W64) (N.lor flags fs)) as [L W]; auto.
  split; [|apply bytes_of_words_bytes].
  rewrite len_bytes_of_words. unfold len at 1. rewrite L. reflexivity.
Qed.

Lemma len_hash_all : forall G key flags fs fe delta inputs off,
  len (hash_all G key flags fs fe off delta inputs) = len inputs.
Proof.
  intros G key flags fs fe delta. induction inputs as [|i r IH]; intros off; cbn [hash_all]; [reflexivity|].
  now rewrite !len_cons, IH.
Qed.

Section Key.
Variable c : cfg.
Variable p : platform.
Variable key : list N.
Variable flags : N.
Hypothesis Pok : platform_ok c p.
Hypothesis Lkey : length key = 8%nat.
Hypothesis Wkey : words key.

Notation cvs := (SpecFacts.cvs key flags).
Notation ccv := (SpecFacts.ccv key flags).
Notation pcv := (SpecFacts.pcv key flags).
Notation is32 := (fun h : list N => len h = 32 /\ bytes h).
Notation rep := (TreeFacts.rep (@nil N) pcv).
Notation inter := (HasherFacts.inter key flags).
Notation cs_holds := (HasherFacts.cs_holds p key flags).
Notation holds := (HasherFacts.holds p key flags).
Notation fullc := (fun ch : list N => len ch = 2048 /\ bytes ch).

(* ---- the stack is full before chunk 2^53 ---- *)

Lemma push_full : forall h l x, (inter (h_stack h) l \/ rep (h_stack h) l) -> Forall is32 l ->
  cs_key (h_chunk h) = key -> cs_flags (h_chunk h) = flags -> cs_platform (h_chunk h) = p ->
  2048 * (len l + 1) = W64 ->
  push_chunk_hash c h x (2048 * len l) = Panic.
Proof.
  intros h l x I S Hk Hf Hp H. unfold push_chunk_hash.
  assert (M : exists st', merge_loop c (length (h_stack h)) h (2048 * len l)
              = Ok (Hasher st' (h_chunk h)) /\ rep st' l).
  { destruct I as [I|R]; [now apply (merge_loop_ok c p key flags)|].
    exists (h_stack h). split; auto. rewrite (merge_loop_id c key flags) by auto. now destruct h. }
  destruct M as (st' & E & R). rewrite E. cbn [bind h_stack h_chunk].
  unfold push_cap. rewrite (rep_len _ _ _ _ _ R). unfold W64 in H.
  replace (len l) with 9007199254740991 by lia. reflexivity.
Qed.

Lemma push_batch_full : forall xs h l, inter (h_stack h) l -> Forall is32 (l ++ xs) ->
  cs_holds (h_chunk h) (len l) [] -> 2048 * len l < W64 -> W64 <= 2048 * (len l + len xs) ->
  push_batch c h xs = Panic.
Proof.
  induction xs as [|x xs IH]; intros h l I S H L1 L; cbn [push_batch].
  - rewrite len_nil in L. lia.
  - rewrite len_cons in L.
    destruct (cs_holds_fields _ _ _ _ _ _ H) as (Hk & Hf & Hp & Ho).
    assert (Sl : Forall is32 l) by (apply Forall_app in S; tauto).
    rewrite Ho. destruct (N.lt_ge_cases (2048 * (len l + 1)) W64) as [Q|Q].
    + destruct (push_ok c p key flags Pok Lkey Wkey h l x (or_introl I) Sl Hk Hf Hp) as (st' & E & R); [lia|].
      rewrite E. cbn [bind h_stack h_chunk]. rewrite Ho. change CHUNK_LEN with 2048.
      rewrite add64_ok by lia. cbn [bind].
      replace (2048 * len l + 2048) with (2048 * len (l ++ [x])) by lenlia.
      apply (IH _ (l ++ [x])).
      * right. exists st', l, x. auto.
      * now rewrite <- app_assoc.
      * cbn [h_chunk]. now apply cs_move with (i := len l).
      * rewrite len_app, len_cons, len_nil. lia.
      * rewrite len_app, len_cons, len_nil. lia.
    + rewrite push_full with (l := l); auto. unfold W64 in *. lia.
Qed.

Lemma update_chunks_full : forall fuel chunks h cs out,
  Forall fullc cs -> Forall fullc chunks -> (length chunks <= fuel)%nat ->
  inter (h_stack h) (cvs 0 cs) -> cs_holds (h_chunk h) (len cs) [] ->
  2048 * len cs < W64 -> W64 <= 2048 * (len cs + len chunks) -> 32 * MAX_SIMD_DEGREE c <= len out ->
  update_chunks c fuel h chunks out = Panic.
Proof.
  assert (M1 : 1 <= MAX_SIMD_DEGREE c) by (unfold MAX_SIMD_DEGREE; destruct (x86 c); lia).
  induction fuel as [|fuel IH]; intros chunks h cs out Fc Fk Hf I H L1 L Lo.
  - destruct chunks; [|cbn in Hf; lia]. rewrite len_nil in L. lia.
  - cbn [update_chunks].
    assert (Lc : len chunks <> 0) by lia.
    set (ba := take (MAX_SIMD_DEGREE c) chunks) in *.
    assert (Lb : len ba <= MAX_SIMD_DEGREE c /\ len ba <= len chunks /\ len ba <> 0) by (unfold ba; lenlia).
    rewrite (proj2 (N.eqb_neq (len ba) 0)) by tauto.
    destruct (cs_holds_fields _ _ _ _ _ _ H) as (Hk & Hfl & Hp & Ho). rewrite Hk, Hfl, Hp, Ho.
    assert (Fb : Forall fullc ba) by now apply Forall_take.
    assert (Sc : Forall is32 (cvs 0 cs)).
    { apply cvs_shape; auto. eapply Forall_impl; [|exact Fc]. cbn. tauto. }
    assert (Bb : Forall bytes ba) by (eapply Forall_impl; [|exact Fb]; cbn; tauto).
    change CHUNK_LEN with 2048.
    rewrite hash_many_any; auto; try reflexivity; try (change (2 ^ 64) with W64); try lia.
    destruct (N.lt_ge_cases (2048 * (len cs + len ba)) W64) as [Q|Q].
    + (* this batch fits *)
      unfold many_result. change (2 ^ 64) with W64.
      rewrite (proj2 (N.leb_gt W64 _)) by lia. rewrite andb_false_r. cbn [bind].
      rewrite hash_all_small by lia. change OUT_LEN with 32.
      change (hash_all F key flags Lib.CHUNK_START Lib.CHUNK_END (2048 * len cs) 2048 ba)
        with (hash_all F key flags CHUNK_START CHUNK_END (2048 * len cs) 2048 ba).
      rewrite hash_all_cvs by (auto; eapply Forall_impl; [|exact Fb]; cbn; tauto).
      assert (Sb : Forall is32 (cvs (len cs) ba)) by (apply cvs_shape; auto).
      pose proof (chunks_exact_concat key Lkey (cvs (len cs) ba) (drop (32 * len ba) out) Sb) as TK.
      rewrite len_cvs in TK. rewrite TK.
      destruct (push_batch_ok c p key flags Pok Lkey Wkey (cvs (len cs) ba) h (cvs 0 cs))
        as (h' & E & I' & H'); auto.
      * apply Forall_app. split; auto.
      * now rewrite len_cvs.
      * rewrite !len_cvs. lia.
      * rewrite E. cbn [bind].
        assert (Ecv : cvs 0 cs ++ cvs (len cs) ba = cvs 0 (cs ++ ba)) by (rewrite cvs_app; f_equal).
        rewrite Ecv in I', H'. rewrite len_cvs in H'.
        apply (IH _ _ (cs ++ ba)); auto.
        -- apply Forall_app; auto.
        -- now apply Forall_drop.
        -- pose proof (len_drop _ (MAX_SIMD_DEGREE c) chunks) as Q2. unfold len in *. lia.
        -- rewrite len_app. lia.
        -- rewrite len_app, len_drop. unfold ba. rewrite len_take. lia.
        -- rewrite len_app, concat_32, len_cvs, len_drop by auto. lia.
    + unfold many_result. change (2 ^ 64) with W64.
      rewrite (proj2 (N.leb_le W64 _)) by lia. rewrite andb_true_r.
      destruct (dbg c) eqn:D; [reflexivity|]. cbn [bind]. change OUT_LEN with 32.
      set (hs := hash_all WF key flags Lib.CHUNK_START Lib.CHUNK_END (2048 * len cs) 2048 ba).
      assert (Sh : Forall is32 hs) by (apply hash_all_shape; auto).
      assert (Lh : len hs = len ba) by apply len_hash_all.
      pose proof (chunks_exact_concat key Lkey hs (drop (32 * len ba) out) Sh) as TK.
      rewrite Lh in TK. rewrite TK.
      rewrite (push_batch_full hs h (cvs 0 cs)); auto.
      * apply Forall_app. auto.
      * now rewrite len_cvs.
      * now rewrite len_cvs.
      * rewrite len_cvs, Lh. lia.
Qed.

(* ---- any update ---- *)

(* h has been given data and has room for its last chunk *)
Definition live (h : hasher) (data : list N) : Prop :=
  holds h data /\ cs_offset (h_chunk h) < W64 /\ len data <= W64.

(* An update from `before` to `len data` bytes succeeds if and only if it stays below
   2^64, or completes the last chunk and began inside it. *)
Definition takes (before after : N) : Prop :=
  after < W64 \/ (after = W64 /\ W64 - 2048 < before).

Definition outcome (r : res hasher) (before : N) (data : list N) : Prop :=
  (exists h', r = Ok h' /\ live h' data /\ takes before (len data)) \/
  (r = Panic /\ ~ takes before (len data)).

Lemma new_live : live (new_internal p key flags) [].
Proof.
  split; [now apply new_holds|]. split; [reflexivity|]. rewrite len_nil. discriminate.
Qed.

Lemma update_tail_any : forall h cs input,
  Forall fullc cs -> inter (h_stack h) (cvs 0 cs) -> cs_holds (h_chunk h) (len cs) [] ->
  bytes input -> 2048 * len cs < W64 ->
  (len cs + len input / 2048 = 1 -> len input mod 2048 <> 0) ->
  forall before, before <= W64 - 2048 ->
  outcome (let '(chunks, remainder) := chunks_exact CHUNK_LEN input in
    dassert c (cs_len (h_chunk h) =? 0) ;;
    let* h := update_chunks c (length chunks) h chunks
                (zeros (MAX_SIMD_DEGREE c * OUT_LEN)) in
    dassert c (cs_len (h_chunk h) =? 0) ;;
    dassert c (len remainder <? CHUNK_LEN) ;;
    if negb (len remainder =? 0) then
      let* h := merge_loop c (length (h_stack h)) h (cs_offset (h_chunk h)) in
      let* s := cs_update c (h_chunk h) remainder in
      Ok (Hasher (h_stack h) s)
    else Ok h) before (concat cs ++ input).
Proof.
  intros h cs input Fc I H B L Hn before Hb.
  assert (Lc : len (concat cs) = 2048 * len cs) by now apply len_concat_full.
  destruct (N.lt_ge_cases (2048 * len cs + len input) W64) as [Q|Q].
  - left. destruct (update_tail_ok c p key flags Pok Lkey Wkey h cs input) as (h' & E & H'); auto.
    assert (L' : len (concat cs ++ input) < W64) by lenlia.
    exists h'. split; [exact E|]. split; [|left; exact L']. split; [exact H'|].
    split; [|lia].
    destruct H' as (cs' & rest' & Fc' & _ & E' & H' & _).
    destruct (cs_holds_fields _ _ _ _ _ _ H') as (_ & _ & _ & ->).
    rewrite E', len_app, len_concat_full in L' by auto. lia.
  - right. split; [|unfold takes; lenlia].
    change CHUNK_LEN with 2048.
    pose proof (chunks_exact_spec _ 2048 input eq_refl) as CS.
    destruct (chunks_exact 2048 input) as [ch rm]. destruct CS as (C1 & C2 & C3 & C4).
    assert (Fk : Forall fullc ch).
    { rewrite <- C1 in B. apply bytes_app in B. destruct B as [B1 B2].
      clear -B1 C2. induction C2; constructor; cbn in B1; apply bytes_app in B1; tauto. }
    assert (Li : len input = 2048 * len ch + len rm) by (rewrite <- C1, len_app, len_concat_full by auto; lia).
    rewrite dassert_ok by (rewrite (cs_len_ok _ _ _ Lkey _ _ _ H); reflexivity). cbn [bind].
    rewrite (update_chunks_full (length ch) ch h cs); auto.
    + unfold W64 in *. lia.
    + rewrite len_zeros. change OUT_LEN with 32. lia.
Qed.

Lemma update_any : forall h data input, live h data -> bytes input ->
  outcome (update c h input) (len data) (data ++ input).
Proof.
  intros h data input (Hh & L & Ld) B.
  destruct Hh as (cs & rest & Fc & Br & -> & H & Lr & Cs).
  rewrite len_app, len_concat_full in Ld by auto.
  assert (Lb : len (concat cs ++ rest) = 2048 * len cs + len rest) by (rewrite len_app, len_concat_full; auto).
  destruct (cs_holds_fields _ _ _ _ _ _ H) as (Hk & Hfl & Hp & Ho). rewrite Ho in L.
  unfold update. rewrite Ho, (cs_len_ok _ _ _ Lkey _ _ _ H). change CHUNK_LEN with 2048.
  assert (Bc : Forall bytes cs) by (eapply Forall_impl; [|exact Fc]; cbn; tauto).
  assert (Sc : Forall is32 (cvs 0 cs)) by (apply cvs_shape; auto).
  assert (Z0 : (2048 * len cs =? 0) = (len cs =? 0)).
  { destruct (N.eqb_spec (len cs) 0), (N.eqb_spec (2048 * len cs) 0); auto; lia. }
  rewrite Z0.
  destruct (((len cs =? 0) && (len input =? 2048)) || (0 <? len rest)) eqn:Eb.
  - (* the chunk state takes bytes *)
    assert (R : rep (h_stack h) (cvs 0 cs)).
    { destruct Cs as [[R _]|(E1 & E2 & _)]; auto. subst rest. rewrite len_nil in Eb.
      exfalso. lia. }
    rewrite subU_ok by lia. cbn [bind].
    set (n := N.min (2048 - len rest) (len input)).
    rewrite slice_to_ok by lia. cbn [bind].
    destruct (cs_update_ok c p key flags Lkey (h_chunk h) (len cs) rest (take n input))
      as (s1 & E1 & H1); auto; try lenlia.
    { now apply bytes_take. }
    rewrite E1. cbn [bind]. rewrite slice_from_ok by lia. cbn [bind]. rewrite len_drop.
    destruct (cs_holds_fields _ _ _ _ _ _ H1) as (Hk1 & Hfl1 & Hp1 & Ho1).
    destruct (N.eqb_spec (len input - n) 0) as [Z|Z]; cbn [negb].
    + cbn [bind]. left. eexists. split; [reflexivity|].
      rewrite take_all in H1 by lia.
      assert (La : len ((concat cs ++ rest) ++ input) = 2048 * len cs + len rest + len input)
        by (rewrite len_app; lia).
      split; [split; [|split]|].
      * exists cs, (rest ++ input). cbn [h_stack h_chunk].
        repeat split; auto.
        -- apply bytes_app; auto.
        -- now rewrite app_assoc.
        -- rewrite len_app. lia.
        -- left. split; auto. intros E. apply app_eq_nil in E. destruct E as [-> ->].
           rewrite !len_nil in Eb. exfalso. lia.
      * cbn [h_chunk]. now rewrite Ho1.
      * rewrite La. unfold W64 in *. lia.
      * rewrite La, Lb. unfold takes, W64 in *. lia.
    + assert (Lf : len (rest ++ take n input) = 2048) by lenlia.
      rewrite dassert_ok by (rewrite (cs_len_ok _ _ _ Lkey _ _ _ H1), Lf; reflexivity). cbn [bind].
      rewrite (cs_finalize_ok c p key flags Lkey s1 (len cs) (rest ++ take n input)) by (auto; discriminate).
      cbn [bind].
      assert (Bf : bytes (rest ++ take n input)) by (apply bytes_app; split; [auto|now apply bytes_take]).
      rewrite to_hash_chain by (apply chunk_node_wf; auto; lia).
      fold (ccv (len cs) (rest ++ take n input)).
      rewrite Ho1.
      destruct (N.lt_ge_cases (2048 * (len cs + 1)) W64) as [Q|Q].
      * destruct (push_ok c p key flags Pok Lkey Wkey (Hasher (h_stack h) s1) (cvs 0 cs)
                    (ccv (len cs) (rest ++ take n input)))
          as (st' & E2 & R'); auto; [rewrite len_cvs; lia|].
        rewrite len_cvs in E2. rewrite E2. cbn [bind h_stack h_chunk]. rewrite add64_ok by lia. cbn [bind].
        replace (2048 * len cs + 2048) with (2048 * (len cs + 1)) by lia.
        destruct (cs_reset_ok c p key flags Lkey Wkey _ _ _ (len cs + 1) H1) as (s2 & E3 & H3).
        rewrite E3. cbn [bind].
        assert (T : outcome
          (let '(chunks, remainder) := chunks_exact CHUNK_LEN (drop n input) in
            dassert c (cs_len (h_chunk (Hasher (st' ++ [ccv (len cs) (rest ++ take n input)]) s2)) =? 0) ;;
            let* h := update_chunks c (length chunks) (Hasher (st' ++ [ccv (len cs) (rest ++ take n input)]) s2) chunks
                        (zeros (MAX_SIMD_DEGREE c * OUT_LEN)) in
            dassert c (cs_len (h_chunk h) =? 0) ;;
            dassert c (len remainder <? CHUNK_LEN) ;;
            if negb (len remainder =? 0) then
              let* h := merge_loop c (length (h_stack h)) h (cs_offset (h_chunk h)) in
              let* s := cs_update c (h_chunk h) remainder in
              Ok (Hasher (h_stack h) s)
            else Ok h) (len (concat cs ++ rest)) (concat (cs ++ [rest ++ take n input]) ++ drop n input)).
        { apply update_tail_any.
          - apply Forall_app. split; auto.
          - right. exists st', (cvs 0 cs), (ccv (len cs) (rest ++ take n input)).
            cbn [h_stack]. rewrite cvs_app. cbn [SpecFacts.cvs]. auto.
          - cbn [h_chunk]. rewrite len_app. exact H3.
          - now apply bytes_drop.
          - rewrite len_app, len_cons, len_nil. lia.
          - rewrite len_app, len_cons, len_nil, len_drop. lia.
          - rewrite Lb. unfold W64 in *. lia. }
        rewrite concat_app in T. cbn [concat] in T. rewrite app_nil_r in T.
        rewrite <- app_assoc in T. rewrite <- (app_assoc rest) in T. rewrite take_drop in T.
        rewrite app_assoc in T. exact T.
      * right. split.
        -- rewrite <- (len_cvs key flags cs 0). rewrite push_full with (l := cvs 0 cs); auto.
           rewrite len_cvs. unfold W64 in *. lia.
        -- rewrite !len_app, len_concat_full by auto. unfold takes, W64 in *. lia.
  - (* the chunk state is empty *)
    assert (Er : rest = []) by (apply len_0_nil; lia). subst rest. cbn [bind].
    rewrite app_nil_r.
    rewrite app_nil_r in Lb. apply update_tail_any; auto.
    + destruct Cs as [[R E]|(_ & _ & I)]; auto. rewrite (E eq_refl) in *. left.
      cbn [SpecFacts.cvs] in *. inversion R as [Q|? ? ? ? ? ? ? Q1 Q2]; auto.
      exfalso. destruct l; [|discriminate Q2]. destruct x; [|discriminate Q2].
      cbn in H1. pose proof (pow2_pos t). lia.
    + destruct Cs as [[R E]|(_ & E & _)]; [|lia]. specialize (E eq_refl). subst cs.
      rewrite len_nil in *. cbn [orb] in Eb. lia.
    + rewrite Lb. rewrite len_nil in *. unfold W64 in *. lia.
Qed.

End Key.

(* ---- sequences of updates ---- *)

Lemma feed_any : forall inputs c p key flags h data, platform_ok c p ->
  length key = 8%nat -> words key -> live p key flags h data -> Forall bytes inputs ->
  if accepts (len data) (map len inputs)
  then exists h', feed c h inputs = Ok h' /\ live p key flags h' (data ++ concat inputs)
  else feed c h inputs = Panic.
Proof.
  induction inputs as [|x r IH]; intros c p key flags h data P L W H B; cbn [feed concat map accepts].
  - exists h. rewrite app_nil_r. auto.
  - inversion B as [|y r0 By Br]; subst. change (2 ^ 64) with W64.
    destruct (update_any c p key flags P L W h data x H By) as [(h1 & E & L1 & T)|[E T]];
      rewrite E; cbn [bind]; rewrite len_app in T.
    + replace ((len data + len x <? W64) || ((len data + len x =? W64) && (W64 - 2048 <? len data)))
        with true by (unfold takes in T; lia).
      cbn [andb]. rewrite <- len_app. rewrite app_assoc. now apply IH.
    + replace ((len data + len x <? W64) || ((len data + len x =? W64) && (W64 - 2048 <? len data)))
        with false by (unfold takes in T; lia).
      reflexivity.
Qed.

Lemma stream_any : forall c p m inputs n,
  platform_ok c p -> mode_ok m -> Forall bytes inputs -> N.of_nat n < MAX_BLOCKS ->
  if accepts 0 (map len inputs) then
    exists h o bs o',
      feed c (start p m) inputs = Ok h /\
      finalize c h = Ok (spec_hash blake_compress m (concat inputs)) /\
      finalize_xof c h = Ok o /\ reads c n o = Ok (bs, o') /\
      concat bs = spec_xof blake_compress m (concat inputs) (64 * N.of_nat n)
  else feed c (start p m) inputs = Panic.
Proof.
  intros c p m inputs n P M B Hn. destruct (mode_key_ok m M) as [Lk Wk].
  assert (H0 : live p (mode_key m) (mode_flags m) (start p m) []) by (destruct m; now apply new_live).
  pose proof (feed_any inputs c p _ _ _ _ P Lk Wk H0 B) as X. rewrite len_nil in X.
  destruct (accepts 0 (map len inputs)); [|exact X].
  destruct X as (h & E & (H & Lo & _)). cbn [app] in H.
  assert (Bc : bytes (concat inputs)) by now apply bytes_concat.
  assert (X : finalize_xof c h = Ok (out_at p (spec_root F m (concat inputs)) 0)).
  { rewrite <- out_at_0 by now apply spec_root_wf.
    apply (finalize_xof_gen c p _ _ P Lk Wk h _ H Lo). }
  exists h. do 3 eexists. split; [exact E|]. split; [|split; [exact X|]].
  - unfold finalize. rewrite X. cbn [bind].
    rewrite to_hash_at; [reflexivity| |reflexivity]. now apply spec_root_wf.
  - rewrite reads_ok by (auto; now apply spec_root_wf). split; [reflexivity|].
    now rewrite xof_blocks by auto.
Qed.

Lemma accepts_below : forall ls t, t + fold_right N.add 0 ls < 2 ^ 64 -> accepts t ls = true.
Proof.
  induction ls as [|n ls IH]; intros t H; cbn [accepts fold_right] in *; [reflexivity|].
  rewrite IH by lia. rewrite (proj2 (N.ltb_lt (t + n) (2 ^ 64))) by lia. reflexivity.
Qed.

Lemma accepts_total : forall ls t, t <= 2 ^ 64 -> accepts t ls = true -> t + fold_right N.add 0 ls <= 2 ^ 64.
Proof.
  induction ls as [|n ls IH]; intros t H A; cbn [accepts fold_right] in *; [lia|].
  apply andb_true_iff in A. destruct A as [A1 A2]. rewrite N.add_assoc. apply IH; [lia|exact A2].
Qed.

Lemma len_concat_sum : forall inputs : list (list N),
  len (concat inputs) = fold_right N.add 0 (map len inputs).
Proof. induction inputs as [|x r IH]; cbn [concat map fold_right]; [reflexivity|]. now rewrite len_app, IH. Qed.

Lemma stream_beyond : forall c p m inputs,
  platform_ok c p -> mode_ok m -> Forall bytes inputs -> 2 ^ 64 < len (concat inputs) ->
  feed c (start p m) inputs = Panic.
Proof.
  intros c p m inputs P M B L. pose proof (stream_any c p m inputs 0 P M B ltac:(reflexivity)) as X.
  destruct (accepts 0 (map len inputs)) eqn:A; [|exact X].
  apply accepts_total in A; [|discriminate]. rewrite <- len_concat_sum in A. exfalso. lia.
Qed.

Lemma stream_right : forall c p m inputs h,
  platform_ok c p -> mode_ok m -> Forall bytes inputs ->
  feed c (start p m) inputs = Ok h ->
  len (concat inputs) <= 2 ^ 64 /\ finalize c h = Ok (spec_hash blake_compress m (concat inputs)).
Proof.
  intros c p m inputs h P M B E. pose proof (stream_any c p m inputs 0 P M B ltac:(reflexivity)) as X.
  destruct (accepts 0 (map len inputs)) eqn:A; [|congruence].
  destruct X as (h' & o & bs & o' & E' & D & _). rewrite E in E'. injection E' as <-. split; auto.
  apply accepts_total in A; [|discriminate]. rewrite len_concat_sum. exact A.
Qed.

Lemma len_zeros_concat : forall ns, len (concat (map zeros ns)) = fold_right N.add 0 ns.
Proof.
  intros. rewrite len_concat_sum, map_map. f_equal. rewrite <- (map_id ns) at 2. apply map_ext.
  intros. apply len_zeros.
Qed.

Lemma concat_zeros : forall ns, concat (map zeros ns) = zeros (fold_right N.add 0 ns).
Proof.
  induction ns as [|n ns IH]; cbn [map concat fold_right]; [reflexivity|]. rewrite IH.
  unfold zeros. rewrite <- repeat_app. f_equal. lia.
Qed.

(* The two ways of passing 2^64 zero bytes. *)
Lemma split_matters : forall c p m, platform_ok c p -> mode_ok m ->
  exists xs ys, Forall bytes xs /\ Forall bytes ys /\ concat xs = concat ys /\
    len (concat xs) = 2 ^ 64 /\
    (exists h, feed c (start p m) xs = Ok h) /\ feed c (start p m) ys = Panic.
Proof.
  intros c p m P M.
  exists (map zeros [2 ^ 64 - 2048; 1; 2047]), (map zeros [2 ^ 63; 2 ^ 63]).
  assert (B : forall ns, Forall bytes (map zeros ns)).
  { intros ns. apply Forall_map, Forall_forall. intros n _. apply bytes_zeros. }
  pose proof (fun ns => stream_any c p m (map zeros ns) 0 P M (B ns) ltac:(reflexivity)) as X.
  assert (E : forall ns, map len (map zeros ns) = ns).
  { intros ns. rewrite map_map. rewrite <- (map_id ns) at 2. apply map_ext. intros. apply len_zeros. }
  split; [apply B|]. split; [apply B|]. split; [rewrite !concat_zeros; reflexivity|].
  split; [rewrite len_zeros_concat; reflexivity|].
  split.
  - specialize (X [2 ^ 64 - 2048; 1; 2047]). rewrite E in X.
    change (accepts 0 [2 ^ 64 - 2048; 1; 2047]) with true in X. destruct X as (h & _ & _ & _ & X & _). eauto.
  - specialize (X [2 ^ 63; 2 ^ 63]). rewrite E in X.
    change (accepts 0 [2 ^ 63; 2 ^ 63]) with false in X. exact X.
Qed.

Lemma limit_refuted : ~ (forall c p m inputs,
  platform_ok c p -> mode_ok m -> Forall bytes inputs -> len (concat inputs) <= 2 ^ 64 ->
  exists h, feed c (start p m) inputs = Ok h).
Proof.
  intros H. destruct (split_matters (Cfg false true true) PAVX2 Hashing) as (xs & ys & _ & B & E & L & _ & X);
    [cbv; auto|exact I|].
  destruct (H (Cfg false true true) PAVX2 Hashing ys ltac:(cbv; auto) I B) as [h Y].
  - rewrite <- E, L. discriminate.
  - rewrite X in Y. discriminate.
Qed.
