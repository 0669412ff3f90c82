(* Proofs of the statements about byte order in Prop_ByteOrder.v. *)
From Coq Require Import NArith List Bool Lia ZArith.
From Coq Require Import ZifyBool ZifyNat ZifyN.
From Verif Require Import Base BaseFacts Spec TreeFacts CompressFacts ManyFacts SpecFacts ChunkFacts.
From Verif Require Import HasherFacts CSimd CSimdFacts CSimdProps CImpl CImplFacts CSpec CImplProps.
From Verif Require Import CByteOrder Samples.
Import ListNotations.
Open Scope N_scope.

Lemma little_neon : hash_many_neon_on false hash4_neon = hash_many_neon.
Proof. reflexivity. Qed.

(* ---- the update with another hash_many ---- *)

Lemma chunks_loop_same : forall big hash4 o, c_hash_many_on big hash4 o = c_hash_many o ->
  forall fuel h input out, chunks_loop_on big hash4 o fuel h input out = chunks_loop o fuel h input out.
Proof.
  intros big hash4 o E. induction fuel as [|fuel IH]; intros h input out;
    cbn [chunks_loop_on chunks_loop]; destruct (C_CHUNK_LEN <=? len input); try reflexivity.
  destruct (gather_chunks _ input) as [cs rest]. rewrite E.
  match goal with |- bind ?e _ = bind ?e _ => destruct e; cbn [bind]; try reflexivity end.
  match goal with |- bind ?e _ = bind ?e _ => destruct e; cbn [bind]; try reflexivity end.
  apply IH.
Qed.

Lemma update_same : forall big hash4 o junk h input,
  c_hash_many_on big hash4 o = c_hash_many o \/ len input < 2048 ->
  hasher_update_on big hash4 o junk h input = hasher_update o junk h input.
Proof.
  intros big hash4 o junk h input H.
  assert (R : forall h n, hasher_update_rest_on big hash4 o junk h (drop n input)
                        = hasher_update_rest o junk h (drop n input)).
  { intros h' n. unfold hasher_update_rest_on, hasher_update_rest.
    assert (E : chunks_loop_on big hash4 o (length (drop n input)) h' (drop n input) junk
              = chunks_loop o (length (drop n input)) h' (drop n input) junk).
    { destruct H as [H|H]; [now apply chunks_loop_same|].
      destruct (length (drop n input)); cbn [chunks_loop_on chunks_loop];
        change C_CHUNK_LEN with 2048;
        rewrite (proj2 (N.leb_gt _ _)) by (rewrite len_drop; lia); reflexivity. }
    rewrite E. reflexivity. }
  unfold hasher_update_on, hasher_update.
  match goal with |- (if ?b then _ else _) = _ => destruct b end.
  - match goal with |- bind ?e _ = bind ?e _ => destruct e; cbn [bind]; try reflexivity end.
    match goal with |- bind ?e _ = bind ?e _ => destruct e; cbn [bind]; try reflexivity end.
    match goal with |- (if ?b then _ else _) = _ => destruct b; try reflexivity end.
    match goal with |- bind ?e _ = bind ?e _ => destruct e; cbn [bind]; try reflexivity end.
    apply R.
  - generalize (R h 0). now rewrite drop_0.
Qed.

Lemma hash_same : forall big hash4 o memory key flags us,
  c_hash_many_on big hash4 o = c_hash_many o \/ Forall (fun u => len (fst u) < 2048) us ->
  c_hash_on big hash4 o memory key flags us = c_hash o memory key flags us.
Proof.
  intros big hash4 o memory key flags us H. unfold c_hash_on, c_hash.
  assert (E : forall h, c_updates_on big hash4 o h us = c_updates o h us).
  { revert H. induction us as [|[input junk] us IH]; intros H h; [reflexivity|].
    cbn [c_updates_on c_updates]. rewrite update_same.
    2: { destruct H as [H|H]; [now left|right; exact (Forall_inv H)]. }
    destruct (hasher_update o junk h input); cbn [bind]; try reflexivity.
    apply IH. destruct H as [H|H]; [now left|right; exact (Forall_inv_tail H)]. }
  rewrite E. reflexivity.
Qed.

Lemma not_neon : forall big hash4 o, use_neon o = false ->
  c_hash_many_on big hash4 o = c_hash_many o.
Proof. intros big hash4 o E. unfold c_hash_many_on, c_hash_many. rewrite E. reflexivity. Qed.

Lemma little : forall o, c_hash_many_on false hash4_neon o = c_hash_many o.
Proof. intros o. unfold c_hash_many_on, c_hash_many. rewrite little_neon. reflexivity. Qed.

Lemma order_ok : forall big hash4 o memory key flags us,
  use_neon o = false \/ (big = false /\ hash4 = hash4_neon) \/
    Forall (fun u => len (fst u) < 2048) us ->
  length key = 32%nat -> bytes key -> c_updates_ok us ->
  len memory = 53 * 32 -> len (c_data us) <= 2 ^ 63 ->
  c_hash_on big hash4 o memory key flags us
  = Ok (take 32 (root_block blake_compress
                   (root_node blake_compress (words_of_bytes key) flags (c_data us)) 0)).
Proof.
  intros big hash4 o memory key flags us H Lk Bk U Lm L. rewrite hash_same.
  - now apply c_hasher_any_key.
  - destruct H as [H|[[-> ->]|H]]; [left; now apply not_neon|left; apply little|now right].
Qed.

(* ---- fewer than four inputs ---- *)

Lemma bytes32_4 : forall w, len (bytes32 w) = 4.
Proof. reflexivity. Qed.

Lemma swap_app : forall a b, len a mod 4 = 0 -> swap_words (a ++ b) = swap_words a ++ swap_words b.
Proof.
  intros a b. remember (length a) as n. revert a Heqn.
  induction n as [n IH] using lt_wf_ind. intros a -> M.
  destruct (N.eq_dec (len a) 0) as [Z|Z].
  - apply len_0_nil in Z. subst a. reflexivity.
  - assert (G : 4 <= len a) by lia.
    pose proof (take_drop N 4 a) as E. rewrite <- E at 1 2. clear E. rewrite <- app_assoc.
    assert (Q : forall y, swap_words (take 4 a ++ y) = rev (take 4 a) ++ swap_words y).
    { intros y. unfold swap_words. destruct y as [|z y].
      - rewrite app_nil_r. rewrite pieces_short by (rewrite ?len_take; lia). cbn. now rewrite !app_nil_r.
      - rewrite pieces_step by (rewrite ?len_app, ?len_take, ?len_cons; lia).
        rewrite take_app_eq, drop_app_eq by (rewrite len_take; lia). reflexivity. }
    rewrite !Q, <- app_assoc. f_equal. apply (IH (length (drop 4 a))); auto.
    + unfold drop. rewrite skipn_length. unfold len in G. lia.
    + rewrite len_drop. replace (len a) with (len a - 4 + 1 * 4) in M by lia. rewrite N.mod_add in M by lia. exact M.
Qed.

Lemma swap_state : forall ws, flat_map (word_memory true) ws = swap_words (bytes_of_words ws).
Proof.
  induction ws as [|w ws IH]; [reflexivity|].
  cbn [flat_map]. unfold bytes_of_words in *. cbn [flat_map].
  rewrite swap_app by reflexivity. rewrite <- IH. f_equal.
Qed.

Lemma len_swap : forall l, len (swap_words l) = len l.
Proof.
  intros l. remember (length l) as n. revert l Heqn.
  induction n as [n IH] using lt_wf_ind. intros l ->. unfold swap_words.
  destruct (N.le_gt_cases (len l) 4) as [G|G].
  - rewrite pieces_short by lia. cbn [map concat]. rewrite app_nil_r. unfold len. now rewrite rev_length.
  - rewrite pieces_step by lia. cbn [map concat]. rewrite len_app.
    fold (swap_words (drop 4 l)). rewrite (IH (length (drop 4 l))); auto.
    + unfold len at 1. rewrite rev_length. fold (len (take 4 l)). rewrite len_take, len_drop. lia.
    + unfold drop. rewrite skipn_length. unfold len in G. lia.
Qed.

Lemma bytes_swap : forall l, bytes l -> bytes (swap_words l).
Proof.
  intros l. remember (length l) as n. revert l Heqn.
  induction n as [n IH] using lt_wf_ind. intros l -> B. unfold swap_words.
  destruct (N.le_gt_cases (len l) 4) as [G|G].
  - rewrite pieces_short by lia. cbn [map concat]. rewrite app_nil_r. now apply Forall_rev.
  - rewrite pieces_step by lia. cbn [map concat].
    fold (swap_words (drop 4 l)). apply bytes_app. split; [apply Forall_rev; now apply bytes_take|].
    apply (IH (length (drop 4 l))); auto; [|now apply bytes_drop].
    unfold drop. rewrite skipn_length. unfold len in G. lia.
Qed.

(* A loop of single inputs whose results have their words swapped. *)
Lemma singles_swapped : forall (f : list N -> N -> list N) h1 h2 deltas delta (P : list N -> Prop),
  nth_error deltas 1 = Some delta ->
  (forall i off, P i -> off < W64 -> h1 i off = Ok (f i off) /\ h2 i off = Ok (swap_words (f i off)) /\
                                     len (f i off) = 32) ->
  forall inputs off out, Forall P inputs -> len out = 32 * len inputs -> off < W64 ->
  exists r, single_loop h1 deltas inputs off out = Ok r /\
            single_loop h2 deltas inputs off out = Ok (swap_words r).
Proof.
  intros f h1 h2 deltas delta P D H inputs. unfold single_loop.
  assert (G : forall fuel inputs off out, (length inputs <= fuel)%nat -> Forall P inputs ->
    len out = 32 * len inputs -> off < W64 ->
    exists r,
      many_loop fuel 1 (fun one off => let* i := index one 0 in h1 i off) (fun _ _ out => Ok out)
        inputs off deltas out = Ok r /\
      many_loop fuel 1 (fun one off => let* i := index one 0 in h2 i off) (fun _ _ out => Ok out)
        inputs off deltas out = Ok (swap_words r)).
  { clear inputs. induction fuel as [|fuel IH]; intros inputs off out Lf F Lo Ho.
    - destruct inputs; [|cbn in Lf; lia]. rewrite len_nil in Lo. apply len_0_nil in Lo. subst out.
      exists []. split; reflexivity.
    - destruct inputs as [|i inputs].
      + rewrite len_nil in Lo. apply len_0_nil in Lo. subst out. exists []. split; reflexivity.
      + rewrite len_cons in Lo. cbn [many_loop].
        rewrite (proj2 (N.leb_le _ _)) by (rewrite len_cons; lia).
        change (take 1 (i :: inputs)) with [i]. change (drop 1 (i :: inputs)) with inputs.
        change (index [i] 0) with (Ok i). cbn [bind].
        destruct (H i off (Forall_inv F) Ho) as (E1 & E2 & L). rewrite E1, E2. cbn [bind].
        assert (Ed : index deltas 1 = Ok delta).
        { unfold index. change (N.to_nat 1) with 1%nat. now rewrite D. }
        rewrite Ed. cbn [bind]. change (1 * C_OUT_LEN) with 32.
        assert (Es : slice_from out 32 = Ok (drop 32 out)).
        { unfold slice_from. rewrite (proj2 (N.leb_le _ _)) by lia. reflexivity. }
        rewrite Es. cbn [bind].
        destruct (IH inputs ((off + delta) mod W64) (drop 32 out)) as (r & R1 & R2).
        * cbn in Lf. lia.
        * exact (Forall_inv_tail F).
        * rewrite len_drop. lia.
        * apply N.mod_upper_bound. discriminate.
        * rewrite R1, R2. cbn [bind]. exists (f i off ++ r). split; [reflexivity|].
          rewrite swap_app by (rewrite L; reflexivity). reflexivity. }
  intros off out. apply G. lia.
Qed.

Lemma neon_few : forall hash4 inputs blocks key offset deltas delta flags fs fe out,
  len inputs < 4 -> length key = 8%nat -> words key -> offset < W64 ->
  Forall (fun i => 64 * blocks <= len i /\ bytes i) inputs -> nth_error deltas 1 = Some delta ->
  len out = 32 * len inputs ->
  exists r, hash_many_portable inputs blocks key offset deltas flags fs fe out = Ok r /\
    hash_many_neon_on true hash4 inputs blocks key offset deltas flags fs fe out
    = Ok (swap_words r).
Proof.
  intros hash4 inputs blocks key offset deltas delta flags fs fe out L Lk Wk Ho F D Lo.
  unfold hash_many_neon_on, hash_many_portable.
  set (h2 := fun i off => hash_one_neon_on true i blocks key off flags fs fe).
  assert (E : many_loop (length inputs) 4
                (fun four off => hash4 four blocks key off deltas flags fs fe)
                (single_loop h2 deltas) inputs offset deltas out
              = single_loop h2 deltas inputs offset out).
  { destruct (length inputs); cbn [many_loop];
      rewrite (proj2 (N.leb_gt _ _)) by lia; reflexivity. }
  rewrite E.
  apply (singles_swapped (fun i off => hash_one blake_compress key flags fs fe off (take (64 * blocks) i))
           _ h2 deltas delta (fun i => 64 * blocks <= len i /\ bytes i)); auto.
  intros i off [Li Bi] Oo.
  assert (H1 : forall ser, (forall st, length st = 8%nat -> ser st = bytes_of_words st) ->
    (let* state := hash_one_loop compress_portable (N.to_nat blocks) key i off (N.lor flags fs) flags fe in
     Ok (ser state))
    = Ok (hash_one blake_compress key flags fs fe off (take (64 * blocks) i))).
  { intros ser S. apply hash_one_ok; auto. exact c_portable_comp_ok. }
  pose proof (H1 write_state_bytes write_state_bytes_ok) as P1.
  pose proof (H1 bytes_of_words (fun _ _ => eq_refl)) as P2.
  split; [exact P1|]. unfold h2, hash_one_neon_on.
  destruct (hash_one_loop compress_portable (N.to_nat blocks) key i off (N.lor flags fs) flags fe)
    as [st| |]; cbn [bind] in *; try discriminate P1.
  injection P2 as P2. rewrite swap_state, P2. split; [reflexivity|].
  apply hash_one_shape; auto.
Qed.

(* ---- one update with a whole chunk and a part of another ---- *)

Section Key.
Variable hash4 : hash4_fun.
Variable o : copts.
Variable key : list N.
Variable flags : N.
Hypothesis Lkey : length key = 8%nat.
Hypothesis Wkey : words key.
Hypothesis Neon : use_avx512 o = false /\ use_avx2 o = false /\ use_sse41 o = false /\ use_neon o = true.

Notation F := blake_compress.
Notation ccv := (SpecFacts.ccv key flags).
Notation is32 := (fun h : list N => len h = 32 /\ bytes h).

Lemma one_chunk_big : forall input out, 2048 <= len input -> bytes input -> len out = 512 ->
  c_hash_many_on true hash4 o [input] 32 key 0 CHUNK_OFFSET_DELTAS flags C_CHUNK_START C_CHUNK_END out
  = Ok (swap_words (ccv 0 (take 2048 input)) ++ drop 32 out).
Proof.
  intros input out L B Lo. destruct Neon as (N1 & N2 & N3 & N4).
  unfold c_hash_many_on. rewrite N1, N2, N3, N4. unfold hash_many_neon_on, single_loop.
  cbn [many_loop length]. change (4 <=? len [input]) with false. change (1 <=? len [input]) with true.
  cbn [many_loop length]. change (1 <=? len [input]) with true. cbn match.
  change (take 1 [input]) with [input]. change (drop 1 [input]) with (@nil (list N)).
  change (index [input] 0) with (Ok input). cbn [bind].
  pose proof (hash_one_ok compress_portable bytes_of_words c_portable_comp_ok (fun _ _ => eq_refl)
                input 32 key 0 flags C_CHUNK_START C_CHUNK_END) as H.
  unfold hash_one_neon_on.
  destruct (hash_one_loop compress_portable (N.to_nat 32) key input 0
              (N.lor flags C_CHUNK_START) flags C_CHUNK_END) as [st| |]; cbn [bind] in *.
  2, 3: assert (Z : Panic = Ok 0) by (exfalso; assert (Q := H ltac:(lia) B Lkey Wkey eq_refl); discriminate Q);
        discriminate Z.
  specialize (H ltac:(lia) B Lkey Wkey eq_refl). injection H as H.
  rewrite swap_state, H. cbn [bind].
  change (index CHUNK_OFFSET_DELTAS 1) with (Ok 2048). cbn [bind].
  change (1 * C_OUT_LEN) with 32. unfold slice_from.
  rewrite (proj2 (N.leb_le _ _)) by lia. cbn [bind].
  change (1 <=? len (@nil (list N))) with false. cbn match. cbn [bind].
  do 2 f_equal. change (64 * 32) with 2048.
  pose proof (hash_all_cvs key flags [take 2048 input] 0) as E.
  cbn [hash_all SpecFacts.cvs] in E. change (2048 * 0) with 0 in E.
  assert (E' := E ltac:(constructor; [rewrite len_take; lia|constructor])).
  injection E' as E'. exact (f_equal swap_words E').
Qed.

Lemma update_big : forall memory input junk, len memory = 53 * 32 -> len junk = 512 ->
  bytes input -> 2048 < len input < 4096 ->
  (let* h := hasher_update_on true hash4 o junk (CHasher (chunk_state_init key flags) 0 memory) input in
   hasher_finalize o h)
  = Ok (take 32 (root_block F (parent_node key flags (swap_words (ccv 0 (take 2048 input)))
                                 (ccv 1 (drop 2048 input))) 0)).
Proof.
  intros memory input junk Lm Lj B [G1 G2].
  set (x := swap_words (ccv 0 (take 2048 input))). set (rest := drop 2048 input).
  assert (Sc : is32 (ccv 0 (take 2048 input))) by (apply SpecFacts.ccv_shape; auto; now apply bytes_take).
  assert (Sx : is32 x).
  { unfold x. rewrite len_swap. split; [apply Sc|apply bytes_swap; apply Sc]. }
  assert (Lx : len x = 32) by (cbn beta in Sx; tauto).
  assert (Lr : 0 < len rest < 2048) by (unfold rest; rewrite len_drop; lia).
  assert (Br : bytes rest) by now apply bytes_drop.
  set (h0 := CHasher (chunk_state_init key flags) 0 memory).
  unfold hasher_update_on. change C_CHUNK_LEN with 2048.
  change (chunk_state_len (c_chunk_of h0)) with 0.
  rewrite (proj2 (N.eqb_neq (len input) 2048)) by lia. rewrite andb_false_r.
  change (false || (0 <? 0)) with false. cbn match.
  unfold hasher_update_rest_on.
  (* the whole chunk *)
  assert (El : length input = S (pred (length input))) by (unfold len in G1; lia).
  rewrite El. cbn [chunks_loop_on]. change C_CHUNK_LEN with 2048.
  rewrite (proj2 (N.leb_le 2048 (len input))) by lia.
  assert (Eg : gather_chunks (N.to_nat C_MAX_SIMD_DEGREE) input = ([input], rest)).
  { change (N.to_nat C_MAX_SIMD_DEGREE) with 16%nat. cbn [gather_chunks]. change C_CHUNK_LEN with 2048.
    rewrite (proj2 (N.leb_le 2048 (len input))) by lia. fold rest.
    rewrite (proj2 (N.leb_gt 2048 (len rest))) by lia. reflexivity. }
  rewrite Eg. cbn [c_chunk_of h0 chunk_state_init k_key k_offset k_flags].
  change (2048 / C_BLOCK_LEN) with 32.
  rewrite one_chunk_big by (auto; lia). fold x. cbn [bind length push_chunks].
  change (0 * C_OUT_LEN) with 0. change C_OUT_LEN with 32.
  rewrite slice_ok by (rewrite len_app; lia). rewrite drop_0, take_app_eq by auto. cbn [bind].
  change (k_offset (c_chunk_of h0)) with (2048 * len (@nil (list N))).
  assert (Lim : limit o (53 * 32) (2048 * (len (@nil (list N)) + 1))).
  { split; [reflexivity|]. split; [right; reflexivity|left; lia]. }
  destruct (c_push_ok o key flags Lkey Wkey (53 * 32) h0 [] [] x) as (h1 & st1 & E1 & C1 & S1 & R1); auto.
  { now apply init_stk. }
  { left. left. split; reflexivity. }
  fold h0. rewrite E1. cbn [bind]. rewrite C1.
  assert (Z1 : st1 = []).
  { pose proof (rep_len _ _ _ _ _ R1) as P. change (popcount (len [])) with 0 in P. now apply len_0_nil. }
  subst st1. cbn [app] in S1. clear R1.
  set (s1 := CChunk _ _ _ _ _ _ _). set (h2 := CHasher s1 (c_stack_len h1) (c_stack h1)).
  assert (Eend : chunks_loop_on true hash4 o (pred (length input)) h2 rest (x ++ drop 32 junk) = Ok (h2, rest)).
  { destruct (pred (length input)); cbn [chunks_loop_on]; change C_CHUNK_LEN with 2048;
      rewrite (proj2 (N.leb_gt 2048 (len rest))) by lia; reflexivity. }
  rewrite Eend. cbn [bind]. rewrite (proj2 (N.ltb_lt 0 (len rest))) by lia.
  (* the rest of the input *)
  assert (S2 : stk (53 * 32) h2 [x]) by exact S1.
  assert (R2 : TreeFacts.rep (@nil N) (SpecFacts.pcv key flags) [x] [x]).
  { apply (rep_snoc _ _ _ [] [] [x] 0); [constructor|reflexivity|reflexivity]. }
  change (k_offset (c_chunk_of h2)) with (2048 * len [x]).
  unfold hasher_merge_all.
  rewrite (c_merge_id o key flags Lkey (53 * 32) h2 [x] [x] _ S2 R2) by reflexivity. cbn [bind].
  destruct (ck_update_ok o key flags Lkey s1 1 [] rest) as (s2 & E2 & H2); auto.
  { apply (ck_fresh key flags Lkey Wkey 1). }
  { rewrite len_nil. lia. }
  { reflexivity. }
  change (c_chunk_of h2) with s1. rewrite E2. cbn [bind app] in *.
  (* finalize *)
  destruct S2 as (Sl & _ & _ & tl & Es & _).
  unfold hasher_finalize. unfold h2 in *. cbn [c_stack_len c_chunk_of c_stack] in *.
  rewrite Sl. change (len [x] =? 0) with false. cbn match.
  rewrite (ck_len_ok key flags Lkey _ _ _ H2). rewrite (proj2 (N.ltb_lt 0 (len rest))) by lia.
  cbn [bind]. rewrite sub_size_ok by (unfold W32; cbn; lia).
  change ((len [x] - 1) * C_OUT_LEN) with 0. rewrite N.mod_0_l by (unfold WS; destruct (size32 o); discriminate).
  rewrite (ck_finalize_chain o key flags Lkey Wkey _ _ _ H2 Br) by reflexivity.
  destruct (ck_fields key flags _ _ _ H2) as (Hk & Hf & _).
  change 0 with (len (@nil (list N)) * 32).
  erewrite (finalize_up_ok o key flags Lkey Wkey [] _ _ _ x tl 0).
  - reflexivity.
  - exact Es.
  - constructor; auto.
  - now apply SpecFacts.ccv_shape.
  - exact Hk.
  - exact Hf.
  - cbn. lia.
  - rewrite len_nil. lia.
  - lia.
Qed.

End Key.

Lemma two_chunks : forall hash4 o memory key flags input junk,
  use_avx512 o = false -> use_avx2 o = false -> use_sse41 o = false -> use_neon o = true ->
  length key = 32%nat -> bytes key -> c_updates_ok [(input, junk)] -> len memory = 53 * 32 ->
  2048 < len input < 4096 ->
  let k := words_of_bytes key in
  let first := chain blake_compress (chunk_node blake_compress k flags 0 (take 2048 input)) in
  let second := chain blake_compress (chunk_node blake_compress k flags 1 (drop 2048 input)) in
  c_hash_on true hash4 o memory key flags [(input, junk)]
  = Ok (take 32 (root_block blake_compress (parent_node k flags (swap_words first) second) 0)) /\
  c_hash_on false hash4_neon o memory key flags [(input, junk)]
  = Ok (take 32 (root_block blake_compress (parent_node k flags first second) 0)).
Proof.
  intros hash4 o memory key flags input junk N1 N2 N3 N4 Lk Bk U Lm L k first second.
  pose proof (Forall_inv U) as [B Lj]. cbn [fst snd] in B, Lj.
  split.
  - unfold c_hash_on, hasher_init. cbn [c_updates_on].
    destruct (key_words key Lk Bk) as (E & L8 & W). rewrite E.
    etransitivity;
      [|exact (update_big hash4 o _ flags L8 W (conj N1 (conj N2 (conj N3 N4))) memory input junk Lm Lj B L)].
    destruct (hasher_update_on true hash4 o junk _ input); reflexivity.
  - rewrite order_ok; auto.
    2: { unfold c_data. cbn [map concat fst]. rewrite app_nil_r.
         change (2 ^ 63) with 9223372036854775808. lia. }
    unfold c_data. cbn [map concat fst]. rewrite app_nil_r. fold k.
    do 3 f_equal. unfold root_node.
    rewrite pieces_step by lia. rewrite pieces_short by (rewrite ?len_drop; lia).
    change (N.to_nat (N.log2_up (len [take 2048 input; drop 2048 input]))) with 1%nat.
    cbn [subtree]. change (2 ^ N.of_nat 0) with 1.
    change (len [take 2048 input; drop 2048 input] <=? 1) with false. cbn match. reflexivity.
Qed.

(* ---- a message whose hash is wrong ---- *)

Lemma dec_ne : forall a b : list N, (if list_eq_dec N.eq_dec a b then false else true) = true -> a <> b.
Proof. intros a b. destruct (list_eq_dec N.eq_dec a b) as [E|E]; [discriminate|auto]. Qed.

Lemma differs :
  let first := chain blake_compress (chunk_node blake_compress IV 0 0 (take 2048 (sample 2049))) in
  let second := chain blake_compress (chunk_node blake_compress IV 0 1 (drop 2048 (sample 2049))) in
  take 32 (root_block blake_compress (parent_node IV 0 (swap_words first) second) 0)
  <> take 32 (root_block blake_compress (parent_node IV 0 first second) 0).
Proof. intros first second. apply dec_ne. vm_compute. reflexivity. Qed.

Lemma hashing_hash : forall m, spec_hash blake_compress Hashing m
  = take 32 (root_block blake_compress (root_node blake_compress IV 0 m) 0).
Proof. reflexivity. Qed.

Lemma ok_inj : forall (a b : list N), Ok a = Ok b -> a = b.
Proof. intros a b E. now injection E. Qed.

Lemma big_wrong : forall hash4 o memory junk,
  use_avx512 o = false -> use_avx2 o = false -> use_sse41 o = false -> use_neon o = true ->
  len memory = 53 * 32 -> len junk = 512 ->
  exists h, c_hash_on true hash4 o memory (bytes_of_words IV) 0 [(sample 2049, junk)] = Ok h /\
            h <> spec_hash blake_compress Hashing (sample 2049).
Proof.
  intros hash4 o memory junk N1 N2 N3 N4 Lm Lj.
  assert (U : c_updates_ok [(sample 2049, junk)]).
  { constructor; [|constructor]. split; [apply sample_bytes|exact Lj]. }
  assert (Lk : length (bytes_of_words IV) = 32%nat) by reflexivity.
  assert (Bk : bytes (bytes_of_words IV)) by apply bytes_of_words_bytes.
  destruct (two_chunks hash4 o memory (bytes_of_words IV) 0 (sample 2049) junk)
    as [E1 E2]; auto.
  { rewrite sample_len. lia. }
  rewrite order_ok in E2; auto.
  2: { unfold c_data. cbn [map concat fst]. rewrite app_nil_r, sample_len. discriminate. }
  apply ok_inj in E2. eexists. split; [exact E1|]. clear E1.
  assert (K : words_of_bytes (bytes_of_words IV) = IV) by reflexivity. rewrite K in *. clear K.
  unfold c_data in E2. cbn [map concat fst] in E2. rewrite app_nil_r in E2.
  rewrite hashing_hash, E2. exact differs.
Qed.

Lemma order_refuted : ~ (forall big o, exists hash4, forall memory m us,
  mode_ok m -> c_updates_ok us -> len memory = 53 * 32 -> len (c_data us) <= 2 ^ 63 ->
  c_hash_on big hash4 o memory (bytes_of_words (mode_key m)) (mode_flags m) us
  = Ok (spec_hash blake_compress m (c_data us))).
Proof.
  intros H. destruct (H true (COpts false false false true false false false)) as [hash4 H1].
  destruct (big_wrong hash4 (COpts false false false true false false false) (zeros (53 * 32)) (zeros 512))
    as (h & E & Ne); auto; try apply len_zeros.
  apply Ne. specialize (H1 (zeros (53 * 32)) Hashing [(sample 2049, zeros 512)] I).
  assert (D : c_data [(sample 2049, zeros 512)] = sample 2049).
  { unfold c_data. cbn [map concat fst]. apply app_nil_r. }
  rewrite D in H1. change (mode_key Hashing) with IV in H1. change (mode_flags Hashing) with 0 in H1.
  rewrite E in H1. assert (Q := H1 ltac:(constructor; [split; [apply sample_bytes|apply len_zeros]|constructor])
                       (len_zeros _) ltac:(rewrite sample_len; discriminate)).
  now apply ok_inj in Q.
Qed.
