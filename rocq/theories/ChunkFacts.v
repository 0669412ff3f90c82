(* One chunk, several chunks, and one layer of parents in the model of lib.rs. *)
From Coq Require Import NArith List Bool Lia ZArith.
From Coq Require Import ZifyBool ZifyNat ZifyN.
From Verif Require Import Base BaseFacts Spec TreeFacts CompressFacts ManyFacts SpecFacts.
From Verif Require Import Portable Platform Lib.
Import ListNotations.
Open Scope N_scope.

Notation F := blake_compress.

(* The Output that stands for a node. *)
Definition out_of (p : platform) (nd : node) (r : is_root) : output :=
  Output (nd_cv nd) (nd_block nd) (nd_blen nd) (nd_off nd)
         (N.lor (nd_flags nd) (root_flag r)) p.

Lemma bytes_from_state_words_eq : forall ws, length ws = 8%nat ->
  bytes_from_state_words ws = bytes_of_words ws.
Proof.
  intros ws H. destruct (list8 ws H) as (a & b & c & d & e & f & g & h & ->). reflexivity.
Qed.

Lemma compress_eq : forall p cv block blen off flags,
  length cv = 8%nat -> words cv -> length block = 64%nat -> bytes block -> off < W64 ->
  Platform.compress p cv block blen off flags = firstn 8 (F cv block blen off flags).
Proof. intros. now apply (compress_ok p). Qed.

Lemma to_hash_chain : forall p nd, nd_wf nd -> to_hash (out_of p nd NotRoot) = chain F nd.
Proof.
  intros p nd [L W Lb Bb Ho]. unfold to_hash, out_of, chain.
  cbn [o_platform o_cv o_block o_block_len o_offset o_flags root_flag].
  rewrite N.lor_0_r, compress_eq by auto.
  apply bytes_from_state_words_eq. now apply blake_shape8.
Qed.

Lemma to_hash_root : forall p nd, nd_wf nd -> nd_off nd = 0 ->
  to_hash (out_of p nd Root) = take 32 (root_block F nd 0).
Proof.
  intros p nd [L W Lb Bb Ho] E. unfold to_hash, out_of, root_block.
  cbn [o_platform o_cv o_block o_block_len o_offset o_flags root_flag].
  rewrite compress_eq by auto. rewrite E.
  rewrite bytes_from_state_words_eq by now apply blake_shape8.
  change 32 with (4 * 8). rewrite take_bytes_of_words. reflexivity.
Qed.

Lemma push_all_ok : forall A cap (l acc : list A), len acc + len l <= cap ->
  push_all cap acc l = Ok (acc ++ l).
Proof.
  induction l as [|x l IH]; intros acc H; cbn [push_all].
  - now rewrite app_nil_r.
  - rewrite len_cons in H. rewrite push_cap_ok by lia. cbn [bind]. rewrite IH by lenlia.
    now rewrite <- app_assoc.
Qed.

Lemma concat_32 : forall l : list (list N), Forall (fun h => len h = 32 /\ bytes h) l ->
  len (concat l) = 32 * len l.
Proof.
  intros l H. apply len_concat_const. eapply Forall_impl; [|exact H]. cbn. tauto.
Qed.

Lemma bytes_concat : forall (l : list (list N)), Forall bytes l -> bytes (concat l).
Proof.
  induction l; intros H; [constructor|]. inversion H; subst. cbn [concat].
  apply bytes_app. auto.
Qed.

Fixpoint pcat (l : list (list N)) : list (list N) :=
  match l with a :: b :: r => (a ++ b) :: pcat r | _ => [] end.
Fixpoint odd_last (l : list (list N)) : list N :=
  match l with _ :: _ :: r => odd_last r | [x] => x | [] => [] end.

Lemma chunks_exact_pcat : forall l, Forall (fun h => len h = 32 /\ bytes h) l ->
  chunks_exact 64 (concat l) = (pcat l, odd_last l).
Proof.
  intros l. induction l as [|a|a b l IH] using list2_ind; intros H.
  - reflexivity.
  - inversion H as [|? ? [La _] _]; subst. cbn [concat pcat odd_last]. rewrite app_nil_r.
    apply chunks_exact_short. lia.
  - inversion H as [|? ? [La _] H']; subst. inversion H' as [|? ? [Lb _] H'']; subst.
    cbn [concat pcat odd_last]. rewrite app_assoc.
    rewrite chunks_exact_step by lenlia.
    rewrite take_app_eq, drop_app_eq by lenlia. now rewrite IH.
Qed.

Section Key.
Variable c : cfg.
Variable p : platform.
Variable key : list N.
Variable flags : N.
Hypothesis Pok : platform_ok c p.
Hypothesis Lkey : length key = 8%nat.
Hypothesis Wkey : words key.

Notation cvs := (SpecFacts.cvs key flags).
Notation ccv := (SpecFacts.ccv key flags).
Notation pcv := (SpecFacts.pcv key flags).

(* ---- hash_one_chunk ---- *)

Definition hoc_tail (chunk : list N) (offset : N) (r : is_root)
  (x : output + (list N * N * N)) : res output :=
  match x with
  | inl o => Ok o
  | inr (cv, block_flags, block_offset) =>
      let* block_len := subU c (len chunk) block_offset in
      let* src := slice_from chunk block_offset in
      let last_block := zeros BLOCK_LEN in
      let* dst := slice_to last_block block_len in
      assert_ (len dst =? len src) ;;
      let* last_block := copy_at last_block 0 src in
      Ok (Output cv last_block (block_len mod 256) offset
            (N.lor (N.lor block_flags Lib.CHUNK_END) (root_flag r)) p)
  end.

Lemma hoc_loop_ok : forall fuel chunk b cv off r start,
  bytes chunk -> len chunk <= 2048 -> b <= len chunk -> len chunk - b <= N.of_nat fuel ->
  length cv = 8%nat -> words cv -> off < W64 ->
  bind (hash_one_chunk_loop c p fuel chunk cv off r flags (N.lor flags start) b)
       (hoc_tail chunk off r)
  = Ok (out_of p (chunk_blocks F cv off flags start (pieces 64 (drop b chunk))) r).
Proof.
  induction fuel as [|fuel IH]; intros chunk b cv off r start B L Hb Hf Lc Wc Ho.
  - pose proof (WU_W32 c) as WU. unfold W32 in WU.
    cbn [hash_one_chunk_loop]. change BLOCK_LEN with 64. rewrite addU_ok by lia. cbn [bind].
    destruct (N.leb_spec (b + 64) (len chunk)); [lia|]. cbn [bind hoc_tail].
    rewrite subU_ok by lia. cbn [bind]. rewrite slice_from_ok by lia. cbn [bind].
    rewrite slice_to_ok by (rewrite len_zeros; change BLOCK_LEN with 64; lia). cbn [bind].
    rewrite assert_ok by (autorewrite with len; change BLOCK_LEN with 64; lia). cbn [bind].
    rewrite copy_at_ok by (autorewrite with len; change BLOCK_LEN with 64; lia). cbn [bind].
    rewrite pieces_short by lenlia. cbn [chunk_blocks]. unfold out_of.
    cbn [nd_cv nd_block nd_blen nd_off nd_flags]. unfold pad64.
    rewrite drop_all by lia. rewrite len_nil. replace (len chunk - b) with 0 by lia. reflexivity.
  - pose proof (WU_W32 c) as WU. unfold W32 in WU.
    cbn [hash_one_chunk_loop]. change BLOCK_LEN with 64. rewrite addU_ok by lia. cbn [bind].
    destruct (N.leb_spec (b + 64) (len chunk)).
    + destruct (N.eqb_spec (b + 64) (len chunk)) as [E|E].
      * rewrite slice_ok by lia. cbn [bind hoc_tail].
        rewrite pieces_short by lenlia. cbn [chunk_blocks]. unfold out_of.
        cbn [nd_cv nd_block nd_blen nd_off nd_flags]. unfold pad64.
        rewrite len_drop. replace (len chunk - b) with 64 by lia.
        rewrite take_all by lenlia. change (zeros (64 - 64)) with (@nil N). rewrite app_nil_r.
        reflexivity.
      * rewrite slice_ok by lia. cbn [bind].
        assert (Lb : length (take 64 (drop b chunk)) = 64%nat).
        { apply (len_length _ _ 64). lenlia. }
        assert (Bb : bytes (take 64 (drop b chunk))) by now apply bytes_take, bytes_drop.
        rewrite compress_eq by auto.
        rewrite <- (N.lor_0_r flags) at 3.
        rewrite IH; auto; try lia; try now apply blake_shape8.
        rewrite (pieces_step _ 64 (drop b chunk)) by (try rewrite len_drop; lia).
        rewrite drop_drop. replace (64 + b) with (b + 64) by lia.
        assert (P : exists q qs, pieces 64 (drop (b + 64) chunk) = q :: qs).
        { pose proof (pieces_len_1 _ 64 (drop (b + 64) chunk) eq_refl) as P.
          destruct (pieces 64 (drop (b + 64) chunk)); [|eauto]. rewrite len_nil in P. lia. }
        destruct P as (q & qs & ->). reflexivity.
    + cbn [bind hoc_tail].
      rewrite subU_ok by lia. cbn [bind]. rewrite slice_from_ok by lia. cbn [bind].
      rewrite slice_to_ok by (rewrite len_zeros; change BLOCK_LEN with 64; lia). cbn [bind].
      rewrite assert_ok by (autorewrite with len; change BLOCK_LEN with 64; lia). cbn [bind].
      rewrite copy_at_ok by (autorewrite with len; change BLOCK_LEN with 64; lia). cbn [bind].
      rewrite pieces_short by lenlia. cbn [chunk_blocks]. unfold out_of.
      cbn [nd_cv nd_block nd_blen nd_off nd_flags]. unfold pad64.
      rewrite take_0, N.add_0_l, len_drop. cbn [app].
      rewrite N.mod_small by lia. do 3 f_equal. unfold zeros, drop, BLOCK_LEN.
      remember (len chunk - b) as k eqn:Ek. assert (Hk : k < 64) by lia. clear -Hk.
      replace (N.to_nat 64) with (N.to_nat k + N.to_nat (64 - k))%nat by lia.
      rewrite repeat_app. rewrite skipn_app, skipn_all2 by (rewrite repeat_length; lia).
      rewrite repeat_length, Nat.sub_diag. reflexivity.
Qed.

Lemma hash_one_chunk_ok : forall i chunk r, bytes chunk -> len chunk <= 2048 ->
  2048 * i < W64 -> (r = Root -> i = 0) ->
  hash_one_chunk c p chunk key (2048 * i) r flags = Ok (out_of p (chunk_node F key flags i chunk) r).
Proof.
  intros i chunk r B L Ho Hr. unfold hash_one_chunk.
  assert (E : (match r with Root => dassert c (2048 * i =? 0) | NotRoot => Ok tt end) = Ok tt).
  { destruct r; [reflexivity|]. rewrite Hr by auto. now apply dassert_ok. }
  rewrite E. cbn [bind].
  apply (hoc_loop_ok (length chunk) chunk 0 key (2048 * i) r CHUNK_START); auto; try lia.
  unfold len. lia.
Qed.

(* ---- many ---- *)

Lemma simd_degree_max : simd_degree p <= MAX_SIMD_DEGREE c.
Proof.
  unfold MAX_SIMD_DEGREE, platform_ok in *.
  destruct p; cbn in *; destruct (x86 c); try discriminate; lia.
Qed.

Lemma hash_chunks_parallel_ok : forall input i out,
  bytes input -> 1 <= len input -> len input <= MAX_SIMD_DEGREE c * 2048 ->
  2048 * i + len input < W64 -> 32 * len (pieces 2048 input) <= len out ->
  hash_chunks_parallel c p input key (2048 * i) flags out
  = Ok (concat (cvs i (pieces 2048 input)) ++ drop (32 * len (pieces 2048 input)) out,
        len (pieces 2048 input)).
Proof.
  intros input i out B H1 H2 H3 H4. unfold hash_chunks_parallel.
  change CHUNK_LEN with 2048. rewrite dassert_ok by lia. cbn [bind].
  rewrite dassert_ok by lia. cbn [bind].
  rewrite dassert_ok by lia. cbn [bind].
  pose proof (pieces_exact _ 2048 input eq_refl H1) as PE.
  pose proof (chunks_exact_spec _ 2048 input eq_refl) as CS.
  destruct (chunks_exact 2048 input) as [cs rm]. cbn [fst snd] in PE.
  destruct CS as (C1 & C2 & C3 & C4).
  rewrite push_all_ok by (rewrite len_nil; lia). cbn [bind app].
  assert (Bc : Forall bytes cs /\ bytes rm).
  { rewrite <- C1 in B. apply bytes_app in B. destruct B as [B1 B2]. split; auto.
    clear -B1. induction cs; constructor; cbn in B1; apply bytes_app in B1; tauto. }
  destruct Bc as [Bc Br].
  assert (Lp : len cs <= len (pieces 2048 input)) by (rewrite PE; lenlia).
  rewrite hash_many_ok; auto; try lia.
  2: { rewrite Forall_forall in *. auto. }
  cbn [bind]. rewrite hash_all_cvs by auto.
  assert (Sc : Forall (fun h => len h = 32 /\ bytes h) (cvs i cs)) by now apply cvs_shape.
  destruct rm as [|x rm].
  - cbn [negb N.eqb]. rewrite app_nil_r in PE. rewrite PE. reflexivity.
  - remember (x :: rm) as r0 eqn:Er. rewrite PE.
    assert (Hr : len r0 <> 0) by (subst; rewrite len_cons; lia).
    assert (Hl : len input = 2048 * len cs + len r0).
    { rewrite <- C1, len_app, (len_concat_const _ 2048) by auto. lia. }
    rewrite (proj2 (N.eqb_neq _ _) Hr). cbn [negb].
    rewrite mul64_ok by lia. cbn [bind]. rewrite add64_ok by lia. cbn [bind].
    replace (2048 * i + len cs * 2048) with (2048 * (i + len cs)) by lia.
    rewrite hash_one_chunk_ok; auto; try lia; try discriminate. cbn [bind].
    rewrite to_hash_chain by (apply chunk_node_wf; auto; lia).
    change (chain F (chunk_node F key flags (i + len cs) r0)) with (ccv (i + len cs) r0).
    destruct (ccv_shape key flags Lkey Wkey (i + len cs) r0 Br) as [Lh _].
    rewrite PE in H4. rewrite len_app, len_cons, len_nil in H4.
    rewrite copy_at_ok.
    2: { change OUT_LEN with 32. rewrite len_app, concat_32, len_cvs, len_drop by auto. lia. }
    cbn [bind]. change OUT_LEN with 32. rewrite Lh, len_app, len_cons, len_nil.
    rewrite cvs_app, concat_app. cbn [SpecFacts.cvs concat]. rewrite app_nil_r.
    rewrite take_app_eq by (rewrite concat_32, len_cvs by auto; lia).
    rewrite drop_app_ge by (rewrite concat_32, len_cvs by auto; lia).
    rewrite concat_32, len_cvs, drop_drop by auto.
    rewrite <- app_assoc. do 5 f_equal; lia.
Qed.

(* ---- parents ---- *)

Lemma pcat_facts : forall l, Forall (fun h => len h = 32 /\ bytes h) l ->
  Forall (fun i => len i = 64 /\ bytes i) (pcat l) /\ len (pcat l) = len l / 2 /\
  pairs pcv l = hash_all F key (N.lor flags PARENT) 0 0 0 0 (pcat l)
             ++ (match odd_last l with [] => [] | r => [r] end) /\
  len (odd_last l) = 32 * (len l mod 2).
Proof.
  intros l. induction l as [|a|a b l IH] using list2_ind; intros H.
  - repeat split; constructor.
  - inversion H as [|? ? [La _] _]; subst. cbn [pcat odd_last pairs hash_all app].
    repeat split; [constructor| |rewrite La; reflexivity].
    destruct a; [rewrite len_nil in La; lia|reflexivity].
  - inversion H as [|? ? [La Ba] H']; subst. inversion H' as [|? ? [Lb Bb] H'']; subst.
    destruct (IH H'') as (I1 & I2 & I3 & I4). cbn [pcat odd_last pairs hash_all].
    repeat split.
    + constructor; auto. split; [lenlia|apply bytes_app; auto].
    + rewrite !len_cons, I2. lia.
    + rewrite hash_one_pcv by auto. cbn [app]. f_equal. exact I3.
    + rewrite I4, !len_cons. lia.
Qed.

Lemma pairs_shape : forall l, Forall (fun h => len h = 32 /\ bytes h) l ->
  Forall (fun h => len h = 32 /\ bytes h) (pairs pcv l).
Proof.
  intros l. induction l as [|a|a b l IH] using list2_ind; intros H; cbn [pairs]; auto.
  inversion H as [|? ? _ H']; subst. inversion H'; subst.
  constructor; auto. now apply pcv_shape.
Qed.

Lemma hash_parents_parallel_ok : forall l out,
  Forall (fun h => len h = 32 /\ bytes h) l -> 2 <= len l -> len l <= 2 * MAX_SIMD_DEGREE_OR_2 c ->
  32 * len (pairs pcv l) <= len out ->
  hash_parents_parallel c p (concat l) key flags out
  = Ok (concat (pairs pcv l) ++ drop (32 * len (pairs pcv l)) out, len (pairs pcv l)).
Proof.
  intros l out H H1 H2 H3. unfold hash_parents_parallel. change OUT_LEN with 32.
  change BLOCK_LEN with 64.
  rewrite concat_32 by auto.
  rewrite dassert_ok by lia. cbn [bind].
  replace (32 * len l / 32) with (len l) by lia.
  rewrite dassert_ok by lia. cbn [bind]. rewrite dassert_ok by lia. cbn [bind].
  rewrite chunks_exact_pcat by auto.
  destruct (pcat_facts l H) as (P1 & P2 & P3 & P4).
  pose proof (len_pairs _ pcv l) as LP.
  rewrite push_all_ok by (rewrite len_nil; lia). cbn [bind app].
  change (N.lor flags Lib.PARENT) with (N.lor flags PARENT).
  rewrite hash_many_ok; auto; try reflexivity.
  2: { rewrite P2. lia. }
  2: { unfold W64. lia. }
  cbn [bind].
  assert (LL : len (hash_all F key (N.lor flags PARENT) 0 0 0 0 (pcat l)) = len (pcat l)).
  { clear. generalize 0 at 3 as o. induction (pcat l); intros; cbn [hash_all]; auto.
    rewrite !len_cons. now rewrite IHl0. }
  assert (LH : len (concat (hash_all F key (N.lor flags PARENT) 0 0 0 0 (pcat l))) = 32 * len (pcat l)).
  { rewrite (len_concat_const _ 32); [now rewrite LL|].
    pose proof (pairs_shape l H) as PS. rewrite P3 in PS. apply Forall_app in PS.
    destruct PS as [PS _]. eapply Forall_impl; [|exact PS]. cbn. tauto. }
  destruct (odd_last l) as [|x rm] eqn:Eo.
  - cbn [N.eqb negb len length N.of_nat]. rewrite app_nil_r in P3. rewrite P3, LL. reflexivity.
  - rewrite <- Eo in *. 
    assert (Hr : len (odd_last l) <> 0) by (rewrite Eo, len_cons; lia).
    rewrite (proj2 (N.eqb_neq _ _) Hr). cbn [negb].
    assert (L32 : len (odd_last l) = 32) by lia.
    assert (P3' : pairs pcv l = hash_all F key (N.lor flags PARENT) 0 0 0 0 (pcat l) ++ [odd_last l]).
    { rewrite P3. rewrite Eo. reflexivity. }
    rewrite slice_from_ok by (rewrite len_app, LH, len_drop; lia). cbn [bind].
    rewrite slice_to_ok by (rewrite len_drop, len_app, LH, len_drop; lia). cbn [bind].
    rewrite assert_ok by (rewrite len_take, len_drop, len_app, LH, len_drop; lia). cbn [bind].
    rewrite copy_at_ok by (rewrite len_app, LH, len_drop; lia). cbn [bind].
    rewrite take_app_eq by (rewrite LH; lia).
    rewrite drop_app_ge by (rewrite LH; lia).
    rewrite LH, drop_drop, P3', concat_app, len_app, LL, L32, len_cons, len_nil. cbn [concat].
    rewrite app_nil_r, <- app_assoc. do 5 f_equal; lia.
Qed.

End Key.
