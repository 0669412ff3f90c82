(* The calls made by the one-shot functions.  To compare lists of calls that differ in
   their order, the calls are added up under an arbitrary weight. *)
From Coq Require Import NArith List Bool Lia ZArith.
From Coq Require Import ZifyBool ZifyNat ZifyN.
From Verif Require Import Base BaseFacts Spec TreeFacts CompressFacts ManySpec ManyFacts SpecFacts.
From Verif Require Import Portable Platform Lib Session ChunkFacts LibFacts Calls LibCalls TraceFacts.
Import ListNotations.
Open Scope N_scope.

Notation CHUNK_START := Spec.CHUNK_START.
Notation CHUNK_END := Spec.CHUNK_END.
Notation PARENT := Spec.PARENT.

Lemma tbind_ok : forall A B (m : tr A) (f : A -> tr B) s v, snd (m s) = Ok v ->
  tbind m f s = f v (fst (m s)).
Proof. intros A B m f s v H. unfold tbind. destruct (m s) as [s' r]. cbn in *. now subst. Qed.
Lemma lift_ok : forall A B (r : res A) (f : A -> tr B) s v, r = Ok v ->
  tbind (lift r) f s = f v s.
Proof. intros A B r f s v ->. reflexivity. Qed.
(* a step of a traced function whose effect is known *)
Lemma tbind_eq : forall A B (m : tr A) (f : A -> tr B) s s' v, m s = (s', Ok v) ->
  tbind m f s = f v s'.
Proof. intros A B m f s s' v H. unfold tbind. now rewrite H. Qed.
Lemma run_pair : forall A (m : tr A) r s, returns m r -> m s = (fst (m s), r).
Proof. intros A m r s H. rewrite <- (H s). apply surjective_pairing. Qed.

Lemma t_hash_many_run : forall c p cap inputs key off d fl fs fe out v s,
  hash_many c p cap inputs key off d fl fs fe out = Ok v ->
  t_hash_many c p cap inputs key off d fl fs fe out s
  = (s ++ many_calls p inputs key off d fl fs fe, Ok v).
Proof. intros. unfold t_hash_many, note, tbind, lift. now rewrite H. Qed.

Section Weight.
Variable w : node -> N.

Definition W (l : list node) : N := fold_right (fun x n => w x + n) 0 l.
Lemma W_nil : W [] = 0. Proof. reflexivity. Qed.
Lemma W_cons : forall x l, W (x :: l) = w x + W l. Proof. reflexivity. Qed.
Lemma W_app : forall a b, W (a ++ b) = W a + W b.
Proof. induction a as [|x a IH]; intros b; cbn [app]; rewrite ?W_cons, ?IH; cbn [W fold_right]; lia. Qed.

Section Key.
Variable c : cfg.
Variable p : platform.
Variable key : list N.
Variable flags : N.
Hypothesis Pok : platform_ok c p.
Hypothesis Lkey : length key = 8%nat.
Hypothesis Wkey : words key.

Notation cvs := (SpecFacts.cvs key flags).
Notation ccv := (SpecFacts.ccv key flags).
Notation pcv := (SpecFacts.pcv key flags).
Notation is32 := (fun h : list N => len h = 32 /\ bytes h).

(* ---- trees of chaining values with the weight of the calls for them ---- *)

Definition an : Type := (list N * N)%type.
Definition ad : an := ([], 0).
Definition apar (a b : an) : an :=
  (pcv (fst a) (fst b), snd a + snd b + w (parent_node key flags (fst a) (fst b))).
(* the calls of a chunk before its last one *)
Definition cw (i : N) (data : list N) : N :=
  W (chunk_calls F key (2048 * i) flags CHUNK_START (pieces 64 data)).
Definition acv (i : N) (ch : list N) : an := (ccv i ch, cw i ch + w (chunk_node F key flags i ch)).
Fixpoint acvs (i : N) (cs : list (list N)) : list an :=
  match cs with
  | [] => []
  | ch :: r => acv i ch :: acvs (i + 1) r
  end.
Definition vals (l : list an) : list (list N) := map fst l.
Definition sum (l : list an) : N := fold_right (fun x n => snd x + n) 0 l.
Notation lbf := (TreeFacts.lbf ad apar).
Notation topf := (TreeFacts.topf ad apar).

Lemma sum_app : forall a b, sum (a ++ b) = sum a + sum b.
Proof. induction a as [|x a IH]; intros b; cbn [app sum fold_right]; [reflexivity|]. fold (sum (a ++ b)). rewrite IH. unfold sum. lia. Qed.
Lemma sum_one : forall x, sum [x] = snd x.
Proof. intros x. cbn. lia. Qed.
Lemma len_vals : forall l, len (vals l) = len l.
Proof. intros l. unfold len, vals. now rewrite map_length. Qed.
Lemma vals_app : forall a b, vals (a ++ b) = vals a ++ vals b.
Proof. intros a b. apply map_app. Qed.

Lemma len_acvs : forall cs i, len (acvs i cs) = len cs.
Proof. induction cs; intros; cbn [acvs]; [reflexivity|]. now rewrite !len_cons, IHcs. Qed.
Lemma vals_acvs : forall cs i, vals (acvs i cs) = cvs i cs.
Proof. induction cs as [|x cs IH]; intros; [reflexivity|]. cbn [acvs SpecFacts.cvs vals map]. now rewrite <- IH. Qed.
Lemma acvs_app : forall a b i, acvs i (a ++ b) = acvs i a ++ acvs (i + len a) b.
Proof.
  induction a as [|x a IH]; intros b i; cbn [acvs app].
  - now rewrite len_nil, N.add_0_r.
  - rewrite IH, len_cons. do 3 f_equal. lia.
Qed.
Lemma take_acvs : forall n cs i, take n (acvs i cs) = acvs i (take n cs).
Proof.
  intros n cs i. rewrite <- (take_drop _ n cs) at 1. rewrite acvs_app.
  destruct (N.le_gt_cases n (len cs)) as [L|G].
  - apply take_app_eq. rewrite len_acvs, len_take. lia.
  - rewrite (drop_all _ n cs) by lia. cbn [acvs]. rewrite app_nil_r. apply take_all.
    rewrite len_acvs, len_take. lia.
Qed.
Lemma drop_acvs : forall n cs i, n <= len cs -> drop n (acvs i cs) = acvs (i + n) (drop n cs).
Proof.
  intros n cs i H. rewrite <- (take_drop _ n cs) at 1. rewrite acvs_app.
  rewrite drop_app_eq by (rewrite len_acvs, len_take; lia). f_equal. rewrite len_take. lia.
Qed.

Lemma subtree_w : forall k i cs, 1 <= len cs -> len cs <= 2 ^ N.of_nat k ->
  lb ad apar k (acvs i cs)
  = (chain F (subtree F key flags k i cs),
     W (subtree_calls F key flags k i cs) + w (subtree F key flags k i cs)).
Proof.
  induction k as [|k IH]; intros i cs H1 H2.
  - destruct cs; [rewrite len_nil in H1; lia|]. reflexivity.
  - cbn [subtree lb subtree_calls]. rewrite len_acvs. pose proof (pow2_pos (N.of_nat k)) as P.
    assert (E : 2 ^ N.of_nat (S k) = 2 * 2 ^ N.of_nat k).
    { rewrite Nat2N.inj_succ. apply N.pow_succ_r'. }
    destruct (N.leb_spec (len cs) (2 ^ N.of_nat k)) as [L|G]; [now apply IH|].
    rewrite take_acvs, drop_acvs by lia.
    rewrite !IH by (autorewrite with len; lia). unfold apar. cbn [fst snd].
    f_equal. rewrite !W_app, !W_cons, W_nil. lia.
Qed.

Lemma subtree_top_w : forall k i cs, 2 <= len cs -> len cs <= 2 ^ N.of_nat k ->
  subtree F key flags k i cs
  = parent_node key flags (fst (fst (top ad apar k (acvs i cs)))) (fst (snd (top ad apar k (acvs i cs))))
  /\ W (subtree_calls F key flags k i cs)
     = snd (fst (top ad apar k (acvs i cs))) + snd (snd (top ad apar k (acvs i cs))).
Proof.
  induction k as [|k IH]; intros i cs H1 H2.
  - cbn in H2. lia.
  - cbn [subtree top subtree_calls]. rewrite len_acvs. pose proof (pow2_pos (N.of_nat k)) as P.
    assert (E : 2 ^ N.of_nat (S k) = 2 * 2 ^ N.of_nat k).
    { rewrite Nat2N.inj_succ. apply N.pow_succ_r'. }
    destruct (N.leb_spec (len cs) (2 ^ N.of_nat k)) as [L|G]; [now apply IH|].
    rewrite take_acvs, drop_acvs by lia. cbn [fst snd].
    rewrite !subtree_w by (autorewrite with len; lia). cbn [fst snd].
    split; [reflexivity|]. rewrite !W_app, !W_cons, W_nil. lia.
Qed.

(* the calls below the root of an input *)
Definition below (input : list N) : N :=
  let cs := pieces 2048 input in
  W (subtree_calls F key flags (N.to_nat (N.log2_up (len cs))) 0 cs).

Lemma below_small : forall input, len input <= 2048 -> below input = cw 0 input.
Proof. intros input H. unfold below. rewrite pieces_short by lia. reflexivity. Qed.
Lemma below_large : forall input, 2048 < len input ->
  let tp := topf (acvs 0 (pieces 2048 input)) in
  root_node F key flags input = parent_node key flags (fst (fst tp)) (fst (snd tp)) /\
  below input = snd (fst tp) + snd (snd tp).
Proof.
  intros input H. unfold root_node, below, TreeFacts.topf. rewrite len_acvs.
  assert (2 <= len (pieces 2048 input)) by (rewrite pieces_len by lia; lia).
  apply subtree_top_w; auto. rewrite N2Nat.id. apply N.log2_log2_up_spec. lia.
Qed.

(* ---- hash_many ---- *)

Lemma hash1_calls_chunk : forall t fuel l cv off start, len l = 64 * N.of_nat (S t) ->
  (S t <= fuel)%nat -> length cv = 8%nat -> words cv -> off < W64 -> bytes l ->
  hash1_calls (Platform.compress p) fuel cv l off (N.lor flags start) flags CHUNK_END
  = chunk_calls F cv off flags start (pieces 64 l)
    ++ [chunk_blocks F cv off flags start (pieces 64 l)].
Proof.
  induction t as [|t IH]; intros fuel l cv off start L Hf Lc Wc Ho B.
  - destruct fuel as [|fuel]; [lia|]. cbn [hash1_calls]. change BLOCK_LEN with 64.
    rewrite (proj2 (N.leb_le 64 (len l))) by lia. rewrite (proj2 (N.eqb_eq (len l) 64)) by lia.
    rewrite pieces_short by lia. cbn [chunk_calls chunk_blocks app]. unfold pad64.
    rewrite take_all by lia. replace (64 - len l) with 0 by lia.
    change (zeros 0) with (@nil N). rewrite app_nil_r. replace (len l) with 64 by lia.
    rewrite drop_all by lia. destruct fuel; reflexivity.
  - destruct fuel as [|fuel]; [lia|]. cbn [hash1_calls]. change BLOCK_LEN with 64.
    rewrite (proj2 (N.leb_le 64 (len l))) by lia. rewrite (proj2 (N.eqb_neq (len l) 64)) by lia.
    rewrite pieces_step by lia.
    assert (P : exists q qs, pieces 64 (drop 64 l) = q :: qs).
    { pose proof (pieces_len_1 _ 64 (drop 64 l) eq_refl) as P.
      destruct (pieces 64 (drop 64 l)); [|eauto]. rewrite len_nil in P. lia. }
    destruct P as (q & qs & P). rewrite P.
    change (chunk_blocks F cv off flags start (take 64 l :: q :: qs)) with
      (chunk_blocks F (firstn 8 (F cv (take 64 l) 64 off (N.lor flags start))) off flags 0 (q :: qs)).
    change (chunk_calls F cv off flags start (take 64 l :: q :: qs)) with
      (Nd cv (take 64 l) 64 off (N.lor flags start) ::
       chunk_calls F (firstn 8 (F cv (take 64 l) 64 off (N.lor flags start))) off flags 0 (q :: qs)).
    assert (Lb : length (take 64 l) = 64%nat) by (apply (len_length _ _ 64); lenlia).
    assert (Bb : bytes (take 64 l)) by now apply bytes_take.
    rewrite <- P. cbn [app]. f_equal.
    rewrite compress_eq by auto.
    rewrite <- (N.lor_0_r flags) at 2.
    rewrite IH; auto; try lia; try now apply blake_shape8.
    + rewrite len_drop. lia.
    + now apply bytes_drop.
Qed.

Lemma many_calls_chunks : forall cs i, Forall (fun ch => len ch = 2048) cs -> Forall bytes cs ->
  2048 * (i + len cs) <= W64 ->
  W (many_calls p cs key (2048 * i) 2048 flags CHUNK_START CHUNK_END) = sum (acvs i cs).
Proof.
  induction cs as [|x cs IH]; intros i H B L; [reflexivity|].
  inversion H as [|? ? Lx H']; inversion B as [|? ? Bx B']; subst. rewrite len_cons in L.
  cbn [many_calls acvs sum fold_right]. fold (sum (acvs (i + 1) cs)).
  rewrite (hash1_calls_chunk 31); auto; try lia.
  - rewrite !W_app, W_cons, W_nil. replace (2048 * i + 2048) with (2048 * (i + 1)) by lia.
    replace (W (many_calls p cs key (2048 * (i + 1) mod W64) 2048 flags CHUNK_START CHUNK_END))
      with (sum (acvs (i + 1) cs)).
    { unfold acv, cw, chunk_node. cbn [snd]. lia. }
    destruct cs as [|y cs]; [reflexivity|].
    rewrite N.mod_small by (rewrite len_cons in L; lia). symmetry. apply IH; auto. lia.
  - unfold len in Lx. lia.
Qed.

Lemma many_calls_pairs : forall l : list an, Forall is32 (vals l) ->
  sum (pairs apar l)
  = sum l + W (many_calls p (pcat (vals l)) key 0 0 (N.lor flags PARENT) 0 0).
Proof.
  intros l. induction l as [|a|a b l IH] using list2_ind; intros H; try (cbn; lia).
  inversion H as [|? ? [La Ba] H']; subst. inversion H' as [|? ? [Lb Bb] H'']; subst.
  cbn [vals map pcat pairs many_calls]. fold (vals l). rewrite W_app.
  cbn [sum fold_right]. fold (sum l). fold (sum (pairs apar l)). rewrite IH by auto.
  assert (E : hash1_calls (Platform.compress p) (length (fst a ++ fst b)) key (fst a ++ fst b) 0
            (N.lor (N.lor flags PARENT) 0) (N.lor flags PARENT) 0
          = [parent_node key flags (fst a) (fst b)]).
  { assert (L64 : len (fst a ++ fst b) = 64) by lenlia.
    destruct (length (fst a ++ fst b)) as [|f] eqn:Ef; [unfold len in L64; lia|].
    cbn [hash1_calls]. rewrite L64. change (BLOCK_LEN <=? 64) with true. change (64 =? BLOCK_LEN) with true.
    change BLOCK_LEN with 64. rewrite take_all, drop_all, !N.lor_0_r by lia.
    unfold parent_node. destruct f; reflexivity. }
  rewrite E, W_cons, W_nil. change ((0 + 0) mod W64) with 0. unfold apar. cbn [fst snd]. lia.
Qed.

Lemma vals_pairs : forall l, vals (pairs apar l) = pairs pcv (vals l).
Proof.
  intros l. induction l as [|a|a b l IH] using list2_ind; try reflexivity.
  cbn [vals map pairs]. fold (vals (pairs apar l)). now rewrite IH.
Qed.

(* ---- hash_one_chunk ---- *)

Lemma t_to_hash_ok : forall nd s, nd_wf nd ->
  t_to_hash (out_of p nd NotRoot) s = (s ++ [nd], Ok (chain F nd)).
Proof.
  intros nd s H. rewrite <- (to_hash_chain p nd H).
  unfold t_to_hash, t_compress, tbind, note, lift, out_of.
  cbn [o_platform o_cv o_block o_block_len o_offset o_flags root_flag].
  rewrite N.lor_0_r. destruct nd. reflexivity.
Qed.

Lemma hoc_loop_w : forall fuel chunk b cv off r start s,
  bytes chunk -> len chunk <= 2048 -> b <= len chunk -> len chunk - b <= N.of_nat fuel ->
  length cv = 8%nat -> words cv -> off < W64 ->
  fst (t_hash_one_chunk_loop c p fuel chunk cv off r flags (N.lor flags start) b s)
  = s ++ chunk_calls F cv off flags start (pieces 64 (drop b chunk)).
Proof.
  induction fuel as [|fuel IH]; intros chunk b cv off r start s B L Hb Hf Lc Wc Ho;
    pose proof (WU_W32 c) as WU; unfold W32 in WU;
    cbn [t_hash_one_chunk_loop]; change BLOCK_LEN with 64;
    rewrite (lift_ok _ _ _ _ _ (b + 64)) by (apply addU_ok; lia).
  - destruct (N.leb_spec (b + 64) (len chunk)); [lia|]. cbn [lift fst].
    rewrite pieces_short by lenlia. cbn [chunk_calls]. now rewrite app_nil_r.
  - destruct (N.leb_spec (b + 64) (len chunk)).
    + rewrite (lift_ok _ _ _ _ _ (b + 64)) by (apply addU_ok; lia).
      destruct (N.eqb_spec (b + 64) (len chunk)) as [E|E].
      * erewrite lift_ok by (apply slice_ok; lia). cbn [lift fst].
        rewrite pieces_short by lenlia. cbn [chunk_calls]. now rewrite app_nil_r.
      * erewrite lift_ok by (apply slice_ok; lia).
        assert (Lb : length (take 64 (drop b chunk)) = 64%nat).
        { apply (len_length _ _ 64). lenlia. }
        assert (Bb : bytes (take 64 (drop b chunk))) by now apply bytes_take, bytes_drop.
        erewrite tbind_eq by reflexivity. cbv beta.
        erewrite lift_ok by (apply addU_ok; lia).
        rewrite compress_eq by auto.
        rewrite <- (N.lor_0_r flags) at 3.
        rewrite IH; auto; try lia; try now apply blake_shape8.
        rewrite (pieces_step _ 64 (drop b chunk)) by (try rewrite len_drop; lia).
        rewrite drop_drop. replace (64 + b) with (b + 64) by lia.
        assert (P : exists q qs, pieces 64 (drop (b + 64) chunk) = q :: qs).
        { pose proof (pieces_len_1 _ 64 (drop (b + 64) chunk) eq_refl) as P.
          destruct (pieces 64 (drop (b + 64) chunk)); [|eauto]. rewrite len_nil in P. lia. }
        destruct P as (q & qs & ->). rewrite <- app_assoc. reflexivity.
    + cbn [lift fst]. rewrite pieces_short by lenlia. cbn [chunk_calls]. now rewrite app_nil_r.
Qed.

Lemma fst_tail : forall A B (m : tr A) (f : A -> tr B) s,
  (forall x s, fst (f x s) = s) -> fst (tbind m f s) = fst (m s).
Proof.
  intros A B m f s H. unfold tbind. destruct (m s) as [s' [x| |]]; try reflexivity. apply H.
Qed.
Lemma fst_tbind_lift : forall A B (r : res A) (f : A -> tr B) s,
  (forall x s, fst (f x s) = s) -> fst (tbind (lift r) f s) = s.
Proof. intros A B r f s H. now rewrite fst_tail. Qed.

Lemma t_hash_one_chunk_ok : forall i chunk r s, bytes chunk -> len chunk <= 2048 ->
  2048 * i < W64 -> (r = Root -> i = 0) ->
  t_hash_one_chunk c p chunk key (2048 * i) r flags s
  = (s ++ chunk_calls F key (2048 * i) flags CHUNK_START (pieces 64 chunk),
     Ok (out_of p (chunk_node F key flags i chunk) r)).
Proof.
  intros i chunk r s B L Ho Hr.
  rewrite (run_pair _ _ _ s (ret_hash_one_chunk c p chunk key (2048 * i) r flags)).
  rewrite hash_one_chunk_ok by auto. f_equal.
  unfold t_hash_one_chunk.
  rewrite (lift_ok _ _ _ _ _ tt).
  2: { destruct r; [reflexivity|]. rewrite Hr by auto. now apply dassert_ok. }
  rewrite fst_tail.
  - pose proof (hoc_loop_w (length chunk) chunk 0 key (2048 * i) r CHUNK_START s) as Q.
    rewrite drop_0 in Q. apply Q; auto; try lia. unfold len. lia.
  - intros [o|[[cv bf] bo]] s'; [reflexivity|].
    repeat (apply fst_tbind_lift; intros). reflexivity.
Qed.

(* ---- many ---- *)

Lemma t_hash_chunks_ok : forall input i out s,
  bytes input -> 1 <= len input -> len input <= MAX_SIMD_DEGREE c * 2048 ->
  2048 * i + len input < W64 -> 32 * len (pieces 2048 input) <= len out ->
  exists s', t_hash_chunks_parallel c p input key (2048 * i) flags out s
  = (s', Ok (concat (cvs i (pieces 2048 input)) ++ drop (32 * len (pieces 2048 input)) out,
        len (pieces 2048 input))) /\
  W s' = W s + sum (acvs i (pieces 2048 input)).
Proof.
  intros input i out s B H1 H2 H3 H4.
  pose proof (run_pair _ _ _ s (ret_hash_chunks c p input key (2048 * i) flags out)) as RP.
  rewrite hash_chunks_parallel_ok in RP by auto. 
  eexists. split; [exact RP|]. clear RP.
  unfold t_hash_chunks_parallel.
  change CHUNK_LEN with 2048. rewrite (lift_ok _ _ _ _ _ tt) by (apply dassert_ok; lia).
  rewrite (lift_ok _ _ _ _ _ tt) by (apply dassert_ok; lia).
  rewrite (lift_ok _ _ _ _ _ tt) by (apply dassert_ok; lia).
  pose proof (pieces_exact _ 2048 input eq_refl H1) as PE.
  pose proof (chunks_exact_spec _ 2048 input eq_refl) as CS.
  destruct (chunks_exact 2048 input) as [cs rm]. cbn [fst snd] in PE.
  destruct CS as (C1 & C2 & C3 & C4).
  erewrite lift_ok by (apply push_all_ok; rewrite len_nil; lia). cbn [app].
  assert (Bc : Forall bytes cs /\ bytes rm).
  { rewrite <- C1 in B. apply bytes_app in B. destruct B as [B1 B2]. split; auto.
    clear -B1. induction cs; constructor; cbn in B1; apply bytes_app in B1; tauto. }
  destruct Bc as [Bc Br].
  assert (Lp : len cs <= len (pieces 2048 input)) by (rewrite PE; lenlia).
  assert (Hl : len input = 2048 * len cs + len rm).
  { rewrite <- C1, len_app, (len_concat_const _ 2048) by auto. lia. }
  assert (HM : hash_many c p 2048 cs key (2048 * i) 2048 flags CHUNK_START CHUNK_END out
    = Ok (concat (hash_all blake_compress key flags CHUNK_START CHUNK_END (2048 * i) 2048 cs)
            ++ drop (32 * len cs) out)).
  { apply hash_many_ok; auto; try lia. rewrite Forall_forall in *. auto. }
  erewrite tbind_eq by (apply t_hash_many_run; exact HM).
  change Lib.CHUNK_START with CHUNK_START. change Lib.CHUNK_END with CHUNK_END.
  cbv beta.
  assert (MC := many_calls_chunks cs i C2 Bc ltac:(lia)).
  destruct rm as [|x rm].
  - cbn [negb N.eqb len length N.of_nat]. cbn [lift fst]. rewrite app_nil_r in PE. rewrite PE, W_app, MC. lia.
  - remember (x :: rm) as r0 eqn:Er. rewrite PE.
    assert (Hr : len r0 <> 0) by (subst; rewrite len_cons; lia).
    rewrite (proj2 (N.eqb_neq _ _) Hr). cbn [negb].
    erewrite lift_ok by (apply mul64_ok; lia).
    erewrite lift_ok by (apply add64_ok; lia).
    replace (2048 * i + len cs * 2048) with (2048 * (i + len cs)) by lia.
    erewrite tbind_eq by (apply t_hash_one_chunk_ok; auto; try lia; discriminate).
    erewrite tbind_eq by (apply t_to_hash_ok, chunk_node_wf; auto; lia).
    rewrite fst_tbind_lift by reflexivity.
    rewrite !W_app, MC, W_cons, W_nil, acvs_app, sum_app. cbn [acvs]. rewrite sum_one.
    unfold acv, cw. cbn [snd]. lia.
Qed.

Lemma t_hash_parents_ok : forall la out s,
  Forall is32 (vals la) -> 2 <= len la -> len la <= 2 * MAX_SIMD_DEGREE_OR_2 c ->
  32 * len (pairs apar la) <= len out ->
  exists s', t_hash_parents_parallel c p (concat (vals la)) key flags out s
  = (s', Ok (concat (vals (pairs apar la)) ++ drop (32 * len (pairs apar la)) out, len (pairs apar la))) /\
  W s' + sum la = W s + sum (pairs apar la).
Proof.
  intros la out s H H1 H2 H3.
  assert (LPA : len (pairs apar la) = len (pairs pcv (vals la))) by (rewrite <- vals_pairs, len_vals; reflexivity).
  pose proof (run_pair _ _ _ s (ret_hash_parents c p (concat (vals la)) key flags out)) as RP.
  rewrite hash_parents_parallel_ok in RP by (auto; rewrite ?len_vals, <- ?LPA; auto).
  rewrite <- vals_pairs, len_vals in RP.
  eexists. split; [exact RP|]. clear RP.
  unfold t_hash_parents_parallel. change OUT_LEN with 32.
  change BLOCK_LEN with 64.
  rewrite concat_32, len_vals by auto.
  rewrite (lift_ok _ _ _ _ _ tt) by (apply dassert_ok; lia).
  replace (32 * len la / 32) with (len la) by lia.
  rewrite (lift_ok _ _ _ _ _ tt) by (apply dassert_ok; lia).
  rewrite (lift_ok _ _ _ _ _ tt) by (apply dassert_ok; lia).
  rewrite chunks_exact_pcat by auto.
  destruct (pcat_facts key flags Lkey (vals la) H) as (P1 & P2 & P3 & P4). rewrite len_vals in P2.
  erewrite lift_ok by (apply push_all_ok; rewrite len_nil; lia). cbn [app].
  pose proof (len_pairs _ apar la) as LP.
  change (N.lor flags Lib.PARENT) with (N.lor flags PARENT).
  assert (HM : hash_many c p 64 (pcat (vals la)) key 0 0 (N.lor flags PARENT) 0 0 out
    = Ok (concat (hash_all blake_compress key (N.lor flags PARENT) 0 0 0 0 (pcat (vals la)))
            ++ drop (32 * len (pcat (vals la))) out)).
  { apply hash_many_ok; auto; try lia; unfold W64; lia. }
  erewrite tbind_eq by (apply t_hash_many_run; exact HM).
  cbv beta. rewrite many_calls_pairs by auto.
  match goal with |- W ?x + _ = _ => assert (EX : x = s ++ many_calls p (pcat (vals la)) key 0 0 (N.lor flags PARENT) 0 0) end.
  { destruct (negb (len (odd_last (vals la)) =? 0)); [|reflexivity].
    repeat (apply fst_tbind_lift; intros). reflexivity. }
  rewrite EX, W_app. lia.
Qed.

(* ---- hash_recurse ---- *)

Notation D := (LibFacts.D p).

Record compressed (l cv : list an) : Prop :=
  { cm_32 : Forall is32 (vals l);
    cm_1 : 1 <= len l;
    cm_max : len l <= N.min (len cv) D;
    cm_lbf : lbf l = lbf cv;
    cm_topf : 2 <= len cv -> 2 <= len l /\ topf l = topf cv;
    cm_pow : forall j, len cv = 2 ^ j -> D <= len cv -> len l = D }.

Lemma compressed_self : forall cv, Forall is32 (vals cv) -> 1 <= len cv -> len cv <= D ->
  compressed cv cv.
Proof. intros cv H H1 H2. constructor; auto; lia. Qed.

Lemma compressed_pair : forall a b, Forall is32 (vals (a ++ b)) -> len a = 1 -> len b = 1 ->
  forall ca cb, len ca = 1 -> len cb = 1 -> lbf a = lbf ca -> lbf b = lbf cb ->
  D = 2 -> compressed (a ++ b) (ca ++ cb).
Proof.
  intros a b H La Lb ca cb Lca Lcb Ea Eb HD.
  assert (T : topf (a ++ b) = topf (ca ++ cb)) by (apply (topf_join _ _ _ 0 0); auto; cbn; lia).
  constructor; rewrite ?len_app; auto; try lia.
  - rewrite !lbf_topf by (rewrite len_app; lia). now rewrite T.
  - intros _. split; [lia|exact T].
Qed.

Lemma compressed_join : forall a b ca cb j, compressed a ca -> compressed b cb ->
  len ca = 2 ^ j -> D <= len ca -> 1 <= len cb -> len cb <= len ca ->
  compressed (pairs apar (a ++ b)) (ca ++ cb).
Proof.
  intros a b ca cb j A B Hj HD H1 H2. destruct (D_pow c p key Pok Lkey) as (i & Hi1 & Hi).
  destruct A as [A1 A2 A3 A4 A5 A6]. destruct B as [B1 B2 B3 B4 B5 B6].
  specialize (A6 j Hj HD).
  assert (HD2 : 2 <= D) by (unfold LibFacts.D; lia).
  assert (T : topf (a ++ b) = topf (ca ++ cb)).
  { apply (topf_join _ _ _ j i); auto; lia. }
  assert (Ln : len (pairs apar (a ++ b)) = (D + len b + 1) / 2).
  { rewrite len_pairs, len_app, A6. reflexivity. }
  assert (F32 : Forall is32 (vals (a ++ b))) by (rewrite vals_app; apply Forall_app; auto).
  assert (TP : topf (pairs apar (a ++ b)) = topf (ca ++ cb)).
  { rewrite topf_pairs by (rewrite len_app; lia). exact T. }
  constructor.
  - rewrite vals_pairs. now apply pairs_shape.
  - lia.
  - rewrite Ln, len_app. lia.
  - rewrite !lbf_topf; try (rewrite ?Ln, ?len_app; lia). now rewrite TP.
  - intros _. split; [lia|exact TP].
  - intros j' Hj' _. rewrite Ln. rewrite len_app in Hj'.
    assert (E : len cb = len ca).
    { rewrite Hj in *. assert (Hlt : j < j'). { apply (N.pow_lt_mono_r_iff 2); lia. }
      pose proof (N.pow_le_mono_r 2 (j + 1) j' ltac:(lia) ltac:(lia)) as Q.
      rewrite pow2_S in Q. lia. }
    rewrite (B6 j) by lia. lia.
Qed.

Lemma t_hash_recurse_ok : forall fuel input i out s,
  bytes input -> 1 <= len input -> len input < WU c -> 2048 * i + len input < W64 ->
  len input <= 2048 * 2 ^ N.of_nat fuel ->
  32 * N.min (len (pieces 2048 input)) D <= len out ->
  exists l s', compressed l (acvs i (pieces 2048 input)) /\
    t_hash_recurse c p fuel input key (2048 * i) flags out s
    = (s', Ok (concat (vals l) ++ drop (32 * len l) out, len l)) /\
    W s' = W s + sum l.
Proof.
  pose proof (simd_degree_max c p Pok) as SM.
  assert (S1 : 1 <= simd_degree p) by (destruct p; cbn; lia).
  assert (Small : forall fuel input i out s,
    bytes input -> 1 <= len input -> 2048 * i + len input < W64 ->
    32 * N.min (len (pieces 2048 input)) D <= len out ->
    len input <= simd_degree p * 2048 ->
    exists l s', compressed l (acvs i (pieces 2048 input)) /\
      t_hash_recurse c p fuel input key (2048 * i) flags out s
      = (s', Ok (concat (vals l) ++ drop (32 * len l) out, len l)) /\
      W s' = W s + sum l).
  { intros fuel input i out s B H1 H3 H5 Hs.
    pose proof (pieces_len _ 2048 input eq_refl H1) as PL.
    assert (len (pieces 2048 input) <= D) by (unfold LibFacts.D; lia).
    destruct (t_hash_chunks_ok input i out s) as (s' & E & Ws); auto; try nia.
    exists (acvs i (pieces 2048 input)), s'. rewrite len_acvs, vals_acvs.
    split; [|split; [|exact Ws]].
    - apply compressed_self; rewrite ?len_acvs, ?vals_acvs; try lia.
      apply cvs_shape; auto. now apply pieces_Forall.
    - destruct fuel; cbn [t_hash_recurse]; change CHUNK_LEN with 2048;
        rewrite (proj2 (N.leb_le _ _) Hs); exact E. }
  induction fuel as [|fuel IH]; intros input i out s B H1 H2 H3 H4 H5.
  { cbn in H4. apply Small; auto. nia. }
  destruct (N.le_gt_cases (len input) (simd_degree p * 2048)) as [Hs|Hs]; [now apply Small|].
  cbn [t_hash_recurse]. change CHUNK_LEN with 2048.
  rewrite (proj2 (N.leb_gt _ _) Hs).
  pose proof (pieces_len _ 2048 input eq_refl H1) as PL.
  assert (Hb : 2048 < len input) by nia.
  destruct (pieces_left key Lkey _ Hb) as (P1 & P2 & P3 & P4).
  destruct (left_chunks_spec _ Hb) as (A1 & A2 & A3).
  erewrite lift_ok by (apply left_len_ok; auto).
  remember (left_chunks (len input)) as k eqn:Ek.
  assert (Kp : k = 2 ^ N.log2 ((len input - 1) / 2048)) by exact Ek.
  erewrite lift_ok.
  2: { unfold split_at. rewrite (proj2 (N.leb_le _ _)) by lia. reflexivity. }
  cbv beta iota.
  rewrite len_take, N.min_l by lia.
  erewrite lift_ok by (apply add64_ok; lia).
  rewrite (lift_ok _ _ _ _ _ tt) by (apply dassert_ok; destruct p; reflexivity).
  pose proof (D_max c p Pok) as DM. assert (D2 : 2 <= D) by (unfold LibFacts.D; lia).
  change OUT_LEN with 32.
  set (deg := if 2048 * k =? 2048 then 1 else N.max (simd_degree p) 2).
  assert (Hdeg : (k = 1 /\ deg = 1 /\ D = 2) \/ (2 <= k /\ deg = D /\ D <= k)).
  { unfold deg. destruct (N.eqb_spec (2048 * k) 2048) as [E|E].
    - left. split; [lia|]. split; [reflexivity|]. unfold LibFacts.D.
      assert (len input <= 4096) by lia. destruct p; cbn in *; lia.
    - right. split; [lia|]. split; [reflexivity|]. unfold LibFacts.D.
      assert (simd_degree p < 2 * k) by lia.
      assert (simd_degree p <= k); [|lia].
      assert (X : forall t, 2 ^ t < 2 * k -> 2 ^ t <= k).
      { intros t Ht. rewrite Kp in *. rewrite <- N.pow_succ_r' in Ht.
        apply N.pow_lt_mono_r_iff in Ht; [|lia]. apply N.pow_le_mono_r; lia. }
      destruct p; [apply (X 0)|apply (X 2)|apply (X 3)]; cbn in *; lia. }
  erewrite lift_ok.
  2: { unfold split_at. rewrite len_zeros. rewrite (proj2 (N.leb_le _ _)) by lia. reflexivity. }
  cbv beta iota.
  assert (Bt : bytes (take (2048 * k) input)) by now apply bytes_take.
  assert (Bd : bytes (drop (2048 * k) input)) by now apply bytes_drop.
  assert (Lt : len (take (2048 * k) input) = 2048 * k) by lenlia.
  assert (Ld : len (drop (2048 * k) input) = len input - 2048 * k) by lenlia.
  assert (H4' : k <= 2 ^ N.of_nat fuel).
  { rewrite Nat2N.inj_succ in H4. rewrite Kp in *.
    assert (Q : 2 ^ N.log2 ((len input - 1) / 2048) < 2 ^ N.succ (N.of_nat fuel)) by lia.
    apply N.pow_lt_mono_r_iff in Q; [|lia]. apply N.pow_le_mono_r; lia. }
  destruct (IH (take (2048 * k) input) i (take (deg * 32) (zeros (2 * MAX_SIMD_DEGREE_OR_2 c * 32))) s)
    as (ll & sl & Cl & El & Wl); auto; try lia.
  { rewrite P2, len_take, len_zeros. lia. }
  erewrite tbind_eq by exact El. cbv beta iota.
  destruct (IH (drop (2048 * k) input) (i + k) (drop (deg * 32) (zeros (2 * MAX_SIMD_DEGREE_OR_2 c * 32))) sl)
    as (lr & sr & Cr & Er & Wr); auto; try lia.
  { rewrite len_drop, len_zeros. lia. }
  replace (2048 * i + 2048 * k) with (2048 * (i + k)) by lia.
  erewrite tbind_eq by exact Er. cbv beta iota.
  pose proof Cl as [L1 L2 L3 L4 L5 L6]. pose proof Cr as [R1 R2 R3 R4 R5 R6].
  rewrite len_acvs in L3, L5, L6, R3, R5, R6.
  assert (Hll : len ll = deg).
  { destruct Hdeg as [(K1 & D1 & _)|(K1 & D1 & DK)]; [lia|].
    rewrite D1. eapply L6; rewrite P2; [exact Kp|lia]. }
  rewrite (lift_ok _ _ _ _ _ tt) by (apply dassert_ok; lia).
  rewrite (lift_ok _ _ _ _ _ tt) by (apply dassert_ok; lia).
  rewrite (drop_all _ (32 * len ll)) by (rewrite len_take; lia). rewrite app_nil_r.
  rewrite app_assoc, <- concat_app, <- vals_app.
  assert (Sa : Forall is32 (vals (ll ++ lr))) by (rewrite vals_app; apply Forall_app; auto).
  assert (Lc : len (concat (vals (ll ++ lr))) = 32 * (len ll + len lr)).
  { rewrite concat_32, len_vals, len_app by auto. lia. }
  rewrite P1, acvs_app, P2.
  destruct Hdeg as [(K1 & D1 & DD)|(K1 & D1 & DK)].
  - rewrite (proj2 (N.eqb_eq (len ll) 1)) by lia.
    assert (len lr = 1) by lia.
    exists (ll ++ lr), sr. split; [|split].
    + apply compressed_pair; auto; rewrite ?len_acvs; try lia.
    + erewrite lift_ok by (apply slice_to_ok; lia).
      erewrite lift_ok by (apply slice_to_ok; rewrite len_app; lia).
      rewrite (take_app_eq _ (2 * 32)) by lia.
      erewrite lift_ok by (apply copy_at_ok; lia).
      rewrite take_0, N.add_0_l, Lc, len_app. cbn [app].
      replace (len ll + len lr) with 2 by lia. reflexivity.
    + rewrite sum_app. lia.
  - rewrite (proj2 (N.eqb_neq (len ll) 1)) by lia.
    erewrite lift_ok by (apply slice_to_ok; rewrite len_app; lia).
    rewrite (take_app_eq _ ((len ll + len lr) * 32)) by lia.
    pose proof (len_pairs _ apar (ll ++ lr)) as LP. rewrite len_app in LP.
    destruct (t_hash_parents_ok (ll ++ lr) out sr) as (s' & E & Ws);
      auto; rewrite ?len_app; try lia.
    exists (pairs apar (ll ++ lr)), s'. split; [|split; [exact E|]].
    + eapply compressed_join; eauto; rewrite ?len_acvs, ?P2; try lia. exact Kp.
    + rewrite sum_app in Ws. lia.
Qed.

(* ---- condense_root ---- *)

Lemma t_condense_loop_ok : forall fuel l out s, Forall is32 (vals l) -> 2 <= len l ->
  len l <= 2 * MAX_SIMD_DEGREE_OR_2 c -> (2 < len l -> 32 * ((len l + 1) / 2) <= len out) ->
  len l <= N.of_nat fuel + 2 ->
  exists x y s', t_condense_loop c p fuel (concat (vals l)) key flags out s
    = (s', Ok (fst x ++ fst y)) /\
    is32 (fst x) /\ is32 (fst y) /\ topf l = (x, y) /\ W s' + sum l = W s + snd x + snd y.
Proof.
  assert (Two : forall l : list an, len l = 2 -> exists x y, l = [x; y]).
  { intros [|x [|y [|z l]]] L; rewrite ?len_cons, ?len_nil in L; try lia; eauto. }
  induction fuel as [|fuel IH]; intros l out s H1 H2 H3 H4 H5.
  - destruct (Two l) as (x & y & ->); [lia|]. clear Two.
    inversion H1 as [|? ? Hx H1']; subst. inversion H1' as [|? ? Hy _]; subst.
    exists x, y, s. cbn [t_condense_loop concat vals map]. rewrite app_nil_r.
    change BLOCK_LEN with 64. rewrite (proj2 (N.ltb_ge _ _)) by (rewrite len_app; lia).
    split; [reflexivity|]. split; [exact Hx|]. split; [exact Hy|]. split; [apply topf_two|].
    cbn. lia.
  - cbn [t_condense_loop]. change BLOCK_LEN with 64. rewrite concat_32, len_vals by auto.
    destruct (N.ltb_spec 64 (32 * len l)) as [G|G].
    + pose proof (len_pairs _ apar l) as LP.
      destruct (t_hash_parents_ok l out s) as (s1 & E1 & W1); auto; try lia.
      erewrite tbind_eq by exact E1. cbv beta iota. change OUT_LEN with 32.
      assert (PS : Forall is32 (vals (pairs apar l))) by (rewrite vals_pairs; now apply pairs_shape).
      assert (Lc : len (concat (vals (pairs apar l))) = 32 * len (pairs apar l)).
      { rewrite concat_32, len_vals by auto. reflexivity. }
      assert (Lcl : len (concat (vals l)) = 32 * len l).
      { rewrite concat_32, len_vals by auto. reflexivity. }
      erewrite lift_ok by (apply slice_to_ok; lia).
      erewrite lift_ok by (apply slice_to_ok; rewrite len_app; lia).
      rewrite take_app_eq by lia.
      erewrite lift_ok by (apply copy_at_ok; lia).
      rewrite take_0. cbn [app].
      erewrite lift_ok by (apply slice_to_ok; rewrite len_app; lia).
      rewrite take_app_eq by lia.
      destruct (IH (pairs apar l) (concat (vals (pairs apar l)) ++ drop (32 * len (pairs apar l)) out) s1)
        as (x & y & s' & E & Hx & Hy & T & Ws); auto; try lia.
      { intros _. rewrite len_app, Lc, len_drop. lia. }
      exists x, y, s'. rewrite E. split; [reflexivity|]. split; [exact Hx|]. split; [exact Hy|].
      split; [|lia]. rewrite <- T. symmetry. apply topf_pairs. lia.
    + destruct (Two l) as (x & y & ->); [lia|].
      inversion H1 as [|? ? Hx H1']; subst. inversion H1' as [|? ? Hy _]; subst.
      exists x, y, s. cbn [concat vals map]. rewrite app_nil_r.
      split; [reflexivity|]. split; [exact Hx|]. split; [exact Hy|]. split; [apply topf_two|].
      cbn. lia.
Qed.

Lemma t_condense_root_ok : forall l s, Forall is32 (vals l) -> 2 <= len l -> len l <= D ->
  exists s', t_condense_root c p (concat (vals l)) key flags s
  = (s', Ok (out_of p (parent_node key flags (fst (fst (topf l))) (fst (snd (topf l)))) Root)) /\
  is32 (fst (fst (topf l))) /\ is32 (fst (snd (topf l))) /\
  W s' + sum l = W s + snd (fst (topf l)) + snd (snd (topf l)).
Proof.
  intros l s H1 H2 H3. unfold t_condense_root. change OUT_LEN with 32. change BLOCK_LEN with 64.
  rewrite concat_32, len_vals by auto. pose proof (D_max c p Pok) as DM.
  rewrite (lift_ok _ _ _ _ _ tt) by (apply dassert_ok; lia).
  rewrite (lift_ok _ _ _ _ _ tt) by (apply dassert_ok; lia).
  destruct (t_condense_loop_ok (length (concat (vals l))) l (zeros (MAX_SIMD_DEGREE c * 32 / 2)) s)
    as (x & y & s' & E & Hx & Hy & T & Ws); auto; try lia.
  { intros G. rewrite len_zeros. unfold LibFacts.D, MAX_SIMD_DEGREE, platform_ok in *.
    destruct p; cbn [simd_degree] in *; try lia; rewrite Pok; lia. }
  { pose proof (concat_32 (vals l) H1) as L. rewrite len_vals in L. unfold len in *. lia. }
  erewrite tbind_eq by exact E. erewrite lift_ok by (apply slice_ok; rewrite len_app; lia).
  rewrite drop_0, take_all by (rewrite len_app; lia). rewrite T. cbn [fst snd].
  exists s'. auto.
Qed.

Lemma t_hash_internal_ok : forall input s, bytes input -> len input < WU c ->
  exists s', t_hash_internal c p input key flags s
    = (s', Ok (out_of p (root_node F key flags input) Root)) /\
    W s' = W s + below input.
Proof.
  intros input s B H. unfold t_hash_internal. change CHUNK_LEN with 2048.
  assert (HW : WU c <= W64) by (unfold WU; destruct (w64 c); unfold W32, W64; lia).
  destruct (N.leb_spec (len input) 2048) as [L|G].
  - rewrite root_node_small, below_small by auto.
    eexists. split; [apply (t_hash_one_chunk_ok 0); auto; reflexivity|].
    rewrite W_app. reflexivity.
  - pose proof (D_max c p Pok) as DM.
    destruct (t_hash_recurse_ok (depth_fuel input) input 0 (zeros (MAX_SIMD_DEGREE_OR_2 c * OUT_LEN)) s)
      as (l & s1 & [C1 C2 C3 C4 C5 C6] & E & W1); auto; try lia.
    { unfold depth_fuel. rewrite N2Nat.id. pose proof (N.size_gt (len input)). lia. }
    { rewrite len_zeros. change OUT_LEN with 32. lia. }
    change (2048 * 0) with 0 in E. erewrite tbind_eq by exact E. cbv beta iota. change OUT_LEN with 32.
    assert (Lcl : len (concat (vals l)) = 32 * len l).
    { rewrite concat_32, len_vals by auto. reflexivity. }
    erewrite lift_ok by (apply slice_to_ok; rewrite len_app; lia).
    rewrite take_app_eq by lia.
    destruct C5 as [C5 C5'].
    { rewrite len_acvs, pieces_len by lia. lia. }
    destruct (below_large input G) as [R1 R2]. rewrite R1, R2. rewrite <- C5'.
    destruct (t_condense_root_ok l s1) as (s' & E' & Hx & Hy & Ws); auto; try lia.
    exists s'. rewrite E'. split; [reflexivity|]. lia.
Qed.

End Key.
End Weight.
