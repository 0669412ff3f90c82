(* The specification's tree in terms of chaining values, and chunk facts. *)
From Coq Require Import NArith List Bool Lia ZArith.
From Coq Require Import ZifyBool ZifyNat ZifyN.
From Verif Require Import Base BaseFacts Spec TreeFacts CompressFacts ManyFacts.
Import ListNotations.
Open Scope N_scope.

(* ---- pieces ---- *)

Lemma pieces_fuel_enough : forall A n, 0 < n -> forall f g (l : list A),
  (length l <= f)%nat -> (length l <= g)%nat -> pieces_fuel f n l = pieces_fuel g n l.
Proof.
  intros A n Hn f. induction f as [|f IH]; intros g l Hf Hg.
  - destruct l; [|cbn in Hf; lia]. destruct g; reflexivity.
  - destruct l as [|x l]; [destruct g; reflexivity|]. destruct g as [|g]; [cbn in Hg; lia|].
    cbn [pieces_fuel]. f_equal. apply IH.
    + pose proof (len_drop _ n (x :: l)). unfold len in *. cbn [length] in *. lia.
    + pose proof (len_drop _ n (x :: l)). unfold len in *. cbn [length] in *. lia.
Qed.

Lemma pieces_step : forall A n (l : list A), 0 < n -> n < len l ->
  pieces n l = take n l :: pieces n (drop n l).
Proof.
  intros A n l Hn H. unfold pieces at 1. destruct l as [|x l]; [rewrite len_nil in H; lia|].
  cbn [length pieces_fuel]. f_equal. unfold pieces.
  destruct (drop n (x :: l)) as [|y r] eqn:E.
  - apply (f_equal len) in E. rewrite len_drop, len_nil in E. lia.
  - apply pieces_fuel_enough; auto.
    pose proof (f_equal len E) as E'. rewrite len_drop in E'. unfold len in *. cbn [length] in *. lia.
Qed.

Lemma pieces_short : forall A n (l : list A), 0 < n -> len l <= n -> pieces n l = [l].
Proof.
  intros A n l Hn H. unfold pieces. destruct l as [|x l]; [reflexivity|].
  cbn [length pieces_fuel]. rewrite take_all by exact H. f_equal.
  rewrite drop_all by exact H. now destruct (length l).
Qed.

Lemma pieces_len : forall A n (l : list A), 0 < n -> 1 <= len l ->
  len (pieces n l) = (len l + (n - 1)) / n.
Proof.
  intros A n l Hn. induction l as [l IH] using list_len_ind. intros H.
  destruct (N.le_gt_cases (len l) n) as [L|G].
  - rewrite pieces_short by auto. rewrite len_cons, len_nil.
    apply (N.div_unique _ _ 1 (len l - 1)); lia.
  - rewrite pieces_step, len_cons by auto. rewrite IH by (rewrite len_drop; lia).
    rewrite len_drop. replace (len l + (n - 1)) with (len l - n + (n - 1) + 1 * n) by lia.
    rewrite N.div_add by lia. lia.
Qed.

Lemma pieces_len_1 : forall A n (l : list A), 0 < n -> 1 <= len (pieces n l).
Proof.
  intros A n l Hn. destruct (N.le_gt_cases (len l) n) as [L|G].
  - rewrite pieces_short by auto. cbn. lia.
  - rewrite pieces_step, len_cons by auto. lia.
Qed.

Lemma pieces_app : forall A n (b : list A) k a, 0 < n -> len a = n * k -> 1 <= k -> 1 <= len b ->
  pieces n (a ++ b) = pieces n a ++ pieces n b.
Proof.
  intros A n b k. induction k using N.peano_ind; intros a Hn Ha Hk Hb; [lia|].
  rewrite pieces_step by (rewrite ?len_app; nia).
  rewrite take_app_le, drop_app_le by nia.
  destruct (N.eq_dec k 0) as [->|Nk].
  - rewrite (pieces_short _ n a) by lia. rewrite take_all, drop_all by lia. reflexivity.
  - rewrite (pieces_step _ n a) by nia. rewrite IHk by (rewrite ?len_drop; nia). reflexivity.
Qed.

Lemma pieces_concat : forall A n (l : list A), 0 < n -> concat (pieces n l) = l.
Proof.
  intros A n l Hn. induction l as [l IH] using list_len_ind.
  destruct (N.le_gt_cases (len l) n) as [L|G].
  - rewrite pieces_short by auto. cbn. apply app_nil_r.
  - rewrite pieces_step by auto. cbn [concat]. rewrite IH by (rewrite len_drop; lia). apply take_drop.
Qed.

Lemma pieces_bounds : forall A n (l : list A), 0 < n -> Forall (fun x => len x <= n) (pieces n l).
Proof.
  intros A n l Hn. induction l as [l IH] using list_len_ind.
  destruct (N.le_gt_cases (len l) n) as [L|G].
  - rewrite pieces_short by auto. repeat constructor. exact L.
  - rewrite pieces_step by auto. constructor; [lenlia|]. apply IH. rewrite len_drop; lia.
Qed.

Lemma pieces_Forall : forall A (P : A -> Prop) n (l : list A), 0 < n ->
  Forall P l -> Forall (Forall P) (pieces n l).
Proof.
  intros A P n l Hn. induction l as [l IH] using list_len_ind. intros F.
  destruct (N.le_gt_cases (len l) n) as [L|G].
  - rewrite pieces_short by auto. repeat constructor. exact F.
  - rewrite pieces_step by auto. constructor; [now apply Forall_take|].
    apply IH; [rewrite len_drop; lia|now apply Forall_drop].
Qed.

(* pieces and the exact chunks followed by the remainder *)
Lemma pieces_exact : forall A n (l : list A), 0 < n -> 1 <= len l ->
  pieces n l = fst (chunks_exact n l) ++
               (match snd (chunks_exact n l) with [] => [] | r => [r] end).
Proof.
  intros A n l Hn. induction l as [l IH] using list_len_ind. intros H.
  destruct (N.lt_trichotomy (len l) n) as [L|[E|G]].
  - rewrite pieces_short, chunks_exact_short by (auto; lia). cbn [fst snd].
    destruct l; [rewrite len_nil in H; lia|reflexivity].
  - rewrite pieces_short by lia. rewrite chunks_exact_step by lia. cbn [fst snd].
    rewrite drop_all, take_all by lia. rewrite chunks_exact_short by (rewrite len_nil; lia). reflexivity.
  - rewrite pieces_step, chunks_exact_step by lia. cbn [fst snd app].
    rewrite IH by (rewrite len_drop; lia). reflexivity.
Qed.

(* ---- nodes ---- *)

Record nd_wf (nd : node) : Prop :=
  { wf_cv : length (nd_cv nd) = 8%nat; wf_cvw : words (nd_cv nd);
    wf_block : length (nd_block nd) = 64%nat; wf_blockb : bytes (nd_block nd);
    wf_off : nd_off nd < W64 }.

Section Keyed.
Variable key : list N.
Variable flags : N.

Notation F := blake_compress.

Definition pcv (l r : list N) : list N := chain F (parent_node key flags l r).
Definition ccv (i : N) (c : list N) : list N := chain F (chunk_node F key flags i c).
Fixpoint cvs (i : N) (cs : list (list N)) : list (list N) :=
  match cs with
  | [] => []
  | c :: r => ccv i c :: cvs (i + 1) r
  end.

Lemma len_cvs : forall cs i, len (cvs i cs) = len cs.
Proof. induction cs; intros; cbn [cvs]; [reflexivity|]. now rewrite !len_cons, IHcs. Qed.

Lemma cvs_app : forall a b i, cvs i (a ++ b) = cvs i a ++ cvs (i + len a) b.
Proof.
  induction a as [|x a IH]; intros b i; cbn [cvs app].
  - now rewrite len_nil, N.add_0_r.
  - rewrite IH, len_cons. do 3 f_equal. lia.
Qed.

Lemma take_cvs : forall n cs i, take n (cvs i cs) = cvs i (take n cs).
Proof.
  intros n cs i. rewrite <- (take_drop _ n cs) at 1. rewrite cvs_app.
  destruct (N.le_gt_cases n (len cs)) as [L|G].
  - apply take_app_eq. rewrite len_cvs, len_take. lia.
  - rewrite (drop_all _ n cs) by lia. cbn [cvs]. rewrite app_nil_r. apply take_all.
    rewrite len_cvs, len_take. lia.
Qed.
Lemma drop_cvs : forall n cs i, n <= len cs -> drop n (cvs i cs) = cvs (i + n) (drop n cs).
Proof.
  intros n cs i H. rewrite <- (take_drop _ n cs) at 1. rewrite cvs_app.
  rewrite drop_app_eq by (rewrite len_cvs, len_take; lia). f_equal. rewrite len_take. lia.
Qed.

Lemma subtree_lb : forall k i cs, 1 <= len cs -> len cs <= 2 ^ N.of_nat k ->
  chain F (subtree F key flags k i cs) = lb [] pcv k (cvs i cs).
Proof.
  induction k as [|k IH]; intros i cs H1 H2.
  - destruct cs; [rewrite len_nil in H1; lia|]. reflexivity.
  - cbn [subtree lb]. rewrite len_cvs. pose proof (pow2_pos (N.of_nat k)) as P.
    assert (E : 2 ^ N.of_nat (S k) = 2 * 2 ^ N.of_nat k).
    { rewrite Nat2N.inj_succ. apply N.pow_succ_r'. }
    destruct (N.leb_spec (len cs) (2 ^ N.of_nat k)) as [L|G]; [now apply IH|].
    rewrite take_cvs, drop_cvs by lia.
    rewrite <- !IH by (autorewrite with len; lia). reflexivity.
Qed.

Lemma subtree_top : forall k i cs, 2 <= len cs -> len cs <= 2 ^ N.of_nat k ->
  subtree F key flags k i cs
  = parent_node key flags (fst (top [] pcv k (cvs i cs))) (snd (top [] pcv k (cvs i cs))).
Proof.
  induction k as [|k IH]; intros i cs H1 H2.
  - cbn in H2. lia.
  - cbn [subtree top]. rewrite len_cvs. pose proof (pow2_pos (N.of_nat k)) as P.
    assert (E : 2 ^ N.of_nat (S k) = 2 * 2 ^ N.of_nat k).
    { rewrite Nat2N.inj_succ. apply N.pow_succ_r'. }
    destruct (N.leb_spec (len cs) (2 ^ N.of_nat k)) as [L|G]; [now apply IH|].
    rewrite take_cvs, drop_cvs by lia. cbn [fst snd].
    rewrite <- !subtree_lb by (autorewrite with len; lia). reflexivity.
Qed.

Lemma root_node_small : forall input, len input <= 2048 ->
  root_node F key flags input = chunk_node F key flags 0 input.
Proof. intros input H. unfold root_node. rewrite pieces_short by lia. reflexivity. Qed.

Lemma root_node_large : forall input, 2048 < len input ->
  root_node F key flags input
  = let tp := topf [] pcv (cvs 0 (pieces 2048 input)) in parent_node key flags (fst tp) (snd tp).
Proof.
  intros input H. unfold root_node, topf. rewrite len_cvs.
  assert (2 <= len (pieces 2048 input)) by (rewrite pieces_len by lia; lia).
  apply subtree_top; auto. rewrite N2Nat.id. apply N.log2_log2_up_spec. lia.
Qed.

(* ---- whole chunks hashed by hash_many ---- *)

Lemma blocks_chunk : forall t l cv off start, len l = 64 * N.of_nat (S t) ->
  bytes_of_words (many_blocks F cv off (N.lor flags start) flags CHUNK_END (blks (S t) l))
  = chain F (chunk_blocks F cv off flags start (pieces 64 l)).
Proof.
  induction t as [|t IH]; intros l cv off start L.
  - cbn [blks many_blocks]. rewrite pieces_short by lia. cbn [chunk_blocks].
    unfold chain. cbn [nd_cv nd_block nd_blen nd_off nd_flags]. unfold pad64.
    rewrite take_all by lia. replace (64 - len l) with 0 by lia.
    change (zeros 0) with (@nil N). rewrite app_nil_r. replace (len l) with 64 by lia. reflexivity.
  - rewrite pieces_step by lia.
    assert (P : exists q qs, pieces 64 (drop 64 l) = q :: qs).
    { pose proof (pieces_len_1 _ 64 (drop 64 l) eq_refl) as P.
      destruct (pieces 64 (drop 64 l)); [|eauto]. rewrite len_nil in P. lia. }
    destruct P as (q & qs & P). rewrite P.
    change (chunk_blocks F cv off flags start (take 64 l :: q :: qs)) with
      (chunk_blocks F (firstn 8 (F cv (take 64 l) 64 off (N.lor flags start))) off flags 0 (q :: qs)).
    rewrite <- P. rewrite <- IH by (rewrite len_drop; lia).
    rewrite N.lor_0_r. reflexivity.
Qed.

Lemma hash_one_ccv : forall i c, len c = 2048 ->
  hash_one F key flags CHUNK_START CHUNK_END (2048 * i) c = ccv i c.
Proof.
  intros i c L. unfold hash_one, ccv, chunk_node. rewrite L.
  apply (blocks_chunk 31 c). rewrite L. reflexivity.
Qed.

Lemma hash_all_cvs : forall cs i, Forall (fun c => len c = 2048) cs ->
  hash_all F key flags CHUNK_START CHUNK_END (2048 * i) 2048 cs = cvs i cs.
Proof.
  induction cs as [|c cs IH]; intros i H; cbn [hash_all cvs]; [reflexivity|].
  inversion H; subst. rewrite hash_one_ccv by auto. f_equal.
  rewrite <- IH by auto. f_equal. lia.
Qed.

Lemma hash_one_pcv : forall l r, len l = 32 -> len r = 32 ->
  hash_one F key (N.lor flags PARENT) 0 0 0 (l ++ r) = pcv l r.
Proof.
  intros l r Ll Lr. unfold hash_one, pcv, chain, parent_node. rewrite len_app, Ll, Lr.
  change (N.to_nat ((32 + 32) / 64)) with 1%nat. cbn [blks many_blocks nd_cv nd_block nd_blen nd_off nd_flags].
  rewrite !N.lor_0_r, take_all by (rewrite len_app; lia). reflexivity.
Qed.

Hypothesis Lkey : length key = 8%nat.
Hypothesis Wkey : words key.

(* ---- shapes ---- *)

Lemma chain_shape : forall nd, length (nd_cv nd) = 8%nat -> words (nd_cv nd) ->
  len (chain F nd) = 32 /\ bytes (chain F nd).
Proof.
  intros nd L W. unfold chain. split; [|apply bytes_of_words_bytes].
  rewrite len_bytes_of_words. unfold len.
  rewrite (proj1 (blake_shape8 _ _ _ _ _ L W)). reflexivity.
Qed.

Lemma pcv_shape : forall l r, len (pcv l r) = 32 /\ bytes (pcv l r).
Proof. intros. now apply chain_shape. Qed.

Lemma chunk_blocks_wf : forall bs cv off start,
  length cv = 8%nat -> words cv -> bs <> [] -> Forall (fun b => len b <= 64 /\ bytes b) bs ->
  off < W64 -> nd_wf (chunk_blocks F cv off flags start bs) /\
  nd_off (chunk_blocks F cv off flags start bs) = off.
Proof.
  induction bs as [|b [|b' bs] IH]; intros cv off start L W Ne Fb Ho; [congruence| |].
  - cbn [chunk_blocks]. inversion Fb as [|? ? [Lb Bb] _]; subst. split; [|reflexivity].
    constructor; cbn [nd_cv nd_block nd_off]; auto.
    + unfold pad64. apply (len_length _ _ 64). autorewrite with len. lia.
    + unfold pad64. apply bytes_app. split; [exact Bb|apply bytes_zeros].
  - change (chunk_blocks F cv off flags start (b :: b' :: bs)) with
      (chunk_blocks F (firstn 8 (F cv b 64 off (N.lor flags start))) off flags 0 (b' :: bs)).
    inversion Fb; subst. apply IH; auto; try discriminate; now apply blake_shape8.
Qed.

Lemma chunk_node_wf : forall i c, bytes c -> 2048 * i < W64 ->
  nd_wf (chunk_node F key flags i c) /\ nd_off (chunk_node F key flags i c) = 2048 * i.
Proof.
  intros i c B H. unfold chunk_node. apply chunk_blocks_wf; auto.
  - intros E. pose proof (pieces_len_1 _ 64 c eq_refl) as P. rewrite E, len_nil in P. lia.
  - pose proof (pieces_bounds _ 64 c eq_refl) as P1. pose proof (pieces_Forall _ byte 64 c eq_refl B) as P2.
    rewrite Forall_forall in *. intros x Hx. split; [now apply P1|now apply P2].
Qed.

Lemma ccv_shape : forall i c, bytes c -> len (ccv i c) = 32 /\ bytes (ccv i c).
Proof.
  intros i c B. unfold ccv.
  assert (X : forall bs cv off start, length cv = 8%nat -> words cv ->
    length (nd_cv (chunk_blocks F cv off flags start bs)) = 8%nat /\
    words (nd_cv (chunk_blocks F cv off flags start bs))).
  { induction bs as [|b [|b' bs] IH]; intros cv off start L W; [split; auto|split; auto|].
    change (chunk_blocks F cv off flags start (b :: b' :: bs)) with
      (chunk_blocks F (firstn 8 (F cv b 64 off (N.lor flags start))) off flags 0 (b' :: bs)).
    apply IH; now apply blake_shape8. }
  apply chain_shape; now apply X.
Qed.

Lemma cvs_shape : forall cs i, Forall bytes cs ->
  Forall (fun h => len h = 32 /\ bytes h) (cvs i cs).
Proof.
  induction cs as [|c cs IH]; intros i H; cbn [cvs]; [constructor|].
  inversion H; subst. constructor; [now apply ccv_shape|now apply IH].
Qed.

Lemma parent_node_wf : forall l r, len l = 32 -> bytes l -> len r = 32 -> bytes r ->
  nd_wf (parent_node key flags l r).
Proof.
  intros l r Ll Bl Lr Br. constructor; cbn [parent_node nd_cv nd_block nd_off]; auto; [| |reflexivity].
  - apply (len_length _ _ 64). rewrite len_app. lia.
  - apply bytes_app. auto.
Qed.

End Keyed.
