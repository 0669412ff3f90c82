(* The public API of lib.rs: one-shot functions, streaming, extended output, and
   programs mixing them. *)
From Coq Require Import NArith List Bool Lia ZArith.
From Coq Require Import ZifyBool ZifyNat ZifyN.
From Verif Require Import Base BaseFacts Spec TreeFacts CompressFacts ManyFacts SpecFacts.
From Verif Require Import Portable Platform Lib ChunkFacts LibFacts HasherFacts SessionSpec Session.
Import ListNotations.
Open Scope N_scope.

(* ---- keys ---- *)

Lemma mode_key_ok : forall m, mode_ok m -> length (mode_key m) = 8%nat /\ words (mode_key m).
Proof.
  intros [|k|k] H; cbn [mode_key mode_ok] in *.
  - split; [reflexivity|]. unfold words, word, IV, W32. repeat constructor; lia.
  - destruct H as [L B]. split; [|now apply words_of_bytes_words].
    apply (len_length _ _ 8). rewrite len_words_of_bytes. unfold len. rewrite L. reflexivity.
  - destruct H as [L B]. split; [|now apply words_of_bytes_words].
    apply (len_length _ _ 8). rewrite len_words_of_bytes. unfold len. rewrite L. reflexivity.
Qed.

(* ---- the root node ---- *)

Lemma root_node_wf : forall key flags input, length key = 8%nat -> words key -> bytes input ->
  nd_wf (root_node F key flags input) /\ nd_off (root_node F key flags input) = 0.
Proof.
  intros key flags input L W B. destruct (N.le_gt_cases (len input) 2048) as [H|H].
  - rewrite root_node_small by auto. now apply chunk_node_wf.
  - rewrite root_node_large by auto. cbv zeta. split; [|reflexivity].
    assert (S : Forall (fun h : list N => len h = 32 /\ bytes h) (cvs key flags 0 (pieces 2048 input))).
    { apply cvs_shape; auto. now apply pieces_Forall. }
    destruct (split_exists _ [] (pcv key flags) (cvs key flags 0 (pieces 2048 input))) as (j & a & b & E & Ha & Hb1 & Hb2).
    { rewrite len_cvs, pieces_len by lia. lia. }
    rewrite E in S |- *. rewrite (topf_split _ _ _ j) by auto. cbn [fst snd].
    apply Forall_app in S. destruct S as [Sa Sb].
    pose proof (lbf_shape key flags L W a Sa) as La. pose proof (lbf_shape key flags L W b Sb) as Lb.
    pose proof (pow2_pos j). cbn beta in *.
    apply parent_node_wf; auto; [apply La|apply La|apply Lb|apply Lb]; lia.
Qed.

Lemma spec_root_wf : forall m input, mode_ok m -> bytes input ->
  nd_wf (spec_root F m input) /\ nd_off (spec_root F m input) = 0.
Proof. intros m input H B. destruct (mode_key_ok m H). now apply root_node_wf. Qed.

(* ---- outputs ---- *)

(* the output of a root node after k blocks have been read *)
Definition out_at (p : platform) (nd : node) (k : N) : output :=
  Output (nd_cv nd) (nd_block nd) (nd_blen nd) (64 * k) (N.lor (nd_flags nd) Spec.ROOT) p.

Lemma out_at_0 : forall p nd, nd_off nd = 0 -> out_of p nd Root = out_at p nd 0.
Proof. intros p nd H. unfold out_of, out_at. now rewrite H. Qed.

Lemma read_block : forall c p nd k, nd_wf nd -> k < MAX_BLOCKS ->
  read c (out_at p nd k)
  = let* off := add64 c (64 * k) 64 in
    Ok (root_block F nd k,
        Output (nd_cv nd) (nd_block nd) (nd_blen nd) off (N.lor (nd_flags nd) Spec.ROOT) p).
Proof.
  intros c p nd k [L W Lb Bb _] H. unfold read, out_at, MAX_BLOCKS in *.
  cbn [o_platform o_cv o_block o_block_len o_offset o_flags].
  rewrite compress_xof_ok by (auto; unfold W64; lia). reflexivity.
Qed.

Lemma read_ok : forall c p nd k, nd_wf nd -> k + 1 < MAX_BLOCKS ->
  read c (out_at p nd k) = Ok (root_block F nd k, out_at p nd (k + 1)).
Proof.
  intros c p nd k W H. rewrite read_block by (auto; lia). unfold MAX_BLOCKS in H.
  rewrite add64_ok by (unfold W64; lia). cbn [bind]. unfold out_at. do 3 f_equal. lia.
Qed.

Lemma read_last : forall c p nd, nd_wf nd ->
  read c (out_at p nd (MAX_BLOCKS - 1))
  = if dbg c then Panic else Ok (root_block F nd (MAX_BLOCKS - 1), out_at p nd 0).
Proof.
  intros c p nd W. rewrite read_block by (auto; unfold MAX_BLOCKS; lia).
  unfold add64, addw. change (64 * (MAX_BLOCKS - 1) + 64) with W64.
  rewrite N.leb_refl, andb_true_r. destruct (dbg c); reflexivity.
Qed.

Lemma to_hash_at : forall p nd k, nd_wf nd -> k < MAX_BLOCKS ->
  to_hash (out_at p nd k) = take 32 (root_block F nd k).
Proof.
  intros p nd k [L W Lb Bb _] H. unfold to_hash, out_at, root_block, MAX_BLOCKS in *.
  cbn [o_platform o_cv o_block o_block_len o_offset o_flags].
  rewrite compress_eq by (auto; unfold W64; lia).
  rewrite bytes_from_state_words_eq by now apply blake_shape8.
  change 32 with (4 * 8). rewrite take_bytes_of_words. reflexivity.
Qed.

Lemma reads_ok : forall c p nd n k, nd_wf nd -> k + N.of_nat n < MAX_BLOCKS ->
  reads c n (out_at p nd k)
  = Ok (map (fun i => root_block F nd (k + N.of_nat i)) (seq 0 n), out_at p nd (k + N.of_nat n)).
Proof.
  intros c p nd n. induction n as [|n IH]; intros k W H.
  - cbn [reads seq map]. do 3 f_equal. lia.
  - cbn [reads]. rewrite read_ok by (auto; lia). cbn [bind]. rewrite IH by (auto; lia). cbn [bind].
    cbn [seq map]. rewrite <- seq_shift, map_map. do 3 f_equal.
    + f_equal. lia.
    + apply map_ext. intros i. f_equal. lia.
    + lia.
Qed.

Lemma reads_app : forall c a b o, reads c (a + b) o
  = (let* (x, o1) := reads c a o in let* (y, o2) := reads c b o1 in Ok (x ++ y, o2)).
Proof.
  intros c a b. induction a as [|a IH]; intros o; cbn [reads Nat.add].
  - cbn [bind]. destruct (reads c b o) as [[y o2]| |]; reflexivity.
  - destruct (read c o) as [[x o1]| |]; cbn [bind]; auto. rewrite IH.
    destruct (reads c a o1) as [[y o2]| |]; cbn [bind]; auto.
    destruct (reads c b o2) as [[z o3]| |]; cbn [bind]; auto.
Qed.

Lemma root_block_len : forall nd k, nd_wf nd -> len (root_block F nd k) = 64.
Proof.
  intros nd k [L W Lb Bb _]. unfold root_block. rewrite len_bytes_of_words.
  unfold len. rewrite (proj1 (blake_shape _ _ _ _ _ L W)). reflexivity.
Qed.

(* n whole blocks *)
Lemma xof_blocks : forall m input n, mode_ok m -> bytes input ->
  spec_xof F m input (64 * N.of_nat n)
  = concat (map (fun i => root_block F (spec_root F m input) (N.of_nat i)) (seq 0 n)).
Proof.
  intros m input n M B. unfold spec_xof.
  replace (N.to_nat ((64 * N.of_nat n + 63) / 64)) with n by lia.
  rewrite flat_map_concat_map. apply take_all.
  rewrite (len_concat_const _ 64).
  - rewrite len_map. unfold len. rewrite seq_length. lia.
  - apply Forall_forall. intros x Hx. apply in_map_iff in Hx. destruct Hx as (i & <- & _).
    apply root_block_len. now apply spec_root_wf.
Qed.

(* debug builds panic on the last block *)
Lemma reads_panic : forall c p nd, nd_wf nd -> dbg c = true ->
  reads c (N.to_nat MAX_BLOCKS) (out_at p nd 0) = Panic.
Proof.
  intros c p nd W D.
  replace (N.to_nat MAX_BLOCKS) with (N.to_nat (MAX_BLOCKS - 1) + 1)%nat by (unfold MAX_BLOCKS; lia).
  rewrite reads_app, reads_ok by (auto; unfold MAX_BLOCKS; lia). cbn [bind].
  rewrite N2Nat.id. cbn [reads].
  rewrite N.add_0_l, read_last, D by auto. reflexivity.
Qed.

(* release builds repeat the stream *)
Lemma reads_wrap_gen : forall c p nd n k, nd_wf nd -> dbg c = false ->
  reads c n (out_at p nd (k mod MAX_BLOCKS))
  = Ok (map (fun i => root_block F nd ((k + N.of_nat i) mod MAX_BLOCKS)) (seq 0 n),
        out_at p nd ((k + N.of_nat n) mod MAX_BLOCKS)).
Proof.
  intros c p nd n. induction n as [|n IH]; intros k W D.
  - cbn [reads seq map]. do 3 f_equal. f_equal. lia.
  - cbn [reads].
    assert (R : read c (out_at p nd (k mod MAX_BLOCKS))
              = Ok (root_block F nd (k mod MAX_BLOCKS), out_at p nd ((k + 1) mod MAX_BLOCKS))).
    { assert (Hk : k mod MAX_BLOCKS < MAX_BLOCKS) by (apply N.mod_lt; discriminate).
      assert (E : (k + 1) mod MAX_BLOCKS = (k mod MAX_BLOCKS + 1) mod MAX_BLOCKS).
      { rewrite N.add_mod_idemp_l by discriminate. reflexivity. }
      destruct (N.eq_dec (k mod MAX_BLOCKS) (MAX_BLOCKS - 1)) as [Q|Q].
      - rewrite E, Q, read_last, D by auto. reflexivity.
      - rewrite read_ok by (auto; lia). rewrite E, (N.mod_small (k mod MAX_BLOCKS + 1)) by lia.
        reflexivity. }
    rewrite R. cbn [bind]. rewrite IH by auto. cbn [bind].
    cbn [seq map]. rewrite <- seq_shift, map_map. do 3 f_equal.
    + f_equal. f_equal. lia.
    + apply map_ext. intros i. f_equal. f_equal. lia.
    + f_equal. lia.
Qed.

Lemma reads_wrap : forall c p nd n, nd_wf nd -> dbg c = false ->
  exists o, reads c n (out_at p nd 0)
  = Ok (map (fun i => root_block F nd (N.of_nat i mod MAX_BLOCKS)) (seq 0 n), o).
Proof.
  intros c p nd n W D. change 0 with (0 mod MAX_BLOCKS) at 1.
  rewrite reads_wrap_gen by auto. eexists. do 2 f_equal.
Qed.

(* ---- one-shot ---- *)

Lemma oneshot_xof_ok : forall c p m input,
  platform_ok c p -> mode_ok m -> bytes input -> len input < WU c ->
  oneshot_xof c p m input = Ok (out_at p (spec_root F m input) 0).
Proof.
  intros c p m input P M B L. destruct (mode_key_ok m M) as [Lk Wk].
  rewrite <- out_at_0 by now apply spec_root_wf.
  destruct m as [|k|k]; cbn [oneshot_xof];
    refine (proj1 (hash_internal_wf c p _ _ P Lk Wk input B L)).
Qed.

Lemma oneshot_of_xof : forall c p m input,
  oneshot c p m input = (let* o := oneshot_xof c p m input in Ok (to_hash o)).
Proof. intros c p [|k|k] input; reflexivity. Qed.

Lemma oneshot_ok : forall c p m input,
  platform_ok c p -> mode_ok m -> bytes input -> len input < WU c ->
  oneshot c p m input = Ok (spec_hash F m input).
Proof.
  intros c p m input P M B L. rewrite oneshot_of_xof, oneshot_xof_ok by auto. cbn [bind].
  rewrite to_hash_at; [reflexivity| |reflexivity]. now apply spec_root_wf.
Qed.

(* ---- streaming ---- *)

(* hasher h, created in mode m, has absorbed data *)
Definition hasher_rel (c : cfg) (h : hasher) (x : mode * list N) : Prop :=
  exists p, platform_ok c p /\ mode_ok (fst x) /\ bytes (snd x) /\ len (snd x) < W64 /\
    holds p (mode_key (fst x)) (mode_flags (fst x)) h (snd x).

Lemma start_rel : forall c p m, platform_ok c p -> mode_ok m -> hasher_rel c (start p m) (m, []).
Proof.
  intros c p m P M. exists p. cbn [fst snd]. destruct (mode_key_ok m M) as [L W].
  split; [exact P|]. split; [exact M|]. split; [constructor|]. split; [reflexivity|].
  destruct m; now apply new_holds.
Qed.

Lemma update_rel : forall c h m data input, hasher_rel c h (m, data) -> bytes input ->
  len data + len input < W64 ->
  exists h', update c h input = Ok h' /\ hasher_rel c h' (m, data ++ input).
Proof.
  intros c h m data input (p & P & M & B & L & H) Bi Li. cbn [fst snd] in *.
  destruct (mode_key_ok m M) as [Lk Wk].
  destruct (update_ok c p _ _ P Lk Wk h data input H Bi Li) as (h' & E & H').
  exists h'. split; auto. exists p. cbn [fst snd].
  split; [exact P|]. split; [exact M|]. split; [apply bytes_app; auto|].
  split; [rewrite len_app; lia|exact H'].
Qed.

Lemma finalize_rel : forall c h m data, hasher_rel c h (m, data) ->
  exists p, platform_ok c p /\ finalize_xof c h = Ok (out_at p (spec_root F m data) 0).
Proof.
  intros c h m data (p & P & M & B & L & H). cbn [fst snd] in *. exists p. split; auto.
  destruct (mode_key_ok m M) as [Lk Wk].
  rewrite <- out_at_0 by now apply spec_root_wf.
  apply (finalize_xof_ok c p _ _ P Lk Wk h data H L).
Qed.

Lemma finalize_hash : forall c h m data, hasher_rel c h (m, data) ->
  finalize c h = Ok (spec_hash F m data).
Proof.
  intros c h m data H. destruct (finalize_rel _ _ _ _ H) as (p & P & E).
  unfold finalize. rewrite E. cbn [bind]. rewrite to_hash_at; [reflexivity| |reflexivity].
  destruct H as (q & _ & M & B & _). now apply spec_root_wf.
Qed.

(* the platform is kept *)
Lemma holds_platform : forall p key flags h data, holds p key flags h data ->
  cs_platform (h_chunk h) = p.
Proof.
  intros p key flags h data (cs & rest & _ & _ & _ & (dn & bf & _ & A) & _). now destruct A.
Qed.

Lemma feed_gen : forall inputs c h m data, hasher_rel c h (m, data) -> Forall bytes inputs ->
  len data + len (concat inputs) < W64 ->
  exists h', feed c h inputs = Ok h' /\ hasher_rel c h' (m, data ++ concat inputs).
Proof.
  induction inputs as [|x r IH]; intros c h m data H B L; cbn [feed concat].
  - exists h. rewrite app_nil_r. auto.
  - inversion B as [|y r0 By Br]; subst. cbn [concat] in L. rewrite len_app in L.
    destruct (update_rel c h m data x) as (h1 & E1 & H1); auto; [lia|].
    rewrite E1. cbn [bind].
    destruct (IH c h1 m (data ++ x)) as (h2 & E2 & H2); auto; [rewrite len_app; lia|].
    exists h2. split; auto. now rewrite app_assoc.
Qed.

Lemma feed_exact : forall inputs c p key flags h data, platform_ok c p ->
  length key = 8%nat -> words key -> holds p key flags h data -> Forall bytes inputs ->
  len data + len (concat inputs) < W64 ->
  exists h', feed c h inputs = Ok h' /\ holds p key flags h' (data ++ concat inputs).
Proof.
  induction inputs as [|x r IH]; intros c p key flags h data P L W H B Hl; cbn [feed concat].
  - exists h. rewrite app_nil_r. auto.
  - inversion B as [|y r0 By Br]; subst. cbn [concat] in Hl. rewrite len_app in Hl.
    destruct (update_ok c p key flags P L W h data x) as (h1 & E1 & H1); auto; [lia|].
    rewrite E1. cbn [bind].
    destruct (IH c p key flags h1 (data ++ x)) as (h2 & E2 & H2); auto; [rewrite len_app; lia|].
    exists h2. split; auto. now rewrite app_assoc.
Qed.

Lemma streaming_ok : forall c p m inputs,
  platform_ok c p -> mode_ok m -> Forall bytes inputs -> len (concat inputs) < W64 ->
  exists h, feed c (start p m) inputs = Ok h /\
    finalize c h = Ok (spec_hash F m (concat inputs)) /\
    finalize_xof c h = Ok (out_at p (spec_root F m (concat inputs)) 0).
Proof.
  intros c p m inputs P M B L. destruct (mode_key_ok m M) as [Lk Wk].
  assert (H0 : holds p (mode_key m) (mode_flags m) (start p m) []) by (destruct m; now apply new_holds).
  destruct (feed_exact inputs c p _ _ _ _ P Lk Wk H0 B) as (h & E & H); [rewrite len_nil; lia|].
  cbn [app] in H. exists h. split; auto.
  assert (Bc : bytes (concat inputs)) by now apply bytes_concat.
  assert (X : finalize_xof c h = Ok (out_at p (spec_root F m (concat inputs)) 0)).
  { rewrite <- out_at_0 by now apply spec_root_wf.
    apply (finalize_xof_ok c p _ _ P Lk Wk h _ H L). }
  split; auto. unfold finalize. rewrite X. cbn [bind].
  rewrite to_hash_at; [reflexivity| |reflexivity]. now apply spec_root_wf.
Qed.

(* ---- programs ---- *)

Definition output_rel (c : cfg) (o : output) (x : mode * list N * N) : Prop :=
  exists p, mode_ok (fst (fst x)) /\ bytes (snd (fst x)) /\ snd x < MAX_BLOCKS /\
    o = out_at p (spec_root F (fst (fst x)) (snd (fst x))) (snd x).

Definition world_rel (c : cfg) (w : world) (a : abstract) : Prop :=
  Forall2 (hasher_rel c) (w_hashers w) (a_hashers a) /\
  Forall2 (output_rel c) (w_outputs w) (a_outputs a).

Lemma bytesb_ok : forall l, bytesb l = true -> bytes l.
Proof.
  intros l H. unfold bytesb in H. rewrite forallb_forall in H. apply Forall_forall.
  intros x Hx. specialize (H x Hx). unfold byte. lia.
Qed.

Lemma mode_okb_ok : forall m, mode_okb m = true -> mode_ok m.
Proof.
  intros [|k|k] H; cbn in *; auto; apply andb_true_iff in H; destruct H as [H1 H2];
    (split; [unfold len in H1; lia|now apply bytesb_ok]).
Qed.

Lemma Forall2_nth : forall A B (R : A -> B -> Prop) l l' i b, Forall2 R l l' ->
  nth_error l' i = Some b -> exists a, nth_error l i = Some a /\ R a b.
Proof.
  intros A B R l l' i b H. revert i. induction H; intros [|i] E; cbn in *; try discriminate.
  - injection E as <-. eauto.
  - eauto.
Qed.

Lemma Forall2_replace : forall A B (R : A -> B -> Prop) l l' i a b, Forall2 R l l' -> R a b ->
  Forall2 R (replace l i a) (replace l' i b).
Proof.
  intros A B R l l' i a b H Rab. revert i. induction H; intros [|i]; cbn; constructor; auto.
Qed.

Lemma replace_same : forall A (l : list A) i a, nth_error l i = Some a -> replace l i a = l.
Proof.
  induction l as [|x l IH]; intros [|i] a E; cbn in *; auto; try discriminate.
  - now injection E as ->.
  - now rewrite IH.
Qed.

Lemma Forall2_snoc : forall A B (R : A -> B -> Prop) l l' a b, Forall2 R l l' -> R a b ->
  Forall2 R (l ++ [a]) (l' ++ [b]).
Proof. intros. apply Forall2_app; auto. Qed.

Lemma step_ok : forall c p mx w a x a' s, platform_ok c p -> mx < WU c ->
  world_rel c w a -> abstract_step mx a x = Some (a', s) ->
  exists w', step c p w x = Ok (w', s) /\ world_rel c w' a'.
Proof.
  intros c p mx w a x a' s P Hmx [HH HO] E. destruct x; cbn [abstract_step step] in *.
  - (* CHash *)
    destruct (mode_okb m && (bytesb input && (len input <=? mx))) eqn:G; [|discriminate].
    injection E as <- <-. rewrite !andb_true_iff in G. destruct G as (G1 & G2 & G3).
    apply mode_okb_ok in G1. apply bytesb_ok in G2.
    rewrite oneshot_ok by (auto; lia). cbn [bind]. exists w. repeat split; auto.
  - (* CHashXof *)
    destruct (mode_okb m && (bytesb input && (len input <=? mx))) eqn:G; [|discriminate].
    injection E as <- <-. rewrite !andb_true_iff in G. destruct G as (G1 & G2 & G3).
    apply mode_okb_ok in G1. apply bytesb_ok in G2.
    rewrite oneshot_xof_ok by (auto; lia). cbn [bind]. eexists. split; [reflexivity|].
    split; cbn [w_hashers w_outputs a_hashers a_outputs]; auto.
    apply Forall2_snoc; auto. exists p. repeat split; auto.
  - (* CNew *)
    destruct (mode_okb m) eqn:G; [|discriminate]. injection E as <- <-.
    eexists. split; [reflexivity|].
    split; cbn [w_hashers w_outputs a_hashers a_outputs]; auto.
    apply Forall2_snoc; auto. apply start_rel; auto. now apply mode_okb_ok.
  - (* CClone *)
    destruct (nth_error (a_hashers a) i) as [h|] eqn:G; [|discriminate]. injection E as <- <-.
    destruct (Forall2_nth _ _ _ _ _ _ _ HH G) as (h0 & N0 & R0). rewrite N0. cbn [bind].
    eexists. split; [reflexivity|].
    split; cbn [w_hashers w_outputs a_hashers a_outputs]; auto. apply Forall2_snoc; auto.
  - (* CUpdate *)
    destruct (nth_error (a_hashers a) i) as [[m data]|] eqn:G; [|discriminate].
    destruct (bytesb input && (len input <=? mx) && (len data + len input <? MAX_BYTES)) eqn:G1;
      [|discriminate].
    injection E as <- <-. rewrite !andb_true_iff in G1. destruct G1 as ((G1 & G2) & G3).
    apply bytesb_ok in G1.
    destruct (Forall2_nth _ _ _ _ _ _ _ HH G) as (h0 & N0 & R0). rewrite N0. cbn [bind].
    destruct (update_rel c h0 m data input) as (h1 & E1 & R1); auto.
    { unfold MAX_BYTES, W64 in *. lia. }
    rewrite E1. cbn [bind]. eexists. split; [reflexivity|].
    split; cbn [w_hashers w_outputs a_hashers a_outputs]; auto. apply Forall2_replace; auto.
  - (* CWrite *)
    destruct (nth_error (a_hashers a) i) as [[m data]|] eqn:G; [|discriminate].
    destruct (bytesb input && (len input <=? mx) && (len data + len input <? MAX_BYTES)) eqn:G1;
      [|discriminate].
    injection E as <- <-. rewrite !andb_true_iff in G1. destruct G1 as ((G1 & G2) & G3).
    apply bytesb_ok in G1.
    destruct (Forall2_nth _ _ _ _ _ _ _ HH G) as (h0 & N0 & R0). rewrite N0. cbn [bind].
    destruct (update_rel c h0 m data input) as (h1 & E1 & R1); auto.
    { unfold MAX_BYTES, W64 in *. lia. }
    unfold write. rewrite E1. cbn [bind]. eexists. split; [reflexivity|].
    split; cbn [w_hashers w_outputs a_hashers a_outputs]; auto. apply Forall2_replace; auto.
  - (* CFlush *)
    destruct (nth_error (a_hashers a) i) as [h|] eqn:G; [|discriminate]. injection E as <- <-.
    destruct (Forall2_nth _ _ _ _ _ _ _ HH G) as (h0 & N0 & R0). rewrite N0. cbn [bind flush].
    rewrite replace_same by auto. eexists. split; [reflexivity|]. split; auto.
  - (* CFinalize *)
    destruct (nth_error (a_hashers a) i) as [[m data]|] eqn:G; [|discriminate]. injection E as <- <-.
    destruct (Forall2_nth _ _ _ _ _ _ _ HH G) as (h0 & N0 & R0). rewrite N0. cbn [bind].
    rewrite (finalize_hash _ _ _ _ R0). cbn [bind]. exists w. repeat split; auto.
  - (* CFinalizeXof *)
    destruct (nth_error (a_hashers a) i) as [[m data]|] eqn:G; [|discriminate]. injection E as <- <-.
    destruct (Forall2_nth _ _ _ _ _ _ _ HH G) as (h0 & N0 & R0). rewrite N0. cbn [bind].
    destruct (finalize_rel _ _ _ _ R0) as (q & Q & E). rewrite E. cbn [bind].
    eexists. split; [reflexivity|].
    split; cbn [w_hashers w_outputs a_hashers a_outputs]; auto.
    destruct R0 as (? & _ & M & B & _). cbn [fst snd] in M, B.
    apply Forall2_snoc; auto. exists q. repeat split; auto.
  - (* CCloneOutput *)
    destruct (nth_error (a_outputs a) j) as [o|] eqn:G; [|discriminate]. injection E as <- <-.
    destruct (Forall2_nth _ _ _ _ _ _ _ HO G) as (o0 & N0 & R0). rewrite N0. cbn [bind].
    eexists. split; [reflexivity|].
    split; cbn [w_hashers w_outputs a_hashers a_outputs]; auto. apply Forall2_snoc; auto.
  - (* CRead *)
    destruct (nth_error (a_outputs a) j) as [[[m input] k]|] eqn:G; [|discriminate].
    destruct (N.ltb_spec (k + 1) MAX_BLOCKS) as [G1|G1]; [|discriminate]. injection E as <- <-.
    destruct (Forall2_nth _ _ _ _ _ _ _ HO G) as (o0 & N0 & R0). rewrite N0. cbn [bind].
    destruct R0 as (q & M & B & K & ->). cbn [fst snd] in *.
    rewrite read_ok by (auto; now apply spec_root_wf). cbn [bind].
    eexists. split; [reflexivity|].
    split; cbn [w_hashers w_outputs a_hashers a_outputs]; auto.
    apply Forall2_replace; auto. exists q. repeat split; auto.
  - (* CToHash *)
    destruct (nth_error (a_outputs a) j) as [[[m input] k]|] eqn:G; [|discriminate].
    injection E as <- <-.
    destruct (Forall2_nth _ _ _ _ _ _ _ HO G) as (o0 & N0 & R0). rewrite N0. cbn [bind].
    destruct R0 as (q & M & B & K & ->). cbn [fst snd] in *.
    rewrite to_hash_at by (auto; now apply spec_root_wf).
    exists w. repeat split; auto.
Qed.

Lemma run_ok : forall xs c ps mx w a a' ss, (forall n, platform_ok c (ps n)) -> mx < WU c ->
  world_rel c w a -> abstract_run mx a xs = Some (a', ss) ->
  exists w', run c ps w xs = Ok (w', ss) /\ world_rel c w' a'.
Proof.
  induction xs as [|x xs IH]; intros c ps mx w a a' ss P Hmx R E; cbn [abstract_run run] in *.
  - injection E as <- <-. eauto.
  - destruct (abstract_step mx a x) as [[a1 s]|] eqn:E1; [|discriminate].
    destruct (abstract_run mx a1 xs) as [[a2 ss2]|] eqn:E2; [|discriminate].
    injection E as <- <-.
    destruct (step_ok c (ps 0%nat) mx w a x a1 s (P _) Hmx R E1) as (w1 & S1 & R1).
    rewrite S1. cbn [bind].
    destruct (IH c (fun n => ps (S n)) mx w1 a1 a2 ss2) as (w2 & S2 & R2); auto.
    rewrite S2. cbn [bind]. eauto.
Qed.

Lemma program_ok : forall c ps xs a ss, (forall n, platform_ok c (ps n)) ->
  abstract_run (WU c / 2 - 1) (Abstract [] []) xs = Some (a, ss) ->
  exists w, run c ps (World [] []) xs = Ok (w, ss).
Proof.
  intros c ps xs a ss P E.
  destruct (run_ok xs c ps (WU c / 2 - 1) (World [] []) (Abstract [] []) a ss) as (w & R & _);
    eauto.
  - pose proof (WU_W32 c). unfold W32 in *. lia.
  - split; constructor.
Qed.

(* ---- one hasher ---- *)

Lemma history_ok : forall es c h m data, hasher_rel c h (m, data) -> Forall event_ok es ->
  len data + len (fed es) < W64 -> history c h es = Ok (expected m data es).
Proof.
  induction es as [|e es IH]; intros c h m data H E L; [reflexivity|].
  inversion E as [|e0 r0 He Er]; subst. unfold fed in L. cbn [flat_map] in L.
  rewrite len_app in L. fold (fed es) in L.
  destruct e as [input| |n]; cbn [history expected event_ok] in *.
  - destruct (update_rel c h m data input) as (h' & U & H'); auto; [lia|].
    rewrite U. cbn [bind]. apply IH; auto. rewrite len_app. lia.
  - rewrite len_nil in L.
    rewrite (finalize_hash _ _ _ _ H). cbn [bind]. rewrite (IH c h m data) by auto. reflexivity.
  - rewrite len_nil in L.
    destruct (finalize_rel _ _ _ _ H) as (p & _ & U). rewrite U. cbn [bind].
    destruct H as (q & Q & M & B & Ld & Hh). cbn [fst snd] in *.
    rewrite reads_ok by (auto; now apply spec_root_wf). cbn [bind].
    rewrite (IH c h m data) by (auto; exists q; repeat split; auto). cbn [bind].
    rewrite xof_blocks by auto. do 2 f_equal.
Qed.
