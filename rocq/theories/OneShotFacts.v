(* Proofs of the statements in Prop_OneShot.v and Prop_Output.v. *)
From Coq Require Import NArith List Bool Lia ZArith.
From Coq Require Import ZifyBool ZifyNat ZifyN.
From Verif Require Import Base BaseFacts Spec TreeFacts CompressFacts SpecFacts.
From Verif Require Import Portable Platform Lib ChunkFacts LibFacts SessionSpec Session ApiFacts HashFacts.
Import ListNotations.
Open Scope N_scope.

Lemma one_shot_tree_hash : forall c p, platform_ok c p ->
  forall input, bytes input -> len input < WU c ->
  hash c p input = Ok (spec_hash blake_compress Hashing input) /\
  forall key, length key = 32%nat -> bytes key ->
    keyed_hash c p key input = Ok (spec_hash blake_compress (Keyed key) input) /\
    derive_key c p key input = Ok (spec_hash blake_compress (Deriving key) input).
Proof.
  intros c p P input B L. split.
  - exact (oneshot_ok c p Hashing input P I B L).
  - intros key Lk Bk. split.
    + exact (oneshot_ok c p (Keyed key) input P (conj Lk Bk) B L).
    + exact (oneshot_ok c p (Deriving key) input P (conj Lk Bk) B L).
Qed.

Lemma root_block_bytes : forall nd k, bytes (root_block F nd k).
Proof. intros. apply bytes_of_words_bytes. Qed.

Lemma spec_hash_shape : forall m input, mode_ok m -> bytes input ->
  len (spec_hash F m input) = 32 /\ bytes (spec_hash F m input).
Proof.
  intros m input M B. unfold spec_hash, spec_block. split.
  - rewrite len_take, root_block_len by now apply spec_root_wf. reflexivity.
  - apply bytes_take, root_block_bytes.
Qed.

Lemma one_shot_total : forall c p, platform_ok c p ->
  forall m input, mode_ok m -> bytes input -> len input < WU c ->
  (exists h, oneshot c p m input = Ok h /\ len h = 32 /\ bytes h) /\
  (exists o, oneshot_xof c p m input = Ok o /\
     forall n, N.of_nat n < MAX_BLOCKS ->
       exists bs o', reads c n o = Ok (bs, o') /\ Forall (fun b => len b = 64 /\ bytes b) bs).
Proof.
  intros c p P m input M B L. split.
  - rewrite oneshot_ok by auto. eexists. split; [reflexivity|]. now apply spec_hash_shape.
  - rewrite oneshot_xof_ok by auto. eexists. split; [reflexivity|]. intros n Hn.
    rewrite reads_ok by (auto; now apply spec_root_wf). do 2 eexists. split; [reflexivity|].
    apply Forall_forall. intros x Hx. apply in_map_iff in Hx. destruct Hx as (i & <- & _).
    split; [apply root_block_len; now apply spec_root_wf|apply root_block_bytes].
Qed.

Lemma detect_ok : forall c p, platform_ok c p <-> exists avx2 sse41, detect c avx2 sse41 = p.
Proof.
  intros c p. unfold platform_ok, detect. split.
  - destruct p; intros H.
    + exists false, false. now destruct (x86 c).
    + exists false, true. now rewrite H.
    + exists true, true. now rewrite H.
  - intros (a & b & <-). destruct (x86 c), a, b; cbn; auto.
Qed.

Lemma one_shot_platforms : forall c1 c2 avx2_1 sse41_1 avx2_2 sse41_2 m input n,
  mode_ok m -> bytes input -> len input < WU c1 -> len input < WU c2 ->
  N.of_nat n < MAX_BLOCKS ->
  let p1 := detect c1 avx2_1 sse41_1 in
  let p2 := detect c2 avx2_2 sse41_2 in
  oneshot c1 p1 m input = oneshot c2 p2 m input /\
  (let* o := oneshot_xof c1 p1 m input in let* (bs, _) := reads c1 n o in Ok bs)
  = (let* o := oneshot_xof c2 p2 m input in let* (bs, _) := reads c2 n o in Ok bs).
Proof.
  intros c1 c2 a1 s1 a2 s2 m input n M B L1 L2 Hn p1 p2.
  assert (P1 : platform_ok c1 p1) by (apply detect_ok; unfold p1; eauto).
  assert (P2 : platform_ok c2 p2) by (apply detect_ok; unfold p2; eauto).
  rewrite !oneshot_ok by auto. split; [reflexivity|].
  rewrite !oneshot_xof_ok by auto. cbn [bind].
  rewrite !reads_ok by (auto; now apply spec_root_wf). reflexivity.
Qed.

Lemma left_len_largest : forall c n, 2048 < n -> n < WU c ->
  exists k, left_len c n = Ok (2048 * 2 ^ k) /\ 2048 * 2 ^ k < n /\
    forall j, 2048 * 2 ^ j < n -> j <= k.
Proof.
  intros c n H1 H2. exists (N.log2 ((n - 1) / 2048)). rewrite left_len_ok by auto.
  destruct (left_chunks_spec n H1) as (A1 & A2 & A3). unfold left_chunks in *.
  split; [reflexivity|]. split; [exact A1|]. intros j Hj.
  destruct (N.le_gt_cases j (N.log2 ((n - 1) / 2048))) as [L|G]; auto.
  assert (2 ^ (N.log2 ((n - 1) / 2048) + 1) <= 2 ^ j) by (apply N.pow_le_mono_r; lia).
  rewrite N.pow_add_r in *. change (2 ^ 1) with 2 in *. lia.
Qed.

Lemma key_in_full : forall a b,
  bytes a -> bytes b -> len a = 32 -> len b = 32 ->
  (words_from_key_bytes a = words_from_key_bytes b -> a = b) /\
  bytes_from_state_words (words_from_key_bytes a) = a /\
  length (words_from_key_bytes a) = 8%nat.
Proof.
  intros a b A B La Lb. split; [now apply key_words_inj|]. split; [now apply key_words_back|].
  unfold words_from_key_bytes. apply (len_length _ _ 8). rewrite len_words_of_bytes, La. reflexivity.
Qed.

(* ---- extended output ---- *)

Lemma nth_error_blocks : forall nd n k, (k < n)%nat ->
  nth_error (map (fun i => root_block F nd (0 + N.of_nat i)) (seq 0 n)) k
  = Some (root_block F nd (N.of_nat k)).
Proof.
  intros nd n k H. rewrite nth_error_map, (nth_error_nth' _ O) by now rewrite seq_length.
  rewrite seq_nth by auto. reflexivity.
Qed.

Lemma xof_stream : forall c p m input n,
  platform_ok c p -> mode_ok m -> bytes input -> len input < WU c -> N.of_nat n < MAX_BLOCKS ->
  exists o bs o',
    oneshot_xof c p m input = Ok o /\ reads c n o = Ok (bs, o') /\
    length bs = n /\
    concat bs = spec_xof blake_compress m input (64 * N.of_nat n) /\
    (forall k, (k < n)%nat -> nth_error bs k = Some (spec_block blake_compress m input (N.of_nat k))) /\
    to_hash o' = take 32 (spec_block blake_compress m input (N.of_nat n)) /\
    oneshot c p m input = Ok (to_hash o).
Proof.
  intros c p m input n P M B L Hn. rewrite oneshot_of_xof, oneshot_xof_ok by auto.
  do 3 eexists. split; [reflexivity|]. rewrite reads_ok by (auto; now apply spec_root_wf).
  split; [reflexivity|]. split; [now rewrite map_length, seq_length|].
  split; [now rewrite xof_blocks by auto|]. split.
  { intros k Hk. now apply nth_error_blocks. }
  split; [|reflexivity].
  apply to_hash_at; [now apply spec_root_wf|exact Hn].
Qed.

Lemma hasher_stream : forall c p m inputs n,
  platform_ok c p -> mode_ok m -> Forall bytes inputs -> len (concat inputs) < W64 ->
  N.of_nat n < MAX_BLOCKS ->
  exists h o bs o',
    feed c (start p m) inputs = Ok h /\ finalize_xof c h = Ok o /\ reads c n o = Ok (bs, o') /\
    length bs = n /\
    concat bs = spec_xof blake_compress m (concat inputs) (64 * N.of_nat n) /\
    (forall k, (k < n)%nat ->
       nth_error bs k = Some (spec_block blake_compress m (concat inputs) (N.of_nat k))) /\
    to_hash o' = take 32 (spec_block blake_compress m (concat inputs) (N.of_nat n)) /\
    finalize c h = Ok (to_hash o).
Proof.
  intros c p m inputs n P M B L Hn.
  destruct (streaming_ok c p m inputs P M B L) as (h & E & _ & X).
  assert (Bc : bytes (concat inputs)) by now apply bytes_concat.
  exists h. do 3 eexists. split; [exact E|]. split; [exact X|].
  rewrite reads_ok by (auto; now apply spec_root_wf).
  split; [reflexivity|]. split; [now rewrite map_length, seq_length|].
  split; [now rewrite xof_blocks by auto|]. split.
  { intros k Hk. now apply nth_error_blocks. }
  split; [apply to_hash_at; [now apply spec_root_wf|exact Hn]|].
  unfold finalize. rewrite X. reflexivity.
Qed.

Lemma xof_prefix : forall m input a b, mode_ok m -> bytes input -> a <= b ->
  take a (spec_xof F m input b) = spec_xof F m input a.
Proof.
  intros m input a b M B H. unfold spec_xof. rewrite take_take. replace (N.min a b) with a by lia.
  replace (N.to_nat ((b + 63) / 64))
    with (N.to_nat ((a + 63) / 64) + N.to_nat ((b + 63) / 64 - (a + 63) / 64))%nat by lia.
  rewrite seq_app, flat_map_app. apply take_app_le. rewrite flat_map_concat_map.
  rewrite (len_concat_const _ 64).
  - rewrite len_map. unfold len. rewrite seq_length. lia.
  - apply Forall_forall. intros x Hx. apply in_map_iff in Hx. destruct Hx as (i & <- & _).
    apply root_block_len. now apply spec_root_wf.
Qed.

Lemma xof_hash : forall m input, mode_ok m -> bytes input ->
  spec_hash F m input = spec_xof F m input 32.
Proof.
  intros m input M B. unfold spec_xof, spec_hash. change (N.to_nat ((32 + 63) / 64)) with 1%nat.
  cbn [seq flat_map]. now rewrite app_nil_r.
Qed.

Lemma xof_debug_panics : forall c p m input,
  platform_ok c p -> mode_ok m -> bytes input -> len input < WU c -> dbg c = true ->
  exists o, oneshot_xof c p m input = Ok o /\ reads c (N.to_nat MAX_BLOCKS) o = Panic.
Proof.
  intros c p m input P M B L D. rewrite oneshot_xof_ok by auto. eexists. split; [reflexivity|].
  apply reads_panic; [now apply spec_root_wf|exact D].
Qed.

Lemma xof_release_repeats : forall c p m input n,
  platform_ok c p -> mode_ok m -> bytes input -> len input < WU c -> dbg c = false ->
  exists o bs o',
    oneshot_xof c p m input = Ok o /\ reads c n o = Ok (bs, o') /\ length bs = n /\
    forall k, (k < n)%nat ->
      nth_error bs k = Some (spec_block blake_compress m input (N.of_nat k mod MAX_BLOCKS)).
Proof.
  intros c p m input n P M B L D. rewrite oneshot_xof_ok by auto.
  destruct (reads_wrap c p (spec_root F m input) n) as (o' & E); auto; [now apply spec_root_wf|].
  do 3 eexists. split; [reflexivity|]. split; [exact E|].
  split; [now rewrite map_length, seq_length|].
  intros k Hk. rewrite nth_error_map, (nth_error_nth' _ O) by now rewrite seq_length.
  rewrite seq_nth by auto. reflexivity.
Qed.

Lemma any_length_refuted :
  ~ (forall c p m input n o, platform_ok c p -> mode_ok m -> bytes input -> len input < WU c ->
       oneshot_xof c p m input = Ok o -> exists bs o', reads c n o = Ok (bs, o')).
Proof.
  intros H.
  destruct (xof_debug_panics (Cfg true true true) PPortable Hashing []) as (o & E & R);
    try reflexivity; try exact I; try constructor.
  destruct (H (Cfg true true true) PPortable Hashing [] (N.to_nat MAX_BLOCKS) o) as (bs & o' & E');
    try exact I; try constructor; auto.
  congruence.
Qed.
