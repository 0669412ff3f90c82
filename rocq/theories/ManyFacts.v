(* hash_many on every platform hashes each input on its own. *)
From Coq Require Import NArith List Bool Lia ZArith.
From Coq Require Import ZifyBool ZifyNat ZifyN.
From Verif Require Export ManySpec.
From Verif Require Import Base BaseFacts Spec Simd SimdGen SimdHash CompressFacts SimdFacts.
From Verif Require Import RowFacts RowCompress.
From Verif Require Portable Sse41 Avx2 Platform.
Import ListNotations.
Open Scope N_scope.

Lemma hash_all_app : forall F key flags fs fe delta a b off,
  hash_all F key flags fs fe off delta (a ++ b)
  = hash_all F key flags fs fe off delta a
    ++ hash_all F key flags fs fe (off + len a * delta) delta b.
Proof.
  intros F key flags fs fe delta a. induction a as [|x a IH]; intros b off; cbn [app hash_all].
  - rewrite len_nil, N.mul_0_l, N.add_0_r. reflexivity.
  - rewrite IH, len_cons. cbn [app]. do 3 f_equal. lia.
Qed.

Lemma many_blocks_shape : forall bs cv off bf flags fe,
  length cv = 8%nat -> words cv ->
  length (many_blocks blake_compress cv off bf flags fe bs) = 8%nat /\
  words (many_blocks blake_compress cv off bf flags fe bs).
Proof.
  induction bs as [|b bs IH]; intros cv off bf flags fe L W; cbn [many_blocks]; auto.
  apply IH; now apply blake_shape8.
Qed.

Lemma hash_one_shape : forall key flags fs fe off input,
  length key = 8%nat -> words key ->
  len (hash_one blake_compress key flags fs fe off input) = 32 /\
  bytes (hash_one blake_compress key flags fs fe off input).
Proof.
  intros. unfold hash_one. split; [|apply bytes_of_words_bytes].
  rewrite len_bytes_of_words. unfold len.
  rewrite (proj1 (many_blocks_shape _ key off _ flags fe H H0)). reflexivity.
Qed.

Lemma hash_all_len : forall key flags fs fe delta inputs off,
  length key = 8%nat -> words key ->
  len (concat (hash_all blake_compress key flags fs fe off delta inputs)) = 32 * len inputs.
Proof.
  intros key flags fs fe delta inputs. induction inputs as [|i r IH]; intros off L W; [reflexivity|].
  cbn [hash_all concat]. rewrite len_app, IH, len_cons by auto.
  rewrite (proj1 (hash_one_shape key flags fs fe off i L W)). lia.
Qed.

(* ---- one input at a time ---- *)

Definition comp_ok (comp : list N -> list N -> N -> N -> N -> list N) : Prop :=
  forall cv block blen off flags,
    length cv = 8%nat -> length block = 64%nat -> bytes block -> off < W64 ->
    comp cv block blen off flags = firstn 8 (blake_compress cv block blen off flags).

Lemma portable_comp_ok : comp_ok Portable.compress.
Proof. intros cv block blen off flags H1 H2 H3 H4. now apply portable_compress. Qed.
Lemma sse41_comp_ok : comp_ok Sse41.compress.
Proof. intros cv block blen off flags H1 H2 H3 H4. now apply sse41_compress. Qed.

Lemma hash1_loop_ok : forall comp, comp_ok comp -> forall t slice fuel cv off bf flags fe,
  len slice = 64 * N.of_nat t -> bytes slice -> (t <= fuel)%nat ->
  length cv = 8%nat -> words cv -> off < W64 ->
  Portable.hash1_loop comp fuel cv slice off bf flags fe
  = Ok (many_blocks blake_compress cv off bf flags fe (blks t slice)).
Proof.
  intros comp C t. induction t as [|t IH]; intros slice fuel cv off bf flags fe L B Hf Lcv Wcv Ho.
  - destruct fuel; cbn [Portable.hash1_loop]; unfold Portable.BLOCK_LEN;
      rewrite (proj2 (N.leb_gt _ _)) by lia; reflexivity.
  - destruct fuel as [|fuel]; [lia|]. cbn [Portable.hash1_loop]. unfold Portable.BLOCK_LEN.
    rewrite (proj2 (N.leb_le _ _)) by lia.
    assert (L1 : length (take 64 slice) = 64%nat).
    { apply (len_length _ _ 64). lenlia. }
    rewrite C by (auto; now apply bytes_take).
    rewrite IH; [|lenlia|now apply bytes_drop|lia|now apply blake_shape8|now apply blake_shape8|auto].
    cbn [blks many_blocks]. do 4 f_equal.
    destruct t; cbn [blks].
    + now rewrite (proj2 (N.eqb_eq _ _)) by lia.
    + now rewrite (proj2 (N.eqb_neq _ _)) by lia.
Qed.

Lemma loop_hash_one : forall comp, comp_ok comp -> forall input key off flags fs fe,
  len input mod 64 = 0 -> bytes input -> length key = 8%nat -> words key -> off < W64 ->
  (let* cv := Portable.hash1_loop comp (length input) key input off (N.lor flags fs) flags fe in
   Ok (bytes_of_words cv))
  = Ok (hash_one blake_compress key flags fs fe off input).
Proof.
  intros comp C input key off flags fs fe L B Lk Wk Ho.
  rewrite (hash1_loop_ok comp C (N.to_nat (len input / 64))); auto.
  - lia.
  - unfold len in *. lia.
Qed.

Lemma hash_each_ok : forall c h1 key flags fs fe delta inputs off out,
  (forall i o, In i inputs -> o < W64 -> h1 i o = Ok (hash_one blake_compress key flags fs fe o i)) ->
  length key = 8%nat -> words key ->
  32 * len inputs <= len out -> off + len inputs * delta < W64 ->
  Portable.hash_each c h1 inputs off delta out
  = Ok (concat (hash_all blake_compress key flags fs fe off delta inputs) ++ drop (32 * len inputs) out).
Proof.
  intros c h1 key flags fs fe delta inputs.
  induction inputs as [|i r IH]; intros off out H Lk Wk Ho Hoff; cbn [Portable.hash_each].
  - reflexivity.
  - rewrite len_cons in *. unfold Portable.OUT_LEN.
    rewrite (proj2 (N.leb_le _ _)) by lia.
    rewrite H; [|now left|nia]. cbn [bind].
    rewrite add64_ok by nia. cbn [bind].
    rewrite IH; [|intros; apply H; [now right|auto]|auto|auto|lenlia|nia].
    cbn [bind hash_all concat]. rewrite <- app_assoc. do 3 f_equal.
    rewrite drop_drop. f_equal. lia.
Qed.

(* ---- several inputs at once ---- *)

Lemma seq_res_ok : forall A (l : list A), seq_res (map Ok l) = Ok l.
Proof. induction l as [|a l IH]; [reflexivity|]. cbn [map seq_res bind]. now rewrite IH. Qed.

Lemma load_grid_ok : forall n inputs bo cols,
  (forall i col, In i inputs -> In col cols -> bo + col + n <= len i) ->
  load_grid n inputs bo cols
  = Ok (flat_map (fun col => map (fun i => words_of_bytes (take n (drop (bo + col) i))) inputs) cols).
Proof.
  intros n inputs bo cols H. unfold load_grid. rewrite <- seq_res_ok. f_equal.
  induction cols as [|col cols IH]; [reflexivity|]. cbn [flat_map]. rewrite map_app, map_map.
  f_equal.
  - apply map_ext_in. intros i Hi. unfold loadu. rewrite slice_ok by (apply H; [auto|now left]).
    reflexivity.
  - apply IH. intros. apply H; [auto|now right].
Qed.

Lemma lane_offsets_ok : forall c n off delta, off + N.of_nat n * delta < W64 ->
  lane_offsets c n off delta = Ok (map (fun i => off + N.of_nat i * delta) (seq 0 n)).
Proof.
  intros c n off delta H. unfold lane_offsets. rewrite <- seq_res_ok, map_map. f_equal.
  apply map_ext_in. intros i Hi. apply in_seq in Hi.
  assert (N.of_nat i * delta <= N.of_nat n * delta) by nia.
  rewrite mul64_ok by lia. cbn [bind]. now rewrite add64_ok by lia.
Qed.

Section VecLoop.
Variable n : nat.
Variable O : vops vec.
Hypothesis LW : lanewise n O.
Hypothesis NPOS : (0 < n)%nat.
Variable inputs : list (list N).
Variable load_msgs : N -> res (list vec).
Variable cap : N.
Hypothesis LOAD : forall bo, bo + 64 <= cap -> exists msg,
  load_msgs bo = Ok msg /\ length msg = 16%nat /\ Forall (vn n) msg /\
  forall i, (i < n)%nat -> lanes i msg = words_of_bytes (take 64 (drop bo (nth i inputs []))).

Lemma vec_hash_loop_ok : forall todo block blocks h lo hi (off : nat -> N) bf flags fe,
  block + N.of_nat todo = blocks -> 64 * blocks <= cap ->
  length h = 8%nat -> Forall (vn n) h -> vn n lo -> vn n hi ->
  (forall i, (i < n)%nat -> lane_of i lo = off i mod W32) ->
  (forall i, (i < n)%nat -> lane_of i hi = off i / W32) ->
  exists h',
    vec_hash_loop O sse41_round_code (set1_epi32 n) load_msgs todo block blocks h lo hi bf flags fe
    = Ok h' /\ length h' = 8%nat /\ Forall (vn n) h' /\
    forall i, (i < n)%nat ->
      lanes i h' = many_blocks blake_compress (lanes i h) (off i) bf flags fe
                     (blks todo (drop (64 * block) (nth i inputs []))).
Proof.
  induction todo as [|todo IH]; intros block blocks h lo hi off bf flags fe Hb Hc Lh Fh Vlo Vhi Elo Ehi.
  - exists h. cbn [vec_hash_loop blks many_blocks]. auto.
  - cbn [vec_hash_loop]. unfold Portable.BLOCK_LEN.
    destruct (LOAD (block * 64)) as (msg & Em & Lm & Fm & Lanes); [lia|].
    rewrite Em. cbn [bind].
    set (bf' := if block + 1 =? blocks then N.lor bf fe else bf).
    assert (V : forall i, (i < n)%nat ->
      lanes i (vec_compress O sse41_round_code (set1_epi32 n) h msg lo hi (set1_epi32 n 64) (set1_epi32 n bf'))
      = firstn 8 (blake_compress (lanes i h) (take 64 (drop (block * 64) (nth i inputs []))) 64 (off i) bf') /\
      Forall (vn n) (vec_compress O sse41_round_code (set1_epi32 n) h msg lo hi (set1_epi32 n 64) (set1_epi32 n bf')) /\
      length (vec_compress O sse41_round_code (set1_epi32 n) h msg lo hi (set1_epi32 n 64) (set1_epi32 n bf')) = 8%nat).
    { intros i Hi. apply (lane_vec_compress n O LW (set1_epi32 n) (fun x => eq_refl)) with (off := off i); auto. }
    set (h1 := vec_compress _ _ _ h msg lo hi _ _) in *.
    destruct (V 0%nat NPOS) as (_ & F1 & L1).
    destruct (IH (block + 1) blocks h1 lo hi off flags flags fe) as (h' & E & L' & F' & X); auto; [lia|].
    exists h'. split; [exact E|]. split; [exact L'|]. split; [exact F'|].
    intros i Hi. rewrite (X i Hi). rewrite (proj1 (V i Hi)). cbn [blks many_blocks].
    rewrite drop_drop. replace (64 + 64 * block) with (64 * (block + 1)) by lia.
    replace (block * 64) with (64 * block) by lia. do 3 f_equal.
    subst bf'. destruct todo; cbn [blks].
    + now rewrite (proj2 (N.eqb_eq _ _)) by lia.
    + now rewrite (proj2 (N.eqb_neq _ _)) by lia.
Qed.
End VecLoop.

(* The batches of hash_many. *)
Lemma batch_loop_ok : forall c degree hashN rest key flags fs fe delta cap,
  0 < degree -> length key = 8%nat -> words key ->
  (forall inputs off, len inputs = degree -> Forall (fun i => len i = cap /\ bytes i) inputs ->
     off + degree * delta < W64 ->
     hashN inputs off = Ok (concat (hash_all blake_compress key flags fs fe off delta inputs))) ->
  (forall inputs off out, Forall (fun i => len i = cap /\ bytes i) inputs ->
     32 * len inputs <= len out -> off + len inputs * delta < W64 ->
     rest inputs off out
     = Ok (concat (hash_all blake_compress key flags fs fe off delta inputs) ++ drop (32 * len inputs) out)) ->
  forall fuel inputs off out, (length inputs <= fuel)%nat ->
  Forall (fun i => len i = cap /\ bytes i) inputs ->
  32 * len inputs <= len out -> off + len inputs * delta < W64 ->
  batch_loop c fuel degree hashN rest inputs off delta out
  = Ok (concat (hash_all blake_compress key flags fs fe off delta inputs) ++ drop (32 * len inputs) out).
Proof.
  intros c degree hashN rest key flags fs fe delta cap Hd Lk Wk HN HR.
  induction fuel as [|fuel IH]; intros inputs off out Hf Fi Lo Ho.
  - destruct inputs; [|cbn in Hf; lia]. cbn [batch_loop].
    rewrite (proj2 (N.leb_gt _ _)) by (rewrite len_nil; lia). cbn [andb]. now apply HR.
  - cbn [batch_loop].
    destruct (N.leb_spec degree (len inputs)) as [Hle|Hgt]; cbn [andb]; [|now apply HR].
    unfold Portable.OUT_LEN. rewrite (proj2 (N.leb_le _ _)) by lia.
    assert (T : len (take degree inputs) = degree) by lenlia.
    assert (D : len (drop degree inputs) = len inputs - degree) by lenlia.
    assert (M : len inputs * delta = degree * delta + (len inputs - degree) * delta) by nia.
    rewrite HN; [|exact T|now apply Forall_take|lia]. cbn [bind].
    rewrite mul64_ok by lia. cbn [bind]. rewrite add64_ok by lia. cbn [bind].
    rewrite IH; [|unfold len in *; lia|now apply Forall_drop|lenlia|rewrite D; lia].
    cbn [bind]. rewrite app_assoc. rewrite <- concat_app.
    rewrite <- T at 2. rewrite <- hash_all_app, take_drop.
    rewrite drop_drop. do 3 f_equal. rewrite D. lia.
Qed.

(* ---- four inputs: sse41 ---- *)

Ltac lane_cases i Hi := first [exfalso; lia | destruct i as [|i]; [|lane_cases i Hi]].

Lemma words_vn : forall k l, len l = 4 * N.of_nat k -> length (words_of_bytes l) = k.
Proof. intros k l H. pose proof (len_words_of_bytes l) as E. unfold len in *. lia. Qed.

Lemma transpose4 : forall (a b c d : vec), length a = 4%nat -> length b = 4%nat -> length c = 4%nat -> length d = 4%nat ->
  length (Sse41.transpose_vecs [a; b; c; d]) = 4%nat /\
  Forall (vn 4) (Sse41.transpose_vecs [a; b; c; d]) /\
  forall i, (i < 4)%nat -> lanes i (Sse41.transpose_vecs [a; b; c; d]) = nth i [a; b; c; d] [].
Proof.
  intros a b c d Ha Hb Hc Hd.
  destruct (list4 _ a Ha) as (a0 & a1 & a2 & a3 & ->).
  destruct (list4 _ b Hb) as (b0 & b1 & b2 & b3 & ->).
  destruct (list4 _ c Hc) as (c0 & c1 & c2 & c3 & ->).
  destruct (list4 _ d Hd) as (d0 & d1 & d2 & d3 & ->).
  split; [reflexivity|]. split; [repeat constructor|].
  intros i Hi. lane_cases i Hi; reflexivity.
Qed.

Lemma take_words_split : forall k l bo, (k = 4 \/ k = 8)%nat -> bo + 64 <= len l ->
  words_of_bytes (take 64 (drop bo l)) =
  flat_map (fun col => words_of_bytes (take (4 * N.of_nat k) (drop (bo + col) l)))
           (if (k =? 4)%nat then [0; 16; 32; 48] else [0; 32]).
Proof.
  intros k l bo [->| ->] H; cbn [Nat.eqb flat_map].
  - change (4 * N.of_nat 4) with 16. change 64 with (16 + (16 + (16 + 16))).
    rewrite !take_split, !drop_drop. rewrite !words_of_bytes_app by (lenlia).
    rewrite app_nil_r, N.add_0_r.
    replace (16 + (16 + (16 + bo))) with (bo + 48) by lia.
    replace (16 + (16 + bo)) with (bo + 32) by lia. replace (16 + bo) with (bo + 16) by lia.
    reflexivity.
  - change (4 * N.of_nat 8) with 32. change 64 with (32 + 32).
    rewrite !take_split, !drop_drop. rewrite !words_of_bytes_app by (lenlia).
    rewrite app_nil_r, N.add_0_r. replace (32 + bo) with (bo + 32) by lia. reflexivity.
Qed.

Lemma lanes_app : forall i a b, lanes i (a ++ b) = lanes i a ++ lanes i b.
Proof. intros. apply map_app. Qed.

Lemma sse41_load : forall i0 i1 i2 i3 cap,
  len i0 = cap -> len i1 = cap -> len i2 = cap -> len i3 = cap ->
  forall bo, bo + 64 <= cap -> exists msg,
  Sse41.transpose_msg_vecs [i0; i1; i2; i3] bo = Ok msg /\ length msg = 16%nat /\ Forall (vn 4) msg /\
  forall i, (i < 4)%nat -> lanes i msg = words_of_bytes (take 64 (drop bo (nth i [i0; i1; i2; i3] []))).
Proof.
  intros i0 i1 i2 i3 cap H0 H1 H2 H3 bo Hbo. unfold Sse41.transpose_msg_vecs.
  rewrite load_grid_ok.
  2: { intros i col Hi Hcol. cbn in Hi, Hcol. intuition (subst; lia). }
  cbn [bind flat_map map app firstn skipn].
  assert (L : forall inp col, len inp = cap -> col <= 48 ->
     length (words_of_bytes (take 16 (drop (bo + col) inp))) = 4%nat).
  { intros inp col E C. apply words_vn. lenlia. }
  pose proof (transpose4 _ _ _ _ (L i0 0 H0 ltac:(lia)) (L i1 0 H1 ltac:(lia)) (L i2 0 H2 ltac:(lia)) (L i3 0 H3 ltac:(lia))) as (A1 & A2 & A3).
  pose proof (transpose4 _ _ _ _ (L i0 16 H0 ltac:(lia)) (L i1 16 H1 ltac:(lia)) (L i2 16 H2 ltac:(lia)) (L i3 16 H3 ltac:(lia))) as (B1 & B2 & B3).
  pose proof (transpose4 _ _ _ _ (L i0 32 H0 ltac:(lia)) (L i1 32 H1 ltac:(lia)) (L i2 32 H2 ltac:(lia)) (L i3 32 H3 ltac:(lia))) as (C1 & C2 & C3).
  pose proof (transpose4 _ _ _ _ (L i0 48 H0 ltac:(lia)) (L i1 48 H1 ltac:(lia)) (L i2 48 H2 ltac:(lia)) (L i3 48 H3 ltac:(lia))) as (D1 & D2 & D3).
  eexists. split; [reflexivity|]. split; [rewrite !app_length, A1, B1, C1, D1; reflexivity|].
  split; [rewrite !Forall_app; auto|].
  intros i Hi. rewrite !lanes_app, A3, B3, C3, D3 by auto.
  rewrite (take_words_split 4); [|auto|lane_cases i Hi; cbn [nth]; lia].
  cbn [Nat.eqb flat_map]. rewrite app_nil_r. change (4 * N.of_nat 4) with 16.
  lane_cases i Hi; reflexivity.
Qed.

Lemma nth_repeat_lt : forall A (x d : A) n i, (i < n)%nat -> nth i (repeat x n) d = x.
Proof.
  intros A x d n. induction n; intros i H; [lia|]. destruct i; [reflexivity|]. cbn. apply IHn. lia.
Qed.

(* Lane i of the initial vectors. *)
Lemma key_lanes : forall n key i, length key = 8%nat -> (i < n)%nat ->
  lanes i (map (fun k => set1_epi32 n (get key k)) (seq 0 8)) = key.
Proof.
  intros n key i L Hi. destruct (list8 key L) as (a0 & a1 & a2 & a3 & a4 & a5 & a6 & a7 & ->).
  unfold lanes. rewrite map_map. unfold lane_of, set1_epi32.
  rewrite (map_ext _ (fun k => get [a0; a1; a2; a3; a4; a5; a6; a7] k)); [reflexivity|].
  intros k. apply (nth_repeat_lt); exact Hi.
Qed.

Lemma key_vn : forall n key, Forall (vn n) (map (fun k => set1_epi32 n (get key k)) (seq 0 8)).
Proof.
  intros. apply Forall_map, Forall_forall. intros x _. unfold vn, set1_epi32. apply repeat_length.
Qed.

Lemma offs_lanes : forall n off delta f i, (i < n)%nat ->
  lane_of i (map f (map (fun i => off + N.of_nat i * delta) (seq 0 n))) = f (off + N.of_nat i * delta).
Proof.
  intros. unfold lane_of. rewrite map_map.
  rewrite (nth_indep _ 0 (f (off + N.of_nat 0 * delta))) by (rewrite map_length, seq_length; exact H).
  rewrite (map_nth (fun i => f (off + N.of_nat i * delta))). now rewrite seq_nth.
Qed.

Lemma hash_all_lanes : forall key flags fs fe delta n inputs off, length inputs = n ->
  hash_all blake_compress key flags fs fe off delta inputs
  = map (fun i => hash_one blake_compress key flags fs fe (off + N.of_nat i * delta) (nth i inputs []))
        (seq 0 n).
Proof.
  intros key flags fs fe delta n. induction n; intros [|x inputs] off H; try discriminate H; [reflexivity|].
  cbn [hash_all seq map nth]. change (N.of_nat 0) with 0. rewrite N.mul_0_l, N.add_0_r. f_equal.
  rewrite (IHn inputs) by (cbn in H; lia). rewrite <- seq_shift, map_map.
  apply map_ext. intros i. cbn [nth]. f_equal. lia.
Qed.

Lemma lane_results : forall n inputs cap key off delta flags fs fe h',
  length inputs = n -> Forall (fun i => len i = cap /\ bytes i) inputs -> length key = 8%nat ->
  (forall i, (i < n)%nat ->
      lanes i h' = many_blocks blake_compress
                     (lanes i (map (fun k => set1_epi32 n (get key k)) (seq 0 8)))
                     (off + N.of_nat i * delta) (N.lor flags fs) flags fe
                     (blks (N.to_nat (cap / 64)) (drop (64 * 0) (nth i inputs [])))) ->
  concat (map (fun i => bytes_of_words (lanes i h')) (seq 0 n))
  = concat (hash_all blake_compress key flags fs fe off delta inputs).
Proof.
  intros n inputs cap key off delta flags fs fe h' Li Fi Lk H. f_equal.
  rewrite (hash_all_lanes key flags fs fe delta n) by exact Li.
  apply map_ext_in. intros i Hi. apply in_seq in Hi. rewrite H by lia.
  rewrite key_lanes by (auto; lia). unfold hash_one. rewrite N.mul_0_r, drop_0.
  rewrite Forall_forall in Fi. rewrite (proj1 (Fi (nth i inputs []) ltac:(apply nth_In; lia))).
  reflexivity.
Qed.

Lemma vn8 : forall n h, length h = 8%nat -> Forall (vn n) h ->
  exists h0 h1 h2 h3 h4 h5 h6 h7, h = [h0; h1; h2; h3; h4; h5; h6; h7] /\
  length h0 = n /\ length h1 = n /\ length h2 = n /\ length h3 = n /\
  length h4 = n /\ length h5 = n /\ length h6 = n /\ length h7 = n.
Proof.
  intros n h L F. destruct (list8p _ h L) as (h0 & h1 & h2 & h3 & h4 & h5 & h6 & h7 & ->).
  repeat match goal with H : Forall _ (_ :: _) |- _ => inversion H; clear H; subst end.
  repeat eexists; assumption.
Qed.

Lemma sse41_store : forall h, length h = 8%nat -> Forall (vn 4) h ->
  let h' := Sse41.transpose_vecs (firstn 4 h) ++ Sse41.transpose_vecs (skipn 4 h) in
  storeu (Sse41.row h' 0) ++ storeu (Sse41.row h' 4) ++ storeu (Sse41.row h' 1) ++ storeu (Sse41.row h' 5)
      ++ storeu (Sse41.row h' 2) ++ storeu (Sse41.row h' 6) ++ storeu (Sse41.row h' 3) ++ storeu (Sse41.row h' 7)
  = concat (map (fun i => bytes_of_words (lanes i h)) (seq 0 4)).
Proof.
  intros h L F.
  destruct (vn8 4 h L F) as (h0 & h1 & h2 & h3 & h4 & h5 & h6 & h7 & -> & L0 & L1 & L2 & L3 & L4 & L5 & L6 & L7).
  destruct (list4 _ h0 L0) as (? & ? & ? & ? & ->). destruct (list4 _ h1 L1) as (? & ? & ? & ? & ->).
  destruct (list4 _ h2 L2) as (? & ? & ? & ? & ->). destruct (list4 _ h3 L3) as (? & ? & ? & ? & ->).
  destruct (list4 _ h4 L4) as (? & ? & ? & ? & ->). destruct (list4 _ h5 L5) as (? & ? & ? & ? & ->).
  destruct (list4 _ h6 L6) as (? & ? & ? & ? & ->). destruct (list4 _ h7 L7) as (? & ? & ? & ? & ->).
  reflexivity.
Qed.

Lemma sse41_hash4_ok : forall c inputs cap key off delta flags fs fe,
  len inputs = 4 -> Forall (fun i => len i = cap /\ bytes i) inputs -> cap mod 64 = 0 ->
  length key = 8%nat -> off + 4 * delta < W64 ->
  Sse41.hash4 c inputs (cap / 64) key off delta flags fs fe
  = Ok (concat (hash_all blake_compress key flags fs fe off delta inputs)).
Proof.
  intros c inputs cap key off delta flags fs fe Li Fi Hc Lk Ho.
  unfold Sse41.hash4, Sse41.load_offsets. rewrite lane_offsets_ok by exact Ho. cbn [bind].
  set (offs := map (fun i => off + N.of_nat i * delta) (seq 0 4)).
  destruct (vec_hash_loop_ok 4 Sse41.ops sse41_lanewise ltac:(lia) inputs
              (Sse41.transpose_msg_vecs inputs) cap) with (todo := N.to_nat (cap / 64)) (block := 0)
              (blocks := cap / 64) (h := map (fun i => set1_epi32 4 (get key i)) (seq 0 8))
              (lo := map Portable.offset_low offs) (hi := map Portable.offset_high offs)
              (off := fun i => off + N.of_nat i * delta)
              (bf := N.lor flags fs) (flags := flags) (fe := fe)
    as (h' & E & L' & F' & X); try reflexivity.
  - destruct (list4 _ inputs (len_length _ _ _ Li)) as (i0 & i1 & i2 & i3 & ->).
    repeat match goal with H : Forall _ (_ :: _) |- _ => inversion H; clear H; subst
                    | H : Forall _ [] |- _ => clear H
                    | H : _ /\ _ |- _ => destruct H end.
    intros bo Hbo. eapply sse41_load; eauto.
  - lia.
  - lia.
  - apply key_vn.
  - intros i Hi. unfold offs. now rewrite offs_lanes.
  - intros i Hi. unfold offs. rewrite offs_lanes by auto. apply offset_high_div. nia.
  - rewrite E. cbn [bind]. rewrite sse41_store by auto. f_equal.
    eapply lane_results; eauto. now apply (len_length _ _ 4).
Qed.

Lemma sse41_hash_many_ok : forall c cap inputs key off delta flags fs fe out,
  cap mod 64 = 0 -> Forall (fun i => len i = cap /\ bytes i) inputs ->
  length key = 8%nat -> words key ->
  32 * len inputs <= len out -> off + len inputs * delta < W64 ->
  Sse41.hash_many c cap inputs key off delta flags fs fe out
  = Ok (concat (hash_all blake_compress key flags fs fe off delta inputs) ++ drop (32 * len inputs) out).
Proof.
  intros c cap inputs key off delta flags fs fe out Hc Fi Lk Wk Lo Ho.
  unfold Sse41.hash_many. rewrite dassert_ok by (unfold Portable.OUT_LEN; apply N.leb_le; lia).
  cbn [bind]. apply batch_loop_ok with (cap := cap); auto.
  - reflexivity.
  - intros. apply sse41_hash4_ok; auto.
  - intros ins o ou Fins Lou Hou. apply hash_each_ok; auto.
    intros i oo Hi Hoo. unfold Sse41.hash1. rewrite Forall_forall in Fins. destruct (Fins i Hi) as [Ei Bi].
    rewrite dassert_ok by (unfold Portable.BLOCK_LEN; apply N.eqb_eq; now rewrite Ei). cbn [bind].
    apply loop_hash_one; auto; [apply sse41_comp_ok|now rewrite Ei].
Qed.

(* ---- eight inputs: avx2 ---- *)

Lemma transpose8 : forall (a b c d e f g h : vec),
  length a = 8%nat -> length b = 8%nat -> length c = 8%nat -> length d = 8%nat ->
  length e = 8%nat -> length f = 8%nat -> length g = 8%nat -> length h = 8%nat ->
  length (Avx2.transpose_vecs [a; b; c; d; e; f; g; h]) = 8%nat /\
  Forall (vn 8) (Avx2.transpose_vecs [a; b; c; d; e; f; g; h]) /\
  forall i, (i < 8)%nat ->
  lanes i (Avx2.transpose_vecs [a; b; c; d; e; f; g; h]) = nth i [a; b; c; d; e; f; g; h] [].
Proof.
  intros a b c d e f g h Ha Hb Hc Hd He Hf Hg Hh.
  destruct (list8p _ a Ha) as (? & ? & ? & ? & ? & ? & ? & ? & ->).
  destruct (list8p _ b Hb) as (? & ? & ? & ? & ? & ? & ? & ? & ->).
  destruct (list8p _ c Hc) as (? & ? & ? & ? & ? & ? & ? & ? & ->).
  destruct (list8p _ d Hd) as (? & ? & ? & ? & ? & ? & ? & ? & ->).
  destruct (list8p _ e He) as (? & ? & ? & ? & ? & ? & ? & ? & ->).
  destruct (list8p _ f Hf) as (? & ? & ? & ? & ? & ? & ? & ? & ->).
  destruct (list8p _ g Hg) as (? & ? & ? & ? & ? & ? & ? & ? & ->).
  destruct (list8p _ h Hh) as (? & ? & ? & ? & ? & ? & ? & ? & ->).
  split; [reflexivity|]. split; [repeat constructor|].
  intros i Hi. lane_cases i Hi; reflexivity.
Qed.

Lemma avx2_load : forall inputs cap, length inputs = 8%nat -> Forall (fun i => len i = cap) inputs ->
  forall bo, bo + 64 <= cap -> exists msg,
  Avx2.transpose_msg_vecs inputs bo = Ok msg /\ length msg = 16%nat /\ Forall (vn 8) msg /\
  forall i, (i < 8)%nat -> lanes i msg = words_of_bytes (take 64 (drop bo (nth i inputs []))).
Proof.
  intros inputs cap Li Fi bo Hbo. unfold Avx2.transpose_msg_vecs.
  rewrite load_grid_ok.
  2: { intros i col Hi Hcol. rewrite Forall_forall in Fi. rewrite (Fi i Hi). cbn in Hcol. intuition (subst; lia). }
  destruct (list8p _ inputs Li) as (i0 & i1 & i2 & i3 & i4 & i5 & i6 & i7 & ->).
  repeat match goal with H : Forall _ (_ :: _) |- _ => inversion H; clear H; subst
                    | H : Forall _ [] |- _ => clear H end.
  set (cap := len i0) in *.
  cbn [bind flat_map map app firstn skipn].
  assert (L : forall inp col, len inp = cap -> col <= 32 ->
     length (words_of_bytes (take 32 (drop (bo + col) inp))) = 8%nat).
  { intros inp col E C. apply words_vn. lenlia. }
  assert (E0 : len i0 = cap) by reflexivity.
  pose proof (fun col C => transpose8 _ _ _ _ _ _ _ _ (L i0 col E0 C)
    (L i1 col ltac:(assumption) C) (L i2 col ltac:(assumption) C)
    (L i3 col ltac:(assumption) C) (L i4 col ltac:(assumption) C)
    (L i5 col ltac:(assumption) C) (L i6 col ltac:(assumption) C)
    (L i7 col ltac:(assumption) C)) as T.
  destruct (T 0 ltac:(lia)) as (A1 & A2 & A3). destruct (T 32 ltac:(lia)) as (B1 & B2 & B3).
  eexists. split; [reflexivity|]. split; [rewrite !app_length, A1, ?B1; reflexivity|].
  split; [rewrite !Forall_app; auto|].
  intros i Hi. rewrite !lanes_app, A3, B3 by auto.
  rewrite (take_words_split 8); [|auto|lane_cases i Hi; cbn [nth]; lia].
  cbn [Nat.eqb flat_map]. rewrite app_nil_r. change (4 * N.of_nat 8) with 32.
  lane_cases i Hi; reflexivity.
Qed.

Lemma avx2_store : forall h, length h = 8%nat -> Forall (vn 8) h ->
  let h' := Avx2.transpose_vecs h in
  storeu (Avx2.row h' 0) ++ storeu (Avx2.row h' 1) ++ storeu (Avx2.row h' 2) ++ storeu (Avx2.row h' 3)
      ++ storeu (Avx2.row h' 4) ++ storeu (Avx2.row h' 5) ++ storeu (Avx2.row h' 6) ++ storeu (Avx2.row h' 7)
  = concat (map (fun i => bytes_of_words (lanes i h)) (seq 0 8)).
Proof.
  intros h L F.
  destruct (vn8 8 h L F) as (h0 & h1 & h2 & h3 & h4 & h5 & h6 & h7 & -> & L0 & L1 & L2 & L3 & L4 & L5 & L6 & L7).
  destruct (list8p _ h0 L0) as (? & ? & ? & ? & ? & ? & ? & ? & ->).
  destruct (list8p _ h1 L1) as (? & ? & ? & ? & ? & ? & ? & ? & ->).
  destruct (list8p _ h2 L2) as (? & ? & ? & ? & ? & ? & ? & ? & ->).
  destruct (list8p _ h3 L3) as (? & ? & ? & ? & ? & ? & ? & ? & ->).
  destruct (list8p _ h4 L4) as (? & ? & ? & ? & ? & ? & ? & ? & ->).
  destruct (list8p _ h5 L5) as (? & ? & ? & ? & ? & ? & ? & ? & ->).
  destruct (list8p _ h6 L6) as (? & ? & ? & ? & ? & ? & ? & ? & ->).
  destruct (list8p _ h7 L7) as (? & ? & ? & ? & ? & ? & ? & ? & ->).
  reflexivity.
Qed.

Lemma avx2_hash8_ok : forall c inputs cap key off delta flags fs fe,
  len inputs = 8 -> Forall (fun i => len i = cap /\ bytes i) inputs -> cap mod 64 = 0 ->
  length key = 8%nat -> off + 8 * delta < W64 ->
  Avx2.hash8 c inputs (cap / 64) key off delta flags fs fe
  = Ok (concat (hash_all blake_compress key flags fs fe off delta inputs)).
Proof.
  intros c inputs cap key off delta flags fs fe Li Fi Hc Lk Ho.
  unfold Avx2.hash8, Avx2.load_offsets. rewrite lane_offsets_ok by exact Ho. cbn [bind].
  set (offs := map (fun i => off + N.of_nat i * delta) (seq 0 8)).
  change avx2_round_code with sse41_round_code.
  destruct (vec_hash_loop_ok 8 Avx2.ops avx2_lanewise ltac:(lia) inputs
              (Avx2.transpose_msg_vecs inputs) cap) with (todo := N.to_nat (cap / 64)) (block := 0)
              (blocks := cap / 64) (h := map (fun i => set1_epi32 8 (get key i)) (seq 0 8))
              (lo := map Portable.offset_low offs) (hi := map Portable.offset_high offs)
              (off := fun i => off + N.of_nat i * delta)
              (bf := N.lor flags fs) (flags := flags) (fe := fe)
    as (h' & E & L' & F' & X); try reflexivity.
  - intros bo Hbo. eapply avx2_load; eauto.
    + now apply (len_length _ _ 8).
    + eapply Forall_impl; [|exact Fi]. cbn. tauto.
  - lia.
  - lia.
  - apply key_vn.
  - intros i Hi. unfold offs. now rewrite offs_lanes.
  - intros i Hi. unfold offs. rewrite offs_lanes by auto. apply offset_high_div. nia.
  - rewrite E. cbn [bind]. rewrite avx2_store by auto. f_equal.
    eapply lane_results; eauto. now apply (len_length _ _ 8).
Qed.

Lemma avx2_hash_many_ok : forall c cap inputs key off delta flags fs fe out,
  cap mod 64 = 0 -> Forall (fun i => len i = cap /\ bytes i) inputs ->
  length key = 8%nat -> words key ->
  32 * len inputs <= len out -> off + len inputs * delta < W64 ->
  Avx2.hash_many c cap inputs key off delta flags fs fe out
  = Ok (concat (hash_all blake_compress key flags fs fe off delta inputs) ++ drop (32 * len inputs) out).
Proof.
  intros c cap inputs key off delta flags fs fe out Hc Fi Lk Wk Lo Ho.
  unfold Avx2.hash_many. rewrite dassert_ok by (unfold Portable.OUT_LEN; apply N.leb_le; lia).
  cbn [bind]. apply batch_loop_ok with (cap := cap); auto.
  - reflexivity.
  - intros. apply avx2_hash8_ok; auto.
  - intros. now apply sse41_hash_many_ok.
Qed.

Lemma portable_hash_many_ok : forall c cap inputs key off delta flags fs fe out,
  cap mod 64 = 0 -> Forall (fun i => len i = cap /\ bytes i) inputs ->
  length key = 8%nat -> words key ->
  32 * len inputs <= len out -> off + len inputs * delta < W64 ->
  Portable.hash_many c inputs key off delta flags fs fe out
  = Ok (concat (hash_all blake_compress key flags fs fe off delta inputs) ++ drop (32 * len inputs) out).
Proof.
  intros c cap inputs key off delta flags fs fe out Hc Fi Lk Wk Lo Ho.
  unfold Portable.hash_many. rewrite dassert_ok by (unfold Portable.OUT_LEN; apply N.leb_le; lia).
  cbn [bind]. apply hash_each_ok; auto.
  intros i oo Hi Hoo. unfold Portable.hash1. rewrite Forall_forall in Fi. destruct (Fi i Hi) as [Ei Bi].
  rewrite dassert_ok by (unfold Portable.BLOCK_LEN; apply N.eqb_eq; now rewrite Ei). cbn [bind].
  apply loop_hash_one; auto; [apply portable_comp_ok|now rewrite Ei].
Qed.

(* ---- all platforms ---- *)

Lemma hash_many_ok : forall c p cap inputs key off delta flags fs fe out,
  cap mod 64 = 0 -> Forall (fun i => len i = cap /\ bytes i) inputs ->
  length key = 8%nat -> words key ->
  32 * len inputs <= len out -> off + len inputs * delta < W64 ->
  Platform.hash_many c p cap inputs key off delta flags fs fe out
  = Ok (concat (hash_all blake_compress key flags fs fe off delta inputs) ++ drop (32 * len inputs) out).
Proof.
  intros c p. intros. destruct p; unfold Platform.hash_many.
  - now apply portable_hash_many_ok with (cap := cap).
  - now apply sse41_hash_many_ok.
  - now apply avx2_hash_many_ok.
Qed.

Lemma compress_ok : forall p, comp_ok (Platform.compress p).
Proof. destruct p; [apply portable_comp_ok|apply sse41_comp_ok|apply sse41_comp_ok]. Qed.

Lemma compress_xof_ok : forall p cv block blen off flags,
  length cv = 8%nat -> length block = 64%nat -> bytes block -> off < W64 ->
  Platform.compress_xof p cv block blen off flags
  = bytes_of_words (blake_compress cv block blen off flags).
Proof.
  intros p. intros. destruct p; unfold Platform.compress_xof.
  - now apply portable_compress_xof.
  - now apply sse41_compress_xof.
  - now apply sse41_compress_xof.
Qed.
