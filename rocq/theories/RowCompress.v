(* The row-oriented SIMD compression functions are the specified one. *)
From Coq Require Import NArith List Bool Lia ZArith.
From Coq Require Import ZifyBool ZifyNat ZifyN.
From Verif Require Import Base BaseFacts Spec Simd SimdGen SimdHash CompressFacts SimdFacts RowFacts.
From Verif Require Portable Sse41.
Import ListNotations.
Open Scope N_scope.

(* ---- seven rounds ---- *)

Definition rowfun : Type := vec -> vec -> vec -> vec -> vec -> vec -> vec -> vec ->
                            vec * vec * vec * vec.

Definition compose7 (R1 R2 R3 R4 R5 R6 R7 : rowfun) (m0 m1 m2 m3 row1 row2 row3 row4 : vec)
  : list vec :=
  let '(row1, row2, row3, row4) := R1 m0 m1 m2 m3 row1 row2 row3 row4 in
  let '(row1, row2, row3, row4) := R2 m0 m1 m2 m3 row1 row2 row3 row4 in
  let '(row1, row2, row3, row4) := R3 m0 m1 m2 m3 row1 row2 row3 row4 in
  let '(row1, row2, row3, row4) := R4 m0 m1 m2 m3 row1 row2 row3 row4 in
  let '(row1, row2, row3, row4) := R5 m0 m1 m2 m3 row1 row2 row3 row4 in
  let '(row1, row2, row3, row4) := R6 m0 m1 m2 m3 row1 row2 row3 row4 in
  let '(row1, row2, row3, row4) := R7 m0 m1 m2 m3 row1 row2 row3 row4 in
  [row1; row2; row3; row4].

Definition row_list (v : list N) : list vec :=
  [firstn 4 v; firstn 4 (skipn 4 v); firstn 4 (skipn 8 v); skipn 12 v].

Lemma rows7 : forall R1 R2 R3 R4 R5 R6 R7 v m,
  row_round_ok R1 0 -> row_round_ok R2 1 -> row_round_ok R3 2 -> row_round_ok R4 3 ->
  row_round_ok R5 4 -> row_round_ok R6 5 -> row_round_ok R7 6 ->
  length v = 16%nat -> length m = 16%nat -> words m ->
  compose7 R1 R2 R3 R4 R5 R6 R7 (firstn 4 m) (firstn 4 (skipn 4 m)) (firstn 4 (skipn 8 m)) (skipn 12 m)
    (firstn 4 v) (firstn 4 (skipn 4 v)) (firstn 4 (skipn 8 v)) (skipn 12 v)
  = row_list (rounds7 v m).
Proof.
  intros R1 R2 R3 R4 R5 R6 R7 v m H1 H2 H3 H4 H5 H6 H7 Hv Hm W.
  unfold compose7.
  assert (L : forall r x, (r < 7)%nat -> length x = 16%nat ->
    length (spec_round x (permute (nth r SIGMA []) m)) = 16%nat).
  { intros r x Hr Hx. apply spec_round_length; auto. rewrite permute_length.
    do 7 (destruct r as [|r]; [reflexivity|]). lia. }
  pose proof (H1 _ m Hv Hm W) as E1. apply (L 0%nat) in Hv; [|lia].
  pose proof (H2 _ m Hv Hm W) as E2. apply (L 1%nat) in Hv; [|lia].
  pose proof (H3 _ m Hv Hm W) as E3. apply (L 2%nat) in Hv; [|lia].
  pose proof (H4 _ m Hv Hm W) as E4. apply (L 3%nat) in Hv; [|lia].
  pose proof (H5 _ m Hv Hm W) as E5. apply (L 4%nat) in Hv; [|lia].
  pose proof (H6 _ m Hv Hm W) as E6. apply (L 5%nat) in Hv; [|lia].
  pose proof (H7 _ m Hv Hm W) as E7. clear H1 H2 H3 H4 H5 H6 H7 L.
  unfold rows in *.
  rewrite E1, E2, E3, E4, E5, E6, E7. reflexivity.
Qed.

Lemma bytes_words16 : forall block, length block = 64%nat -> bytes block ->
  let m := words_of_bytes block in
  length m = 16%nat /\ words m /\
  words_of_bytes (take 16 (drop 0 block)) = firstn 4 m /\
  words_of_bytes (take 16 (drop 16 block)) = firstn 4 (skipn 4 m) /\
  words_of_bytes (take 16 (drop 32 block)) = firstn 4 (skipn 8 m) /\
  words_of_bytes (take 16 (drop 48 block)) = skipn 12 m.
Proof.
  intros block L B m. split; [now apply length_words_of_block|]. split; [now apply words_of_bytes_words|].
  subst m. do 64 (destruct block as [|? block]; [discriminate L|]). destruct block; [|discriminate L].
  repeat split; reflexivity.
Qed.

(* compress and compress_xof of the row-oriented code, from the rows. *)
Lemma rows_compress : forall cv block blen off flags (rl : list vec),
  length cv = 8%nat ->
  rl = row_list (rounds7 (init_state cv blen off flags) (words_of_bytes block)) ->
  xor_si (nth 0 rl []) (nth 2 rl []) ++ xor_si (nth 1 rl []) (nth 3 rl [])
  = firstn 8 (blake_compress cv block blen off flags) /\
  xor_si (nth 0 rl []) (nth 2 rl []) ++ xor_si (nth 1 rl []) (nth 3 rl []) ++
  xor_si (nth 2 rl []) (firstn 4 cv) ++ xor_si (nth 3 rl []) (firstn 4 (skipn 4 cv))
  = blake_compress cv block blen off flags.
Proof.
  intros cv block blen off flags rl Hcv ->. rewrite blake_unfold. cbv zeta.
  pose proof (rounds7_length _ (words_of_bytes block) (init_state_length cv blen off flags Hcv)) as L.
  revert L. generalize (rounds7 (init_state cv blen off flags) (words_of_bytes block)). intros v L.
  destruct (list16 v L) as (v0 & v1 & v2 & v3 & v4 & v5 & v6 & v7 & v8 & v9 & v10 & v11 & v12 & v13 & v14 & v15 & ->).
  destruct (list8 cv Hcv) as (a0 & a1 & a2 & a3 & a4 & a5 & a6 & a7 & ->).
  split; reflexivity.
Qed.

Lemma init_rows : forall cv blen off flags, length cv = 8%nat ->
  let v := init_state cv blen off flags in
  firstn 4 cv = firstn 4 v /\ firstn 4 (skipn 4 cv) = firstn 4 (skipn 4 v) /\
  firstn 4 IV = firstn 4 (skipn 8 v) /\ [off mod W32; off / W32; blen; flags] = skipn 12 v.
Proof.
  intros cv blen off flags Hcv.
  destruct (list8 cv Hcv) as (a0 & a1 & a2 & a3 & a4 & a5 & a6 & a7 & ->). repeat split.
Qed.

Lemma compose7_inner : forall R1 R2 R3 R4 R5 R6 R7 cv block blen off flags,
  row_round_ok R1 0 -> row_round_ok R2 1 -> row_round_ok R3 2 -> row_round_ok R4 3 ->
  row_round_ok R5 4 -> row_round_ok R6 5 -> row_round_ok R7 6 ->
  length cv = 8%nat -> length block = 64%nat -> bytes block ->
  compose7 R1 R2 R3 R4 R5 R6 R7
    (words_of_bytes (take 16 (drop 0 block))) (words_of_bytes (take 16 (drop 16 block)))
    (words_of_bytes (take 16 (drop 32 block))) (words_of_bytes (take 16 (drop 48 block)))
    (firstn 4 cv) (firstn 4 (skipn 4 cv)) (firstn 4 IV) [off mod W32; off / W32; blen; flags]
  = row_list (rounds7 (init_state cv blen off flags) (words_of_bytes block)).
Proof.
  intros R1 R2 R3 R4 R5 R6 R7 cv block blen off flags H1 H2 H3 H4 H5 H6 H7 Hcv Hb Bb.
  destruct (bytes_words16 block Hb Bb) as (Lm & Wm & -> & -> & -> & ->).
  destruct (init_rows cv blen off flags Hcv) as (-> & -> & -> & ->).
  apply rows7; auto. now apply init_state_length.
Qed.

Lemma sse41_inner : forall cv block blen off flags,
  length cv = 8%nat -> length block = 64%nat -> bytes block -> off < W64 ->
  Sse41.compress_inner cv block blen off flags
  = row_list (rounds7 (init_state cv blen off flags) (words_of_bytes block)).
Proof.
  intros cv block blen off flags Hcv Hb Bb Ho. unfold Sse41.compress_inner.
  rewrite offset_high_div by exact Ho.
  change (Portable.offset_low off) with (off mod W32).
  change [get Portable.IV 0; get Portable.IV 1; get Portable.IV 2; get Portable.IV 3] with (firstn 4 IV).
  rewrite <- (compose7_inner _ _ _ _ _ _ _ cv block blen off flags
    (sse41_row1 _ sse41_lanewise) (sse41_row2 _ sse41_lanewise) (sse41_row3 _ sse41_lanewise)
    (sse41_row4 _ sse41_lanewise) (sse41_row5 _ sse41_lanewise) (sse41_row6 _ sse41_lanewise)
    (sse41_row7 _ sse41_lanewise) Hcv Hb Bb).
  unfold compose7. cbv zeta. reflexivity.
Qed.

Lemma sse41_compress : forall cv block blen off flags,
  length cv = 8%nat -> length block = 64%nat -> bytes block -> off < W64 ->
  Sse41.compress cv block blen off flags = firstn 8 (blake_compress cv block blen off flags).
Proof.
  intros cv block blen off flags Hcv Hb Bb Ho.
  destruct (rows_compress cv block blen off flags _ Hcv (sse41_inner cv block blen off flags Hcv Hb Bb Ho))
    as [E _].
  unfold Sse41.compress, Sse41.row. generalize dependent (Sse41.compress_inner cv block blen off flags).
  intros rl E. exact E.
Qed.

Lemma sse41_compress_xof : forall cv block blen off flags,
  length cv = 8%nat -> length block = 64%nat -> bytes block -> off < W64 ->
  Sse41.compress_xof cv block blen off flags
  = bytes_of_words (blake_compress cv block blen off flags).
Proof.
  intros cv block blen off flags Hcv Hb Bb Ho.
  destruct (rows_compress cv block blen off flags _ Hcv (sse41_inner cv block blen off flags Hcv Hb Bb Ho))
    as [_ E].
  unfold Sse41.compress_xof, Sse41.row. generalize dependent (Sse41.compress_inner cv block blen off flags).
  intros rl E. cbv zeta. rewrite E. reflexivity.
Qed.
