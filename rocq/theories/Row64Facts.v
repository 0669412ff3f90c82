(* The row-oriented compression functions of the 64-bit C code are the specified one. *)
From Coq Require Import NArith List Bool Lia ZArith.
From Coq Require Import ZifyBool ZifyNat ZifyN.
From Verif Require Import Base BaseFacts Spec64 Simd64 Simd64Gen SimdFacts Compress64Facts Simd64Facts.
From Verif Require C64.
Import ListNotations.
Open Scope N_scope.

(* ---- operations that move whole lanes ---- *)

Lemma unhalf32 : forall w, dword w -> w mod W32 + W32 * (w / W32 mod W32) = w.
Proof. intros w H. unfold dword, W64, W32 in *. lia. Qed.

Lemma blend64_33 : forall a0 a1 a2 a3 b0 b1 b2 b3,
  dword a0 -> dword a1 -> dword a2 -> dword a3 -> dword b0 -> dword b1 -> dword b2 -> dword b3 ->
  blend_epi32 [a0; a1; a2; a3] [b0; b1; b2; b3] 0x33 = [b0; a1; b2; a3].
Proof.
  intros. cbv -[N.modulo N.div N.mul N.add W32]. now rewrite !unhalf32 by assumption.
Qed.
Lemma blend64_F0 : forall a0 a1 a2 a3 b0 b1 b2 b3,
  dword a0 -> dword a1 -> dword a2 -> dword a3 -> dword b0 -> dword b1 -> dword b2 -> dword b3 ->
  blend_epi32 [a0; a1; a2; a3] [b0; b1; b2; b3] 0xF0 = [a0; a1; b2; b3].
Proof.
  intros. cbv -[N.modulo N.div N.mul N.add W32]. now rewrite !unhalf32 by assumption.
Qed.
Lemma shuffle64_swap : forall a0 a1 a2 a3, dword a0 -> dword a1 -> dword a2 -> dword a3 ->
  shuffle_epi32 [a0; a1; a2; a3] (MM_SHUFFLE 1 0 3 2) = [a1; a0; a3; a2].
Proof.
  intros. unfold shuffle_epi32. cbn [parts app halves32 flat_map].
  assert (E : forall x0 x1 x2 x3, mm_shuffle_epi32 [x0; x1; x2; x3] (MM_SHUFFLE 1 0 3 2)
    = [x2; x3; x0; x1]) by reflexivity.
  rewrite !E. cbn [unhalves32 app]. now rewrite !unhalf32 by assumption.
Qed.
Lemma word64_dword : forall a, dword a -> words64_of_bytes (bytes64 a) = [a].
Proof.
  intros a H. unfold bytes64, bytes32. cbn [app words64_of_bytes]. f_equal.
  unfold word64. rewrite !word32_bytes32.
  - unfold dword, W64, W32 in *. pose proof (N.div_mod a 4294967296 ltac:(discriminate)). lia.
  - unfold word, dword, W64, W32 in *. apply N.div_lt_upper_bound; [discriminate|exact H].
  - apply N.mod_lt. discriminate.
Qed.
Lemma words64_two : forall a b, dword a -> dword b ->
  words64_of_bytes (bytes64 a ++ bytes64 b) = [a; b].
Proof.
  intros a b Ha Hb. transitivity (words64_of_bytes (bytes64 a) ++ words64_of_bytes (bytes64 b)).
  - reflexivity.
  - now rewrite !word64_dword by assumption.
Qed.
Lemma alignr64_8 : forall a0 a1 a2 a3 b0 b1 b2 b3,
  dword a0 -> dword a1 -> dword a2 -> dword a3 -> dword b0 -> dword b1 -> dword b2 -> dword b3 ->
  alignr_epi8 [a0; a1; a2; a3] [b0; b1; b2; b3] 8 = [b1; a0; b3; a2].
Proof.
  intros. unfold alignr_epi8. cbn [parts2 app].
  transitivity (words64_of_bytes (bytes64 b1 ++ bytes64 a0) ++ words64_of_bytes (bytes64 b3 ++ bytes64 a2)).
  - reflexivity.
  - now rewrite !words64_two by assumption.
Qed.

(* ---- one round on rows ---- *)

Section Rows.
Variable O : ops64 vec.
Hypothesis LW : lanewise64 4 O.

Ltac lane_step :=
  repeat match goal with
  | |- context [o_add O (?x :: ?l) (?y :: ?r)] =>
      rewrite (lx_add _ _ LW (x :: l) (y :: r)) by reflexivity; unfold map2; cbn [combine map fst snd]
  | |- context [o_xor O (?x :: ?l) (?y :: ?r)] =>
      rewrite (lx_xor _ _ LW (x :: l) (y :: r)) by reflexivity; unfold map2; cbn [combine map fst snd]
  | |- context [o_rot32 O (?x :: ?l)] =>
      rewrite (lx_rot32 _ _ LW (x :: l)) by reflexivity; cbn [map]
  | |- context [o_rot24 O (?x :: ?l)] =>
      rewrite (lx_rot24 _ _ LW (x :: l)) by reflexivity; cbn [map]
  | |- context [o_rot16 O (?x :: ?l)] =>
      rewrite (lx_rot16 _ _ LW (x :: l)) by reflexivity; cbn [map]
  | |- context [o_rot63 O (?x :: ?l)] =>
      rewrite (lx_rot63 _ _ LW (x :: l)) by reflexivity; cbn [map]
  end.

Lemma row_g1_rows : forall a0 a1 a2 a3 b0 b1 b2 b3 c0 c1 c2 c3 d0 d1 d2 d3 m0 m1 m2 m3,
  row_g1 O [a0;a1;a2;a3] [b0;b1;b2;b3] [c0;c1;c2;c3] [d0;d1;d2;d3] [m0;m1;m2;m3]
  = (let f a b c d m :=
       let a := plus64 (plus64 a b) m in
       let d := rotr64 (N.lxor d a) 32 in
       let c := plus64 c d in
       let b := rotr64 (N.lxor b c) 24 in (a, b, c, d) in
     let '(a0, b0, c0, d0) := f a0 b0 c0 d0 m0 in
     let '(a1, b1, c1, d1) := f a1 b1 c1 d1 m1 in
     let '(a2, b2, c2, d2) := f a2 b2 c2 d2 m2 in
     let '(a3, b3, c3, d3) := f a3 b3 c3 d3 m3 in
     ([a0;a1;a2;a3], [b0;b1;b2;b3], [c0;c1;c2;c3], [d0;d1;d2;d3])).
Proof.
  intros. unfold row_g1.
  lane_step.
  rewrite (plus64_swap a0), (plus64_swap a1), (plus64_swap a2), (plus64_swap a3). reflexivity.
Qed.

Lemma row_g2_rows : forall a0 a1 a2 a3 b0 b1 b2 b3 c0 c1 c2 c3 d0 d1 d2 d3 m0 m1 m2 m3,
  row_g2 O [a0;a1;a2;a3] [b0;b1;b2;b3] [c0;c1;c2;c3] [d0;d1;d2;d3] [m0;m1;m2;m3]
  = (let f a b c d m :=
       let a := plus64 (plus64 a b) m in
       let d := rotr64 (N.lxor d a) 16 in
       let c := plus64 c d in
       let b := rotr64 (N.lxor b c) 63 in (a, b, c, d) in
     let '(a0, b0, c0, d0) := f a0 b0 c0 d0 m0 in
     let '(a1, b1, c1, d1) := f a1 b1 c1 d1 m1 in
     let '(a2, b2, c2, d2) := f a2 b2 c2 d2 m2 in
     let '(a3, b3, c3, d3) := f a3 b3 c3 d3 m3 in
     ([a0;a1;a2;a3], [b0;b1;b2;b3], [c0;c1;c2;c3], [d0;d1;d2;d3])).
Proof.
  intros. unfold row_g2.
  lane_step.
  rewrite (plus64_swap a0), (plus64_swap a1), (plus64_swap a2), (plus64_swap a3). reflexivity.
Qed.

(* The shape common to all rounds, given the four message vectors. *)
Definition skeleton64 (a b c d b1 b2 b3 b4 : vec) : vec * vec * vec * vec :=
  let '(a, b, c, d) := row_g1 O a b c d b1 in
  let '(a, b, c, d) := row_g2 O a b c d b2 in
  let '(a, c, d) := diagonalize64 a c d in
  let '(a, b, c, d) := row_g1 O a b c d b3 in
  let '(a, b, c, d) := row_g2 O a b c d b4 in
  let '(a, c, d) := undiagonalize64 a c d in
  (a, b, c, d).

(* Rows of a 16-word state. *)
Definition rows64 (v : list N) : vec * vec * vec * vec :=
  (firstn 4 v, firstn 4 (skipn 4 v), firstn 4 (skipn 8 v), skipn 12 v).

Lemma skeleton64_ok : forall a0 a1 a2 a3 b0 b1 b2 b3 c0 c1 c2 c3 d0 d1 d2 d3
  s0 s1 s2 s3 s4 s5 s6 s7 s8 s9 s10 s11 s12 s13 s14 s15,
  skeleton64 [a0;a1;a2;a3] [b0;b1;b2;b3] [c0;c1;c2;c3] [d0;d1;d2;d3]
    [s0; s2; s4; s6] [s1; s3; s5; s7] [s14; s8; s10; s12] [s15; s9; s11; s13]
  = rows64 (round64 [a0;a1;a2;a3;b0;b1;b2;b3;c0;c1;c2;c3;d0;d1;d2;d3]
                     [s0;s1;s2;s3;s4;s5;s6;s7;s8;s9;s10;s11;s12;s13;s14;s15]).
Proof.
  intros. unfold skeleton64.
  rewrite row_g1_rows. cbv beta zeta iota. rewrite row_g2_rows. cbv beta zeta iota.
  cbv -[plus64 N.lxor rotr64 row_g1 row_g2 undiagonalize64 rows64 round64].
  rewrite row_g1_rows. cbv beta zeta iota. rewrite row_g2_rows. cbv beta zeta iota.
  reflexivity.
Qed.

(* Evaluate one message operation applied to explicit lanes. *)
Ltac msg_step :=
  match goal with
  | |- context [blend_epi32 [?a0; ?a1; ?a2; ?a3] [?b0; ?b1; ?b2; ?b3] 0xF0] =>
      rewrite (blend64_F0 a0 a1 a2 a3 b0 b1 b2 b3) by assumption
  | |- context [blend_epi32 [?a0; ?a1; ?a2; ?a3] [?b0; ?b1; ?b2; ?b3] 0x33] =>
      rewrite (blend64_33 a0 a1 a2 a3 b0 b1 b2 b3) by assumption
  | |- context [alignr_epi8 [?a0; ?a1; ?a2; ?a3] [?b0; ?b1; ?b2; ?b3] 8] =>
      rewrite (alignr64_8 a0 a1 a2 a3 b0 b1 b2 b3) by assumption
  | |- context [shuffle_epi32 [?a0; ?a1; ?a2; ?a3] _] =>
      rewrite (shuffle64_swap a0 a1 a2 a3) by assumption
  | |- context [unpacklo_epi64 [?a0; ?a1; ?a2; ?a3] [?b0; ?b1; ?b2; ?b3]] =>
      change (unpacklo_epi64 [a0; a1; a2; a3] [b0; b1; b2; b3]) with [a0; b0; a2; b2]
  | |- context [unpackhi_epi64 [?a0; ?a1; ?a2; ?a3] [?b0; ?b1; ?b2; ?b3]] =>
      change (unpackhi_epi64 [a0; a1; a2; a3] [b0; b1; b2; b3]) with [a1; b1; a3; b3]
  end.

(* Message vector k: words 2k and 2k+1, twice. *)
Definition mvec (m : list N) (k : nat) : vec :=
  [get m (2 * k); get m (2 * k + 1); get m (2 * k); get m (2 * k + 1)].

Definition rowfun64 : Type := vec -> vec -> vec -> vec -> vec -> vec -> vec -> vec ->
  vec -> vec -> vec -> vec -> vec * vec * vec * vec.

(* R is a round on rows that uses row r of the schedule. *)
Definition row_round64_ok (R : rowfun64) (r : nat) : Prop :=
  forall v m, length v = 16%nat -> length m = 16%nat -> dwords m ->
  R (mvec m 0) (mvec m 1) (mvec m 2) (mvec m 3) (mvec m 4) (mvec m 5) (mvec m 6) (mvec m 7)
    (firstn 4 v) (firstn 4 (skipn 4 v)) (firstn 4 (skipn 8 v)) (skipn 12 v)
  = rows64 (round64 v (order64 r m)).

Ltac row_round def :=
  let v := fresh "v" in let m := fresh "m" in let Hv := fresh in let Hm := fresh in let W := fresh in
  intros v m Hv Hm W;
  destruct (list16p _ v Hv) as (v0 & v1 & v2 & v3 & v4 & v5 & v6 & v7 & v8 & v9 & v10 & v11 & v12 & v13 & v14 & v15 & ->);
  destruct (list16p _ m Hm) as (m0 & m1 & m2 & m3 & m4 & m5 & m6 & m7 & m8 & m9 & m10 & m11 & m12 & m13 & m14 & m15 & ->);
  clear Hv Hm; unfold dwords in W;
  repeat match goal with H : Forall _ (_ :: _) |- _ => inversion H; clear H; subst
                    | H : Forall _ [] |- _ => clear H end;
  cbv beta iota zeta delta [firstn skipn order64 SIGMA64 nth map mvec get Nat.mul Nat.add];
  cbv beta zeta delta [def];
  repeat msg_step;
  refine (skeleton64_ok _ _ _ _ _ _ _ _ _ _ _ _ _ _ _ _ _ _ _ _ _ _ _ _ _ _ _ _ _ _ _ _).

Lemma avx2_row64_ok1 : row_round64_ok (avx2_row64_1 O) 0. Proof. row_round avx2_row64_1. Qed.
Lemma avx2_row64_ok2 : row_round64_ok (avx2_row64_2 O) 1. Proof. row_round avx2_row64_2. Qed.
Lemma avx2_row64_ok3 : row_round64_ok (avx2_row64_3 O) 2. Proof. row_round avx2_row64_3. Qed.
Lemma avx2_row64_ok4 : row_round64_ok (avx2_row64_4 O) 3. Proof. row_round avx2_row64_4. Qed.
Lemma avx2_row64_ok5 : row_round64_ok (avx2_row64_5 O) 4. Proof. row_round avx2_row64_5. Qed.
Lemma avx2_row64_ok6 : row_round64_ok (avx2_row64_6 O) 5. Proof. row_round avx2_row64_6. Qed.
Lemma avx2_row64_ok7 : row_round64_ok (avx2_row64_7 O) 6. Proof. row_round avx2_row64_7. Qed.
Lemma avx2_row64_ok8 : row_round64_ok (avx2_row64_8 O) 7. Proof. row_round avx2_row64_8. Qed.

Lemma avx512_row64_ok1 : row_round64_ok (avx512_row64_1 O) 0. Proof. row_round avx512_row64_1. Qed.
Lemma avx512_row64_ok2 : row_round64_ok (avx512_row64_2 O) 1. Proof. row_round avx512_row64_2. Qed.
Lemma avx512_row64_ok3 : row_round64_ok (avx512_row64_3 O) 2. Proof. row_round avx512_row64_3. Qed.
Lemma avx512_row64_ok4 : row_round64_ok (avx512_row64_4 O) 3. Proof. row_round avx512_row64_4. Qed.
Lemma avx512_row64_ok5 : row_round64_ok (avx512_row64_5 O) 4. Proof. row_round avx512_row64_5. Qed.
Lemma avx512_row64_ok6 : row_round64_ok (avx512_row64_6 O) 5. Proof. row_round avx512_row64_6. Qed.
Lemma avx512_row64_ok7 : row_round64_ok (avx512_row64_7 O) 6. Proof. row_round avx512_row64_7. Qed.
Lemma avx512_row64_ok8 : row_round64_ok (avx512_row64_8 O) 7. Proof. row_round avx512_row64_8. Qed.

End Rows.

(* ---- eight rounds ---- *)

Definition compose8 (R1 R2 R3 R4 R5 R6 R7 R8 : rowfun64) (m0 m1 m2 m3 m4 m5 m6 m7 a b c d : vec)
  : vec :=
  let '(a, b, c, d) := R1 m0 m1 m2 m3 m4 m5 m6 m7 a b c d in
  let '(a, b, c, d) := R2 m0 m1 m2 m3 m4 m5 m6 m7 a b c d in
  let '(a, b, c, d) := R3 m0 m1 m2 m3 m4 m5 m6 m7 a b c d in
  let '(a, b, c, d) := R4 m0 m1 m2 m3 m4 m5 m6 m7 a b c d in
  let '(a, b, c, d) := R5 m0 m1 m2 m3 m4 m5 m6 m7 a b c d in
  let '(a, b, c, d) := R6 m0 m1 m2 m3 m4 m5 m6 m7 a b c d in
  let '(a, b, c, d) := R7 m0 m1 m2 m3 m4 m5 m6 m7 a b c d in
  let '(a, b, c, d) := R8 m0 m1 m2 m3 m4 m5 m6 m7 a b c d in
  xor64 a b.

Lemma rows64_8 : forall R1 R2 R3 R4 R5 R6 R7 R8 v m,
  row_round64_ok R1 0 -> row_round64_ok R2 1 -> row_round64_ok R3 2 -> row_round64_ok R4 3 ->
  row_round64_ok R5 4 -> row_round64_ok R6 5 -> row_round64_ok R7 6 -> row_round64_ok R8 7 ->
  length v = 16%nat -> length m = 16%nat -> dwords m ->
  compose8 R1 R2 R3 R4 R5 R6 R7 R8
    (mvec m 0) (mvec m 1) (mvec m 2) (mvec m 3) (mvec m 4) (mvec m 5) (mvec m 6) (mvec m 7)
    (firstn 4 v) (firstn 4 (skipn 4 v)) (firstn 4 (skipn 8 v)) (skipn 12 v)
  = xor64 (firstn 4 (rounds8 v m)) (firstn 4 (skipn 4 (rounds8 v m))).
Proof.
  intros R1 R2 R3 R4 R5 R6 R7 R8 v m H1 H2 H3 H4 H5 H6 H7 H8 Hv Hm W.
  unfold compose8.
  assert (L : forall r x, (r < 8)%nat -> length x = 16%nat ->
    length (round64 x (order64 r m)) = 16%nat).
  { intros r x Hr Hx. apply round64_length; auto. now apply order64_length. }
  pose proof (H1 _ m Hv Hm W) as E1. apply (L 0%nat) in Hv; [|lia].
  pose proof (H2 _ m Hv Hm W) as E2. apply (L 1%nat) in Hv; [|lia].
  pose proof (H3 _ m Hv Hm W) as E3. apply (L 2%nat) in Hv; [|lia].
  pose proof (H4 _ m Hv Hm W) as E4. apply (L 3%nat) in Hv; [|lia].
  pose proof (H5 _ m Hv Hm W) as E5. apply (L 4%nat) in Hv; [|lia].
  pose proof (H6 _ m Hv Hm W) as E6. apply (L 5%nat) in Hv; [|lia].
  pose proof (H7 _ m Hv Hm W) as E7. apply (L 6%nat) in Hv; [|lia].
  pose proof (H8 _ m Hv Hm W) as E8. clear H1 H2 H3 H4 H5 H6 H7 H8 L.
  unfold rows64 in *.
  rewrite E1, E2, E3, E4, E5, E6, E7, E8. reflexivity.
Qed.

Lemma block_mvec : forall block, length block = 128%nat ->
  let m := words64_of_bytes block in
  broadcast128 (words64_of_bytes (take 16 (drop 0 block))) = mvec m 0 /\
  broadcast128 (words64_of_bytes (take 16 (drop 16 block))) = mvec m 1 /\
  broadcast128 (words64_of_bytes (take 16 (drop 32 block))) = mvec m 2 /\
  broadcast128 (words64_of_bytes (take 16 (drop 48 block))) = mvec m 3 /\
  broadcast128 (words64_of_bytes (take 16 (drop 64 block))) = mvec m 4 /\
  broadcast128 (words64_of_bytes (take 16 (drop 80 block))) = mvec m 5 /\
  broadcast128 (words64_of_bytes (take 16 (drop 96 block))) = mvec m 6 /\
  broadcast128 (words64_of_bytes (take 16 (drop 112 block))) = mvec m 7.
Proof.
  intros block L m.
  subst m. do 128 (destruct block as [|? block]; [discriminate L|]). destruct block; [|discriminate L].
  repeat split; reflexivity.
Qed.

Lemma start64_rows : forall cv blen off flags, length cv = 4%nat ->
  let v := start64 cv blen off flags in
  firstn 4 cv = firstn 4 v /\
  [get IV64 4; get IV64 5; get IV64 6; get IV64 7] = firstn 4 (skipn 4 v) /\
  [get IV64 0; get IV64 1; get IV64 2; get IV64 3] = firstn 4 (skipn 8 v) /\
  [off; get IV64 5; blen; flags] = skipn 12 v.
Proof.
  intros cv blen off flags Hcv.
  destruct (list4 _ cv Hcv) as (a0 & a1 & a2 & a3 & ->). repeat split.
Qed.

Lemma compose8_ok : forall R1 R2 R3 R4 R5 R6 R7 R8 cv block blen off flags,
  row_round64_ok R1 0 -> row_round64_ok R2 1 -> row_round64_ok R3 2 -> row_round64_ok R4 3 ->
  row_round64_ok R5 4 -> row_round64_ok R6 5 -> row_round64_ok R7 6 -> row_round64_ok R8 7 ->
  length cv = 4%nat -> length block = 128%nat -> bytes block ->
  compose8 R1 R2 R3 R4 R5 R6 R7 R8
    (broadcast128 (words64_of_bytes (take 16 (drop 0 block))))
    (broadcast128 (words64_of_bytes (take 16 (drop 16 block))))
    (broadcast128 (words64_of_bytes (take 16 (drop 32 block))))
    (broadcast128 (words64_of_bytes (take 16 (drop 48 block))))
    (broadcast128 (words64_of_bytes (take 16 (drop 64 block))))
    (broadcast128 (words64_of_bytes (take 16 (drop 80 block))))
    (broadcast128 (words64_of_bytes (take 16 (drop 96 block))))
    (broadcast128 (words64_of_bytes (take 16 (drop 112 block))))
    (firstn 4 cv) [get IV64 4; get IV64 5; get IV64 6; get IV64 7]
    [get IV64 0; get IV64 1; get IV64 2; get IV64 3] [off; get IV64 5; blen; flags]
  = firstn 4 (compress64 cv block blen off flags).
Proof.
  intros R1 R2 R3 R4 R5 R6 R7 R8 cv block blen off flags H1 H2 H3 H4 H5 H6 H7 H8 Hcv Hb Bb.
  destruct (block_mvec block Hb) as (-> & -> & -> & -> & -> & -> & -> & ->).
  destruct (start64_rows cv blen off flags Hcv) as (-> & -> & -> & ->).
  rewrite rows64_8; auto.
  - rewrite compress64_unfold. cbv zeta.
    pose proof (rounds8_length _ (words64_of_bytes block) (start64_length cv blen off flags Hcv)) as L.
    revert L. generalize (rounds8 (start64 cv blen off flags) (words64_of_bytes block)). intros v L.
    destruct (list16p _ v L) as (v0 & v1 & v2 & v3 & v4 & v5 & v6 & v7 & v8 & v9 & v10 & v11 & v12 & v13 & v14 & v15 & ->).
    reflexivity.
  - now apply start64_length.
  - apply words64_count. unfold len. rewrite Hb. reflexivity.
  - now apply words64_dwords.
Qed.

Lemma compress_avx2_ok : forall cv block blen off flags,
  length cv = 4%nat -> length block = 128%nat -> bytes block ->
  C64.compress_avx2 cv block blen off flags = firstn 4 (compress64 cv block blen off flags).
Proof.
  intros cv block blen off flags Hcv Hb Bb.
  rewrite <- (compose8_ok _ _ _ _ _ _ _ _ cv block blen off flags
    (avx2_row64_ok1 _ a_lanewise64) (avx2_row64_ok2 _ a_lanewise64) (avx2_row64_ok3 _ a_lanewise64)
    (avx2_row64_ok4 _ a_lanewise64) (avx2_row64_ok5 _ a_lanewise64) (avx2_row64_ok6 _ a_lanewise64)
    (avx2_row64_ok7 _ a_lanewise64) (avx2_row64_ok8 _ a_lanewise64) Hcv Hb Bb).
  unfold C64.compress_avx2, compose8. cbv zeta. reflexivity.
Qed.

Lemma compress_avx512_ok : forall cv block blen off flags,
  length cv = 4%nat -> length block = 128%nat -> bytes block ->
  C64.compress_avx512 cv block blen off flags = firstn 4 (compress64 cv block blen off flags).
Proof.
  intros cv block blen off flags Hcv Hb Bb. pose proof (z_lanewise64 4) as Z.
  rewrite <- (compose8_ok _ _ _ _ _ _ _ _ cv block blen off flags
    (avx512_row64_ok1 _ Z) (avx512_row64_ok2 _ Z) (avx512_row64_ok3 _ Z)
    (avx512_row64_ok4 _ Z) (avx512_row64_ok5 _ Z) (avx512_row64_ok6 _ Z)
    (avx512_row64_ok7 _ Z) (avx512_row64_ok8 _ Z) Hcv Hb Bb).
  unfold C64.compress_avx512, compose8. cbv zeta. reflexivity.
Qed.
