(* The row-oriented SIMD compression (sse41.rs and its C versions) is the specified one. *)
From Coq Require Import NArith List Bool Lia ZArith.
From Coq Require Import ZifyBool ZifyNat ZifyN.
From Verif Require Import Base BaseFacts Spec Simd SimdGen SimdHash CompressFacts SimdFacts.
From Verif Require Portable Sse41.
Import ListNotations.
Open Scope N_scope.

(* ---- byte and half-word operations that move whole lanes ---- *)

Lemma unhalf : forall w, word w -> w mod 65536 + 65536 * (w / 65536 mod 65536) = w.
Proof. intros w H. unfold word, W32 in H. lia. Qed.

Lemma blend_lanes : forall imm a0 a1 a2 a3 b0 b1 b2 b3,
  word a0 -> word a1 -> word a2 -> word a3 -> word b0 -> word b1 -> word b2 -> word b3 ->
  N.testbit imm 1 = N.testbit imm 0 -> N.testbit imm 3 = N.testbit imm 2 ->
  N.testbit imm 5 = N.testbit imm 4 -> N.testbit imm 7 = N.testbit imm 6 ->
  mm_blend_epi16 [a0; a1; a2; a3] [b0; b1; b2; b3] imm =
  [if N.testbit imm 0 then b0 else a0; if N.testbit imm 2 then b1 else a1;
   if N.testbit imm 4 then b2 else a2; if N.testbit imm 6 then b3 else a3].
Proof.
  intros imm a0 a1 a2 a3 b0 b1 b2 b3 A0 A1 A2 A3 B0 B1 B2 B3 H0 H1 H2 H3.
  unfold mm_blend_epi16. cbn [flat_map halves app seq map nth unhalves].
  change (N.of_nat 0) with 0. change (N.of_nat 1) with 1. change (N.of_nat 2) with 2.
  change (N.of_nat 3) with 3. change (N.of_nat 4) with 4. change (N.of_nat 5) with 5.
  change (N.of_nat 6) with 6. change (N.of_nat 7) with 7.
  rewrite H0, H1, H2, H3.
  destruct (N.testbit imm 0), (N.testbit imm 2), (N.testbit imm 4), (N.testbit imm 6);
    now rewrite !unhalf by assumption.
Qed.

Definition lanes_shift (n : N) : Prop := n = 0 \/ n = 4 \/ n = 8 \/ n = 12 \/ n = 16.

Lemma slli_lanes : forall a0 a1 a2 a3, word a0 -> word a1 -> word a2 -> word a3 ->
  mm_slli_si128 [a0; a1; a2; a3] 4 = [0; a0; a1; a2] /\
  mm_slli_si128 [a0; a1; a2; a3] 8 = [0; 0; a0; a1] /\
  mm_slli_si128 [a0; a1; a2; a3] 12 = [0; 0; 0; a0].
Proof.
  intros. unfold mm_slli_si128, take, zeros.
  repeat split; cbv -[N.modulo N.div word32]; rewrite !word32_bytes32 by assumption; reflexivity.
Qed.
Lemma srli_lanes : forall a0 a1 a2 a3, word a0 -> word a1 -> word a2 -> word a3 ->
  mm_srli_si128 [a0; a1; a2; a3] 4 = [a1; a2; a3; 0] /\
  mm_srli_si128 [a0; a1; a2; a3] 8 = [a2; a3; 0; 0] /\
  mm_srli_si128 [a0; a1; a2; a3] 12 = [a3; 0; 0; 0].
Proof.
  intros. unfold mm_srli_si128, take, drop, zeros.
  repeat split; cbv -[N.modulo N.div word32]; rewrite !word32_bytes32 by assumption; reflexivity.
Qed.
Lemma alignr_lanes : forall a0 a1 a2 a3 b0 b1 b2 b3,
  word a0 -> word a1 -> word a2 -> word a3 -> word b0 -> word b1 -> word b2 -> word b3 ->
  mm_alignr_epi8 [a0; a1; a2; a3] [b0; b1; b2; b3] 4 = [b1; b2; b3; a0] /\
  mm_alignr_epi8 [a0; a1; a2; a3] [b0; b1; b2; b3] 8 = [b2; b3; a0; a1] /\
  mm_alignr_epi8 [a0; a1; a2; a3] [b0; b1; b2; b3] 12 = [b3; a0; a1; a2].
Proof.
  intros. unfold mm_alignr_epi8, take, drop.
  repeat split; cbv -[N.modulo N.div word32]; rewrite !word32_bytes32 by assumption; reflexivity.
Qed.

Lemma word0 : word 0.
Proof. reflexivity. Qed.

(* ---- one round on rows ---- *)

Section Rows.
Variable O : vops vec.
Hypothesis LW : lanewise 4 O.

Ltac lane_step :=
  repeat match goal with
  | |- context [v_add O (?x :: ?l) (?y :: ?r)] =>
      rewrite (lw_add _ _ LW (x :: l) (y :: r)) by reflexivity; unfold map2; cbn [combine map fst snd]
  | |- context [v_xor O (?x :: ?l) (?y :: ?r)] =>
      rewrite (lw_xor _ _ LW (x :: l) (y :: r)) by reflexivity; unfold map2; cbn [combine map fst snd]
  | |- context [v_rot16 O (?x :: ?l)] =>
      rewrite (lw_rot16 _ _ LW (x :: l)) by reflexivity; cbn [map]
  | |- context [v_rot12 O (?x :: ?l)] =>
      rewrite (lw_rot12 _ _ LW (x :: l)) by reflexivity; cbn [map]
  | |- context [v_rot8 O (?x :: ?l)] =>
      rewrite (lw_rot8 _ _ LW (x :: l)) by reflexivity; cbn [map]
  | |- context [v_rot7 O (?x :: ?l)] =>
      rewrite (lw_rot7 _ _ LW (x :: l)) by reflexivity; cbn [map]
  end.

Lemma g1_rows : forall a0 a1 a2 a3 b0 b1 b2 b3 c0 c1 c2 c3 d0 d1 d2 d3 m0 m1 m2 m3,
  g1 O [a0;a1;a2;a3] [b0;b1;b2;b3] [c0;c1;c2;c3] [d0;d1;d2;d3] [m0;m1;m2;m3]
  = (let f a b c d m :=
       let a := add32 (add32 a b) m in
       let d := rotr32 (xor32 d a) 16 in
       let c := add32 c d in
       let b := rotr32 (xor32 b c) 12 in (a, b, c, d) in
     let '(a0, b0, c0, d0) := f a0 b0 c0 d0 m0 in
     let '(a1, b1, c1, d1) := f a1 b1 c1 d1 m1 in
     let '(a2, b2, c2, d2) := f a2 b2 c2 d2 m2 in
     let '(a3, b3, c3, d3) := f a3 b3 c3 d3 m3 in
     ([a0;a1;a2;a3], [b0;b1;b2;b3], [c0;c1;c2;c3], [d0;d1;d2;d3])).
Proof.
  intros. unfold g1.
  lane_step.
  rewrite (add32_swap a0), (add32_swap a1), (add32_swap a2), (add32_swap a3). reflexivity.
Qed.

Lemma g2_rows : forall a0 a1 a2 a3 b0 b1 b2 b3 c0 c1 c2 c3 d0 d1 d2 d3 m0 m1 m2 m3,
  g2 O [a0;a1;a2;a3] [b0;b1;b2;b3] [c0;c1;c2;c3] [d0;d1;d2;d3] [m0;m1;m2;m3]
  = (let f a b c d m :=
       let a := add32 (add32 a b) m in
       let d := rotr32 (xor32 d a) 8 in
       let c := add32 c d in
       let b := rotr32 (xor32 b c) 7 in (a, b, c, d) in
     let '(a0, b0, c0, d0) := f a0 b0 c0 d0 m0 in
     let '(a1, b1, c1, d1) := f a1 b1 c1 d1 m1 in
     let '(a2, b2, c2, d2) := f a2 b2 c2 d2 m2 in
     let '(a3, b3, c3, d3) := f a3 b3 c3 d3 m3 in
     ([a0;a1;a2;a3], [b0;b1;b2;b3], [c0;c1;c2;c3], [d0;d1;d2;d3])).
Proof.
  intros. unfold g2.
  lane_step.
  rewrite (add32_swap a0), (add32_swap a1), (add32_swap a2), (add32_swap a3). reflexivity.
Qed.

(* The shape common to all rounds, given the four message vectors. *)
Definition skeleton (row1 row2 row3 row4 b1 b2 b3 b4 : vec) : vec * vec * vec * vec :=
  let '(row1, row2, row3, row4) := g1 O row1 row2 row3 row4 b1 in
  let '(row1, row2, row3, row4) := g2 O row1 row2 row3 row4 b2 in
  let '(row1, row3, row4) := diagonalize row1 row3 row4 in
  let '(row1, row2, row3, row4) := g1 O row1 row2 row3 row4 b3 in
  let '(row1, row2, row3, row4) := g2 O row1 row2 row3 row4 b4 in
  let '(row1, row3, row4) := undiagonalize row1 row3 row4 in
  (row1, row2, row3, row4).

(* Rows of a 16-word state. *)
Definition rows (v : list N) : vec * vec * vec * vec :=
  (firstn 4 v, firstn 4 (skipn 4 v), firstn 4 (skipn 8 v), skipn 12 v).

Lemma skeleton_ok : forall a0 a1 a2 a3 b0 b1 b2 b3 c0 c1 c2 c3 d0 d1 d2 d3
  s0 s1 s2 s3 s4 s5 s6 s7 s8 s9 s10 s11 s12 s13 s14 s15,
  skeleton [a0;a1;a2;a3] [b0;b1;b2;b3] [c0;c1;c2;c3] [d0;d1;d2;d3]
    [s0; s2; s4; s6] [s1; s3; s5; s7] [s14; s8; s10; s12] [s15; s9; s11; s13]
  = rows (spec_round [a0;a1;a2;a3;b0;b1;b2;b3;c0;c1;c2;c3;d0;d1;d2;d3]
                     [s0;s1;s2;s3;s4;s5;s6;s7;s8;s9;s10;s11;s12;s13;s14;s15]).
Proof.
  intros. unfold skeleton.
  rewrite g1_rows. cbv beta zeta iota. rewrite g2_rows. cbv beta zeta iota.
  cbv -[add32 xor32 rotr32 g1 g2 undiagonalize rows spec_round].
  rewrite g1_rows. cbv beta zeta iota. rewrite g2_rows. cbv beta zeta iota.
  reflexivity.
Qed.

Ltac wd := solve [assumption | exact word0].

(* Evaluate one message operation applied to explicit lanes. *)
Ltac msg_step :=
  match goal with
  | |- context [mm_blend_epi16 [?a0; ?a1; ?a2; ?a3] [?b0; ?b1; ?b2; ?b3] ?i] =>
      rewrite (blend_lanes i a0 a1 a2 a3 b0 b1 b2 b3) by first [wd | reflexivity];
      match goal with |- context [N.testbit i] =>
        let r0 := eval vm_compute in (N.testbit i 0) in
        let r2 := eval vm_compute in (N.testbit i 2) in
        let r4 := eval vm_compute in (N.testbit i 4) in
        let r6 := eval vm_compute in (N.testbit i 6) in
        change (N.testbit i 0) with r0; change (N.testbit i 2) with r2;
        change (N.testbit i 4) with r4; change (N.testbit i 6) with r6; cbv iota end
  | |- context [mm_slli_si128 [?a0; ?a1; ?a2; ?a3] ?n] =>
      let H1 := fresh in let H2 := fresh in let H3 := fresh in
      destruct (slli_lanes a0 a1 a2 a3) as (H1 & H2 & H3); [wd..|];
      first [rewrite H1 | rewrite H2 | rewrite H3]; clear H1 H2 H3
  | |- context [mm_srli_si128 [?a0; ?a1; ?a2; ?a3] ?n] =>
      let H1 := fresh in let H2 := fresh in let H3 := fresh in
      destruct (srli_lanes a0 a1 a2 a3) as (H1 & H2 & H3); [wd..|];
      first [rewrite H1 | rewrite H2 | rewrite H3]; clear H1 H2 H3
  | |- context [mm_alignr_epi8 [?a0; ?a1; ?a2; ?a3] [?b0; ?b1; ?b2; ?b3] ?n] =>
      let H1 := fresh in let H2 := fresh in let H3 := fresh in
      destruct (alignr_lanes a0 a1 a2 a3 b0 b1 b2 b3) as (H1 & H2 & H3); [wd..|];
      first [rewrite H1 | rewrite H2 | rewrite H3]; clear H1 H2 H3
  | |- context [mm_shuffle_epi32 [?a0; ?a1; ?a2; ?a3] ?i] =>
      let r := eval cbv in (mm_shuffle_epi32 [a0; a1; a2; a3] i) in
      change (mm_shuffle_epi32 [a0; a1; a2; a3] i) with r
  | |- context [mm_shuffle_ps [?a0; ?a1; ?a2; ?a3] [?b0; ?b1; ?b2; ?b3] ?i] =>
      let r := eval cbv in (mm_shuffle_ps [a0; a1; a2; a3] [b0; b1; b2; b3] i) in
      change (mm_shuffle_ps [a0; a1; a2; a3] [b0; b1; b2; b3] i) with r
  | |- context [mm_unpacklo_epi32 [?a0; ?a1; ?a2; ?a3] [?b0; ?b1; ?b2; ?b3]] =>
      change (mm_unpacklo_epi32 [a0; a1; a2; a3] [b0; b1; b2; b3]) with [a0; b0; a1; b1]
  | |- context [mm_unpackhi_epi32 [?a0; ?a1; ?a2; ?a3] [?b0; ?b1; ?b2; ?b3]] =>
      change (mm_unpackhi_epi32 [a0; a1; a2; a3] [b0; b1; b2; b3]) with [a2; b2; a3; b3]
  | |- context [mm_unpacklo_epi64 [?a0; ?a1; ?a2; ?a3] [?b0; ?b1; ?b2; ?b3]] =>
      change (mm_unpacklo_epi64 [a0; a1; a2; a3] [b0; b1; b2; b3]) with [a0; a1; b0; b1]
  | |- context [mm_unpackhi_epi64 [?a0; ?a1; ?a2; ?a3] [?b0; ?b1; ?b2; ?b3]] =>
      change (mm_unpackhi_epi64 [a0; a1; a2; a3] [b0; b1; b2; b3]) with [a2; a3; b2; b3]
  end.

(* R is a round on rows that uses row r of the schedule. *)
Definition row_round_ok (R : vec -> vec -> vec -> vec -> vec -> vec -> vec -> vec ->
                             vec * vec * vec * vec) (r : nat) : Prop :=
  forall v m, length v = 16%nat -> length m = 16%nat -> words m ->
  let '(r1, r2, r3, r4) := rows v in
  let '(m0, m1, m2, m3) := rows m in
  R m0 m1 m2 m3 r1 r2 r3 r4 = rows (spec_round v (permute (nth r SIGMA []) m)).

Ltac row_round def :=
  let v := fresh "v" in let m := fresh "m" in let Hv := fresh in let Hm := fresh in let W := fresh in
  intros v m Hv Hm W;
  destruct (list16p _ v Hv) as (v0 & v1 & v2 & v3 & v4 & v5 & v6 & v7 & v8 & v9 & v10 & v11 & v12 & v13 & v14 & v15 & ->);
  destruct (list16p _ m Hm) as (m0 & m1 & m2 & m3 & m4 & m5 & m6 & m7 & m8 & m9 & m10 & m11 & m12 & m13 & m14 & m15 & ->);
  clear Hv Hm; unfold words in W;
  repeat match goal with H : Forall _ (_ :: _) |- _ => inversion H; clear H; subst
                    | H : Forall _ [] |- _ => clear H end;
  cbv beta iota zeta delta [rows firstn skipn permute SIGMA nth map];
  cbv beta zeta delta [def];
  repeat msg_step;
  refine (skeleton_ok _ _ _ _ _ _ _ _ _ _ _ _ _ _ _ _ _ _ _ _ _ _ _ _ _ _ _ _ _ _ _ _).

Lemma sse41_row1 : row_round_ok (sse41_row_round1 O) 0. Proof. row_round sse41_row_round1. Qed.
Lemma sse41_row2 : row_round_ok (sse41_row_round2 O) 1. Proof. row_round sse41_row_round2. Qed.
Lemma sse41_row3 : row_round_ok (sse41_row_round3 O) 2. Proof. row_round sse41_row_round3. Qed.
Lemma sse41_row4 : row_round_ok (sse41_row_round4 O) 3. Proof. row_round sse41_row_round4. Qed.
Lemma sse41_row5 : row_round_ok (sse41_row_round5 O) 4. Proof. row_round sse41_row_round5. Qed.
Lemma sse41_row6 : row_round_ok (sse41_row_round6 O) 5. Proof. row_round sse41_row_round6. Qed.
Lemma sse41_row7 : row_round_ok (sse41_row_round7 O) 6. Proof. row_round sse41_row_round7. Qed.

Lemma c_sse41_row1 : row_round_ok (c_sse41_row_round1 O) 0. Proof. row_round c_sse41_row_round1. Qed.
Lemma c_sse41_row2 : row_round_ok (c_sse41_row_round2 O) 1. Proof. row_round c_sse41_row_round2. Qed.
Lemma c_sse41_row3 : row_round_ok (c_sse41_row_round3 O) 2. Proof. row_round c_sse41_row_round3. Qed.
Lemma c_sse41_row4 : row_round_ok (c_sse41_row_round4 O) 3. Proof. row_round c_sse41_row_round4. Qed.
Lemma c_sse41_row5 : row_round_ok (c_sse41_row_round5 O) 4. Proof. row_round c_sse41_row_round5. Qed.
Lemma c_sse41_row6 : row_round_ok (c_sse41_row_round6 O) 5. Proof. row_round c_sse41_row_round6. Qed.
Lemma c_sse41_row7 : row_round_ok (c_sse41_row_round7 O) 6. Proof. row_round c_sse41_row_round7. Qed.

Lemma c_avx512_row1 : row_round_ok (c_avx512_row_round1 O) 0. Proof. row_round c_avx512_row_round1. Qed.
Lemma c_avx512_row2 : row_round_ok (c_avx512_row_round2 O) 1. Proof. row_round c_avx512_row_round2. Qed.
Lemma c_avx512_row3 : row_round_ok (c_avx512_row_round3 O) 2. Proof. row_round c_avx512_row_round3. Qed.
Lemma c_avx512_row4 : row_round_ok (c_avx512_row_round4 O) 3. Proof. row_round c_avx512_row_round4. Qed.
Lemma c_avx512_row5 : row_round_ok (c_avx512_row_round5 O) 4. Proof. row_round c_avx512_row_round5. Qed.
Lemma c_avx512_row6 : row_round_ok (c_avx512_row_round6 O) 5. Proof. row_round c_avx512_row_round6. Qed.
Lemma c_avx512_row7 : row_round_ok (c_avx512_row_round7 O) 6. Proof. row_round c_avx512_row_round7. Qed.

End Rows.
