(* SIMD compression (row oriented) and vectorised rounds equal the specified rounds. *)
From Coq Require Import NArith List Bool Lia ZArith.
From Coq Require Import ZifyBool ZifyNat ZifyN.
From Verif Require Import Base BaseFacts Spec Simd SimdGen SimdHash CompressFacts.
From Verif Require Portable Sse41 Avx2.
Import ListNotations.
Open Scope N_scope.

(* ---- rotations as arithmetic ---- *)

Lemma land_disjoint : forall k a m, a < 2 ^ k -> N.land a (m * 2 ^ k) = 0.
Proof.
  intros k a m H. apply N.bits_inj_0. intros i. rewrite N.land_spec.
  destruct (N.lt_ge_cases i k) as [L|G].
  - rewrite N.mul_pow2_bits_low by exact L. apply andb_false_r.
  - replace (N.testbit a i) with false; [reflexivity|]. symmetry.
    destruct (N.eq_dec a 0) as [->|Z]; [apply N.bits_0|].
    apply N.bits_above_log2. apply N.lt_le_trans with k; auto.
    apply N.log2_lt_pow2; [lia|exact H].
Qed.

Lemma lor_disjoint : forall k a m, a < 2 ^ k -> N.lor a (m * 2 ^ k) = a + m * 2 ^ k.
Proof.
  intros. rewrite N.add_nocarry_lxor by now apply land_disjoint.
  symmetry. apply N.lxor_lor. now apply land_disjoint.
Qed.
Lemma lxor_disjoint : forall k a m, a < 2 ^ k -> N.lxor a (m * 2 ^ k) = a + m * 2 ^ k.
Proof. intros. rewrite N.add_nocarry_lxor; auto. now apply land_disjoint. Qed.

(* For n = 32 - k: the two parts of a rotation. *)
Lemma rot_parts : forall x n, 0 < n -> n < 32 ->
  N.shiftr (x mod W32) n = (x mod W32) / 2 ^ n /\
  N.shiftr (x mod W32) n < 2 ^ (32 - n) /\
  N.shiftl (x mod W32) (32 - n) mod W32 = ((x mod W32) mod 2 ^ n) * 2 ^ (32 - n).
Proof.
  intros x n H0 H1.
  assert (E : W32 = 2 ^ n * 2 ^ (32 - n)).
  { rewrite <- N.pow_add_r. replace (n + (32 - n)) with 32 by lia. reflexivity. }
  assert (P : 2 ^ n <> 0) by (apply N.pow_nonzero; lia).
  assert (Q : 2 ^ (32 - n) <> 0) by (apply N.pow_nonzero; lia).
  rewrite N.shiftr_div_pow2, N.shiftl_mul_pow2. repeat split.
  - apply N.div_lt_upper_bound; auto. rewrite <- E. apply N.mod_upper_bound. unfold W32. lia.
  - rewrite E. rewrite N.mul_mod_distr_r by auto. reflexivity.
Qed.

Lemma rotr32_arith : forall x n, 0 < n -> n < 32 ->
  rotr32 x n = (x mod W32) / 2 ^ n + ((x mod W32) mod 2 ^ n) * 2 ^ (32 - n).
Proof.
  intros x n H0 H1. unfold rotr32. destruct (rot_parts x n H0 H1) as (A & B & C).
  rewrite C. rewrite lor_disjoint by exact B. now rewrite A.
Qed.

Lemma rot_xor : forall x n, 0 < n -> n < 32 ->
  N.lxor (N.shiftr (x mod W32) n) (N.shiftl (x mod W32) (32 - n) mod W32) = rotr32 x n.
Proof.
  intros x n H0 H1. unfold rotr32. destruct (rot_parts x n H0 H1) as (A & B & C).
  rewrite C. now rewrite lor_disjoint, lxor_disjoint by exact B.
Qed.

Lemma rot16_bytes : forall a,
  word32 ((a / 65536) mod 256) ((a / 16777216) mod 256) (a mod 256) ((a / 256) mod 256)
  = rotr32 a 16.
Proof.
  intros a. rewrite rotr32_arith by lia. change (2 ^ 16) with 65536. change (2 ^ (32 - 16)) with 65536.
  unfold word32, W32. lia.
Qed.
Lemma rot8_bytes : forall a,
  word32 ((a / 256) mod 256) ((a / 65536) mod 256) ((a / 16777216) mod 256) (a mod 256)
  = rotr32 a 8.
Proof.
  intros a. rewrite rotr32_arith by lia. change (2 ^ 8) with 256. change (2 ^ (32 - 8)) with 16777216.
  unfold word32, W32. lia.
Qed.

(* ---- lane-wise operations ---- *)

(* Scalar operations. *)
Definition sops : vops N :=
  VOps N 0 add32 xor32 (fun x => rotr32 x 16) (fun x => rotr32 x 12)
       (fun x => rotr32 x 8) (fun x => rotr32 x 7).

(* O works lane by lane on vectors of n lanes. *)
Record lanewise (n : nat) (O : vops vec) : Prop :=
  { lw_nil : v_nil O = [];
    lw_add : forall a b, length a = n -> length b = n -> v_add O a b = map2 add32 a b;
    lw_xor : forall a b, length a = n -> length b = n -> v_xor O a b = map2 xor32 a b;
    lw_rot16 : forall a, length a = n -> v_rot16 O a = map (fun x => rotr32 x 16) a;
    lw_rot12 : forall a, length a = n -> v_rot12 O a = map (fun x => rotr32 x 12) a;
    lw_rot8 : forall a, length a = n -> v_rot8 O a = map (fun x => rotr32 x 8) a;
    lw_rot7 : forall a, length a = n -> v_rot7 O a = map (fun x => rotr32 x 7) a }.

Lemma list4 : forall A (l : list A), length l = 4%nat -> exists a b c d, l = [a; b; c; d].
Proof.
  intros A l H. do 4 (destruct l as [|? l]; [discriminate H|]). destruct l; [|discriminate H].
  repeat eexists.
Qed.
Lemma list8p : forall A (l : list A), length l = 8%nat ->
  exists a0 a1 a2 a3 a4 a5 a6 a7, l = [a0; a1; a2; a3; a4; a5; a6; a7].
Proof.
  intros A l H. do 8 (destruct l as [|? l]; [discriminate H|]). destruct l; [|discriminate H].
  repeat eexists.
Qed.
Lemma list16p : forall A (l : list A), length l = 16%nat ->
  exists a0 a1 a2 a3 a4 a5 a6 a7 a8 a9 a10 a11 a12 a13 a14 a15,
    l = [a0; a1; a2; a3; a4; a5; a6; a7; a8; a9; a10; a11; a12; a13; a14; a15].
Proof.
  intros A l H. do 16 (destruct l as [|? l]; [discriminate H|]). destruct l; [|discriminate H].
  repeat eexists.
Qed.

Lemma xor_shift_rot : forall v n k, 0 < n -> n < 32 -> k = 32 - n ->
  xor_si (srli_epi32 v n) (slli_epi32 v k) = map (fun x => rotr32 x n) v.
Proof.
  intros v n k H0 H1 ->. unfold xor_si, srli_epi32, slli_epi32, map2.
  induction v as [|x v IH]; [reflexivity|]. cbn [map combine fst snd].
  rewrite rot_xor by auto. f_equal. exact IH.
Qed.
Lemma or_shift_rot : forall v n k, k = 32 - n ->
  or_si (srli_epi32 v n) (slli_epi32 v k) = map (fun x => rotr32 x n) v.
Proof.
  intros v n k ->. unfold or_si, srli_epi32, slli_epi32, map2.
  induction v as [|x v IH]; [reflexivity|]. cbn [map combine fst snd].
  f_equal. exact IH.
Qed.

Lemma shuffle16 : forall a b c d,
  mm_shuffle_epi8 [a; b; c; d] [2; 3; 0; 1; 6; 7; 4; 5; 10; 11; 8; 9; 14; 15; 12; 13]
  = [rotr32 a 16; rotr32 b 16; rotr32 c 16; rotr32 d 16].
Proof.
  intros. rewrite <- !rot16_bytes. reflexivity.
Qed.
Lemma shuffle8 : forall a b c d,
  mm_shuffle_epi8 [a; b; c; d] [1; 2; 3; 0; 5; 6; 7; 4; 9; 10; 11; 8; 13; 14; 15; 12]
  = [rotr32 a 8; rotr32 b 8; rotr32 c 8; rotr32 d 8].
Proof.
  intros. rewrite <- !rot8_bytes. reflexivity.
Qed.

Lemma sse41_lanewise : lanewise 4 Sse41.ops.
Proof.
  constructor; cbn [Sse41.ops v_nil v_add v_xor v_rot16 v_rot12 v_rot8 v_rot7]; auto; intros v H.
  - destruct (list4 _ v H) as (a & b & c & d & ->). exact (shuffle16 a b c d).
  - apply xor_shift_rot; reflexivity.
  - destruct (list4 _ v H) as (a & b & c & d & ->). exact (shuffle8 a b c d).
  - apply xor_shift_rot; reflexivity.
Qed.

Lemma avx2_lanewise : lanewise 8 Avx2.ops.
Proof.
  constructor; cbn [Avx2.ops v_nil v_add v_xor v_rot16 v_rot12 v_rot8 v_rot7]; auto; intros v H.
  - destruct (list8p _ v H) as (a & b & c & d & e & f & g & h & ->).
    unfold Avx2.rot16, mm256_shuffle_epi8. cbn [firstn skipn mm_set_epi8 rev app].
    rewrite !shuffle16. reflexivity.
  - apply or_shift_rot; reflexivity.
  - destruct (list8p _ v H) as (a & b & c & d & e & f & g & h & ->).
    unfold Avx2.rot8, mm256_shuffle_epi8. cbn [firstn skipn mm_set_epi8 rev app].
    rewrite !shuffle8. reflexivity.
  - apply or_shift_rot; reflexivity.
Qed.

(* ---- vectorised rounds ---- *)

(* A round over any lane type, with the message word added before the other
   state word, as the vector code does. *)
Definition genG {V : Type} (O : vops V) (a b c d x y : V) : V * V * V * V :=
  let a := v_add O (v_add O a x) b in
  let d := v_rot16 O (v_xor O d a) in
  let c := v_add O c d in
  let b := v_rot12 O (v_xor O b c) in
  let a := v_add O (v_add O a y) b in
  let d := v_rot8 O (v_xor O d a) in
  let c := v_add O c d in
  let b := v_rot7 O (v_xor O b c) in
  (a, b, c, d).

Definition gen_round {V : Type} (O : vops V) (v m : list V) : list V :=
  match v, m with
  | [v0; v1; v2; v3; v4; v5; v6; v7; v8; v9; v10; v11; v12; v13; v14; v15],
    [m0; m1; m2; m3; m4; m5; m6; m7; m8; m9; m10; m11; m12; m13; m14; m15] =>
      let '(v0, v4, v8, v12) := genG O v0 v4 v8 v12 m0 m1 in
      let '(v1, v5, v9, v13) := genG O v1 v5 v9 v13 m2 m3 in
      let '(v2, v6, v10, v14) := genG O v2 v6 v10 v14 m4 m5 in
      let '(v3, v7, v11, v15) := genG O v3 v7 v11 v15 m6 m7 in
      let '(v0, v5, v10, v15) := genG O v0 v5 v10 v15 m8 m9 in
      let '(v1, v6, v11, v12) := genG O v1 v6 v11 v12 m10 m11 in
      let '(v2, v7, v8, v13) := genG O v2 v7 v8 v13 m12 m13 in
      let '(v3, v4, v9, v14) := genG O v3 v4 v9 v14 m14 m15 in
      [v0; v1; v2; v3; v4; v5; v6; v7; v8; v9; v10; v11; v12; v13; v14; v15]
  | _, _ => []
  end.

Definition permuteV {V : Type} (O : vops V) (s : list nat) (m : list V) : list V :=
  map (fun i => nth i m (v_nil O)) s.

Lemma run_round_gen : forall V (O : vops V) r (v m : list V), (r < 7)%nat ->
  length v = 16%nat -> length m = 16%nat ->
  run_round O sse41_round_code v m r = gen_round O v (permuteV O (nth r SIGMA []) m).
Proof.
  intros V O r v m Hr Hv Hm. destruct O as [z ad xo r16 r12 r8 r7].
  destruct (list16p _ v Hv) as (v0 & v1 & v2 & v3 & v4 & v5 & v6 & v7 & v8 & v9 & v10 & v11 & v12 & v13 & v14 & v15 & ->).
  destruct (list16p _ m Hm) as (m0 & m1 & m2 & m3 & m4 & m5 & m6 & m7 & m8 & m9 & m10 & m11 & m12 & m13 & m14 & m15 & ->).
  clear Hv Hm.
  do 7 (destruct r as [|r]; [vm_compute; reflexivity|]). lia.
Qed.

Lemma sops_G : forall a b c d x y, genG sops a b c d x y = G a b c d x y.
Proof.
  intros. unfold genG, G, sops. cbn [v_add v_xor v_rot16 v_rot12 v_rot8 v_rot7].
  rewrite (add32_swap a x b).
  rewrite (add32_swap _ y _). reflexivity.
Qed.

Lemma sops_round : forall v m, length v = 16%nat -> length m = 16%nat ->
  gen_round sops v m = spec_round v m.
Proof.
  intros v m Hv Hm.
  destruct (list16p _ v Hv) as (v0 & v1 & v2 & v3 & v4 & v5 & v6 & v7 & v8 & v9 & v10 & v11 & v12 & v13 & v14 & v15 & ->).
  destruct (list16p _ m Hm) as (m0 & m1 & m2 & m3 & m4 & m5 & m6 & m7 & m8 & m9 & m10 & m11 & m12 & m13 & m14 & m15 & ->).
  unfold gen_round, spec_round.
  repeat (rewrite sops_G; match goal with |- context [G ?a ?b ?c ?d ?x ?y] =>
    destruct (G a b c d x y) as [[[? ?] ?] ?] end).
  reflexivity.
Qed.

(* Lane i of a vector, and of a list of vectors. *)
Definition lane_of (i : nat) (v : vec) : N := nth i v 0.
Definition lanes (i : nat) (vs : list vec) : list N := map (lane_of i) vs.

Lemma map2_length : forall A B C (f : A -> B -> C) a b n,
  length a = n -> length b = n -> length (map2 f a b) = n.
Proof. intros. unfold map2. rewrite map_length, combine_length. lia. Qed.

Lemma map2_nth : forall (f : N -> N -> N) a b i,
  length a = length b -> (i < length a)%nat ->
  nth i (map2 f a b) 0 = f (nth i a 0) (nth i b 0).
Proof.
  intros f a. induction a as [|x a IH]; intros [|y b] i E H; cbn in *; try lia.
  destruct i; [reflexivity|]. apply IH; lia.
Qed.

Lemma map_nth_lt : forall (f : N -> N) a i, (i < length a)%nat ->
  nth i (map f a) 0 = f (nth i a 0).
Proof.
  intros f a. induction a as [|x a IH]; intros i H; cbn in *; try lia.
  destruct i; [reflexivity|]. apply IH; lia.
Qed.

Section Lanes.
Variable n : nat.
Variable O : vops vec.
Hypothesis LW : lanewise n O.

Definition vn (v : vec) : Prop := length v = n.

Lemma lane_add : forall i a b, (i < n)%nat -> vn a -> vn b ->
  lane_of i (v_add O a b) = add32 (lane_of i a) (lane_of i b) /\ vn (v_add O a b).
Proof.
  intros i a b Hi Ha Hb. unfold vn, lane_of in *. rewrite (lw_add _ _ LW) by auto. split.
  - apply map2_nth; lia.
  - now apply map2_length.
Qed.
Lemma lane_xor : forall i a b, (i < n)%nat -> vn a -> vn b ->
  lane_of i (v_xor O a b) = xor32 (lane_of i a) (lane_of i b) /\ vn (v_xor O a b).
Proof.
  intros i a b Hi Ha Hb. unfold vn, lane_of in *. rewrite (lw_xor _ _ LW) by auto. split.
  - apply map2_nth; lia.
  - now apply map2_length.
Qed.
Lemma lane_rot : forall (rot : vec -> vec) k,
  (forall a, length a = n -> rot a = map (fun x => rotr32 x k) a) ->
  forall i a, (i < n)%nat -> vn a ->
  lane_of i (rot a) = rotr32 (lane_of i a) k /\ vn (rot a).
Proof.
  intros rot k Hrot i a Hi Ha. unfold vn, lane_of in *. rewrite Hrot by auto. split.
  - rewrite (map_nth_lt (fun x => rotr32 x k)) by lia. reflexivity.
  - now rewrite map_length.
Qed.

Lemma lane_G : forall i a b c d x y, (i < n)%nat ->
  vn a -> vn b -> vn c -> vn d -> vn x -> vn y ->
  exists a' b' c' d', genG O a b c d x y = (a', b', c', d') /\
    vn a' /\ vn b' /\ vn c' /\ vn d' /\
    genG sops (lane_of i a) (lane_of i b) (lane_of i c) (lane_of i d) (lane_of i x) (lane_of i y)
    = (lane_of i a', lane_of i b', lane_of i c', lane_of i d').
Proof.
  intros i a b c d x y Hi Ha Hb Hc Hd Hx Hy. unfold genG, sops.
  cbn [v_add v_xor v_rot16 v_rot12 v_rot8 v_rot7].
  destruct (lane_add i a x Hi Ha Hx) as [<- L1].
  destruct (lane_add i _ b Hi L1 Hb) as [<- L2].
  destruct (lane_xor i d _ Hi Hd L2) as [<- L3].
  destruct (lane_rot _ _ (lw_rot16 _ _ LW) i _ Hi L3) as [<- L4].
  destruct (lane_add i c _ Hi Hc L4) as [<- L5].
  destruct (lane_xor i b _ Hi Hb L5) as [<- L6].
  destruct (lane_rot _ _ (lw_rot12 _ _ LW) i _ Hi L6) as [<- L7].
  destruct (lane_add i _ y Hi L2 Hy) as [<- L8].
  destruct (lane_add i _ _ Hi L8 L7) as [<- L9].
  destruct (lane_xor i _ _ Hi L4 L9) as [<- L10].
  destruct (lane_rot _ _ (lw_rot8 _ _ LW) i _ Hi L10) as [<- L11].
  destruct (lane_add i _ _ Hi L5 L11) as [<- L12].
  destruct (lane_xor i _ _ Hi L7 L12) as [<- L13].
  destruct (lane_rot _ _ (lw_rot7 _ _ LW) i _ Hi L13) as [<- L14].
  do 4 eexists. split; [reflexivity|]. auto.
Qed.

Lemma lane_round : forall i v m, (i < n)%nat -> length v = 16%nat -> length m = 16%nat ->
  Forall vn v -> Forall vn m ->
  lanes i (gen_round O v m) = gen_round sops (lanes i v) (lanes i m) /\
  Forall vn (gen_round O v m) /\ length (gen_round O v m) = 16%nat.
Proof.
  intros i v m Hi Hv Hm Fv Fm.
  destruct (list16p _ v Hv) as (v0 & v1 & v2 & v3 & v4 & v5 & v6 & v7 & v8 & v9 & v10 & v11 & v12 & v13 & v14 & v15 & ->).
  destruct (list16p _ m Hm) as (m0 & m1 & m2 & m3 & m4 & m5 & m6 & m7 & m8 & m9 & m10 & m11 & m12 & m13 & m14 & m15 & ->).
  clear Hv Hm.
  repeat match goal with H : Forall _ (_ :: _) |- _ => inversion H; clear H; subst
                    | H : Forall _ [] |- _ => clear H end.
  unfold lanes. cbn [map]. unfold gen_round.
  repeat (match goal with |- context [genG O ?a ?b ?c ?d ?x ?y] =>
    let a' := fresh "a" in let b' := fresh "b" in let c' := fresh "c" in let d' := fresh "d" in
    let E := fresh "E" in let Es := fresh "Es" in
    destruct (lane_G i a b c d x y) as (a' & b' & c' & d' & E & ? & ? & ? & ? & Es);
      [assumption..|]; rewrite E, Es; clear E Es end).
  cbn [map]. split; [reflexivity|]. split; [|reflexivity].
  repeat constructor; assumption.
Qed.

Lemma lanes_permute : forall i s m, lanes i (permuteV O s m) = permute s (lanes i m).
Proof.
  intros i s m. unfold lanes, permuteV, permute. rewrite map_map. apply map_ext. intros k.
  rewrite (lw_nil _ _ LW). replace 0 with (lane_of i []) by (unfold lane_of; now destruct i).
  symmetry. apply map_nth.
Qed.

Lemma permuteV_vn : forall s m, length m = 16%nat -> Forall (fun k => (k < 16)%nat) s ->
  Forall vn m -> Forall vn (permuteV O s m).
Proof.
  intros s m Hm Hs Fm. unfold permuteV. apply Forall_map. eapply Forall_impl; [|exact Hs].
  cbn. intros k Hk. rewrite Forall_forall in Fm. apply Fm. apply nth_In. lia.
Qed.

Lemma SIGMA_row : forall r, (r < 7)%nat ->
  length (nth r SIGMA []) = 16%nat /\ Forall (fun k => (k < 16)%nat) (nth r SIGMA []).
Proof.
  intros r Hr. do 7 (destruct r as [|r]; [split; [reflexivity|repeat constructor; lia]|]). lia.
Qed.

Lemma lane_run_round : forall i r v m, (i < n)%nat -> (r < 7)%nat ->
  length v = 16%nat -> length m = 16%nat -> Forall vn v -> Forall vn m ->
  lanes i (run_round O sse41_round_code v m r)
  = spec_round (lanes i v) (permute (nth r SIGMA []) (lanes i m)) /\
  Forall vn (run_round O sse41_round_code v m r) /\
  length (run_round O sse41_round_code v m r) = 16%nat.
Proof.
  intros i r v m Hi Hr Hv Hm Fv Fm. rewrite run_round_gen by auto.
  destruct (SIGMA_row r Hr) as [SL SF].
  destruct (lane_round i v (permuteV O (nth r SIGMA []) m)) as (E & F & L); auto.
  - unfold permuteV. rewrite map_length. exact SL.
  - now apply permuteV_vn.
  - rewrite E, lanes_permute. split; [|auto]. apply sops_round.
    + unfold lanes. now rewrite map_length.
    + now rewrite permute_length.
Qed.

Variable set1 : N -> vec.
Hypothesis SET1 : forall x, set1 x = repeat x n.

Lemma lane_set1 : forall i x, (i < n)%nat -> lane_of i (set1 x) = x /\ vn (set1 x).
Proof.
  intros i x Hi. rewrite SET1. split; [|apply repeat_length].
  unfold lane_of. clear LW SET1. revert i Hi. induction n; intros i Hi; [lia|].
  destruct i; [reflexivity|]. cbn. apply IHn0; lia.
Qed.

Lemma lane_vec_compress : forall i h msg lo hi blen flg off block (bl fl : N),
  (i < n)%nat -> length h = 8%nat -> length msg = 16%nat -> Forall vn h -> Forall vn msg ->
  vn lo -> vn hi ->
  lanes i msg = words_of_bytes block ->
  lane_of i lo = off mod W32 -> lane_of i hi = off / W32 ->
  blen = set1 bl -> flg = set1 fl ->
  lanes i (vec_compress O sse41_round_code set1 h msg lo hi blen flg)
  = firstn 8 (blake_compress (lanes i h) block bl off fl) /\
  Forall vn (vec_compress O sse41_round_code set1 h msg lo hi blen flg) /\
  length (vec_compress O sse41_round_code set1 h msg lo hi blen flg) = 8%nat.
Proof.
  intros i h msg lo hi blen flg off block bl fl Hi Hh Hmsg Fh Fm Vlo Vhi Em Elo Ehi -> ->.
  unfold vec_compress.
  set (v0 := [nth 0 h (v_nil O); _; _; _; _; _; _; _; _; _; _; _; _; _; _; _]).
  assert (L0 : length v0 = 16%nat) by reflexivity.
  assert (F0 : Forall vn v0 /\ lanes i v0 = init_state (lanes i h) bl off fl).
  { destruct (list8p _ h Hh) as (h0 & h1 & h2 & h3 & h4 & h5 & h6 & h7 & ->).
    repeat match goal with H : Forall _ (_ :: _) |- _ => inversion H; clear H; subst end.
    split.
    - subst v0. cbn [nth]. repeat constructor; try assumption; now apply (lane_set1 i).
    - subst v0. unfold lanes. cbn [map nth]. unfold init_state.
      rewrite Elo, Ehi. rewrite !(fun x => proj1 (lane_set1 i x Hi)). reflexivity. }
  destruct F0 as [F0 E0].
  assert (Lm : length (lanes i msg) = 16%nat) by (unfold lanes; now rewrite map_length).
  destruct (lane_run_round i 0 v0 msg) as (E1 & F1 & L1); auto; [lia|].
  destruct (lane_run_round i 1 _ msg Hi ltac:(lia) L1 Hmsg F1 Fm) as (E2 & F2 & L2).
  destruct (lane_run_round i 2 _ msg Hi ltac:(lia) L2 Hmsg F2 Fm) as (E3 & F3 & L3).
  destruct (lane_run_round i 3 _ msg Hi ltac:(lia) L3 Hmsg F3 Fm) as (E4 & F4 & L4).
  destruct (lane_run_round i 4 _ msg Hi ltac:(lia) L4 Hmsg F4 Fm) as (E5 & F5 & L5).
  destruct (lane_run_round i 5 _ msg Hi ltac:(lia) L5 Hmsg F5 Fm) as (E6 & F6 & L6).
  destruct (lane_run_round i 6 _ msg Hi ltac:(lia) L6 Hmsg F6 Fm) as (E7 & F7 & L7).
  rewrite E6, E5, E4, E3, E2, E1, E0, Em in E7.
  set (v7 := run_round _ _ _ _ 6) in *.
  assert (E8 : lanes i v7 = rounds7 (init_state (lanes i h) bl off fl) (words_of_bytes block)).
  { rewrite E7. reflexivity. }
  clear E1 E2 E3 E4 E5 E6 E7. clearbody v7.
  rewrite blake_unfold. cbv zeta. rewrite <- E8.
  destruct (list16p _ v7 L7) as (w0 & w1 & w2 & w3 & w4 & w5 & w6 & w7 & w8 & w9 & w10 & w11 & w12 & w13 & w14 & w15 & ->).
  repeat match goal with H : Forall _ (_ :: _) |- _ => inversion H; clear H; subst end.
  cbn [seq map nth Nat.add].
  assert (X : forall a b, vn a -> vn b ->
    lane_of i (v_xor O a b) = xor32 (lane_of i a) (lane_of i b) /\ vn (v_xor O a b)).
  { intros. now apply lane_xor. }
  split; [|split; [|reflexivity]].
  - unfold lanes. cbn [map].
    repeat (match goal with |- context [lane_of i (v_xor O ?a ?b)] =>
      rewrite (proj1 (X a b ltac:(assumption) ltac:(assumption))) end).
    reflexivity.
  - repeat (constructor; [apply X; assumption|]). constructor.
Qed.

End Lanes.
