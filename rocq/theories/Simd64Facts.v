(* Vectorised 64-bit rounds equal the specified rounds. *)
From Coq Require Import NArith List Bool Lia ZArith.
From Coq Require Import ZifyBool ZifyNat ZifyN.
From Verif Require Import Base BaseFacts Spec64 Simd64 Simd64Gen C64 CompressFacts Compress64Facts.
From Verif Require Import SimdFacts.
Import ListNotations.
Open Scope N_scope.

(* ---- rotations as arithmetic ---- *)

(* For n = 64 - k: the two parts of a rotation. *)
Lemma rot_parts64 : forall x n, 0 < n -> n < 64 ->
  N.shiftr (x mod W64) n = (x mod W64) / 2 ^ n /\
  N.shiftr (x mod W64) n < 2 ^ (64 - n) /\
  N.shiftl (x mod W64) (64 - n) mod W64 = ((x mod W64) mod 2 ^ n) * 2 ^ (64 - n).
Proof.
  intros x n H0 H1.
  assert (E : W64 = 2 ^ n * 2 ^ (64 - n)).
  { rewrite <- N.pow_add_r. replace (n + (64 - n)) with 64 by lia. reflexivity. }
  assert (P : 2 ^ n <> 0) by (apply N.pow_nonzero; lia).
  assert (Q : 2 ^ (64 - n) <> 0) by (apply N.pow_nonzero; lia).
  rewrite N.shiftr_div_pow2, N.shiftl_mul_pow2. repeat split.
  - apply N.div_lt_upper_bound; auto. rewrite <- E. apply N.mod_upper_bound. unfold W64. lia.
  - rewrite E. rewrite N.mul_mod_distr_r by auto. reflexivity.
Qed.

Lemma rotr64_arith : forall x n, 0 < n -> n < 64 ->
  rotr64 x n = (x mod W64) / 2 ^ n + ((x mod W64) mod 2 ^ n) * 2 ^ (64 - n).
Proof.
  intros x n H0 H1. unfold rotr64. destruct (rot_parts64 x n H0 H1) as (A & B & C).
  rewrite C. rewrite lor_disjoint by exact B. now rewrite A.
Qed.


Lemma bytes_rot : forall b0 b1 b2 b3 b4 b5 b6 b7 k,
  byte b0 -> byte b1 -> byte b2 -> byte b3 -> byte b4 -> byte b5 -> byte b6 -> byte b7 ->
  k = 16 \/ k = 24 \/ k = 32 ->
  rotr64 (word64 b0 b1 b2 b3 b4 b5 b6 b7) k =
  if k =? 16 then word64 b2 b3 b4 b5 b6 b7 b0 b1
  else if k =? 24 then word64 b3 b4 b5 b6 b7 b0 b1 b2
  else word64 b4 b5 b6 b7 b0 b1 b2 b3.
Proof.
  intros b0 b1 b2 b3 b4 b5 b6 b7 k H0 H1 H2 H3 H4 H5 H6 H7 K. unfold byte in *.
  rewrite rotr64_arith by lia. unfold word64, word32.
  rewrite N.mod_small by (unfold W64; lia).
  destruct K as [->|[->| ->]]; cbn [N.eqb Pos.eqb].
  - change (2 ^ 16) with 65536. change (2 ^ (64 - 16)) with 281474976710656.
    set (hi := b2 + 256 * b3 + 65536 * b4 + 16777216 * b5 + 4294967296 * b6 + 1099511627776 * b7).
    set (lo := b0 + 256 * b1).
    match goal with |- ?x / _ + _ = _ => replace x with (lo + hi * 65536) by (subst hi lo; lia) end.
    rewrite N.div_add, N.mod_add by lia. rewrite N.div_small, N.mod_small by (subst lo; lia).
    subst hi lo. lia.
  - change (2 ^ 24) with 16777216. change (2 ^ (64 - 24)) with 1099511627776.
    set (hi := b3 + 256 * b4 + 65536 * b5 + 16777216 * b6 + 4294967296 * b7).
    set (lo := b0 + 256 * b1 + 65536 * b2).
    match goal with |- ?x / _ + _ = _ => replace x with (lo + hi * 16777216) by (subst hi lo; lia) end.
    rewrite N.div_add, N.mod_add by lia. rewrite N.div_small, N.mod_small by (subst lo; lia).
    subst hi lo. lia.
  - change (2 ^ 32) with 4294967296. change (2 ^ (64 - 32)) with 4294967296.
    set (hi := b4 + 256 * b5 + 65536 * b6 + 16777216 * b7).
    set (lo := b0 + 256 * b1 + 65536 * b2 + 16777216 * b3).
    match goal with |- ?x / _ + _ = _ => replace x with (lo + hi * 4294967296) by (subst hi lo; lia) end.
    rewrite N.div_add, N.mod_add by lia. rewrite N.div_small, N.mod_small by (subst lo; lia).
    subst hi lo. lia.
Qed.

(* The bytes of a lane. *)
Lemma bytes64_spec : forall a, exists b0 b1 b2 b3 b4 b5 b6 b7,
  bytes64 a = [b0; b1; b2; b3; b4; b5; b6; b7] /\
  byte b0 /\ byte b1 /\ byte b2 /\ byte b3 /\ byte b4 /\ byte b5 /\ byte b6 /\ byte b7 /\
  word64 b0 b1 b2 b3 b4 b5 b6 b7 = a mod W64.
Proof.
  intros a. unfold bytes64, bytes32. cbn [app]. do 8 eexists. split; [reflexivity|].
  assert (M : forall x, byte (x mod 256)) by (intros; unfold byte; apply N.mod_lt; lia).
  repeat (split; [apply M|]).
  assert (E : forall x, word32 (x mod 256) (x / 256 mod 256) (x / 65536 mod 256) (x / 16777216 mod 256)
              = x mod 4294967296) by (intros; unfold word32; lia).
  unfold word64. rewrite !E. unfold W32, W64. lia.
Qed.

Lemma rotr64_mod : forall a k, rotr64 (a mod W64) k = rotr64 a k.
Proof. intros. unfold rotr64. now rewrite N.mod_mod by discriminate. Qed.

Lemma shuffle64_24 : forall a b,
  part_shuffle_epi8 [a; b] [3; 4; 5; 6; 7; 0; 1; 2; 11; 12; 13; 14; 15; 8; 9; 10]
  = [rotr64 a 24; rotr64 b 24].
Proof.
  intros. unfold part_shuffle_epi8, bytes_of_words64. cbn [flat_map].
  destruct (bytes64_spec a) as (a0 & a1 & a2 & a3 & a4 & a5 & a6 & a7 & -> & ? & ? & ? & ? & ? & ? & ? & ? & Ea).
  destruct (bytes64_spec b) as (b0 & b1 & b2 & b3 & b4 & b5 & b6 & b7 & -> & ? & ? & ? & ? & ? & ? & ? & ? & Eb).
  rewrite <- (rotr64_mod a), <- (rotr64_mod b), <- Ea, <- Eb. rewrite !bytes_rot by auto. reflexivity.
Qed.
Lemma shuffle64_16 : forall a b,
  part_shuffle_epi8 [a; b] [2; 3; 4; 5; 6; 7; 0; 1; 10; 11; 12; 13; 14; 15; 8; 9]
  = [rotr64 a 16; rotr64 b 16].
Proof.
  intros. unfold part_shuffle_epi8, bytes_of_words64. cbn [flat_map].
  destruct (bytes64_spec a) as (a0 & a1 & a2 & a3 & a4 & a5 & a6 & a7 & -> & ? & ? & ? & ? & ? & ? & ? & ? & Ea).
  destruct (bytes64_spec b) as (b0 & b1 & b2 & b3 & b4 & b5 & b6 & b7 & -> & ? & ? & ? & ? & ? & ? & ? & ? & Eb).
  rewrite <- (rotr64_mod a), <- (rotr64_mod b), <- Ea, <- Eb. rewrite !bytes_rot by auto. reflexivity.
Qed.
Lemma swap_halves : forall a, a / W32 mod W32 + W32 * (a mod W32) = rotr64 a 32.
Proof.
  intros a. rewrite rotr64_arith by lia. change (2 ^ 32) with W32. change (2 ^ (64 - 32)) with W32.
  unfold W32, W64. lia.
Qed.
Lemma shuffle64_32 : forall a b,
  unhalves32 (mm_shuffle_epi32 (halves32 [a; b]) (MM_SHUFFLE 2 3 0 1)) = [rotr64 a 32; rotr64 b 32].
Proof. intros. rewrite <- !swap_halves. reflexivity. Qed.

Lemma double_rot63 : forall x,
  N.lor (N.shiftr (x mod W64) 63) (plus64 x x) = rotr64 x 63.
Proof.
  intros x. unfold rotr64, plus64. f_equal. change (64 - 63) with 1.
  rewrite N.shiftl_mul_pow2. change (2 ^ 1) with 2. unfold W64. lia.
Qed.
Lemma or_double_rot : forall v, or64 (srli_epi64 v 63) (add_epi64 v v) = map (fun x => rotr64 x 63) v.
Proof.
  intros v. unfold or64, srli_epi64, add_epi64, map2.
  induction v as [|x v IH]; [reflexivity|]. cbn [map combine fst snd].
  rewrite double_rot63. f_equal. exact IH.
Qed.
Lemma or_shift_rot64 : forall v n k, k = 64 - n ->
  or64 (srli_epi64 v n) (slli_epi64 v k) = map (fun x => rotr64 x n) v.
Proof.
  intros v n k ->. unfold or64, srli_epi64, slli_epi64, map2.
  induction v as [|x v IH]; [reflexivity|]. cbn [map combine fst snd].
  f_equal. exact IH.
Qed.

(* ---- lane-wise operations ---- *)

(* Scalar operations. *)
Definition sops64 : ops64 N :=
  Ops64 N 0 plus64 N.lxor (fun x => rotr64 x 32) (fun x => rotr64 x 24)
       (fun x => rotr64 x 16) (fun x => rotr64 x 63).

(* O works lane by lane on vectors of n lanes. *)
Record lanewise64 (n : nat) (O : ops64 vec) : Prop :=
  { lx_nil : o_nil O = [];
    lx_add : forall a b, length a = n -> length b = n -> o_add O a b = map2 plus64 a b;
    lx_xor : forall a b, length a = n -> length b = n -> o_xor O a b = map2 N.lxor a b;
    lx_rot32 : forall a, length a = n -> o_rot32 O a = map (fun x => rotr64 x 32) a;
    lx_rot24 : forall a, length a = n -> o_rot24 O a = map (fun x => rotr64 x 24) a;
    lx_rot16 : forall a, length a = n -> o_rot16 O a = map (fun x => rotr64 x 16) a;
    lx_rot63 : forall a, length a = n -> o_rot63 O a = map (fun x => rotr64 x 63) a }.

Lemma list2 : forall A (l : list A), length l = 2%nat -> exists a b, l = [a; b].
Proof.
  intros A l H. do 2 (destruct l as [|? l]; [discriminate H|]). destruct l; [|discriminate H].
  repeat eexists.
Qed.

Lemma s_lanewise64 : lanewise64 2 s_ops.
Proof.
  constructor; cbn [s_ops o_nil o_add o_xor o_rot32 o_rot24 o_rot16 o_rot63]; auto; intros v H.
  - destruct (list2 _ v H) as (a & b & ->). exact (shuffle64_32 a b).
  - destruct (list2 _ v H) as (a & b & ->). exact (shuffle64_24 a b).
  - destruct (list2 _ v H) as (a & b & ->). exact (shuffle64_16 a b).
  - apply or_double_rot.
Qed.
Lemma a_lanewise64 : lanewise64 4 a_ops.
Proof.
  constructor; cbn [a_ops o_nil o_add o_xor o_rot32 o_rot24 o_rot16 o_rot63]; auto; intros v H.
  - destruct (list4 _ v H) as (a & b & c & d & ->).
    unfold a_rot32, shuffle_epi32. cbn [parts]. rewrite !shuffle64_32. reflexivity.
  - destruct (list4 _ v H) as (a & b & c & d & ->).
    unfold a_rot24, wide_shuffle_epi8. cbn [firstn skipn]. rewrite !shuffle64_24. reflexivity.
  - destruct (list4 _ v H) as (a & b & c & d & ->).
    unfold a_rot16, wide_shuffle_epi8. cbn [firstn skipn]. rewrite !shuffle64_16. reflexivity.
  - apply or_double_rot.
Qed.
Lemma z_lanewise64 : forall n, lanewise64 n z_ops.
Proof.
  constructor; cbn [z_ops o_nil o_add o_xor o_rot32 o_rot24 o_rot16 o_rot63]; auto; reflexivity.
Qed.
Lemma n_lanewise64 : forall n, lanewise64 n n_ops.
Proof.
  constructor; cbn [n_ops o_nil o_add o_xor o_rot32 o_rot24 o_rot16 o_rot63]; auto; intros;
    unfold n_rot; now apply or_shift_rot64.
Qed.

Lemma plus64_swap : forall a x b, plus64 (plus64 a x) b = plus64 (plus64 a b) x.
Proof. intros. unfold plus64. rewrite !N.add_mod_idemp_l by discriminate. f_equal. lia. Qed.

(* ---- vectorised rounds ---- *)

(* A round over any lane type, with the message word added before the other
   state word, as the vector code does. *)
Definition genG64 {V : Type} (O : ops64 V) (a b c d x y : V) : V * V * V * V :=
  let a := o_add O (o_add O a x) b in
  let d := o_rot32 O (o_xor O d a) in
  let c := o_add O c d in
  let b := o_rot24 O (o_xor O b c) in
  let a := o_add O (o_add O a y) b in
  let d := o_rot16 O (o_xor O d a) in
  let c := o_add O c d in
  let b := o_rot63 O (o_xor O b c) in
  (a, b, c, d).

Definition gen_round64 {V : Type} (O : ops64 V) (v m : list V) : list V :=
  match v, m with
  | [v0; v1; v2; v3; v4; v5; v6; v7; v8; v9; v10; v11; v12; v13; v14; v15],
    [m0; m1; m2; m3; m4; m5; m6; m7; m8; m9; m10; m11; m12; m13; m14; m15] =>
      let '(v0, v4, v8, v12) := genG64 O v0 v4 v8 v12 m0 m1 in
      let '(v1, v5, v9, v13) := genG64 O v1 v5 v9 v13 m2 m3 in
      let '(v2, v6, v10, v14) := genG64 O v2 v6 v10 v14 m4 m5 in
      let '(v3, v7, v11, v15) := genG64 O v3 v7 v11 v15 m6 m7 in
      let '(v0, v5, v10, v15) := genG64 O v0 v5 v10 v15 m8 m9 in
      let '(v1, v6, v11, v12) := genG64 O v1 v6 v11 v12 m10 m11 in
      let '(v2, v7, v8, v13) := genG64 O v2 v7 v8 v13 m12 m13 in
      let '(v3, v4, v9, v14) := genG64 O v3 v4 v9 v14 m14 m15 in
      [v0; v1; v2; v3; v4; v5; v6; v7; v8; v9; v10; v11; v12; v13; v14; v15]
  | _, _ => []
  end.

Definition permuteV64 {V : Type} (O : ops64 V) (s : list nat) (m : list V) : list V :=
  map (fun i => nth i m (o_nil O)) s.

Lemma run64_gen : forall V (O : ops64 V) r (v m : list V), (r < 8)%nat ->
  length v = 16%nat -> length m = 16%nat ->
  run64 O sse41_code64 v m r = gen_round64 O v (permuteV64 O (nth r SIGMA64 []) m).
Proof.
  intros V O r v m Hr Hv Hm. destruct O as [z ad xo r16 r12 r8 r7].
  destruct (list16p _ v Hv) as (v0 & v1 & v2 & v3 & v4 & v5 & v6 & v7 & v8 & v9 & v10 & v11 & v12 & v13 & v14 & v15 & ->).
  destruct (list16p _ m Hm) as (m0 & m1 & m2 & m3 & m4 & m5 & m6 & m7 & m8 & m9 & m10 & m11 & m12 & m13 & m14 & m15 & ->).
  clear Hv Hm.
  do 8 (destruct r as [|r]; [vm_compute; reflexivity|]). lia.
Qed.

Lemma sops64_G : forall a b c d x y, genG64 sops64 a b c d x y = G64 a b c d x y.
Proof.
  intros. unfold genG64, G64, sops64. cbn [o_add o_xor o_rot32 o_rot24 o_rot16 o_rot63].
  rewrite (plus64_swap a x b).
  rewrite (plus64_swap _ y _). reflexivity.
Qed.

Lemma sops64_round : forall v m, length v = 16%nat -> length m = 16%nat ->
  gen_round64 sops64 v m = round64 v m.
Proof.
  intros v m Hv Hm.
  destruct (list16p _ v Hv) as (v0 & v1 & v2 & v3 & v4 & v5 & v6 & v7 & v8 & v9 & v10 & v11 & v12 & v13 & v14 & v15 & ->).
  destruct (list16p _ m Hm) as (m0 & m1 & m2 & m3 & m4 & m5 & m6 & m7 & m8 & m9 & m10 & m11 & m12 & m13 & m14 & m15 & ->).
  unfold gen_round64, round64.
  repeat (rewrite sops64_G; match goal with |- context [G64 ?a ?b ?c ?d ?x ?y] =>
    destruct (G64 a b c d x y) as [[[? ?] ?] ?] end).
  reflexivity.
Qed.

Section Lanes.
Variable n : nat.
Variable O : ops64 vec.
Hypothesis LW : lanewise64 n O.

Definition vn (v : vec) : Prop := length v = n.

Lemma lane_add64 : forall i a b, (i < n)%nat -> vn a -> vn b ->
  lane_of i (o_add O a b) = plus64 (lane_of i a) (lane_of i b) /\ vn (o_add O a b).
Proof.
  intros i a b Hi Ha Hb. unfold vn, lane_of in *. rewrite (lx_add _ _ LW) by auto. split.
  - apply map2_nth; lia.
  - now apply map2_length.
Qed.
Lemma lane_xor64 : forall i a b, (i < n)%nat -> vn a -> vn b ->
  lane_of i (o_xor O a b) = N.lxor (lane_of i a) (lane_of i b) /\ vn (o_xor O a b).
Proof.
  intros i a b Hi Ha Hb. unfold vn, lane_of in *. rewrite (lx_xor _ _ LW) by auto. split.
  - apply map2_nth; lia.
  - now apply map2_length.
Qed.
Lemma lane_rot64 : forall (rot : vec -> vec) k,
  (forall a, length a = n -> rot a = map (fun x => rotr64 x k) a) ->
  forall i a, (i < n)%nat -> vn a ->
  lane_of i (rot a) = rotr64 (lane_of i a) k /\ vn (rot a).
Proof.
  intros rot k Hrot i a Hi Ha. unfold vn, lane_of in *. rewrite Hrot by auto. split.
  - rewrite (map_nth_lt (fun x => rotr64 x k)) by lia. reflexivity.
  - now rewrite map_length.
Qed.

Lemma lane_G64 : forall i a b c d x y, (i < n)%nat ->
  vn a -> vn b -> vn c -> vn d -> vn x -> vn y ->
  exists a' b' c' d', genG64 O a b c d x y = (a', b', c', d') /\
    vn a' /\ vn b' /\ vn c' /\ vn d' /\
    genG64 sops64 (lane_of i a) (lane_of i b) (lane_of i c) (lane_of i d) (lane_of i x) (lane_of i y)
    = (lane_of i a', lane_of i b', lane_of i c', lane_of i d').
Proof.
  intros i a b c d x y Hi Ha Hb Hc Hd Hx Hy. unfold genG64, sops64.
  cbn [o_add o_xor o_rot32 o_rot24 o_rot16 o_rot63].
  destruct (lane_add64 i a x Hi Ha Hx) as [<- L1].
  destruct (lane_add64 i _ b Hi L1 Hb) as [<- L2].
  destruct (lane_xor64 i d _ Hi Hd L2) as [<- L3].
  destruct (lane_rot64 _ _ (lx_rot32 _ _ LW) i _ Hi L3) as [<- L4].
  destruct (lane_add64 i c _ Hi Hc L4) as [<- L5].
  destruct (lane_xor64 i b _ Hi Hb L5) as [<- L6].
  destruct (lane_rot64 _ _ (lx_rot24 _ _ LW) i _ Hi L6) as [<- L7].
  destruct (lane_add64 i _ y Hi L2 Hy) as [<- L8].
  destruct (lane_add64 i _ _ Hi L8 L7) as [<- L9].
  destruct (lane_xor64 i _ _ Hi L4 L9) as [<- L10].
  destruct (lane_rot64 _ _ (lx_rot16 _ _ LW) i _ Hi L10) as [<- L11].
  destruct (lane_add64 i _ _ Hi L5 L11) as [<- L12].
  destruct (lane_xor64 i _ _ Hi L7 L12) as [<- L13].
  destruct (lane_rot64 _ _ (lx_rot63 _ _ LW) i _ Hi L13) as [<- L14].
  do 4 eexists. split; [reflexivity|]. auto.
Qed.

Lemma lane_round64 : forall i v m, (i < n)%nat -> length v = 16%nat -> length m = 16%nat ->
  Forall vn v -> Forall vn m ->
  lanes i (gen_round64 O v m) = gen_round64 sops64 (lanes i v) (lanes i m) /\
  Forall vn (gen_round64 O v m) /\ length (gen_round64 O v m) = 16%nat.
Proof.
  intros i v m Hi Hv Hm Fv Fm.
  destruct (list16p _ v Hv) as (v0 & v1 & v2 & v3 & v4 & v5 & v6 & v7 & v8 & v9 & v10 & v11 & v12 & v13 & v14 & v15 & ->).
  destruct (list16p _ m Hm) as (m0 & m1 & m2 & m3 & m4 & m5 & m6 & m7 & m8 & m9 & m10 & m11 & m12 & m13 & m14 & m15 & ->).
  clear Hv Hm.
  repeat match goal with H : Forall _ (_ :: _) |- _ => inversion H; clear H; subst
                    | H : Forall _ [] |- _ => clear H end.
  unfold lanes. cbn [map]. unfold gen_round64.
  repeat (match goal with |- context [genG64 O ?a ?b ?c ?d ?x ?y] =>
    let a' := fresh "a" in let b' := fresh "b" in let c' := fresh "c" in let d' := fresh "d" in
    let E := fresh "E" in let Es := fresh "Es" in
    destruct (lane_G64 i a b c d x y) as (a' & b' & c' & d' & E & ? & ? & ? & ? & Es);
      [assumption..|]; rewrite E, Es; clear E Es end).
  cbn [map]. split; [reflexivity|]. split; [|reflexivity].
  repeat constructor; assumption.
Qed.

Lemma lanes_permute64 : forall i s m, lanes i (permuteV64 O s m) = map (get (lanes i m)) s.
Proof.
  intros i s m. unfold lanes, permuteV64, get. rewrite map_map. apply map_ext. intros k.
  rewrite (lx_nil _ _ LW). replace 0 with (lane_of i []) by (unfold lane_of; now destruct i).
  symmetry. apply map_nth.
Qed.

Lemma permuteV64_vn : forall s m, length m = 16%nat -> Forall (fun k => (k < 16)%nat) s ->
  Forall vn m -> Forall vn (permuteV64 O s m).
Proof.
  intros s m Hm Hs Fm. unfold permuteV64. apply Forall_map. eapply Forall_impl; [|exact Hs].
  cbn. intros k Hk. rewrite Forall_forall in Fm. apply Fm. apply nth_In. lia.
Qed.

Lemma SIGMA64_row : forall r, (r < 8)%nat ->
  length (nth r SIGMA64 []) = 16%nat /\ Forall (fun k => (k < 16)%nat) (nth r SIGMA64 []).
Proof.
  intros r Hr. do 8 (destruct r as [|r]; [split; [reflexivity|repeat constructor; lia]|]). lia.
Qed.

Lemma lane_run64 : forall i r v m, (i < n)%nat -> (r < 8)%nat ->
  length v = 16%nat -> length m = 16%nat -> Forall vn v -> Forall vn m ->
  lanes i (run64 O sse41_code64 v m r)
  = round64 (lanes i v) (order64 r (lanes i m)) /\
  Forall vn (run64 O sse41_code64 v m r) /\
  length (run64 O sse41_code64 v m r) = 16%nat.
Proof.
  intros i r v m Hi Hr Hv Hm Fv Fm. rewrite run64_gen by auto.
  destruct (SIGMA64_row r Hr) as [SL SF].
  destruct (lane_round64 i v (permuteV64 O (nth r SIGMA64 []) m)) as (E & F & L); auto.
  - unfold permuteV64. rewrite map_length. exact SL.
  - now apply permuteV64_vn.
  - rewrite E, lanes_permute64. split; [|auto]. apply sops64_round.
    + unfold lanes. now rewrite map_length.
    + apply order64_length. exact Hr.
Qed.

Variable set1 : N -> vec.
Hypothesis SET1 : forall x, set1 x = repeat x n.

Lemma lane_set164 : forall i x, (i < n)%nat -> lane_of i (set1 x) = x /\ vn (set1 x).
Proof.
  intros i x Hi. rewrite SET1. split; [|apply repeat_length].
  unfold lane_of. clear LW SET1. revert i Hi. induction n; intros i Hi; [lia|].
  destruct i; [reflexivity|]. cbn. apply IHn0; lia.
Qed.

Lemma lane_vec_compress64 : forall i h msg offv blen flg off block (bl fl : N),
  (i < n)%nat -> length h = 4%nat -> length msg = 16%nat -> Forall vn h -> Forall vn msg ->
  vn offv ->
  lanes i msg = words64_of_bytes block ->
  lane_of i offv = off ->
  blen = set1 bl -> flg = set1 fl ->
  lanes i (vec_compress64 O sse41_code64 set1 h msg offv blen flg)
  = firstn 4 (compress64 (lanes i h) block bl off fl) /\
  Forall vn (vec_compress64 O sse41_code64 set1 h msg offv blen flg) /\
  length (vec_compress64 O sse41_code64 set1 h msg offv blen flg) = 4%nat.
Proof.
  intros i h msg offv blen flg off block bl fl Hi Hh Hmsg Fh Fm Voff Em Eoff -> ->.
  unfold vec_compress64.
  set (v0 := [nth 0 h (o_nil O); _; _; _; _; _; _; _; _; _; _; _; _; _; _; _]).
  assert (L0 : length v0 = 16%nat) by reflexivity.
  assert (F0 : Forall vn v0 /\ lanes i v0 = start64 (lanes i h) bl off fl).
  { destruct (list4 _ h Hh) as (h0 & h1 & h2 & h3 & ->).
    repeat match goal with H : Forall _ (_ :: _) |- _ => inversion H; clear H; subst end.
    split.
    - subst v0. cbn [nth]. repeat constructor; try assumption; now apply (lane_set164 i).
    - subst v0. unfold lanes. cbn [map nth]. unfold start64.
      rewrite !(fun x => proj1 (lane_set164 i x Hi)). reflexivity. }
  destruct F0 as [F0 E0].
  assert (Lm : length (lanes i msg) = 16%nat) by (unfold lanes; now rewrite map_length).
  destruct (lane_run64 i 0 v0 msg) as (E1 & F1 & L1); auto; [lia|].
  destruct (lane_run64 i 1 _ msg Hi ltac:(lia) L1 Hmsg F1 Fm) as (E2 & F2 & L2).
  destruct (lane_run64 i 2 _ msg Hi ltac:(lia) L2 Hmsg F2 Fm) as (E3 & F3 & L3).
  destruct (lane_run64 i 3 _ msg Hi ltac:(lia) L3 Hmsg F3 Fm) as (E4 & F4 & L4).
  destruct (lane_run64 i 4 _ msg Hi ltac:(lia) L4 Hmsg F4 Fm) as (E5 & F5 & L5).
  destruct (lane_run64 i 5 _ msg Hi ltac:(lia) L5 Hmsg F5 Fm) as (E6 & F6 & L6).
  destruct (lane_run64 i 6 _ msg Hi ltac:(lia) L6 Hmsg F6 Fm) as (E7 & F7 & L7).
  destruct (lane_run64 i 7 _ msg Hi ltac:(lia) L7 Hmsg F7 Fm) as (E8 & F8 & L8).
  rewrite E7, E6, E5, E4, E3, E2, E1, E0, Em in E8.
  set (v8 := run64 _ _ _ _ 7) in *.
  assert (E9 : lanes i v8 = rounds8 (start64 (lanes i h) bl off fl) (words64_of_bytes block)).
  { rewrite E8. reflexivity. }
  clear E1 E2 E3 E4 E5 E6 E7 E8. clearbody v8.
  assert (Lh : length (lanes i h) = 4%nat) by (unfold lanes; now rewrite map_length).
  destruct (final64 _ _ _ _ _ _ Lh E9) as (_ & <- & _).
  destruct (list16p _ v8 L8) as (w0 & w1 & w2 & w3 & w4 & w5 & w6 & w7 & w8 & w9 & w10 & w11 & w12 & w13 & w14 & w15 & ->).
  repeat match goal with H : Forall _ (_ :: _) |- _ => inversion H; clear H; subst end.
  cbn [seq map nth Nat.add].
  assert (X : forall a b, vn a -> vn b ->
    lane_of i (o_xor O a b) = N.lxor (lane_of i a) (lane_of i b) /\ vn (o_xor O a b)).
  { intros. now apply lane_xor64. }
  split; [|split; [|reflexivity]].
  - unfold lanes. cbn [map].
    repeat (match goal with |- context [lane_of i (o_xor O ?a ?b)] =>
      rewrite (proj1 (X a b ltac:(assumption) ltac:(assumption))) end).
    reflexivity.
  - repeat (constructor; [apply X; assumption|]). constructor.
Qed.

End Lanes.
