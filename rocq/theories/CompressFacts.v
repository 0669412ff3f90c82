(* The portable compression function equals the specified one. *)
From Coq Require Import NArith List Bool Lia ZArith.
From Coq Require Import ZifyBool ZifyNat ZifyN.
From Verif Require Import Base BaseFacts Spec.
From Verif Require Portable.
Import ListNotations.
Open Scope N_scope.

Ltac destruct_len l H :=
  repeat (destruct l as [|? l]; [cbn in H; try discriminate H; try lia|cbn in H; try discriminate H; try lia]).

Lemma list16 : forall (l : list N), length l = 16%nat ->
  exists a0 a1 a2 a3 a4 a5 a6 a7 a8 a9 a10 a11 a12 a13 a14 a15,
    l = [a0; a1; a2; a3; a4; a5; a6; a7; a8; a9; a10; a11; a12; a13; a14; a15].
Proof.
  intros l H.
  do 16 (destruct l as [|? l]; [discriminate H|]). destruct l; [|discriminate H].
  repeat eexists.
Qed.
Lemma list8 : forall (l : list N), length l = 8%nat ->
  exists a0 a1 a2 a3 a4 a5 a6 a7, l = [a0; a1; a2; a3; a4; a5; a6; a7].
Proof.
  intros l H.
  do 8 (destruct l as [|? l]; [discriminate H|]). destruct l; [|discriminate H].
  repeat eexists.
Qed.

Lemma IV_eq : Portable.IV = IV.
Proof. reflexivity. Qed.
Lemma SIGMA_eq : Portable.MSG_SCHEDULE = SIGMA.
Proof. reflexivity. Qed.

Lemma portable_round : forall r v m, (r < 7)%nat -> length v = 16%nat -> length m = 16%nat ->
  Portable.round v m r = spec_round v (permute (nth r SIGMA []) m).
Proof.
  intros r v m Hr Hv Hm.
  destruct (list16 v Hv) as (v0 & v1 & v2 & v3 & v4 & v5 & v6 & v7 & v8 & v9 & v10 & v11 & v12 & v13 & v14 & v15 & ->).
  destruct (list16 m Hm) as (m0 & m1 & m2 & m3 & m4 & m5 & m6 & m7 & m8 & m9 & m10 & m11 & m12 & m13 & m14 & m15 & ->).
  do 7 (destruct r as [|r]; [reflexivity|]). lia.
Qed.

Lemma spec_round_length : forall v m, length v = 16%nat -> length m = 16%nat ->
  length (spec_round v m) = 16%nat.
Proof.
  intros v m Hv Hm.
  destruct (list16 v Hv) as (v0 & v1 & v2 & v3 & v4 & v5 & v6 & v7 & v8 & v9 & v10 & v11 & v12 & v13 & v14 & v15 & ->).
  destruct (list16 m Hm) as (m0 & m1 & m2 & m3 & m4 & m5 & m6 & m7 & m8 & m9 & m10 & m11 & m12 & m13 & m14 & m15 & ->).
  reflexivity.
Qed.

Lemma permute_length : forall s m, length (permute s m) = length s.
Proof. intros. unfold permute. apply map_length. Qed.

(* The state after the seven rounds. *)
Definition rounds7 (v m : list N) : list N :=
  fold_left (fun v s => spec_round v (permute s m)) SIGMA v.

Lemma rounds7_length : forall v m, length v = 16%nat -> length (rounds7 v m) = 16%nat.
Proof.
  intros v m H. unfold rounds7, SIGMA. cbn [fold_left].
  repeat (apply spec_round_length; [|reflexivity]). exact H.
Qed.

Definition init_state (cv : list N) (blen off flags : N) : list N :=
  cv ++ firstn 4 IV ++ [off mod W32; off / W32; blen; flags].

Lemma offset_high_div : forall off, off < W64 -> Portable.offset_high off = off / W32.
Proof.
  intros off H. unfold Portable.offset_high. rewrite N.shiftr_div_pow2.
  change (2 ^ 32) with W32. apply N.mod_small. unfold W32, W64 in *. lia.
Qed.

Lemma length_words_of_block : forall b, length b = 64%nat -> length (words_of_bytes b) = 16%nat.
Proof.
  intros b H. pose proof (len_words_of_bytes b) as E. unfold len in E. lia.
Qed.

Lemma portable_inner : forall cv block blen off flags,
  length cv = 8%nat -> length block = 64%nat -> off < W64 ->
  Portable.compress_inner cv block blen off flags
  = rounds7 (init_state cv blen off flags) (words_of_bytes block).
Proof.
  intros cv block blen off flags Hcv Hb Hoff.
  pose proof (length_words_of_block block Hb) as Hm.
  destruct (list8 cv Hcv) as (a0 & a1 & a2 & a3 & a4 & a5 & a6 & a7 & ->).
  unfold Portable.compress_inner, Portable.words_from_block.
  rewrite offset_high_div by exact Hoff.
  set (m := words_of_bytes block) in *.
  change (Portable.offset_low off) with (off mod W32).
  change [get [a0; a1; a2; a3; a4; a5; a6; a7] 0; get [a0; a1; a2; a3; a4; a5; a6; a7] 1;
          get [a0; a1; a2; a3; a4; a5; a6; a7] 2; get [a0; a1; a2; a3; a4; a5; a6; a7] 3;
          get [a0; a1; a2; a3; a4; a5; a6; a7] 4; get [a0; a1; a2; a3; a4; a5; a6; a7] 5;
          get [a0; a1; a2; a3; a4; a5; a6; a7] 6; get [a0; a1; a2; a3; a4; a5; a6; a7] 7;
          get Portable.IV 0; get Portable.IV 1; get Portable.IV 2; get Portable.IV 3;
          off mod W32; off / W32; blen; flags]
    with (init_state [a0; a1; a2; a3; a4; a5; a6; a7] blen off flags).
  set (v := init_state _ blen off flags).
  assert (Hv : length v = 16%nat) by reflexivity. clearbody v. clear Hcv.
  unfold rounds7.
  assert (E : forall r x, (r < 7)%nat -> length x = 16%nat ->
    Portable.round x m r = spec_round x (permute (nth r SIGMA []) m) /\
    length (spec_round x (permute (nth r SIGMA []) m)) = 16%nat).
  { intros r x Hr Hx. split; [now apply portable_round|].
    apply spec_round_length; auto. rewrite permute_length.
    do 7 (destruct r as [|r]; [reflexivity|]). lia. }
  change SIGMA with [nth 0 SIGMA []; nth 1 SIGMA []; nth 2 SIGMA []; nth 3 SIGMA [];
                     nth 4 SIGMA []; nth 5 SIGMA []; nth 6 SIGMA []] at 1.
  cbn [fold_left].
  destruct (E 0%nat v) as [-> L0]; [lia|exact Hv|].
  destruct (E 1%nat _ ltac:(lia) L0) as [-> L1].
  destruct (E 2%nat _ ltac:(lia) L1) as [-> L2].
  destruct (E 3%nat _ ltac:(lia) L2) as [-> L3].
  destruct (E 4%nat _ ltac:(lia) L3) as [-> L4].
  destruct (E 5%nat _ ltac:(lia) L4) as [-> L5].
  destruct (E 6%nat _ ltac:(lia) L5) as [-> L6].
  reflexivity.
Qed.

Lemma blake_unfold : forall cv block blen off flags,
  blake_compress cv block blen off flags =
  let v := rounds7 (init_state cv blen off flags) (words_of_bytes block) in
  xors (firstn 8 v) (skipn 8 v) ++ xors (skipn 8 v) cv.
Proof. reflexivity. Qed.

Lemma init_state_length : forall cv blen off flags, length cv = 8%nat ->
  length (init_state cv blen off flags) = 16%nat.
Proof. intros. unfold init_state. rewrite app_length, H. reflexivity. Qed.

Lemma portable_compress : forall cv block blen off flags,
  length cv = 8%nat -> length block = 64%nat -> off < W64 ->
  Portable.compress cv block blen off flags = firstn 8 (blake_compress cv block blen off flags).
Proof.
  intros cv block blen off flags Hcv Hb Hoff. unfold Portable.compress.
  rewrite portable_inner by auto. rewrite blake_unfold. cbv zeta.
  pose proof (rounds7_length _ (words_of_bytes block) (init_state_length cv blen off flags Hcv)) as L.
  revert L. generalize (rounds7 (init_state cv blen off flags) (words_of_bytes block)). intros v L.
  destruct (list16 v L) as (v0 & v1 & v2 & v3 & v4 & v5 & v6 & v7 & v8 & v9 & v10 & v11 & v12 & v13 & v14 & v15 & ->).
  reflexivity.
Qed.

Lemma portable_compress_xof : forall cv block blen off flags,
  length cv = 8%nat -> length block = 64%nat -> off < W64 ->
  Portable.compress_xof cv block blen off flags
  = bytes_of_words (blake_compress cv block blen off flags).
Proof.
  intros cv block blen off flags Hcv Hb Hoff. unfold Portable.compress_xof.
  rewrite portable_inner by auto. rewrite blake_unfold. cbv zeta.
  pose proof (rounds7_length _ (words_of_bytes block) (init_state_length cv blen off flags Hcv)) as L.
  revert L. generalize (rounds7 (init_state cv blen off flags) (words_of_bytes block)). intros v L.
  destruct (list16 v L) as (v0 & v1 & v2 & v3 & v4 & v5 & v6 & v7 & v8 & v9 & v10 & v11 & v12 & v13 & v14 & v15 & ->).
  destruct (list8 cv Hcv) as (a0 & a1 & a2 & a3 & a4 & a5 & a6 & a7 & ->).
  reflexivity.
Qed.

(* ---- shape of the specified compression function ---- *)

Lemma lor_lt : forall n a b, a < 2 ^ n -> b < 2 ^ n -> N.lor a b < 2 ^ n.
Proof.
  intros n a b Ha Hb. destruct (N.eq_dec (N.lor a b) 0) as [E|E].
  { rewrite E. apply N.neq_0_lt_0, N.pow_nonzero. lia. }
  apply N.log2_lt_pow2; [lia|]. rewrite N.log2_lor.
  assert (X : forall x, x < 2 ^ n -> x = 0 \/ N.log2 x < n).
  { intros x Hx. destruct (N.eq_dec x 0); [now left|right]. apply N.log2_lt_pow2; [lia|exact Hx]. }
  destruct (X a Ha) as [->|Xa]; destruct (X b Hb) as [->|Xb]; cbn in E.
  - congruence.
  - rewrite N.max_0_l. exact Xb.
  - rewrite N.max_0_r. exact Xa.
  - apply N.max_lub_lt; auto.
Qed.
Lemma lxor_lt : forall n a b, a < 2 ^ n -> b < 2 ^ n -> N.lxor a b < 2 ^ n.
Proof.
  intros n a b Ha Hb. destruct (N.eq_dec (N.lxor a b) 0) as [E|E].
  { rewrite E. apply N.neq_0_lt_0, N.pow_nonzero. lia. }
  apply N.log2_lt_pow2; [lia|]. eapply N.le_lt_trans; [apply N.log2_lxor|].
  assert (X : forall x, x < 2 ^ n -> x = 0 \/ N.log2 x < n).
  { intros x Hx. destruct (N.eq_dec x 0); [now left|right]. apply N.log2_lt_pow2; [lia|exact Hx]. }
  destruct (X a Ha) as [->|Xa]; destruct (X b Hb) as [->|Xb]; cbn in E.
  - congruence.
  - rewrite N.max_0_l. exact Xb.
  - rewrite N.max_0_r. exact Xa.
  - apply N.max_lub_lt; auto.
Qed.

Lemma rotr32_word : forall x n, word (rotr32 x n).
Proof.
  intros x n. unfold rotr32, word.
  assert (H1 : N.shiftr (x mod W32) n < W32).
  { rewrite N.shiftr_div_pow2. apply N.le_lt_trans with (x mod W32).
    - assert (0 < 2 ^ n) by (apply N.neq_0_lt_0, N.pow_nonzero; lia).
      apply N.div_le_upper_bound; [lia|]. nia.
    - apply N.mod_upper_bound. unfold W32. lia. }
  assert (H2 : N.shiftl (x mod W32) (32 - n) mod W32 < W32).
  { apply N.mod_upper_bound. unfold W32. lia. }
  revert H1 H2. generalize (N.shiftr (x mod W32) n), (N.shiftl (x mod W32) (32 - n) mod W32).
  change W32 with (2 ^ 32). intros. now apply lor_lt.
Qed.

Lemma xor32_word : forall a b, word a -> word b -> word (xor32 a b).
Proof. unfold word, xor32. change W32 with (2 ^ 32). intros. now apply lxor_lt. Qed.

Lemma spec_round_words : forall v m, length v = 16%nat -> length m = 16%nat ->
  words (spec_round v m).
Proof.
  intros v m Hv Hm.
  destruct (list16 v Hv) as (v0 & v1 & v2 & v3 & v4 & v5 & v6 & v7 & v8 & v9 & v10 & v11 & v12 & v13 & v14 & v15 & ->).
  destruct (list16 m Hm) as (m0 & m1 & m2 & m3 & m4 & m5 & m6 & m7 & m8 & m9 & m10 & m11 & m12 & m13 & m14 & m15 & ->).
  unfold words. cbv beta iota zeta delta [spec_round G].
  repeat (constructor; [first [apply add32_word | apply rotr32_word]|]). constructor.
Qed.

Lemma rounds7_words : forall v m, length v = 16%nat -> words (rounds7 v m).
Proof.
  intros v m H. unfold rounds7, SIGMA. cbn [fold_left].
  apply spec_round_words; [|reflexivity].
  repeat (apply spec_round_length; [|reflexivity]). exact H.
Qed.

Lemma blake_shape : forall cv block blen off flags, length cv = 8%nat -> words cv ->
  length (blake_compress cv block blen off flags) = 16%nat /\
  words (blake_compress cv block blen off flags).
Proof.
  intros cv block blen off flags Hcv Wcv. rewrite blake_unfold. cbv zeta.
  pose proof (rounds7_length _ (words_of_bytes block) (init_state_length cv blen off flags Hcv)) as L.
  pose proof (rounds7_words _ (words_of_bytes block) (init_state_length cv blen off flags Hcv)) as W.
  revert L W. generalize (rounds7 (init_state cv blen off flags) (words_of_bytes block)). intros v L W.
  destruct (list16 v L) as (v0 & v1 & v2 & v3 & v4 & v5 & v6 & v7 & v8 & v9 & v10 & v11 & v12 & v13 & v14 & v15 & ->).
  destruct (list8 cv Hcv) as (a0 & a1 & a2 & a3 & a4 & a5 & a6 & a7 & ->).
  split; [reflexivity|]. unfold words in *. cbn.
  repeat match goal with H : Forall _ (_ :: _) |- _ => inversion H; clear H; subst end.
  repeat (constructor; [now apply xor32_word|]). constructor.
Qed.

Lemma blake_shape8 : forall cv block blen off flags, length cv = 8%nat -> words cv ->
  length (firstn 8 (blake_compress cv block blen off flags)) = 8%nat /\
  words (firstn 8 (blake_compress cv block blen off flags)).
Proof.
  intros cv block blen off flags Hcv Wcv.
  destruct (blake_shape cv block blen off flags Hcv Wcv) as [L W]. split.
  - rewrite firstn_length, L. reflexivity.
  - rewrite <- (firstn_skipn 8) in W. apply Forall_app in W. tauto.
Qed.
