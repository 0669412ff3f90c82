(* The portable 64-bit compression functions (Rust and C) equal the specified one. *)
From Coq Require Import NArith List Bool Lia ZArith.
From Coq Require Import ZifyBool ZifyNat ZifyN.
From Verif Require Import Base BaseFacts Spec64 CompressFacts SimdFacts.
From Verif Require Portable64 C64.
Import ListNotations.
Open Scope N_scope.

(* ---- words and bytes ---- *)

Lemma len_words64 : forall bs, len (words64_of_bytes bs) = len bs / 8.
Proof.
  fix IH 1. intros [|b0 [|b1 [|b2 [|b3 [|b4 [|b5 [|b6 [|b7 r]]]]]]]]; try reflexivity.
  cbn [words64_of_bytes]. rewrite !len_cons, IH. lia.
Qed.
Lemma words64_count : forall k b, len b = 8 * N.of_nat k -> length (words64_of_bytes b) = k.
Proof. intros k b H. pose proof (len_words64 b) as E. unfold len in *. lia. Qed.

Lemma words64_dwords : forall bs, bytes bs -> dwords (words64_of_bytes bs).
Proof.
  fix IH 1. intros [|b0 [|b1 [|b2 [|b3 [|b4 [|b5 [|b6 [|b7 r]]]]]]]] H; try constructor.
  - unfold bytes in H. repeat match goal with H : Forall _ (_ :: _) |- _ =>
      pose proof (Forall_inv H); apply Forall_inv_tail in H end.
    unfold byte, dword, word64, word32, W64 in *. lia.
  - apply IH. unfold bytes in *. now repeat apply Forall_inv_tail in H.
Qed.

Lemma words64_app : forall k a b, len a = 8 * N.of_nat k ->
  words64_of_bytes (a ++ b) = words64_of_bytes a ++ words64_of_bytes b.
Proof.
  induction k as [|k IH]; intros a b H.
  - destruct a; [reflexivity|]. rewrite len_cons in H. lia.
  - do 8 (destruct a as [|? a]; [rewrite ?len_cons, ?len_nil in H; lia|]).
    cbn [app words64_of_bytes]. f_equal. apply IH. rewrite !len_cons in H. lia.
Qed.

(* ---- rounds ---- *)

Definition order64 (r : nat) (m : list N) : list N := map (get m) (nth r SIGMA64 []).
Lemma order64_length : forall r m, (r < 8)%nat -> length (order64 r m) = 16%nat.
Proof.
  intros r m H. unfold order64. rewrite map_length.
  do 8 (destruct r as [|r]; [reflexivity|]). lia.
Qed.

Lemma round64_length : forall v m, length v = 16%nat -> length m = 16%nat ->
  length (round64 v m) = 16%nat.
Proof.
  intros v m Hv Hm.
  destruct (list16 v Hv) as (v0 & v1 & v2 & v3 & v4 & v5 & v6 & v7 & v8 & v9 & v10 & v11 & v12 & v13 & v14 & v15 & ->).
  destruct (list16 m Hm) as (m0 & m1 & m2 & m3 & m4 & m5 & m6 & m7 & m8 & m9 & m10 & m11 & m12 & m13 & m14 & m15 & ->).
  reflexivity.
Qed.

(* The state after the eight rounds. *)
Definition rounds8 (v m : list N) : list N :=
  fold_left (fun v row => round64 v (map (get m) row)) SIGMA64 v.
Lemma rounds8_length : forall v m, length v = 16%nat -> length (rounds8 v m) = 16%nat.
Proof.
  intros v m H. unfold rounds8, SIGMA64. cbn [fold_left].
  repeat (apply round64_length; [|reflexivity]). exact H.
Qed.

Lemma rounds8_by : forall (R : list N -> list N -> nat -> list N) v m,
  (forall r x, (r < 8)%nat -> length x = 16%nat -> R x m r = round64 x (order64 r m)) ->
  length v = 16%nat ->
  R (R (R (R (R (R (R (R v m 0%nat) m 1%nat) m 2%nat) m 3%nat) m 4%nat) m 5%nat) m 6%nat) m 7%nat
  = rounds8 v m.
Proof.
  intros R v m H Hv.
  assert (L : forall r x, (r < 8)%nat -> length x = 16%nat -> length (round64 x (order64 r m)) = 16%nat).
  { intros. apply round64_length; auto. now apply order64_length. }
  pose proof (L 0%nat _ ltac:(lia) Hv) as L0. pose proof (L 1%nat _ ltac:(lia) L0) as L1.
  pose proof (L 2%nat _ ltac:(lia) L1) as L2. pose proof (L 3%nat _ ltac:(lia) L2) as L3.
  pose proof (L 4%nat _ ltac:(lia) L3) as L4. pose proof (L 5%nat _ ltac:(lia) L4) as L5.
  pose proof (L 6%nat _ ltac:(lia) L5) as L6.
  rewrite (H 0%nat) by (auto; lia). rewrite (H 1%nat) by (auto; lia). rewrite (H 2%nat) by (auto; lia).
  rewrite (H 3%nat) by (auto; lia). rewrite (H 4%nat) by (auto; lia). rewrite (H 5%nat) by (auto; lia).
  rewrite (H 6%nat) by (auto; lia). rewrite (H 7%nat) by (auto; lia).
  reflexivity.
Qed.

Lemma compress64_unfold : forall cv block blen off flags,
  compress64 cv block blen off flags =
  let v := rounds8 (start64 cv blen off flags) (words64_of_bytes block) in
  map (fun p => N.lxor (fst p) (snd p)) (combine (firstn 4 v) (firstn 4 (skipn 4 v)))
  ++ map (fun p => N.lxor (fst p) (snd p)) (combine (firstn 4 (skipn 4 v)) cv)
  ++ skipn 8 v.
Proof. reflexivity. Qed.

Lemma start64_length : forall cv blen off flags, length cv = 4%nat ->
  length (start64 cv blen off flags) = 16%nat.
Proof. intros. unfold start64. rewrite app_length, H. reflexivity. Qed.

(* From the final state to the results. *)
Lemma final64 : forall cv block blen off flags v, length cv = 4%nat ->
  v = rounds8 (start64 cv blen off flags) (words64_of_bytes block) ->
  length v = 16%nat /\
  map (fun i => N.lxor (get v i) (get v (i + 4))) (seq 0 4)
  = firstn 4 (compress64 cv block blen off flags) /\
  map (fun i => N.lxor (get v i) (get v (i + 4))) (seq 0 4)
  ++ map (fun i => N.lxor (get v i) (get cv (i - 4))) (seq 4 4)
  ++ map (fun i => get v i) (seq 8 8)
  = compress64 cv block blen off flags.
Proof.
  intros cv block blen off flags v Hcv E. rewrite compress64_unfold. cbv zeta. rewrite <- E.
  assert (L : length v = 16%nat) by (rewrite E; now apply rounds8_length, start64_length).
  clear E. destruct (list4 _ cv Hcv) as (c0 & c1 & c2 & c3 & ->).
  destruct (list16 v L) as (v0 & v1 & v2 & v3 & v4 & v5 & v6 & v7 & v8 & v9 & v10 & v11 & v12 & v13 & v14 & v15 & ->). repeat split.
Qed.

(* ---- Rust ---- *)

Lemma portable64_round : forall r v m, (r < 8)%nat -> length v = 16%nat -> length m = 16%nat ->
  Portable64.round v m r = round64 v (order64 r m).
Proof.
  intros r v m Hr Hv Hm.
  destruct (list16 v Hv) as (v0 & v1 & v2 & v3 & v4 & v5 & v6 & v7 & v8 & v9 & v10 & v11 & v12 & v13 & v14 & v15 & ->).
  destruct (list16 m Hm) as (m0 & m1 & m2 & m3 & m4 & m5 & m6 & m7 & m8 & m9 & m10 & m11 & m12 & m13 & m14 & m15 & ->).
  do 8 (destruct r as [|r]; [reflexivity|]). lia.
Qed.

Lemma portable64_inner : forall cv block blen off flags,
  length cv = 4%nat -> length block = 128%nat ->
  Portable64.compress_inner cv block blen off flags
  = rounds8 (start64 cv blen off flags) (words64_of_bytes block).
Proof.
  intros cv block blen off flags Hcv Hb.
  assert (Hm : length (words64_of_bytes block) = 16%nat).
  { apply words64_count. unfold len. rewrite Hb. reflexivity. }
  destruct (list4 _ cv Hcv) as (c0 & c1 & c2 & c3 & ->).
  rewrite <- (rounds8_by Portable64.round);
    [reflexivity|intros; now apply portable64_round|reflexivity].
Qed.

Lemma portable64_compress : forall cv block blen off flags,
  length cv = 4%nat -> length block = 128%nat ->
  Portable64.compress cv block blen off flags = firstn 4 (compress64 cv block blen off flags).
Proof.
  intros cv block blen off flags Hcv Hb.
  destruct (final64 cv block blen off flags _ Hcv (portable64_inner cv block blen off flags Hcv Hb))
    as (_ & E & _). exact E.
Qed.

Lemma flat_map_map : forall A B C (f : B -> list C) (g : A -> B) l,
  flat_map (fun x => f (g x)) l = flat_map f (map g l).
Proof. induction l; [reflexivity|]. cbn. now rewrite IHl. Qed.

Lemma portable64_compress_xof : forall cv block blen off flags,
  length cv = 4%nat -> length block = 128%nat ->
  Portable64.compress_xof cv block blen off flags
  = bytes_of_words64 (compress64 cv block blen off flags).
Proof.
  intros cv block blen off flags Hcv Hb.
  destruct (final64 cv block blen off flags _ Hcv (portable64_inner cv block blen off flags Hcv Hb))
    as (_ & _ & E).
  rewrite <- E. unfold bytes_of_words64. rewrite !flat_map_app, <- !flat_map_map. reflexivity.
Qed.

(* ---- C ---- *)

Lemma load64_word64 : forall b0 b1 b2 b3 b4 b5 b6 b7 r,
  byte b0 -> byte b1 -> byte b2 -> byte b3 -> byte b4 -> byte b5 -> byte b6 -> byte b7 ->
  C64.load64 (b0 :: b1 :: b2 :: b3 :: b4 :: b5 :: b6 :: b7 :: r) = word64 b0 b1 b2 b3 b4 b5 b6 b7.
Proof.
  intros. unfold C64.load64, get. cbn [nth]. unfold byte in *. rewrite !N.shiftl_mul_pow2.
  change (2 ^ 0) with 1. change W64 with (2 ^ 64).
  assert (S : forall b k, b < 256 -> k <= 56 -> b * 2 ^ k mod 2 ^ 64 = b * 2 ^ k).
  { intros b k Hb Hk. apply N.mod_small. replace 64 with (8 + (56 - k) + k) by lia.
    rewrite !N.pow_add_r. change (2 ^ 8) with 256. assert (2 ^ (56 - k) <> 0) by (apply N.pow_nonzero; lia).
    assert (2 ^ k <> 0) by (apply N.pow_nonzero; lia). nia. }
  rewrite !S by (auto; lia). rewrite N.mul_1_r, N.mod_small by (change (2 ^ 64) with W64; unfold W64; lia).
  rewrite (lor_disjoint 8) by (change (2 ^ 8) with 256; lia).
  rewrite (lor_disjoint 16) by (change (2 ^ 8) with 256; change (2 ^ 16) with 65536; lia).
  rewrite (lor_disjoint 24) by (change (2 ^ 8) with 256; change (2 ^ 16) with 65536; change (2 ^ 24) with 16777216; lia).
  change (2 ^ 8) with 256. change (2 ^ 16) with 65536. change (2 ^ 24) with 16777216.
  rewrite (lor_disjoint 32) by (change (2 ^ 32) with 4294967296; lia).
  change (2 ^ 32) with 4294967296.
  rewrite (lor_disjoint 40) by (change (2 ^ 40) with 1099511627776; lia).
  change (2 ^ 40) with 1099511627776.
  rewrite (lor_disjoint 48) by (change (2 ^ 48) with 281474976710656; lia).
  change (2 ^ 48) with 281474976710656.
  rewrite (lor_disjoint 56) by (change (2 ^ 56) with 72057594037927936; lia).
  change (2 ^ 56) with 72057594037927936.
  unfold word64, word32. lia.
Qed.

Lemma load_words64 : forall k b, bytes b -> len b = 8 * N.of_nat k ->
  map (fun i => C64.load64 (skipn (8 * i) b)) (seq 0 k) = words64_of_bytes b.
Proof.
  induction k as [|k IH]; intros b B H.
  - destruct b; [reflexivity|]. rewrite len_cons in H. lia.
  - do 8 (destruct b as [|? b]; [rewrite ?len_cons, ?len_nil in H; lia|]).
    unfold bytes in B. repeat match goal with H : Forall _ (_ :: _) |- _ =>
      pose proof (Forall_inv H); apply Forall_inv_tail in H end.
    cbn [seq map words64_of_bytes]. f_equal.
    + change (8 * 0)%nat with 0%nat. cbn [skipn]. now apply load64_word64.
    + rewrite <- seq_shift, map_map. rewrite <- IH by (auto; rewrite !len_cons in H; lia).
      apply map_ext. intros i. f_equal. replace (8 * S i)%nat with (8 + 8 * i)%nat by lia. reflexivity.
Qed.

Lemma store64_bytes64 : forall w, C64.store64 w = bytes64 w.
Proof.
  intros w. unfold C64.store64, bytes64, bytes32. rewrite !N.shiftr_div_pow2. cbn [app].
  change (2 ^ 0) with 1. change (2 ^ 8) with 256. change (2 ^ 16) with 65536.
  change (2 ^ 24) with 16777216. change (2 ^ 32) with 4294967296.
  change (2 ^ 40) with (4294967296 * 256). change (2 ^ 48) with (4294967296 * 65536).
  change (2 ^ 56) with (4294967296 * 16777216). unfold W32.
  rewrite <- !N.div_div by discriminate. rewrite N.div_1_r.
  repeat (apply f_equal2; [lia|]). reflexivity.
Qed.

Lemma c64_write_state : forall s, length s = 4%nat -> C64.write_state_bytes s = bytes_of_words64 s.
Proof.
  intros s H. destruct (list4 _ s H) as (a & b & c & d & ->).
  unfold C64.write_state_bytes, bytes_of_words64. cbn [seq flat_map get nth].
  now rewrite !store64_bytes64.
Qed.

Lemma c64_g_rust : forall v a b c d x y, C64.g v a b c d x y = Portable64.g v a b c d x y.
Proof.
  intros. unfold C64.g, Portable64.g.
  assert (E : C64.rot = rotr64) by reflexivity. rewrite E. reflexivity.
Qed.
Definition round_with (g : list N -> nat -> nat -> nat -> nat -> N -> N -> list N)
  (sched : nat -> nat -> nat) (state msg : list N) (r : nat) : list N :=
  let x i := get msg (sched r i) in
  let state := g state 0%nat 4%nat 8%nat 12%nat (x 0%nat) (x 1%nat) in
  let state := g state 1%nat 5%nat 9%nat 13%nat (x 2%nat) (x 3%nat) in
  let state := g state 2%nat 6%nat 10%nat 14%nat (x 4%nat) (x 5%nat) in
  let state := g state 3%nat 7%nat 11%nat 15%nat (x 6%nat) (x 7%nat) in
  let state := g state 0%nat 5%nat 10%nat 15%nat (x 8%nat) (x 9%nat) in
  let state := g state 1%nat 6%nat 11%nat 12%nat (x 10%nat) (x 11%nat) in
  let state := g state 2%nat 7%nat 8%nat 13%nat (x 12%nat) (x 13%nat) in
  let state := g state 3%nat 4%nat 9%nat 14%nat (x 14%nat) (x 15%nat) in
  state.
Lemma round_with_ext : forall g1 g2 sched state msg r,
  (forall v a b c d x y, g1 v a b c d x y = g2 v a b c d x y) ->
  round_with g1 sched state msg r = round_with g2 sched state msg r.
Proof. intros g1 g2 sched state msg r H. unfold round_with. cbv zeta. now rewrite !H. Qed.
Lemma c64_round_rust : forall v m r, C64.round v m r = Portable64.round v m r.
Proof.
  intros.
  assert (A : C64.round = round_with C64.g C64.sched) by (unfold C64.round, round_with; reflexivity).
  assert (B : Portable64.round = round_with Portable64.g Portable64.sched) by (unfold Portable64.round, round_with; reflexivity).
  assert (E : C64.sched = Portable64.sched) by reflexivity.
  rewrite A, B, E. apply round_with_ext, c64_g_rust.
Qed.

Lemma c64_compress : forall cv block blen off flags,
  length cv = 4%nat -> length block = 128%nat -> bytes block ->
  C64.compress_portable cv block blen off flags = firstn 4 (compress64 cv block blen off flags).
Proof.
  intros cv block blen off flags Hcv Hb Bb.
  assert (Hm : length (words64_of_bytes block) = 16%nat).
  { apply words64_count. unfold len. rewrite Hb. reflexivity. }
  assert (E : forall m, m = words64_of_bytes block -> forall v, length v = 16%nat ->
    C64.round (C64.round (C64.round (C64.round (C64.round (C64.round (C64.round (C64.round v m 0) m 1) m 2) m 3) m 4) m 5) m 6) m 7
    = rounds8 v (words64_of_bytes block)).
  { intros m -> v Hv. apply (rounds8_by C64.round); [|exact Hv].
    intros r x Hr Hx. rewrite c64_round_rust. now apply portable64_round. }
  unfold C64.compress_portable, C64.load_msg_words.
  rewrite load_words64 by (auto; unfold len; rewrite Hb; reflexivity).
  cbv zeta. rewrite (E _ eq_refl) by reflexivity.
  destruct (final64 cv block blen off flags _ Hcv eq_refl) as (_ & <- & _).
  destruct (list4 _ cv Hcv) as (c0 & c1 & c2 & c3 & ->). reflexivity.
Qed.
