(* hash_many on every platform reads every byte of every input once and writes every byte of the
   output once, and accesses no array out of bounds. *)
From Coq Require Import NArith List Bool Lia ZArith.
From Coq Require Import ZifyBool ZifyNat ZifyN.
From Verif Require Import Base BaseFacts Portable Simd SimdGen SimdHash SecretFacts.
From Verif Require Import Steps StepsFacts VOps VSimdGen VSteps VStepsFacts VMemSpec.
From Verif Require Sse41 Avx2 Platform.
Import ListNotations.
Open Scope N_scope.

Lemma reads_app : forall k a b, pieces_read k (a ++ b) = pieces_read k a ++ pieces_read k b.
Proof. intros. apply flat_map_app. Qed.
Lemma writes_app : forall a b, pieces_written (a ++ b) = pieces_written a ++ pieces_written b.
Proof. intros. apply flat_map_app. Qed.
Lemma tiles_app : forall a b x y z, tiles x a y -> tiles y b z -> tiles x (a ++ b) z.
Proof.
  induction a as [|[o n] a IH]; intros b x y z; cbn [tiles app]; [now intros ->|].
  intros [-> H] H'. split; [reflexivity|]. eapply IH; eauto.
Qed.

(* ---- logs without accesses to the inputs or the output ---- *)

Definition quiet_step (s : vstep) : bool :=
  match s with
  | Load (PInput _) _ _ | Call (PInput _) _ | Store POut _ _ => false
  | _ => true
  end.
Definition quiet (l : list vstep) : Prop := forallb quiet_step l = true.
Lemma quiet_reads : forall k l, quiet l -> pieces_read k l = [].
Proof.
  intros k. induction l as [|s l IH]; intros H; [reflexivity|]. unfold quiet in H. cbn [forallb] in H.
  apply andb_true_iff in H. destruct H as [H H']. unfold pieces_read. cbn [flat_map].
  fold (pieces_read k l). rewrite IH by exact H'.
  destruct s as [s|[]| | | |[]| | |]; try discriminate H; reflexivity.
Qed.
Lemma quiet_writes : forall l, quiet l -> pieces_written l = [].
Proof.
  induction l as [|s l IH]; intros H; [reflexivity|]. unfold quiet in H. cbn [forallb] in H.
  apply andb_true_iff in H. destruct H as [H H']. unfold pieces_written. cbn [flat_map].
  fold (pieces_written l). rewrite IH by exact H'.
  destruct s as [s| |[]| | | | | |]; try discriminate H; reflexivity.
Qed.
Lemma quiet_scalar : forall l, quiet (map Scalar l).
Proof. induction l; [reflexivity|exact IHl]. Qed.

(* ---- partial correctness of logs ---- *)

(* if m returns x then Q x holds of the log *)
Definition logs {A : Type} (m : vs A) (Q : list vstep -> A -> Prop) : Prop :=
  forall x, snd m = Ok x -> Q (fst m) x.
Lemma logs_bind : forall A B (m : vs A) (f : A -> vs B) Q,
  logs m (fun l x => logs (f x) (fun l' y => Q (l ++ l') y)) -> logs (vbind m f) Q.
Proof.
  intros A B [l r] f Q H y. unfold vbind. destruct r as [x| |]; try discriminate.
  specialize (H x eq_refl). unfold logs in H. cbn [fst snd] in H.
  destruct (f x) as [l' r']. cbn [fst snd] in *. intros ->. now apply H.
Qed.
Lemma logs_impl : forall A (m : vs A) (Q Q' : list vstep -> A -> Prop),
  logs m Q -> (forall l x, Q l x -> Q' l x) -> logs m Q'.
Proof. intros * H K x E. now apply K, H. Qed.
Lemma logs_pure : forall A l (r : res A) (Q : list vstep -> A -> Prop),
  (forall x, r = Ok x -> Q l x) -> logs (l, r) Q.
Proof. intros * H x E. now apply H. Qed.
Lemma logs_lift : forall A (r : res A) (Q : list vstep -> A -> Prop),
  (forall x, r = Ok x -> Q [] x) -> logs (vlift r) Q.
Proof. intros * H x E. now apply H. Qed.

(* ---- what a piece of hash_many does: m inputs from number k0 on ---- *)

Section Cap.
Variable cap : N.

(* the bytes [from, to) of each of the inputs number k0 to k0 + m - 1, and no others *)
Definition reads_part (k0 m : nat) (from to : N) (l : list vstep) : Prop :=
  (forall k, (k0 <= k < k0 + m)%nat -> tiles from (pieces_read k l) to) /\
  (forall k, (k < k0 \/ k0 + m <= k)%nat -> pieces_read k l = []).
Definition whole (k0 m : nat) (l : list vstep) : Prop :=
  reads_part k0 m 0 cap l /\
  tiles (32 * N.of_nat k0) (pieces_written l) (32 * N.of_nat (k0 + m)).

Lemma reads_part_app : forall k0 m x y z a b,
  reads_part k0 m x y a -> reads_part k0 m y z b -> reads_part k0 m x z (a ++ b).
Proof.
  intros * [A1 A2] [B1 B2]. split; intros k Hk; rewrite reads_app.
  - eapply tiles_app; [now apply A1|now apply B1].
  - now rewrite A2, B2.
Qed.
Lemma reads_part_quiet : forall k0 m x l, quiet l -> reads_part k0 m x x l.
Proof. intros * H. split; intros; rewrite quiet_reads by exact H; reflexivity. Qed.
Lemma whole_app : forall k m m' a b, whole k m a -> whole (k + m) m' b -> whole k (m + m') (a ++ b).
Proof.
  intros k m m' a b [[A1 A2] A3] [[B1 B2] B3]. split; [split|].
  - intros j Hj. rewrite reads_app. destruct (Nat.lt_ge_cases j (k + m)) as [H|H].
    + rewrite B2 by lia. rewrite app_nil_r. apply A1. lia.
    + rewrite A2 by lia. apply B1. lia.
  - intros j Hj. rewrite reads_app, A2, B2 by lia. reflexivity.
  - rewrite writes_app. eapply tiles_app; [exact A3|]. now rewrite Nat.add_assoc.
Qed.
Lemma whole_nil : forall k, whole k 0 [].
Proof.
  intros k. split; [split|]; intros; [lia|reflexivity|]. rewrite Nat.add_0_r. reflexivity.
Qed.
Lemma whole_quiet_l : forall k m a b, quiet a -> whole k m b -> whole k m (a ++ b).
Proof.
  intros k m a b H [[B1 B2] B3]. split; [split|]; intros; rewrite ?reads_app, ?writes_app, ?quiet_reads, ?quiet_writes by exact H;
    cbn [app]; auto.
Qed.
Lemma whole_quiet_r : forall k m a, whole k m a -> whole k m (a ++ []).
Proof. intros. now rewrite app_nil_r. Qed.

(* ---- hash1 ---- *)

Definition quiet_comp (vc : list N -> list N -> N -> N -> N -> vs (list N)) : Prop :=
  forall cv b n o f, quiet (fst (vc cv b n o f)).
Lemma sse41_quiet : quiet_comp sse41_v_compress.
Proof.
  intros cv b n o f. destruct (same_sse41_compress cv b n o f [] [] 0 0 0) as [-> _].
  vm_compute. reflexivity.
Qed.
Lemma portable_quiet : quiet_comp portable_v_compress.
Proof. intros cv b n o f. apply quiet_scalar. Qed.

Lemma hash1_loop_reads : forall vc, quiet_comp vc ->
  forall fuel k p cv x off bf fl fe, len x mod 64 = 0 ->
  logs (v_hash1_loop vc k p fuel cv x off bf fl fe)
       (fun l _ => reads_part k 1 p (p + len x) l /\ pieces_written l = []).
Proof.
  intros vc Q. induction fuel as [|fuel IH]; intros * M; cbn [v_hash1_loop];
    destruct (N.leb_spec BLOCK_LEN (len x)) as [L|L]; change BLOCK_LEN with 64 in *.
  - apply logs_lift. discriminate.
  - apply logs_lift. intros _ _. replace (p + len x) with p by lia.
    split; [apply reads_part_quiet; reflexivity|reflexivity].
  - cbv zeta. apply logs_bind. apply logs_pure. intros _ _. apply logs_bind.
    intros cv' E. specialize (Q cv (take 64 x) 64 off (if len x =? 64 then N.lor bf fe else bf)).
    eapply logs_impl.
    { apply IH. rewrite len_drop. lia. }
    intros l' _ [R W]. split.
    + apply (reads_part_app _ _ _ (p + 64)).
      * split; intros j Hj.
        { replace j with k by lia. cbn. rewrite Nat.eqb_refl. cbn. lia. }
        { cbn. destruct (Nat.eqb_spec k j); [lia|reflexivity]. }
      * apply (reads_part_app _ _ _ (p + 64)); [now apply reads_part_quiet|].
        rewrite len_drop in R. replace (p + len x) with (p + 64 + (len x - 64)) by lia. exact R.
    + rewrite !writes_app. rewrite (quiet_writes _ Q), W. reflexivity.
  - apply logs_lift. intros _ _. replace (p + len x) with p by lia.
    split; [apply reads_part_quiet; reflexivity|reflexivity].
Qed.
Lemma hash1_reads : forall c vc, quiet_comp vc -> forall k x key off fl fs fe,
  cap mod 64 = 0 -> len x = cap ->
  logs (v_hash1 c vc k x key off fl fs fe) (fun l _ => whole k 1 l).
Proof.
  intros * Q * M L. unfold v_hash1. apply logs_bind, logs_lift. intros _ _.
  apply logs_bind, logs_pure. intros _ _. apply logs_bind.
  eapply logs_impl; [apply hash1_loop_reads; [exact Q|now rewrite L]|].
  intros l cv [R W]. apply logs_pure. intros y _. rewrite L in R. cbn [app].
  apply (whole_quiet_l k 1 [Load PKey 0 32]); [reflexivity|]. split.
  - eapply reads_part_app; [exact R|]. split; intros; reflexivity.
  - rewrite writes_app, W. unfold pieces_written. cbn [flat_map write_of app tiles]. split; [reflexivity|lia].
Qed.

(* ---- hash4 and hash8 ---- *)

(* a row of loads: one piece of each input *)
Lemma load_row_reads : forall n inputs k0 off,
  logs (v_load_row k0 n inputs off)
       (fun l _ => reads_part k0 (length inputs) off (off + n) l /\ pieces_written l = []).
Proof.
  intros n. induction inputs as [|x inputs IH]; intros k0 off; cbn [v_load_row length].
  - apply logs_lift. intros _ _. split; [|reflexivity]. split; intros; [lia|reflexivity].
  - apply logs_bind, logs_pure. intros v _. apply logs_bind.
    eapply logs_impl; [apply IH|]. intros l vs [[R1 R2] W]. apply logs_lift. intros _ _.
    rewrite app_nil_r. split.
    + split; intros k Hk; rewrite reads_app; cbn [pieces_read flat_map read_of app].
      * destruct (Nat.eqb_spec k0 k) as [->|Hn].
        { rewrite R2 by lia. cbn [tiles app]. split; [reflexivity|reflexivity]. }
        { apply R1. lia. }
      * destruct (Nat.eqb_spec k0 k); [lia|]. rewrite R2 by lia. reflexivity.
    + rewrite writes_app. exact W.
Qed.
Lemma load_grid_reads : forall n k0 inputs bo cols from to,
  tiles from (map (fun col => (col, n)) cols) to ->
  logs (v_load_grid k0 n inputs bo cols)
       (fun l _ => reads_part k0 (length inputs) (bo + from) (bo + to) l /\ pieces_written l = []).
Proof.
  intros n k0 inputs bo. induction cols as [|col cols IH]; intros from to T; cbn [v_load_grid].
  - cbn in T. subst to. apply logs_lift. intros _ _. split; [apply reads_part_quiet|]; reflexivity.
  - cbn [map tiles] in T. destruct T as [-> T]. apply logs_bind.
    eapply logs_impl; [apply load_row_reads|]. intros l v [R W]. apply logs_bind.
    eapply logs_impl; [apply (IH _ _ T)|]. intros l' v' [R' W']. apply logs_lift. intros _ _.
    rewrite app_nil_r. split; [|now rewrite writes_app, W, W'].
    eapply reads_part_app; [exact R|]. now rewrite <- N.add_assoc.
Qed.
Definition quiet_run {A : Type} (m : vs A) : Prop := quiet (fst m).
Lemma quiet_app : forall a b, quiet a -> quiet b -> quiet (a ++ b).
Proof. unfold quiet. intros. rewrite forallb_app. now rewrite H, H0. Qed.
Lemma quiet_same : forall A A' (R : A -> A' -> Prop) m m', vrel R m m' -> quiet (fst m') -> quiet (fst m).
Proof. intros * [E _] H. now rewrite E. Qed.

(* quiet steps after the loads of a block *)
Lemma reads_then_quiet : forall A B (m : vs A) (f : A -> vs B) k0 j x y,
  logs m (fun l _ => reads_part k0 j x y l /\ pieces_written l = []) ->
  (forall v, quiet (fst (f v))) ->
  logs (vbind m f) (fun l _ => reads_part k0 j x y l /\ pieces_written l = []).
Proof.
  intros * H Q. apply logs_bind. eapply logs_impl; [exact H|]. intros l v [R W] y' _. specialize (Q v).
  split; [|rewrite writes_app, W; now apply quiet_writes].
  eapply reads_part_app; [exact R|]. now apply reads_part_quiet.
Qed.
Lemma msgs4_reads : forall k0 inputs bo,
  logs (sse41_v_transpose_msg_vecs k0 inputs bo)
       (fun l _ => reads_part k0 (length inputs) bo (bo + 64) l /\ pieces_written l = []).
Proof.
  intros. unfold sse41_v_transpose_msg_vecs. apply reads_then_quiet; [|reflexivity].
  pose proof (load_grid_reads 16 k0 inputs bo [0; 16; 32; 48] 0 64) as H. rewrite N.add_0_r in H.
  apply H. cbn. auto 10.
Qed.
Lemma msgs8_reads : forall k0 inputs bo,
  logs (avx2_v_transpose_msg_vecs k0 inputs bo)
       (fun l _ => reads_part k0 (length inputs) bo (bo + 64) l /\ pieces_written l = []).
Proof.
  intros. unfold avx2_v_transpose_msg_vecs. apply reads_then_quiet; [|reflexivity].
  pose proof (load_grid_reads 32 k0 inputs bo [0; 32] 0 64) as H. rewrite N.add_0_r in H.
  apply H. cbn. auto 10.
Qed.
Lemma loop_reads : forall S code n lm k0 m,
  (forall bo, logs (lm bo) (fun l _ => reads_part k0 m bo (bo + 64) l /\ pieces_written l = [])) ->
  (forall h msg lo hi bl bf, quiet (fst (v_vec_compress S code n h msg lo hi bl bf))) ->
  forall todo block blocks h lo hi bf fl fe,
  logs (v_vec_hash_loop S code n lm todo block blocks h lo hi bf fl fe)
       (fun l _ => reads_part k0 m (block * 64) ((block + N.of_nat todo) * 64) l /\ pieces_written l = []).
Proof.
  intros S code n lm k0 m Hl Hq. induction todo as [|todo IH]; intros; cbn [v_vec_hash_loop].
  - apply logs_lift. intros _ _. replace (block + N.of_nat 0) with block by lia.
    split; [apply reads_part_quiet|]; reflexivity.
  - cbv zeta. apply logs_bind, logs_pure. intros v1 _. apply logs_bind, logs_pure. intros v2 _.
    apply logs_bind. eapply logs_impl; [apply Hl|]. change BLOCK_LEN with 64. intros l msg [R W].
    apply logs_bind. intros h' _. specialize (Hq h msg lo hi v1 v2).
    eapply logs_impl; [apply IH|]. intros l' y [R' W']. cbn [app]. split.
    + apply (reads_part_app _ _ _ (block * 64) _ [Lanes n]); [now apply reads_part_quiet|].
      apply (reads_part_app _ _ _ (block * 64) _ [Lanes n]); [now apply reads_part_quiet|].
      eapply reads_part_app; [exact R|]. replace (block * 64 + 64) with ((block + 1) * 64) by lia.
      eapply reads_part_app; [now apply reads_part_quiet|].
      replace (block + N.of_nat (Datatypes.S todo)) with (block + 1 + N.of_nat todo) by lia. exact R'.
    + change (pieces_written ([Lanes n] ++ [Lanes n] ++ l ++ fst (v_vec_compress S code n h msg lo hi v1 v2) ++ l') = []).
      rewrite !writes_app, W, W', (quiet_writes _ Hq). reflexivity.
Qed.
Lemma vec4_quiet : forall h m lo hi bl bf,
  quiet (fst (v_vec_compress sse41_vops sse41_round_code 4 h m lo hi bl bf)).
Proof.
  intros. eapply quiet_same; [apply (same_vec _ sse41_same _ _ _ _ _ _ _ _ [] [] [] [] [] [])|].
  vm_compute. reflexivity.
Qed.
Lemma vec8_quiet : forall h m lo hi bl bf,
  quiet (fst (v_vec_compress avx2_vops avx2_round_code 8 h m lo hi bl bf)).
Proof.
  intros. eapply quiet_same; [apply (same_vec _ avx2_same _ _ _ _ _ _ _ _ [] [] [] [] [] [])|].
  vm_compute. reflexivity.
Qed.
Lemma offsets_quiet : forall c n off d, logs (v_load_offsets c n off d) (fun l _ => quiet l).
Proof.
  intros. unfold v_load_offsets. apply logs_bind, logs_lift. intros o _.
  apply logs_pure. intros x _. reflexivity.
Qed.

Hypothesis Hcap : cap mod 64 = 0.

Lemma hash4_whole : forall c k inputs key off d fl fs fe, length inputs = 4%nat ->
  logs (sse41_v_hash4 c k inputs (cap / 64) key off d fl fs fe) (fun l _ => whole k 4 l).
Proof.
  intros * L. unfold sse41_v_hash4. apply logs_bind. intros h _.
  assert (Q : quiet (fst (v_map (fun i => let? x := word PKey key i in lanes1 4 x) (seq 0 8)))) by reflexivity.
  revert Q. generalize (fst (v_map (fun i => let? x := word PKey key i in lanes1 4 x) (seq 0 8))). intros l0 Q0.
  apply logs_bind. eapply logs_impl; [apply offsets_quiet|]. intros l1 [lo hi] Q1.
  apply logs_bind. eapply logs_impl.
  { apply loop_reads; [intros; apply msgs4_reads|apply vec4_quiet]. }
  intros l2 h' [R W]. rewrite L in *.
  apply logs_bind, logs_pure. intros s0 _. apply logs_bind, logs_pure. intros s1 _. cbv zeta.
  intros y _. apply whole_quiet_l; [exact Q0|]. apply whole_quiet_l; [exact Q1|].
  split.
  - replace cap with ((0 + N.of_nat (N.to_nat (cap / 64))) * 64) at 1 by lia.
    change 0 with (0 * 64) at 1. eapply reads_part_app; [exact R|].
    split; intros; reflexivity.
  - rewrite !writes_app, W. cbn -[N.mul N.add N.of_nat Nat.add]. repeat split; try lia.
Qed.
Lemma hash8_whole : forall c k inputs key off d fl fs fe, length inputs = 8%nat ->
  logs (avx2_v_hash8 c k inputs (cap / 64) key off d fl fs fe) (fun l _ => whole k 8 l).
Proof.
  intros * L. unfold avx2_v_hash8. apply logs_bind. intros h _.
  assert (Q : quiet (fst (v_map (fun i => let? x := word PKey key i in lanes1 8 x) (seq 0 8)))) by reflexivity.
  revert Q. generalize (fst (v_map (fun i => let? x := word PKey key i in lanes1 8 x) (seq 0 8))). intros l0 Q0.
  apply logs_bind. eapply logs_impl; [apply offsets_quiet|]. intros l1 [lo hi] Q1.
  apply logs_bind. eapply logs_impl.
  { apply loop_reads; [intros; apply msgs8_reads|apply vec8_quiet]. }
  intros l2 h' [R W]. rewrite L in *.
  apply logs_bind, logs_pure. intros s0 _. cbv zeta.
  intros y _. apply whole_quiet_l; [exact Q0|]. apply whole_quiet_l; [exact Q1|].
  split.
  - replace cap with ((0 + N.of_nat (N.to_nat (cap / 64))) * 64) at 1 by lia.
    change 0 with (0 * 64) at 1. eapply reads_part_app; [exact R|].
    split; intros; reflexivity.
  - rewrite !writes_app, W. cbn -[N.mul N.add N.of_nat Nat.add]. repeat split; try lia.
Qed.

Lemma hash_each_whole : forall c h,
  (forall k x o, len x = cap -> logs (h k x o) (fun l _ => whole k 1 l)) ->
  forall inputs k off d out, Forall (fun x => len x = cap) inputs -> len inputs * 32 <= len out ->
  logs (v_hash_each c h k inputs off d out) (fun l _ => whole k (length inputs) l).
Proof.
  intros c h H. induction inputs as [|x inputs IH]; intros * F L; cbn [v_hash_each length].
  - apply logs_lift. intros _ _. apply whole_nil.
  - inversion F as [|? ? Fx Fr]; subst. rewrite len_cons in L. change OUT_LEN with 32.
    destruct (N.leb_spec 32 (len out)); [|lia].
    apply logs_bind. eapply logs_impl; [now apply H|]. intros l1 y W1.
    apply logs_bind, logs_lift. intros o _. apply logs_bind.
    eapply logs_impl; [apply IH; [exact Fr|rewrite len_drop; lia]|]. intros l2 z W2.
    apply logs_lift. intros _ _. cbn [app]. rewrite app_nil_r.
    apply (whole_app k 1 (length inputs)); [exact W1|]. now rewrite Nat.add_1_r.
Qed.
Lemma batch_whole : forall c degree h r,
  (forall k xs o, length xs = degree -> Forall (fun x => len x = cap) xs ->
     logs (h k xs o) (fun l _ => whole k degree l)) ->
  (forall k xs o out, Forall (fun x => len x = cap) xs -> len xs * 32 <= len out ->
     logs (r k xs o out) (fun l _ => whole k (length xs) l)) ->
  forall fuel k xs off d out, Forall (fun x => len x = cap) xs -> len xs * 32 <= len out ->
  logs (v_batch_loop c fuel (N.of_nat degree) h r k xs off d out) (fun l _ => whole k (length xs) l).
Proof.
  intros c degree h r H Hr. induction fuel as [|fuel IH]; intros * F L; cbn [v_batch_loop];
    destruct (_ && _) eqn:E; try (now apply Hr).
  - apply logs_lift. discriminate.
  - apply andb_true_iff in E. destruct E as [E _]. apply N.leb_le in E.
    assert (T : length (take (N.of_nat degree) xs) = degree).
    { pose proof (len_take _ (N.of_nat degree) xs) as Q. unfold len in *. lia. }
    assert (D : length (drop (N.of_nat degree) xs) = (length xs - degree)%nat).
    { pose proof (len_drop _ (N.of_nat degree) xs) as Q. unfold len in *. lia. }
    assert (F' : Forall (fun x => len x = cap) (take (N.of_nat degree) xs)).
    { apply Forall_forall. intros x Hx. rewrite Forall_forall in F. apply F.
      unfold take in Hx. rewrite <- (firstn_skipn (N.to_nat (N.of_nat degree)) xs). apply in_or_app. left. exact Hx. }
    assert (F'' : Forall (fun x => len x = cap) (drop (N.of_nat degree) xs)).
    { apply Forall_forall. intros x Hx. rewrite Forall_forall in F. apply F.
      unfold drop in Hx. rewrite <- (firstn_skipn (N.to_nat (N.of_nat degree)) xs). apply in_or_app. right. exact Hx. }
    apply logs_bind. eapply logs_impl; [now apply H|]. intros l1 y W1.
    apply logs_bind, logs_lift. intros o1 _. apply logs_bind, logs_lift. intros o2 _. apply logs_bind.
    eapply logs_impl; [apply IH; [exact F''|]|].
    { change OUT_LEN with 32. rewrite !len_drop. lia. }
    intros l2 z W2. apply logs_lift. intros _ _. cbn [app]. rewrite app_nil_r.
    replace (length xs) with (degree + (length xs - degree))%nat by (unfold len in E; lia).
    apply whole_app; [exact W1|]. rewrite D in W2. rewrite Nnat.Nat2N.id in W2. exact W2.
Qed.
Lemma many4_whole : forall c k xs key off d fl fs fe out,
  Forall (fun x => len x = cap) xs -> len xs * 32 <= len out ->
  logs (sse41_v_hash_many c cap k xs key off d fl fs fe out) (fun l _ => whole k (length xs) l).
Proof.
  intros * F L. unfold sse41_v_hash_many. apply logs_bind, logs_lift. intros _ _. cbn [app].
  apply (batch_whole c 4); auto.
  - intros. apply hash4_whole; auto.
  - intros. apply hash_each_whole; auto. intros. apply hash1_reads; auto. exact sse41_quiet.
Qed.
Lemma many_whole : forall c p xs key off d fl fs fe out,
  Forall (fun x => len x = cap) xs -> len xs * 32 <= len out ->
  logs (p_hash_many c p cap xs key off d fl fs fe out) (fun l _ => whole 0 (length xs) l).
Proof.
  intros c [] * F L; cbn [p_hash_many].
  - unfold portable_v_hash_many. apply logs_bind, logs_lift. intros _ _. cbn [app].
    apply hash_each_whole; auto. intros. apply hash1_reads; auto. exact portable_quiet.
  - now apply many4_whole.
  - unfold avx2_v_hash_many. apply logs_bind, logs_lift. intros _ _. cbn [app].
    apply (batch_whole c 8); auto.
    + intros. apply hash8_whole; auto.
    + intros. now apply many4_whole.
Qed.
End Cap.

Lemma many_memory : forall c p cap inputs key offset offset_delta flags flags_start flags_end out result,
  cap mod 64 = 0 -> Forall (fun input => len input = cap) inputs -> len inputs * 32 <= len out ->
  let run := p_hash_many c p cap inputs key offset offset_delta flags flags_start flags_end out in
  snd run = Ok result ->
  (forall k, (k < length inputs)%nat -> tiles 0 (pieces_read k (fst run)) cap) /\
  (forall k, (length inputs <= k)%nat -> pieces_read k (fst run) = []) /\
  tiles 0 (pieces_written (fst run)) (32 * len inputs).
Proof.
  intros * Hc F L run E.
  destruct (many_whole cap Hc c p inputs key offset offset_delta flags flags_start flags_end out F L result E)
    as [[R1 R2] W].
  split; [|split].
  - intros. apply R1. lia.
  - intros. apply R2. lia.
  - exact W.
Qed.

(* ---- bounds ---- *)

Section Bounds.
Variable n : nat.
Variables cap out_len : N.
Definition safe {A : Type} (m : vs A) : Prop := forallb (inside n cap out_len) (fst m) = true.

Lemma safe_bind : forall A B (m : vs A) (f : A -> vs B),
  safe m -> (forall x, safe (f x)) -> safe (vbind m f).
Proof.
  intros A B [l r] f H K. unfold safe, vbind in *. destruct r as [x| |]; try exact H.
  specialize (K x). destruct (f x) as [l' r']. cbn [fst] in *. now rewrite forallb_app, H, K.
Qed.
Lemma safe_lift : forall A (r : res A), safe (vlift r).
Proof. reflexivity. Qed.
Lemma safe_same : forall A A' (R : A -> A' -> Prop) m m', vrel R m m' -> safe m' -> safe m.
Proof. unfold safe. intros * [E _] H. now rewrite E. Qed.

Definition safe_comp (vc : list N -> list N -> N -> N -> N -> vs (list N)) : Prop :=
  forall cv b m o f, safe (vc cv b m o f).
Lemma sse41_safe : safe_comp sse41_v_compress.
Proof.
  intros cv b m o f. eapply safe_same; [apply (same_sse41_compress _ _ _ _ _ [] [] 0 0 0)|].
  vm_compute. reflexivity.
Qed.
Lemma sse41_xof_safe : safe_comp sse41_v_compress_xof.
Proof.
  intros cv b m o f. eapply safe_same; [apply (same_sse41_xof _ _ _ _ _ [] [] 0 0 0)|].
  vm_compute. reflexivity.
Qed.
Lemma portable_safe : safe_comp portable_v_compress.
Proof.
  intros cv b m o f. eapply safe_same; [apply (same_portable _ _ _ _ _ [] [] 0 0 0)|].
  vm_compute. reflexivity.
Qed.
Lemma portable_xof_safe : safe_comp portable_v_compress_xof.
Proof.
  intros cv b m o f. eapply safe_same; [apply (same_compress_xof Platform.PPortable _ _ _ _ _ [] [] 0 0 0)|].
  vm_compute. reflexivity.
Qed.
Lemma compress_safe : forall p, safe_comp (p_compress p).
Proof. intros [] cv b m o f; [apply portable_safe|apply sse41_safe|apply sse41_safe]. Qed.
Lemma compress_xof_safe : forall p, safe_comp (p_compress_xof p).
Proof. intros [] cv b m o f; [apply portable_xof_safe|apply sse41_xof_safe|apply sse41_xof_safe]. Qed.

Lemma hash1_loop_safe : forall vc, safe_comp vc -> forall fuel k p cv x off bf fl fe,
  (k < n)%nat -> p + len x <= cap -> safe (v_hash1_loop vc k p fuel cv x off bf fl fe).
Proof.
  intros vc H. induction fuel as [|fuel IH]; intros * Hk L; cbn [v_hash1_loop];
    destruct (N.leb_spec BLOCK_LEN (len x)); try reflexivity. change BLOCK_LEN with 64 in *.
  cbv zeta. apply safe_bind.
  - unfold safe. cbn [fst forallb inside]. lia.
  - intros _. apply safe_bind; [apply H|]. intros cv'. apply IH; [exact Hk|]. rewrite len_drop. lia.
Qed.
Lemma hash1_safe : forall c vc, safe_comp vc -> forall k x key off fl fs fe,
  (k < n)%nat -> len x <= cap -> 32 * (N.of_nat k + 1) <= out_len ->
  safe (v_hash1 c vc k x key off fl fs fe).
Proof.
  intros c vc H * Hk L Ho. unfold v_hash1. apply safe_bind; [apply safe_lift|]. intros _.
  apply safe_bind; [reflexivity|]. intros _. apply safe_bind; [apply hash1_loop_safe; auto; lia|].
  intros cv. unfold safe. cbn [fst forallb inside]. lia.
Qed.
Lemma load_row_safe : forall b inputs k off, (k + length inputs <= n)%nat -> off + b <= cap ->
  safe (v_load_row k b inputs off).
Proof.
  intros b. induction inputs as [|x inputs IH]; intros * Hk L; cbn [v_load_row]; [reflexivity|].
  cbn [length] in Hk. apply safe_bind.
  - unfold safe. cbn [load fst forallb inside]. lia.
  - intros v. apply safe_bind; [apply IH; lia|]. reflexivity.
Qed.
Lemma load_grid_safe : forall b k inputs bo cols, (k + length inputs <= n)%nat ->
  Forall (fun col => bo + col + b <= cap) cols -> safe (v_load_grid k b inputs bo cols).
Proof.
  intros b k inputs bo cols Hk F. induction F as [|col cols L F IH]; cbn [v_load_grid]; [reflexivity|].
  apply safe_bind; [now apply load_row_safe|]. intros v. apply safe_bind; [exact IH|]. reflexivity.
Qed.
Lemma msgs4_safe : forall k inputs bo, (k + length inputs <= n)%nat -> bo + 64 <= cap ->
  safe (sse41_v_transpose_msg_vecs k inputs bo).
Proof.
  intros. unfold sse41_v_transpose_msg_vecs. apply safe_bind; [apply load_grid_safe; auto|reflexivity].
  repeat constructor; lia.
Qed.
Lemma msgs8_safe : forall k inputs bo, (k + length inputs <= n)%nat -> bo + 64 <= cap ->
  safe (avx2_v_transpose_msg_vecs k inputs bo).
Proof.
  intros. unfold avx2_v_transpose_msg_vecs. apply safe_bind; [apply load_grid_safe; auto|reflexivity].
  repeat constructor; lia.
Qed.
Lemma loop_safe : forall S code m lm,
  (forall bo, bo + 64 <= cap -> safe (lm bo)) ->
  (forall h msg lo hi bl bf, safe (v_vec_compress S code m h msg lo hi bl bf)) ->
  forall todo block blocks h lo hi bf fl fe, (block + N.of_nat todo) * 64 <= cap ->
  safe (v_vec_hash_loop S code m lm todo block blocks h lo hi bf fl fe).
Proof.
  intros S code m lm Hl Hq. induction todo as [|todo IH]; intros * L; cbn [v_vec_hash_loop]; [reflexivity|].
  cbv zeta. apply safe_bind; [reflexivity|]. intros v1. apply safe_bind; [reflexivity|]. intros v2.
  change BLOCK_LEN with 64. apply safe_bind; [apply Hl; lia|]. intros msg.
  apply safe_bind; [apply Hq|]. intros h'. apply IH. lia.
Qed.
Lemma vec4_safe : forall h m lo hi bl bf,
  safe (v_vec_compress sse41_vops sse41_round_code 4 h m lo hi bl bf).
Proof.
  intros. eapply safe_same; [apply (same_vec _ sse41_same _ _ _ _ _ _ _ _ [] [] [] [] [] [])|].
  vm_compute. reflexivity.
Qed.
Lemma vec8_safe : forall h m lo hi bl bf,
  safe (v_vec_compress avx2_vops avx2_round_code 8 h m lo hi bl bf).
Proof.
  intros. eapply safe_same; [apply (same_vec _ avx2_same _ _ _ _ _ _ _ _ [] [] [] [] [] [])|].
  vm_compute. reflexivity.
Qed.
Lemma offsets_safe : forall c m off d, safe (v_load_offsets c m off d).
Proof. intros. unfold v_load_offsets. apply safe_bind; [apply safe_lift|]. reflexivity. Qed.
Lemma store_safe : forall off b v, off + b <= out_len -> safe (store off b v).
Proof. intros. unfold safe. cbn [store fst forallb inside]. lia. Qed.

Lemma hash4_safe : forall c k inputs key off d fl fs fe, length inputs = 4%nat ->
  (k + 4 <= n)%nat -> 32 * (N.of_nat k + 4) <= out_len ->
  safe (sse41_v_hash4 c k inputs (cap / 64) key off d fl fs fe).
Proof.
  intros * L Hk Ho. unfold sse41_v_hash4. apply safe_bind; [reflexivity|]. intros h.
  apply safe_bind; [apply offsets_safe|]. intros [lo hi]. apply safe_bind.
  { apply loop_safe; [|apply vec4_safe|lia]. intros. apply msgs4_safe; [rewrite L|]; lia. }
  intros h'. apply safe_bind; [reflexivity|]. intros s0. apply safe_bind; [reflexivity|]. intros s1. cbv zeta.
  do 8 (apply safe_bind; [apply store_safe; lia|intros ?]). reflexivity.
Qed.
Lemma hash8_safe : forall c k inputs key off d fl fs fe, length inputs = 8%nat ->
  (k + 8 <= n)%nat -> 32 * (N.of_nat k + 8) <= out_len ->
  safe (avx2_v_hash8 c k inputs (cap / 64) key off d fl fs fe).
Proof.
  intros * L Hk Ho. unfold avx2_v_hash8. apply safe_bind; [reflexivity|]. intros h.
  apply safe_bind; [apply offsets_safe|]. intros [lo hi]. apply safe_bind.
  { apply loop_safe; [|apply vec8_safe|lia]. intros. apply msgs8_safe; [rewrite L|]; lia. }
  intros h'. apply safe_bind; [reflexivity|]. intros s0. cbv zeta.
  do 8 (apply safe_bind; [apply store_safe; lia|intros ?]). reflexivity.
Qed.

(* inputs from number k on are left, and this much of the output *)
Lemma hash_each_safe : forall c h,
  (forall k x o, (k < n)%nat -> len x <= cap -> 32 * (N.of_nat k + 1) <= out_len -> safe (h k x o)) ->
  forall inputs k off d out, Forall (fun x => len x <= cap) inputs -> (k + length inputs <= n)%nat ->
  32 * N.of_nat k + len out <= out_len ->
  safe (v_hash_each c h k inputs off d out).
Proof.
  intros c h H. induction inputs as [|x inputs IH]; intros * F Hk L; cbn [v_hash_each]; [reflexivity|].
  inversion F as [|? ? Fx Fr]; subst. cbn [length] in Hk. change OUT_LEN with 32.
  destruct (N.leb_spec 32 (len out)); [|reflexivity].
  apply safe_bind; [apply H; [lia|exact Fx|lia]|]. intros y. apply safe_bind; [apply safe_lift|]. intros o.
  apply safe_bind; [apply IH; [exact Fr|lia|rewrite len_drop; lia]|]. reflexivity.
Qed.
Lemma batch_safe : forall c degree h r,
  (forall k xs o, length xs = degree -> (k + degree <= n)%nat ->
     32 * (N.of_nat k + N.of_nat degree) <= out_len -> safe (h k xs o)) ->
  (forall k xs o out, Forall (fun x => len x <= cap) xs -> (k + length xs <= n)%nat ->
     32 * N.of_nat k + len out <= out_len -> safe (r k xs o out)) ->
  forall fuel k xs off d out, Forall (fun x => len x <= cap) xs -> (k + length xs <= n)%nat ->
  32 * N.of_nat k + len out <= out_len ->
  safe (v_batch_loop c fuel (N.of_nat degree) h r k xs off d out).
Proof.
  intros c degree h r H Hr. induction fuel as [|fuel IH]; intros * F Hk L; cbn [v_batch_loop];
    destruct (_ && _) eqn:E; try (now apply Hr); [reflexivity|].
  apply andb_true_iff in E. destruct E as [E E']. apply N.leb_le in E, E'. change OUT_LEN with 32 in *.
  assert (T : length (take (N.of_nat degree) xs) = degree).
  { pose proof (len_take _ (N.of_nat degree) xs) as Q. unfold len in *. lia. }
  assert (D : length (drop (N.of_nat degree) xs) = (length xs - degree)%nat).
  { pose proof (len_drop _ (N.of_nat degree) xs) as Q. unfold len in *. lia. }
  assert (F'' : Forall (fun x => len x <= cap) (drop (N.of_nat degree) xs)).
  { apply Forall_forall. intros x Hx. rewrite Forall_forall in F. apply F.
    unfold drop in Hx. rewrite <- (firstn_skipn (N.to_nat (N.of_nat degree)) xs). apply in_or_app. right. exact Hx. }
  assert (E2 : (degree <= length xs)%nat) by (unfold len in E; lia).
  apply safe_bind; [apply H; [exact T|lia|lia]|]. intros y.
  apply safe_bind; [apply safe_lift|]. intros o1. apply safe_bind; [apply safe_lift|]. intros o2.
  apply safe_bind; [apply IH; [exact F''|rewrite D; lia|rewrite len_drop; lia]|]. reflexivity.
Qed.
Lemma many4_safe : forall c k xs key off d fl fs fe out,
  Forall (fun x => len x <= cap) xs -> (k + length xs <= n)%nat ->
  32 * N.of_nat k + len out <= out_len ->
  safe (sse41_v_hash_many c cap k xs key off d fl fs fe out).
Proof.
  intros * F Hk L. unfold sse41_v_hash_many. apply safe_bind; [apply safe_lift|]. intros _.
  apply (batch_safe c 4); auto.
  - intros. apply hash4_safe; auto.
  - intros. apply hash_each_safe; auto. intros. apply hash1_safe; auto. exact sse41_safe.
Qed.
Lemma many_safe : forall c p xs key off d fl fs fe out,
  Forall (fun x => len x <= cap) xs -> (length xs <= n)%nat -> len out <= out_len ->
  safe (p_hash_many c p cap xs key off d fl fs fe out).
Proof.
  intros c [] * F Hk L; cbn [p_hash_many].
  - unfold portable_v_hash_many. apply safe_bind; [apply safe_lift|]. intros _.
    apply hash_each_safe; auto. intros. apply hash1_safe; auto. exact portable_safe.
  - apply many4_safe; auto.
  - unfold avx2_v_hash_many. apply safe_bind; [apply safe_lift|]. intros _.
    apply (batch_safe c 8); auto.
    + intros. apply hash8_safe; auto.
    + intros. now apply many4_safe.
Qed.
End Bounds.

Lemma many_inside : forall c p cap inputs key offset offset_delta flags flags_start flags_end out,
  Forall (fun input => len input = cap) inputs ->
  forallb (inside (length inputs) cap (len out))
    (fst (p_hash_many c p cap inputs key offset offset_delta flags flags_start flags_end out)) = true.
Proof.
  intros * F. apply many_safe; [|lia|lia]. eapply Forall_impl; [|exact F]. cbn. lia.
Qed.
Lemma compress_inside : forall p cv block block_len offset flags,
  forallb (inside 0 0 0) (fst (p_compress p cv block block_len offset flags)) = true /\
  forallb (inside 0 0 0) (fst (p_compress_xof p cv block block_len offset flags)) = true.
Proof. intros. split; [apply (compress_safe 0 0 0)|apply (compress_xof_safe 0 0 0)]. Qed.
