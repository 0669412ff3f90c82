(* hash_many in C, with every backend, reads the bytes of every input once, writes every byte of
   the output once, and accesses no array out of bounds. *)
From Coq Require Import NArith List Bool Lia ZArith.
From Coq Require Import ZifyBool ZifyNat ZifyN.
From Verif Require Import Base BaseFacts Portable Simd SimdGen SimdHash SecretFacts.
From Verif Require Import Steps StepsFacts VOps VSimdGen VSteps VStepsFacts VMemSpec VMemFacts.
From Verif Require Import CSimd CImpl CVSteps CVStepsFacts CVMemSpec.
Import ListNotations.
Open Scope N_scope.

Lemma c_sse41_quiet : quiet_comp cv_compress_sse41.
Proof.
  intros cv b n o f. destruct (same_sse41_comp cv b n o f [] [] 0 0 0) as [-> _]. vm_compute. reflexivity.
Qed.
Lemma c_avx512_quiet : quiet_comp cv_compress_avx512.
Proof.
  intros cv b n o f. destruct (same_avx512_comp cv b n o f [] [] 0 0 0) as [-> _]. vm_compute. reflexivity.
Qed.
Lemma c_portable_quiet : quiet_comp cv_compress_portable.
Proof. intros cv b n o f. apply quiet_scalar. Qed.

Definition quiet_logs {A : Type} (m : vs A) : Prop := logs m (fun l _ => quiet l).
Lemma quiet_logs_bind : forall A B (m : vs A) (f : A -> vs B),
  quiet_logs m -> (forall x, quiet_logs (f x)) -> quiet_logs (vbind m f).
Proof.
  intros * H K. apply logs_bind. eapply logs_impl; [exact H|]. intros l x Q.
  eapply logs_impl; [apply K|]. intros l' y Q'. now apply quiet_app.
Qed.
Lemma quiet_logs_pure : forall A l (r : res A), quiet l -> quiet_logs (l, r).
Proof. intros * H x _. exact H. Qed.
Lemma deltas_quiet : forall n o d, quiet_logs (cv_delta_offsets n o d).
Proof.
  intros. unfold cv_delta_offsets. generalize (seq 0 n). intros is. induction is as [|i is IH]; cbn [v_map].
  - now apply quiet_logs_pure.
  - apply quiet_logs_bind.
    + apply quiet_logs_bind; [now apply quiet_logs_pure|]. intros. now apply quiet_logs_pure.
    + intros. apply quiet_logs_bind; [exact IH|]. intros. now apply quiet_logs_pure.
Qed.
Lemma c_offsets_quiet : forall n o d, quiet_logs (cv_load_offsets n o d).
Proof.
  intros. unfold cv_load_offsets. apply quiet_logs_bind; [apply deltas_quiet|]. intros.
  apply quiet_logs_bind; [now apply quiet_logs_pure|]. intros.
  apply quiet_logs_bind; [apply deltas_quiet|]. intros. now apply quiet_logs_pure.
Qed.
Lemma z_offsets_quiet : forall n o d, quiet_logs (cv_z_load_offsets n o d).
Proof.
  intros. unfold cv_z_load_offsets. apply quiet_logs_bind; [now apply quiet_logs_pure|]. intros.
  apply quiet_logs_bind; [now apply quiet_logs_pure|]. intros. now apply quiet_logs_pure.
Qed.
Lemma z_offsets16_quiet : forall o d, quiet_logs (cv_z_load_offsets16 o d).
Proof.
  intros. unfold cv_z_load_offsets16. apply quiet_logs_bind; [now apply quiet_logs_pure|]. intros.
  apply quiet_logs_bind; [now apply quiet_logs_pure|]. intros.
  do 2 (apply quiet_logs_bind; [now apply quiet_logs_pure|]; intros).
  apply quiet_logs_bind; [now apply quiet_logs_pure|]. intros. now apply quiet_logs_pure.
Qed.

Ltac vec_quiet same :=
  intros; eapply quiet_same; [apply (same_vec _ same _ _ _ _ _ _ _ _ [] [] [] [] [] [])|];
  vm_compute; reflexivity.
Lemma s_vec_quiet : forall h m lo hi bl bf,
  quiet (fst (v_vec_compress cv_s_ops c_sse41_round_code 4 h m lo hi bl bf)).
Proof. vec_quiet s_same. Qed.
Lemma a_vec_quiet : forall h m lo hi bl bf,
  quiet (fst (v_vec_compress cv_a_ops c_avx2_round_code 8 h m lo hi bl bf)).
Proof. vec_quiet a_same. Qed.
Lemma z4_vec_quiet : forall h m lo hi bl bf,
  quiet (fst (v_vec_compress cv_z_ops c_avx512_round4_code 4 h m lo hi bl bf)).
Proof. vec_quiet z_same. Qed.
Lemma z8_vec_quiet : forall h m lo hi bl bf,
  quiet (fst (v_vec_compress cv_z_ops c_avx512_round8_code 8 h m lo hi bl bf)).
Proof. vec_quiet z_same. Qed.
Lemma z16_vec_quiet : forall h m lo hi bl bf,
  quiet (fst (v_vec_compress cv_z_ops c_avx512_round16_code 16 h m lo hi bl bf)).
Proof. vec_quiet z_same. Qed.
Lemma n_vec_quiet : forall h m lo hi bl bf,
  quiet (fst (v_vec_compress cv_n_ops c_neon_round_code 4 h m lo hi bl bf)).
Proof. vec_quiet n_same. Qed.

Lemma take_drop_length : forall degree (xs : list (list N)), N.of_nat degree <= len xs ->
  length (take (N.of_nat degree) xs) = degree /\
  length (drop (N.of_nat degree) xs) = (length xs - degree)%nat /\ (degree <= length xs)%nat.
Proof.
  intros degree xs E. pose proof (len_take _ (N.of_nat degree) xs) as T.
  pose proof (len_drop _ (N.of_nat degree) xs) as D. unfold len in *. lia.
Qed.

(* ---- every byte once ---- *)

Section Blocks.
Variable blocks : N.
Let cap : N := 64 * blocks.

Lemma one_loop_reads : forall vc, quiet_comp vc -> forall n k p st x o bf fl fe,
  logs (cv_hash_one_loop vc k p n st x o bf fl fe)
       (fun l _ => reads_part k 1 p (p + 64 * N.of_nat n) l /\ pieces_written l = []).
Proof.
  intros vc Q. induction n as [|n IH]; intros; cbn [cv_hash_one_loop].
  - apply logs_lift. intros _ _. replace (p + 64 * N.of_nat 0) with p by lia.
    split; [apply reads_part_quiet; reflexivity|reflexivity].
  - cbv zeta. apply logs_bind, logs_pure. intros b _. apply logs_bind. intros st' _.
    change C_BLOCK_LEN with 64.
    specialize (Q st b 64 o (match n with O => N.lor bf fe | Datatypes.S _ => bf end)).
    eapply logs_impl; [apply IH|]. intros l' _ [R W]. split.
    + apply (reads_part_app _ _ _ (p + 64)).
      * split; intros j Hj.
        { replace j with k by lia. cbn. rewrite Nat.eqb_refl. cbn. lia. }
        { cbn. destruct (Nat.eqb_spec k j); [lia|reflexivity]. }
      * apply (reads_part_app _ _ _ (p + 64)); [now apply reads_part_quiet|].
        replace (p + 64 * N.of_nat (Datatypes.S n)) with (p + 64 + 64 * N.of_nat n) by lia. exact R.
    + rewrite !writes_app. rewrite (quiet_writes _ Q), W. reflexivity.
Qed.
Definition one_whole (h : nat -> list N -> N -> vs (list N)) : Prop :=
  forall k x o, logs (h k x o) (fun l _ => whole cap k 1 l).
Lemma one_reads : forall vc, quiet_comp vc -> forall key fl fs fe,
  one_whole (cv_hash_one vc blocks key fl fs fe).
Proof.
  intros vc Q * k x o. unfold cv_hash_one. apply logs_bind, logs_pure. intros _ _. apply logs_bind.
  eapply logs_impl; [now apply one_loop_reads|]. intros l st [R W]. apply logs_pure. intros y _.
  apply (whole_quiet_l cap k 1 [Load PKey 0 32]); [reflexivity|]. split.
  - eapply reads_part_app; [exact R|]. replace (0 + 64 * N.of_nat (N.to_nat blocks)) with cap by (unfold cap; lia).
    split; intros; reflexivity.
  - rewrite writes_app, W. unfold pieces_written. cbn [flat_map write_of app tiles]. split; [reflexivity|lia].
Qed.
Lemma one_portable_reads : forall key fl fs fe, one_whole (cv_hash_one_portable blocks key fl fs fe).
Proof.
  intros * k x o. unfold cv_hash_one_portable. apply logs_bind, logs_pure. intros _ _. apply logs_bind.
  eapply logs_impl; [apply one_loop_reads, c_portable_quiet|]. intros l st [R W] y _.
  apply (whole_quiet_l cap k 1 [Load PKey 0 32]); [reflexivity|]. split.
  - eapply reads_part_app; [exact R|]. replace (0 + 64 * N.of_nat (N.to_nat blocks)) with cap by (unfold cap; lia).
    split; intros; reflexivity.
  - rewrite writes_app, W. cbn -[N.mul N.add N.of_nat Nat.add]. repeat split; lia.
Qed.

Lemma then_quiet : forall A B (m : vs A) (f : A -> vs B) k0 j x y,
  logs m (fun l _ => reads_part k0 j x y l /\ pieces_written l = []) ->
  (forall v, quiet_logs (f v)) ->
  logs (vbind m f) (fun l _ => reads_part k0 j x y l /\ pieces_written l = []).
Proof.
  intros * H Q. apply logs_bind. eapply logs_impl; [exact H|]. intros l v [R W].
  eapply logs_impl; [apply Q|]. intros l' w Q'.
  split; [|rewrite writes_app, W; now apply quiet_writes].
  eapply reads_part_app; [exact R|]. now apply reads_part_quiet.
Qed.
Lemma c_msg4_reads : forall t, (forall v, quiet_logs (t v)) -> forall k0 inputs bo,
  logs (cv_msg4 t k0 inputs bo)
       (fun l _ => reads_part k0 (length inputs) bo (bo + 64) l /\ pieces_written l = []).
Proof.
  intros t T *. unfold cv_msg4. apply then_quiet.
  - pose proof (load_grid_reads 16 k0 inputs bo [0; 16; 32; 48] 0 64) as H. rewrite N.add_0_r in H.
    apply H. cbn. auto 10.
  - intros. do 4 (apply quiet_logs_bind; [apply T|]; intros). now apply quiet_logs_pure.
Qed.
Lemma c_msg8_reads : forall k0 inputs bo,
  logs (cv_msg8 k0 inputs bo)
       (fun l _ => reads_part k0 (length inputs) bo (bo + 64) l /\ pieces_written l = []).
Proof.
  intros. unfold cv_msg8. apply then_quiet; [|intros v y _; reflexivity].
  pose proof (load_grid_reads 32 k0 inputs bo [0; 32] 0 64) as H. rewrite N.add_0_r in H.
  apply H. cbn. auto 10.
Qed.
Lemma c_msg16_reads : forall k0 inputs bo,
  logs (cv_msg16 k0 inputs bo)
       (fun l _ => reads_part k0 (length inputs) bo (bo + 64) l /\ pieces_written l = []).
Proof.
  intros. unfold cv_msg16. apply then_quiet; [|intros v y _; reflexivity].
  pose proof (load_grid_reads 64 k0 inputs bo [0] 0 64) as H. rewrite N.add_0_r in H.
  apply H. cbn. auto 10.
Qed.

(* the reads of the loop, then transpositions and the stores *)
Lemma whole_from : forall k m l l' l'',
  reads_part k m (0 * 64) ((0 + N.of_nat (N.to_nat blocks)) * 64) l -> pieces_written l = [] ->
  quiet l' -> (forall j, pieces_read j l'' = []) ->
  tiles (32 * N.of_nat k) (pieces_written l'') (32 * N.of_nat (k + m)) ->
  whole cap k m (l ++ l' ++ l'').
Proof.
  intros * R W Q R' T. split.
  - replace cap with ((0 + N.of_nat (N.to_nat blocks)) * 64) by (unfold cap; lia).
    change 0 with (0 * 64) at 1. eapply reads_part_app; [exact R|].
    eapply reads_part_app; [now apply reads_part_quiet|].
    split; intros; rewrite R'; reflexivity.
  - now rewrite !writes_app, W, (quiet_writes _ Q).
Qed.
Lemma c_hash4_whole : forall S code t lo,
  (forall h m a b bl bf, quiet (fst (v_vec_compress S code 4 h m a b bl bf))) ->
  (forall v, quiet_logs (t v)) -> (forall o d, quiet_logs (lo o d)) ->
  forall k inputs key o d fl fs fe, length inputs = 4%nat ->
  logs (cv_hash4 S code t lo k inputs blocks key o d fl fs fe) (fun l _ => whole cap k 4 l).
Proof.
  intros S code t lo V T L * Hl. unfold cv_hash4. apply logs_bind. intros h _.
  assert (Q : quiet (fst (v_map (fun i => let? x := word PKey key i in lanes1 4 x) (seq 0 8)))) by reflexivity.
  revert Q. generalize (fst (v_map (fun i => let? x := word PKey key i in lanes1 4 x) (seq 0 8))). intros l0 Q0.
  apply logs_bind. eapply logs_impl; [apply L|]. intros l1 [a b] Q1.
  apply logs_bind. eapply logs_impl.
  { apply loop_reads; [intros; apply c_msg4_reads, T|exact V]. }
  intros l2 h' [R W]. rewrite Hl in *.
  apply logs_bind. eapply logs_impl; [apply T|]. intros la va Qa.
  apply logs_bind. eapply logs_impl; [apply T|]. intros lb vb Qb. cbv zeta.
  intros y _. apply whole_quiet_l; [exact Q0|]. apply whole_quiet_l; [exact Q1|].
  rewrite (app_assoc la). apply whole_from; auto.
  - now apply quiet_app.
  - cbn -[N.mul N.add N.of_nat Nat.add]. repeat split; lia.
Qed.
Lemma c_hash8_whole : forall S code lo,
  (forall h m a b bl bf, quiet (fst (v_vec_compress S code 8 h m a b bl bf))) ->
  (forall o d, quiet_logs (lo o d)) ->
  forall k inputs key o d fl fs fe, length inputs = 8%nat ->
  logs (cv_hash8 S code lo k inputs blocks key o d fl fs fe) (fun l _ => whole cap k 8 l).
Proof.
  intros S code lo V L * Hl. unfold cv_hash8. apply logs_bind. intros h _.
  assert (Q : quiet (fst (v_map (fun i => let? x := word PKey key i in lanes1 8 x) (seq 0 8)))) by reflexivity.
  revert Q. generalize (fst (v_map (fun i => let? x := word PKey key i in lanes1 8 x) (seq 0 8))). intros l0 Q0.
  apply logs_bind. eapply logs_impl; [apply L|]. intros l1 [a b] Q1.
  apply logs_bind. eapply logs_impl.
  { apply loop_reads; [intros; apply c_msg8_reads|exact V]. }
  intros l2 h' [R W]. rewrite Hl in *.
  apply logs_bind. intros va _. assert (Qa : quiet (fst (cv_a_transpose h'))) by reflexivity.
  revert Qa. generalize (fst (cv_a_transpose h')). intros la Qa.
  intros y _. apply whole_quiet_l; [exact Q0|]. apply whole_quiet_l; [exact Q1|].
  apply whole_from; auto. cbn -[N.mul N.add N.of_nat Nat.add]. repeat split; lia.
Qed.
Lemma c_hash16_whole : forall k inputs key o d fl fs fe, length inputs = 16%nat ->
  logs (cv_hash16_avx512 k inputs blocks key o d fl fs fe) (fun l _ => whole cap k 16 l).
Proof.
  intros * Hl. unfold cv_hash16_avx512. apply logs_bind. intros h _.
  assert (Q : quiet (fst (v_map (fun i => let? x := word PKey key i in lanes1 16 x) (seq 0 8)))) by reflexivity.
  revert Q. generalize (fst (v_map (fun i => let? x := word PKey key i in lanes1 16 x) (seq 0 8))). intros l0 Q0.
  apply logs_bind. eapply logs_impl; [apply z_offsets16_quiet|]. intros l1 [a b] Q1.
  apply logs_bind. eapply logs_impl.
  { apply loop_reads; [intros; apply c_msg16_reads|apply z16_vec_quiet]. }
  intros l2 h' [R W]. rewrite Hl in *.
  apply logs_bind. intros z _. assert (Qz : quiet (fst (v_map (fun _ : nat => lanes1 16 0) (seq 0 8)))) by reflexivity.
  revert Qz. generalize (fst (v_map (fun _ : nat => lanes1 16 0) (seq 0 8))). intros lz Qz.
  apply logs_bind. intros va _. assert (Qa : quiet (fst (cv_z_transpose16 (h' ++ z)))) by reflexivity.
  revert Qa. generalize (fst (cv_z_transpose16 (h' ++ z))). intros la Qa.
  intros y _. apply whole_quiet_l; [exact Q0|]. apply whole_quiet_l; [exact Q1|].
  rewrite (app_assoc lz). apply whole_from; auto.
  - now apply quiet_app.
  - cbn -[N.mul N.add N.of_nat Nat.add]. repeat split; lia.
Qed.

Definition rest_whole (r : nat -> list (list N) -> N -> list N -> vs (list N)) : Prop :=
  forall k xs o out, logs (r k xs o out) (fun l _ => whole cap k (length xs) l).
Lemma many_loop_whole : forall degree h r,
  (forall k xs o, length xs = degree -> logs (h k xs o) (fun l _ => whole cap k degree l)) ->
  rest_whole r ->
  forall fuel k xs o d out,
  logs (cv_many_loop fuel (N.of_nat degree) h r k xs o d out) (fun l _ => whole cap k (length xs) l).
Proof.
  intros degree h r H Hr. induction fuel as [|fuel IH]; intros; cbn [cv_many_loop];
    destruct (N.leb_spec (N.of_nat degree) (len xs)) as [E|E]; try apply Hr.
  - apply logs_lift. discriminate.
  - destruct (take_drop_length _ _ E) as (T & D & E2).
    apply logs_bind. eapply logs_impl; [now apply H|]. intros l1 y W1.
    apply logs_bind, logs_pure. intros delta _. cbv zeta. apply logs_bind, logs_lift. intros tl _.
    apply logs_bind. eapply logs_impl; [apply IH|]. intros l2 z W2. apply logs_lift. intros _ _.
    cbn [app]. rewrite app_nil_r.
    replace (length xs) with (degree + (length xs - degree))%nat by lia.
    apply whole_app; [exact W1|]. rewrite D, Nnat.Nat2N.id in W2.
    apply (whole_quiet_l cap _ _ [Get PDeltas (N.to_nat (N.of_nat degree))]); [reflexivity|exact W2].
Qed.
Lemma single_whole : forall h, one_whole h -> forall d, rest_whole (cv_single_loop h d).
Proof.
  intros h H d k xs o out. unfold cv_single_loop. destruct xs as [|x0 xs0].
  - cbn. apply logs_lift. intros _ _. apply whole_nil.
  - change 1 with (N.of_nat 1). generalize (x0 :: xs0). clear x0 xs0. intros xs.
    (* the loop ends with no input left *)
    revert k o out. generalize (length xs) at 1 as fuel. intros fuel. revert xs.
    induction fuel as [|fuel IH]; intros; cbn [cv_many_loop];
      destruct (N.leb_spec (N.of_nat 1) (len xs)) as [E|E].
    + apply logs_lift. discriminate.
    + apply logs_lift. intros _ _. replace (length xs) with 0%nat by (unfold len in E; lia). apply whole_nil.
    + destruct (take_drop_length _ _ E) as (T & D & E2).
      apply logs_bind. apply logs_bind, logs_lift. intros i _.
      eapply logs_impl; [apply H|]. intros l1 y W1.
      apply logs_bind, logs_pure. intros delta _. cbv zeta. apply logs_bind, logs_lift. intros tl _.
      apply logs_bind. eapply logs_impl; [apply IH|]. intros l2 z W2. apply logs_lift. intros _ _.
      cbn [app]. rewrite app_nil_r.
      replace (length xs) with (1 + (length xs - 1))%nat by lia.
      apply whole_app; [exact W1|]. rewrite D, Nnat.Nat2N.id in W2.
      apply (whole_quiet_l cap _ _ [Get PDeltas (N.to_nat (N.of_nat 1))]); [reflexivity|exact W2].
    + apply logs_lift. intros _ _. replace (length xs) with 0%nat by (unfold len in E; lia). apply whole_nil.
Qed.
Lemma c_many4_whole : forall key d fl fs fe,
  rest_whole (fun k xs o out => cv_hash_many_sse41 k xs blocks key o d fl fs fe out).
Proof.
  intros * k xs o out. unfold cv_hash_many_sse41. apply (many_loop_whole 4).
  - intros. apply c_hash4_whole; auto; [apply s_vec_quiet|intros v y _; reflexivity|apply c_offsets_quiet].
  - apply single_whole, one_reads, c_sse41_quiet.
Qed.
Lemma c_many_whole : forall opt key d fl fs fe,
  rest_whole (fun k xs o out => cv_hash_many opt k xs blocks key o d fl fs fe out).
Proof.
  intros * k xs o out. unfold cv_hash_many.
  destruct (use_avx512 opt); [|destruct (use_avx2 opt); [|destruct (use_sse41 opt); [|destruct (use_neon opt)]]].
  - unfold cv_hash_many_avx512. apply (many_loop_whole 16); [intros; now apply c_hash16_whole|].
    intros ? ? ? ?. apply (many_loop_whole 8).
    { intros. apply c_hash8_whole; auto; [apply z8_vec_quiet|apply z_offsets_quiet]. }
    intros ? ? ? ?. apply (many_loop_whole 4).
    { intros. apply c_hash4_whole; auto; [apply z4_vec_quiet|intros v y _; reflexivity|apply z_offsets_quiet]. }
    apply single_whole, one_reads, c_avx512_quiet.
  - unfold cv_hash_many_avx2. apply (many_loop_whole 8).
    { intros. apply c_hash8_whole; auto; [apply a_vec_quiet|apply c_offsets_quiet]. }
    apply c_many4_whole.
  - apply c_many4_whole.
  - unfold cv_hash_many_neon. apply (many_loop_whole 4).
    { intros. apply c_hash4_whole; auto; [apply n_vec_quiet|intros v y _; reflexivity|apply c_offsets_quiet]. }
    apply single_whole, one_reads, c_portable_quiet.
  - unfold cv_hash_many_portable. apply single_whole, one_portable_reads.
Qed.
End Blocks.

Lemma c_many_memory : forall opt inputs blocks key offset deltas flags flags_start flags_end out result,
  let run := cv_hash_many opt 0 inputs blocks key offset deltas flags flags_start flags_end out in
  snd run = Ok result ->
  (forall k, (k < length inputs)%nat -> tiles 0 (pieces_read k (fst run)) (64 * blocks)) /\
  (forall k, (length inputs <= k)%nat -> pieces_read k (fst run) = []) /\
  tiles 0 (pieces_written (fst run)) (32 * len inputs).
Proof.
  intros * E.
  destruct (c_many_whole blocks opt key deltas flags flags_start flags_end 0%nat inputs offset out result E)
    as [[R1 R2] W].
  split; [|split].
  - intros. apply R1. lia.
  - intros. apply R2. lia.
  - exact W.
Qed.

(* ---- bounds ---- *)

Section Bounds.
Variables nd n : nat.
Variables blocks : N.
Let cap : N := 64 * blocks.
Let out_len : N := 32 * N.of_nat n.
Definition csafe {A : Type} (m : vs A) : Prop := forallb (c_inside nd n cap out_len) (fst m) = true.

Lemma safe_csafe : forall A (m : vs A), safe n cap out_len m -> csafe m.
Proof.
  intros A [l r]. unfold safe, csafe. cbn [fst]. intros H. apply forallb_forall. intros s Hs.
  rewrite forallb_forall in H. specialize (H s Hs). unfold c_inside.
  destruct s; try exact H; destruct p; try exact H; discriminate H.
Qed.
Lemma csafe_bind : forall A B (m : vs A) (f : A -> vs B),
  csafe m -> (forall x, csafe (f x)) -> csafe (vbind m f).
Proof.
  intros A B [l r] f H K. unfold csafe, vbind in *. destruct r as [x| |]; try exact H.
  specialize (K x). destruct (f x) as [l' r']. cbn [fst] in *. now rewrite forallb_app, H, K.
Qed.
Lemma csafe_map : forall X Y (f : X -> vs Y) xs, (forall x, In x xs -> csafe (f x)) -> csafe (v_map f xs).
Proof.
  intros X Y f. induction xs as [|x xs IH]; intros H; cbn [v_map]; [reflexivity|].
  apply csafe_bind; [apply H; now left|]. intros. apply csafe_bind; [apply IH; intros; apply H; now right|]. reflexivity.
Qed.
Definition csafe_comp (vc : list N -> list N -> N -> N -> N -> vs (list N)) : Prop :=
  forall cv b m o f, csafe (vc cv b m o f).
Lemma csafe_same : forall A A' (R : A -> A' -> Prop) m m', vrel R m m' -> csafe m' -> csafe m.
Proof. unfold csafe. intros * [E _] H. now rewrite E. Qed.
Lemma c_sse41_safe : csafe_comp cv_compress_sse41.
Proof.
  intros cv b m o f. eapply csafe_same; [apply (same_sse41_comp _ _ _ _ _ [] [] 0 0 0)|]. vm_compute. reflexivity.
Qed.
Lemma c_avx512_safe : csafe_comp cv_compress_avx512.
Proof.
  intros cv b m o f. eapply csafe_same; [apply (same_avx512_comp _ _ _ _ _ [] [] 0 0 0)|]. vm_compute. reflexivity.
Qed.
Lemma c_portable_safe : csafe_comp cv_compress_portable.
Proof.
  intros cv b m o f. eapply csafe_same; [apply (same_c_portable _ _ _ _ _ [] [] 0 0 0)|]. vm_compute. reflexivity.
Qed.
Lemma c_comp_safe : forall opt, csafe_comp (cv_compress opt).
Proof.
  intros opt cv b m o f. unfold cv_compress. destruct (use_avx512 opt); [apply c_avx512_safe|].
  destruct (use_sse41 opt); [apply c_sse41_safe|apply c_portable_safe].
Qed.

Lemma one_loop_safe : forall vc, csafe_comp vc -> forall m k p st x o bf fl fe,
  (k < n)%nat -> p + 64 * N.of_nat m <= cap -> csafe (cv_hash_one_loop vc k p m st x o bf fl fe).
Proof.
  intros vc H. induction m as [|m IH]; intros * Hk L; cbn [cv_hash_one_loop]; [reflexivity|].
  cbv zeta. change C_BLOCK_LEN with 64. apply csafe_bind.
  - unfold csafe. cbn [fst forallb c_inside inside]. lia.
  - intros b. apply csafe_bind; [apply H|]. intros st'. apply IH; [exact Hk|lia].
Qed.
Definition one_safe (h : nat -> list N -> N -> vs (list N)) : Prop :=
  forall k x o, (k < n)%nat -> csafe (h k x o).
Lemma hash_one_safe : forall vc, csafe_comp vc -> forall key fl fs fe,
  one_safe (cv_hash_one vc blocks key fl fs fe).
Proof.
  intros vc H * k x o Hk. unfold cv_hash_one. apply csafe_bind; [reflexivity|]. intros _.
  apply csafe_bind; [apply one_loop_safe; auto; unfold cap; lia|].
  intros st. unfold csafe. cbn [fst forallb c_inside inside]. unfold out_len. lia.
Qed.
Lemma hash_one_portable_safe : forall key fl fs fe, one_safe (cv_hash_one_portable blocks key fl fs fe).
Proof.
  intros * k x o Hk. unfold cv_hash_one_portable. apply csafe_bind; [reflexivity|]. intros _.
  apply csafe_bind; [apply one_loop_safe; [apply c_portable_safe|exact Hk|unfold cap; lia]|].
  intros st. apply csafe_bind; [|reflexivity]. apply csafe_map. intros i Hi. apply in_seq in Hi.
  unfold csafe. cbn [fst forallb c_inside inside]. unfold out_len. lia.
Qed.
Lemma deltas_safe : forall m o d, (m <= nd)%nat -> csafe (cv_delta_offsets m o d).
Proof.
  intros * H. unfold cv_delta_offsets. apply csafe_map. intros i Hi. apply in_seq in Hi.
  apply csafe_bind; [|reflexivity]. unfold csafe. cbn [fst forallb c_inside]. lia.
Qed.
Definition offs_safe (l : N -> list N -> vs (vec * vec)) : Prop := forall o d, csafe (l o d).
Lemma c_offs_safe : forall m, (m <= nd)%nat -> offs_safe (cv_load_offsets m).
Proof.
  intros m H o d. unfold cv_load_offsets. apply csafe_bind; [now apply deltas_safe|]. intros.
  apply csafe_bind; [reflexivity|]. intros. apply csafe_bind; [now apply deltas_safe|]. reflexivity.
Qed.
Lemma z_offs_safe : forall m, (m <= nd)%nat -> offs_safe (cv_z_load_offsets m).
Proof.
  intros m H o d. unfold cv_z_load_offsets. apply csafe_bind; [reflexivity|]. intros.
  apply csafe_bind; [|reflexivity]. unfold csafe. cbn [fst forallb c_inside]. lia.
Qed.
Lemma z_offs16_safe : (16 <= nd)%nat -> offs_safe cv_z_load_offsets16.
Proof.
  intros H o d. unfold cv_z_load_offsets16. apply csafe_bind; [reflexivity|]. intros.
  apply csafe_bind; [unfold csafe; cbn [fst forallb c_inside]; lia|]. intros.
  do 2 (apply csafe_bind; [reflexivity|]; intros).
  apply csafe_bind; [unfold csafe; cbn [fst forallb c_inside]; lia|]. reflexivity.
Qed.
Lemma c_store_safe : forall off b v, off + b <= out_len -> csafe (store off b v).
Proof. intros. unfold csafe. cbn [store fst forallb c_inside inside]. lia. Qed.

Ltac vec_safe same :=
  intros; eapply safe_same; [apply (same_vec _ same _ _ _ _ _ _ _ _ [] [] [] [] [] [])|];
  vm_compute; reflexivity.
Lemma s_vec_safe : forall h m lo hi bl bf,
  safe n cap out_len (v_vec_compress cv_s_ops c_sse41_round_code 4 h m lo hi bl bf).
Proof. vec_safe s_same. Qed.
Lemma a_vec_safe : forall h m lo hi bl bf,
  safe n cap out_len (v_vec_compress cv_a_ops c_avx2_round_code 8 h m lo hi bl bf).
Proof. vec_safe a_same. Qed.
Lemma z4_vec_safe : forall h m lo hi bl bf,
  safe n cap out_len (v_vec_compress cv_z_ops c_avx512_round4_code 4 h m lo hi bl bf).
Proof. vec_safe z_same. Qed.
Lemma z8_vec_safe : forall h m lo hi bl bf,
  safe n cap out_len (v_vec_compress cv_z_ops c_avx512_round8_code 8 h m lo hi bl bf).
Proof. vec_safe z_same. Qed.
Lemma z16_vec_safe : forall h m lo hi bl bf,
  safe n cap out_len (v_vec_compress cv_z_ops c_avx512_round16_code 16 h m lo hi bl bf).
Proof. vec_safe z_same. Qed.
Lemma n_vec_safe : forall h m lo hi bl bf,
  safe n cap out_len (v_vec_compress cv_n_ops c_neon_round_code 4 h m lo hi bl bf).
Proof. vec_safe n_same. Qed.

Definition t_safe (t : list vec -> vs (list vec)) : Prop := forall v, safe n cap out_len (t v).
Lemma c_hash4_safe : forall S code t lo,
  (forall h m a b bl bf, safe n cap out_len (v_vec_compress S code 4 h m a b bl bf)) ->
  t_safe t -> offs_safe lo ->
  forall k inputs key o d fl fs fe, length inputs = 4%nat -> (k + 4 <= n)%nat ->
  csafe (cv_hash4 S code t lo k inputs blocks key o d fl fs fe).
Proof.
  intros S code t lo V T L * Hl Hk. unfold cv_hash4. apply csafe_bind; [reflexivity|]. intros h.
  apply csafe_bind; [apply L|]. intros [a b]. apply csafe_bind.
  { apply safe_csafe, loop_safe; [|exact V|unfold cap; lia]. intros. unfold cv_msg4.
    apply safe_bind; [apply load_grid_safe; [lia|repeat constructor; lia]|]. intros.
    do 4 (apply safe_bind; [apply T|]; intros). reflexivity. }
  intros h'. do 2 (apply csafe_bind; [apply safe_csafe, T|]; intros). cbv zeta.
  apply csafe_bind; [|reflexivity]. apply csafe_map. intros [i j] Hi. apply c_store_safe. unfold out_len.
  cbn in Hi. cbn [fst]. repeat (destruct Hi as [[= <- <-]|Hi]; [lia|]). contradiction.
Qed.
Lemma c_hash8_safe : forall S code lo,
  (forall h m a b bl bf, safe n cap out_len (v_vec_compress S code 8 h m a b bl bf)) -> offs_safe lo ->
  forall k inputs key o d fl fs fe, length inputs = 8%nat -> (k + 8 <= n)%nat ->
  csafe (cv_hash8 S code lo k inputs blocks key o d fl fs fe).
Proof.
  intros S code lo V L * Hl Hk. unfold cv_hash8. apply csafe_bind; [reflexivity|]. intros h.
  apply csafe_bind; [apply L|]. intros [a b]. apply csafe_bind.
  { apply safe_csafe, loop_safe; [|exact V|unfold cap; lia]. intros. unfold cv_msg8.
    apply safe_bind; [apply load_grid_safe; [lia|repeat constructor; lia]|]. reflexivity. }
  intros h'. apply csafe_bind; [reflexivity|]. intros.
  apply csafe_bind; [|reflexivity]. apply csafe_map. intros i Hi. apply in_seq in Hi.
  apply c_store_safe. unfold out_len. lia.
Qed.
Lemma c_hash16_safe : (16 <= nd)%nat ->
  forall k inputs key o d fl fs fe, length inputs = 16%nat -> (k + 16 <= n)%nat ->
  csafe (cv_hash16_avx512 k inputs blocks key o d fl fs fe).
Proof.
  intros Hd * Hl Hk. unfold cv_hash16_avx512. apply csafe_bind; [reflexivity|]. intros h.
  apply csafe_bind; [now apply z_offs16_safe|]. intros [a b]. apply csafe_bind.
  { apply safe_csafe, loop_safe; [|apply z16_vec_safe|unfold cap; lia]. intros. unfold cv_msg16.
    apply safe_bind; [apply load_grid_safe; [lia|repeat constructor; lia]|]. reflexivity. }
  intros h'. apply csafe_bind; [reflexivity|]. intros z. apply csafe_bind; [reflexivity|]. intros.
  apply csafe_bind; [|reflexivity]. apply csafe_map. intros i Hi. apply in_seq in Hi.
  apply c_store_safe. unfold out_len. lia.
Qed.
Definition rest_safe (r : nat -> list (list N) -> N -> list N -> vs (list N)) : Prop :=
  forall k xs o out, (k + length xs <= n)%nat -> csafe (r k xs o out).
Lemma many_loop_safe : forall degree h r, (degree < nd)%nat ->
  (forall k xs o, length xs = degree -> (k + degree <= n)%nat -> csafe (h k xs o)) -> rest_safe r ->
  forall fuel k xs o d out, (k + length xs <= n)%nat ->
  csafe (cv_many_loop fuel (N.of_nat degree) h r k xs o d out).
Proof.
  intros degree h r Hd H Hr. induction fuel as [|fuel IH]; intros * Hk; cbn [cv_many_loop];
    destruct (N.leb_spec (N.of_nat degree) (len xs)) as [E|E]; try (now apply Hr); [reflexivity|].
  destruct (take_drop_length degree xs E) as (T & D & E2).
  apply csafe_bind; [apply H; [exact T|lia]|]. intros y.
  apply csafe_bind; [unfold csafe; cbn [fst forallb c_inside]; lia|]. intros delta. cbv zeta.
  apply csafe_bind; [reflexivity|]. intros tl.
  apply csafe_bind; [apply IH; rewrite D; lia|]. reflexivity.
Qed.
Lemma single_safe : (1 < nd)%nat -> forall h, one_safe h -> forall d, rest_safe (cv_single_loop h d).
Proof.
  intros Hd h H d k xs o out Hk. unfold cv_single_loop. apply (many_loop_safe 1); auto.
  - intros. apply csafe_bind; [reflexivity|]. intros. apply H. lia.
  - intros ? ? ? ? _. reflexivity.
Qed.
Lemma c_many4_safe : (5 <= nd)%nat -> forall key d fl fs fe,
  rest_safe (fun k xs o out => cv_hash_many_sse41 k xs blocks key o d fl fs fe out).
Proof.
  intros Hd * k xs o out Hk. unfold cv_hash_many_sse41. apply (many_loop_safe 4); auto.
  - intros. apply c_hash4_safe; auto; [apply s_vec_safe|intros v; reflexivity|apply c_offs_safe; lia].
  - apply single_safe; [lia|]. apply hash_one_safe, c_sse41_safe.
Qed.
Lemma c_many_safe : forall opt, (deltas_needed opt <= nd)%nat -> forall key d fl fs fe,
  rest_safe (fun k xs o out => cv_hash_many opt k xs blocks key o d fl fs fe out).
Proof.
  intros opt Hd * k xs o out Hk. unfold cv_hash_many, deltas_needed in *.
  destruct (use_avx512 opt); [|destruct (use_avx2 opt); [|destruct (use_sse41 opt); [|destruct (use_neon opt)]]].
  - unfold cv_hash_many_avx512. apply (many_loop_safe 16); auto; [intros; apply c_hash16_safe; auto; lia|].
    intros ? ? ? ? Hk1. apply (many_loop_safe 8); auto; [lia| |].
    { intros. apply c_hash8_safe; auto; [apply z8_vec_safe|apply z_offs_safe; lia]. }
    intros ? ? ? ? Hk2. apply (many_loop_safe 4); auto; [lia| |].
    { intros. apply c_hash4_safe; auto; [apply z4_vec_safe|intros v; reflexivity|apply z_offs_safe; lia]. }
    apply single_safe; [lia|]. apply hash_one_safe, c_avx512_safe.
  - unfold cv_hash_many_avx2. apply (many_loop_safe 8); auto.
    { intros. apply c_hash8_safe; auto; [apply a_vec_safe|apply c_offs_safe; lia]. }
    apply c_many4_safe. lia.
  - now apply c_many4_safe.
  - unfold cv_hash_many_neon. apply (many_loop_safe 4); auto.
    { intros. apply c_hash4_safe; auto; [apply n_vec_safe|intros v; reflexivity|apply c_offs_safe; lia]. }
    apply single_safe; [lia|]. apply hash_one_safe, c_portable_safe.
  - unfold cv_hash_many_portable. apply single_safe; auto. apply hash_one_portable_safe.
Qed.
End Bounds.

Lemma c_many_inside : forall opt inputs blocks key offset deltas flags flags_start flags_end out,
  forallb (c_inside (deltas_needed opt) (length inputs) (64 * blocks) (32 * len inputs))
    (fst (cv_hash_many opt 0 inputs blocks key offset deltas flags flags_start flags_end out)) = true.
Proof. intros. apply c_many_safe; auto. Qed.
Lemma c_compress_inside : forall opt state block block_len offset flags,
  forallb (c_inside 0 0 0 0) (fst (cv_compress opt state block block_len offset flags)) = true.
Proof. intros. apply (c_comp_safe 0%nat 0%nat 0). Qed.
