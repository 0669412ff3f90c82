(* The functions of CVSteps.v return what the functions of CSimd.v and CImpl.v return, and their
   steps depend only on lengths. *)
From Coq Require Import NArith List Bool Lia ZArith.
From Coq Require Import ZifyBool ZifyNat ZifyN.
From Verif Require Import Base BaseFacts Portable Simd SimdGen SimdHash SecretFacts SecretSpec.
From Verif Require Import Steps StepsFacts VOps VSimdGen VSteps VStepsFacts VStepsSpec.
From Verif Require Import CSimd CImpl CVSteps.
Import ListNotations.
Open Scope N_scope.

(* ---- returned values ---- *)

Lemma s_agree : agree cv_s_ops s_ops.
Proof. repeat split. Qed.
Lemma a_agree : agree cv_a_ops a_ops.
Proof. repeat split. Qed.
Lemma z_agree : agree cv_z_ops z_ops.
Proof. repeat split. Qed.
Lemma n_agree : agree cv_n_ops n_ops.
Proof. repeat split. Qed.

Section CRows.
Variable S : svops.
Variable O : vops vec.
Hypothesis A : agree S O.

Ltac row_step :=
  lazymatch goal with
  | |- vret (vbind (v_g1 S ?a ?b ?c ?d ?m) _) _ =>
      eapply vret_val; [apply (v_g1_value S O A)|]; cbv beta; destruct (g1 O a b c d m) as [[[? ?] ?] ?]
  | |- vret (vbind (v_g2 S ?a ?b ?c ?d ?m) _) _ =>
      eapply vret_val; [apply (v_g2_value S O A)|]; cbv beta; destruct (g2 O a b c d m) as [[[? ?] ?] ?]
  | |- vret (vbind (v_diagonalize ?a ?c ?d) _) _ =>
      eapply vret_val; [apply v_diag_value|]; cbv beta; destruct (diagonalize a c d) as [[? ?] ?]
  | |- vret (vbind (v_undiagonalize ?a ?c ?d) _) _ =>
      eapply vret_val; [apply v_undiag_value|]; cbv beta; destruct (undiagonalize a c d) as [[? ?] ?]
  | |- vret (vbind (op1 _ _) _) _ => eapply vret_val; [apply vret_op1|]; cbv beta; cbn [sem1]
  | |- vret (vbind (op2 _ _ _) _) _ => eapply vret_val; [apply vret_op2|]; cbv beta; cbn [sem2]
  end.
Ltac row_round := intros; cbv zeta; repeat row_step; reflexivity.

Lemma v_c_sse41_row_round1_value : forall m0 m1 m2 m3 a b c d,
  vret (v_c_sse41_row_round1 S m0 m1 m2 m3 a b c d) (Ok (c_sse41_row_round1 O m0 m1 m2 m3 a b c d)).
Proof. unfold v_c_sse41_row_round1, c_sse41_row_round1. row_round. Qed.
Lemma v_c_sse41_row_round2_value : forall m0 m1 m2 m3 a b c d,
  vret (v_c_sse41_row_round2 S m0 m1 m2 m3 a b c d) (Ok (c_sse41_row_round2 O m0 m1 m2 m3 a b c d)).
Proof. unfold v_c_sse41_row_round2, c_sse41_row_round2. row_round. Qed.
Lemma v_c_sse41_row_round3_value : forall m0 m1 m2 m3 a b c d,
  vret (v_c_sse41_row_round3 S m0 m1 m2 m3 a b c d) (Ok (c_sse41_row_round3 O m0 m1 m2 m3 a b c d)).
Proof. unfold v_c_sse41_row_round3, c_sse41_row_round3. row_round. Qed.
Lemma v_c_sse41_row_round4_value : forall m0 m1 m2 m3 a b c d,
  vret (v_c_sse41_row_round4 S m0 m1 m2 m3 a b c d) (Ok (c_sse41_row_round4 O m0 m1 m2 m3 a b c d)).
Proof. unfold v_c_sse41_row_round4, c_sse41_row_round4. row_round. Qed.
Lemma v_c_sse41_row_round5_value : forall m0 m1 m2 m3 a b c d,
  vret (v_c_sse41_row_round5 S m0 m1 m2 m3 a b c d) (Ok (c_sse41_row_round5 O m0 m1 m2 m3 a b c d)).
Proof. unfold v_c_sse41_row_round5, c_sse41_row_round5. row_round. Qed.
Lemma v_c_sse41_row_round6_value : forall m0 m1 m2 m3 a b c d,
  vret (v_c_sse41_row_round6 S m0 m1 m2 m3 a b c d) (Ok (c_sse41_row_round6 O m0 m1 m2 m3 a b c d)).
Proof. unfold v_c_sse41_row_round6, c_sse41_row_round6. row_round. Qed.
Lemma v_c_sse41_row_round7_value : forall m0 m1 m2 m3 a b c d,
  vret (v_c_sse41_row_round7 S m0 m1 m2 m3 a b c d) (Ok (c_sse41_row_round7 O m0 m1 m2 m3 a b c d)).
Proof. unfold v_c_sse41_row_round7, c_sse41_row_round7. row_round. Qed.
Lemma v_c_avx512_row_round1_value : forall m0 m1 m2 m3 a b c d,
  vret (v_c_avx512_row_round1 S m0 m1 m2 m3 a b c d) (Ok (c_avx512_row_round1 O m0 m1 m2 m3 a b c d)).
Proof. unfold v_c_avx512_row_round1, c_avx512_row_round1. row_round. Qed.
Lemma v_c_avx512_row_round2_value : forall m0 m1 m2 m3 a b c d,
  vret (v_c_avx512_row_round2 S m0 m1 m2 m3 a b c d) (Ok (c_avx512_row_round2 O m0 m1 m2 m3 a b c d)).
Proof. unfold v_c_avx512_row_round2, c_avx512_row_round2. row_round. Qed.
Lemma v_c_avx512_row_round3_value : forall m0 m1 m2 m3 a b c d,
  vret (v_c_avx512_row_round3 S m0 m1 m2 m3 a b c d) (Ok (c_avx512_row_round3 O m0 m1 m2 m3 a b c d)).
Proof. unfold v_c_avx512_row_round3, c_avx512_row_round3. row_round. Qed.
Lemma v_c_avx512_row_round4_value : forall m0 m1 m2 m3 a b c d,
  vret (v_c_avx512_row_round4 S m0 m1 m2 m3 a b c d) (Ok (c_avx512_row_round4 O m0 m1 m2 m3 a b c d)).
Proof. unfold v_c_avx512_row_round4, c_avx512_row_round4. row_round. Qed.
Lemma v_c_avx512_row_round5_value : forall m0 m1 m2 m3 a b c d,
  vret (v_c_avx512_row_round5 S m0 m1 m2 m3 a b c d) (Ok (c_avx512_row_round5 O m0 m1 m2 m3 a b c d)).
Proof. unfold v_c_avx512_row_round5, c_avx512_row_round5. row_round. Qed.
Lemma v_c_avx512_row_round6_value : forall m0 m1 m2 m3 a b c d,
  vret (v_c_avx512_row_round6 S m0 m1 m2 m3 a b c d) (Ok (c_avx512_row_round6 O m0 m1 m2 m3 a b c d)).
Proof. unfold v_c_avx512_row_round6, c_avx512_row_round6. row_round. Qed.
Lemma v_c_avx512_row_round7_value : forall m0 m1 m2 m3 a b c d,
  vret (v_c_avx512_row_round7 S m0 m1 m2 m3 a b c d) (Ok (c_avx512_row_round7 O m0 m1 m2 m3 a b c d)).
Proof. unfold v_c_avx512_row_round7, c_avx512_row_round7. row_round. Qed.
End CRows.

Lemma cv_sse41_value : comp_value cv_compress_sse41 compress_sse41.
Proof.
  intros cv b n o f. unfold cv_compress_sse41, compress_sse41.
  do 12 (eapply vret_val; [reflexivity|]; cbv beta).
  cbv zeta.
  generalize (words_of_bytes (take 16 (drop 0 b))) as m0.
  generalize (words_of_bytes (take 16 (drop 16 b))) as m1.
  generalize (words_of_bytes (take 16 (drop 32 b))) as m2.
  generalize (words_of_bytes (take 16 (drop 48 b))) as m3. intros m3 m2 m1 m0.
  pose proof s_agree as A.
  eapply vret_val; [apply v_c_sse41_row_round1_value, A|]; cbv beta; destruct (c_sse41_row_round1 _ _ _ _ _ _ _ _ _) as [[[? ?] ?] ?].
  eapply vret_val; [apply v_c_sse41_row_round2_value, A|]; cbv beta; destruct (c_sse41_row_round2 _ _ _ _ _ _ _ _ _) as [[[? ?] ?] ?].
  eapply vret_val; [apply v_c_sse41_row_round3_value, A|]; cbv beta; destruct (c_sse41_row_round3 _ _ _ _ _ _ _ _ _) as [[[? ?] ?] ?].
  eapply vret_val; [apply v_c_sse41_row_round4_value, A|]; cbv beta; destruct (c_sse41_row_round4 _ _ _ _ _ _ _ _ _) as [[[? ?] ?] ?].
  eapply vret_val; [apply v_c_sse41_row_round5_value, A|]; cbv beta; destruct (c_sse41_row_round5 _ _ _ _ _ _ _ _ _) as [[[? ?] ?] ?].
  eapply vret_val; [apply v_c_sse41_row_round6_value, A|]; cbv beta; destruct (c_sse41_row_round6 _ _ _ _ _ _ _ _ _) as [[[? ?] ?] ?].
  eapply vret_val; [apply v_c_sse41_row_round7_value, A|]; cbv beta; destruct (c_sse41_row_round7 _ _ _ _ _ _ _ _ _) as [[[? ?] ?] ?].
  reflexivity.
Qed.
Lemma cv_avx512_value : comp_value cv_compress_avx512 compress_avx512.
Proof.
  intros cv b n o f. unfold cv_compress_avx512, compress_avx512.
  do 12 (eapply vret_val; [reflexivity|]; cbv beta).
  cbv zeta.
  generalize (words_of_bytes (take 16 (drop 0 b))) as m0.
  generalize (words_of_bytes (take 16 (drop 16 b))) as m1.
  generalize (words_of_bytes (take 16 (drop 32 b))) as m2.
  generalize (words_of_bytes (take 16 (drop 48 b))) as m3. intros m3 m2 m1 m0.
  pose proof z_agree as A.
  eapply vret_val; [apply v_c_avx512_row_round1_value, A|]; cbv beta; destruct (c_avx512_row_round1 _ _ _ _ _ _ _ _ _) as [[[? ?] ?] ?].
  eapply vret_val; [apply v_c_avx512_row_round2_value, A|]; cbv beta; destruct (c_avx512_row_round2 _ _ _ _ _ _ _ _ _) as [[[? ?] ?] ?].
  eapply vret_val; [apply v_c_avx512_row_round3_value, A|]; cbv beta; destruct (c_avx512_row_round3 _ _ _ _ _ _ _ _ _) as [[[? ?] ?] ?].
  eapply vret_val; [apply v_c_avx512_row_round4_value, A|]; cbv beta; destruct (c_avx512_row_round4 _ _ _ _ _ _ _ _ _) as [[[? ?] ?] ?].
  eapply vret_val; [apply v_c_avx512_row_round5_value, A|]; cbv beta; destruct (c_avx512_row_round5 _ _ _ _ _ _ _ _ _) as [[[? ?] ?] ?].
  eapply vret_val; [apply v_c_avx512_row_round6_value, A|]; cbv beta; destruct (c_avx512_row_round6 _ _ _ _ _ _ _ _ _) as [[[? ?] ?] ?].
  eapply vret_val; [apply v_c_avx512_row_round7_value, A|]; cbv beta; destruct (c_avx512_row_round7 _ _ _ _ _ _ _ _ _) as [[[? ?] ?] ?].
  reflexivity.
Qed.

Lemma cv_portable_value : comp_value cv_compress_portable compress_portable.
Proof. intros cv b n o f. reflexivity. Qed.

Lemma s_transpose_value : forall v, vret (cv_s_transpose v) (Ok (s_transpose v)).
Proof. reflexivity. Qed.
Lemma a_transpose_value : forall v, vret (cv_a_transpose v) (Ok (a_transpose v)).
Proof. reflexivity. Qed.
Lemma z_transpose4_value : forall v, vret (cv_z_transpose4 v) (Ok (z_transpose4 v)).
Proof. reflexivity. Qed.
Lemma z_transpose16_value : forall v, vret (cv_z_transpose16 v) (Ok (z_transpose16 v)).
Proof. reflexivity. Qed.
Lemma n_transpose_value : forall v, vret (cv_n_transpose v) (Ok (n_transpose v)).
Proof. reflexivity. Qed.

Lemma v_map_res : forall {X Y : Type} (f : X -> vs Y) g xs,
  (forall x, vret (f x) (g x)) -> vret (v_map f xs) (seq_res (map g xs)).
Proof.
  intros X Y f g xs H. induction xs as [|x xs IH]; [reflexivity|]. cbn [v_map map seq_res].
  apply vret_bind; [apply H|]. intros y. apply vret_bind; [apply IH|]. reflexivity.
Qed.
Lemma cv_delta_value : forall n o d, vret (cv_delta_offsets n o d) (delta_offsets n o d).
Proof.
  intros. unfold cv_delta_offsets, delta_offsets. apply v_map_res. intros i.
  apply vret_bind; [reflexivity|]. reflexivity.
Qed.
Lemma cv_load_offsets_value : forall n o d,
  vret (cv_load_offsets n o d)
       (let* offs := delta_offsets n o d in Ok (map c_offset_low offs, map c_offset_high offs)).
Proof.
  intros. unfold cv_load_offsets.
  replace (let* offs := delta_offsets n o d in Ok (map c_offset_low offs, map c_offset_high offs))
    with (let* offs := delta_offsets n o d in
          let* offs' := delta_offsets n o d in Ok (map c_offset_low offs, map c_offset_high offs'))
    by (destruct (delta_offsets n o d); reflexivity).
  apply vret_bind; [apply cv_delta_value|]. intros offs.
  eapply vret_val; [reflexivity|]. apply vret_bind; [apply cv_delta_value|]. reflexivity.
Qed.
Lemma cv_z_load_offsets_value : forall n o d,
  vret (cv_z_load_offsets n o d)
       (let* d := slice d 0 (N.of_nat n) in
        let a := add_epi64 (repeat o n) d in
        Ok (cvtepi64_epi32 a, cvtepi64_epi32 (srli_epi64 a 32))).
Proof.
  intros. unfold cv_z_load_offsets. eapply vret_val; [reflexivity|].
  apply vret_bind; [reflexivity|]. reflexivity.
Qed.
Lemma cv_z_load_offsets16_value : forall o d, vret (cv_z_load_offsets16 o d) (z_load_offsets16 o d).
Proof.
  intros. unfold cv_z_load_offsets16, z_load_offsets16. eapply vret_val; [reflexivity|].
  apply vret_bind; [reflexivity|]. intros d0. eapply vret_val; [reflexivity|].
  eapply vret_val; [reflexivity|]. apply vret_bind; [reflexivity|]. reflexivity.
Qed.

Lemma cv_msg4_value : forall vt t, (forall v, vret (vt v) (Ok (t v))) ->
  forall k inputs bo, vret (cv_msg4 vt k inputs bo) (msg4 t inputs bo).
Proof.
  intros vt t H *. unfold cv_msg4, msg4. apply vret_bind; [apply v_load_grid_value|]. intros v.
  do 4 (eapply vret_val; [apply H|]). reflexivity.
Qed.
Lemma cv_msg8_value : forall k inputs bo, vret (cv_msg8 k inputs bo) (a_transpose_msg inputs bo).
Proof.
  intros. unfold cv_msg8, a_transpose_msg. apply vret_bind; [apply v_load_grid_value|]. intros v.
  do 2 (eapply vret_val; [apply a_transpose_value|]). reflexivity.
Qed.
Lemma cv_msg16_value : forall k inputs bo, vret (cv_msg16 k inputs bo) (z_transpose_msg16 inputs bo).
Proof.
  intros. unfold cv_msg16, z_transpose_msg16. apply vret_bind; [apply v_load_grid_value|]. intros v.
  apply z_transpose16_value.
Qed.

Lemma cv_hash4_value : forall S O code vt t vl l, agree S O ->
  (forall v, vret (vt v) (Ok (t v))) -> (forall o d, vret (vl o d) (l o d)) ->
  forall k inputs blocks key o d fl fs fe,
  vret (cv_hash4 S code vt vl k inputs blocks key o d fl fs fe)
       (let* (lo, hi) := l o d in
        let* h := vec_hash_loop O code (set1_epi32 4) (msg4 t inputs) (N.to_nat blocks) 0 blocks
                    (map (fun i => set1_epi32 4 (get key i)) (seq 0 8))
                    lo hi (N.lor fl fs) fl fe in
        Ok (store4 t h)).
Proof.
  intros S O code vt t vl l A T L *. unfold cv_hash4.
  eapply vret_val; [apply (v_map_value _ (fun i => set1_epi32 4 (get key i))); reflexivity|].
  apply vret_bind; [apply L|]. intros [lo hi].
  apply vret_bind; [apply v_loop_value; [exact A|intros; apply cv_msg4_value, T]|]. intros h.
  do 2 (eapply vret_val; [apply T|]). cbv zeta. unfold store4.
  generalize (t (firstn 4 h) ++ t (skipn 4 h)). intros r.
  eapply vret_val; [apply (v_map_value _ (fun ij => storeu (vrow r (snd ij)))); reflexivity|].
  cbn [map snd concat]. rewrite app_nil_r. reflexivity.
Qed.
Lemma cv_hash8_value : forall S O code vl l, agree S O ->
  (forall o d, vret (vl o d) (l o d)) ->
  forall k inputs blocks key o d fl fs fe,
  vret (cv_hash8 S code vl k inputs blocks key o d fl fs fe)
       (let* (lo, hi) := l o d in
        let* h := vec_hash_loop O code (set1_epi32 8) (a_transpose_msg inputs) (N.to_nat blocks) 0 blocks
                    (map (fun i => set1_epi32 8 (get key i)) (seq 0 8))
                    lo hi (N.lor fl fs) fl fe in
        Ok (store8 h)).
Proof.
  intros S O code vl l A L *. unfold cv_hash8.
  eapply vret_val; [apply (v_map_value _ (fun i => set1_epi32 8 (get key i))); reflexivity|].
  apply vret_bind; [apply L|]. intros [lo hi].
  apply vret_bind; [apply v_loop_value; [exact A|intros; apply cv_msg8_value]|]. intros h.
  eapply vret_val; [apply a_transpose_value|]. unfold store8. generalize (a_transpose h). intros r.
  eapply vret_val; [apply (v_map_value _ (fun i => storeu (vrow r i))); reflexivity|].
  cbn [map seq concat]. rewrite app_nil_r. reflexivity.
Qed.
Lemma cv_hash16_value : forall k inputs blocks key o d fl fs fe,
  vret (cv_hash16_avx512 k inputs blocks key o d fl fs fe)
       (hash16_avx512 inputs blocks key o d fl fs fe).
Proof.
  intros. unfold cv_hash16_avx512, hash16_avx512.
  eapply vret_val; [apply (v_map_value _ (fun i => set1_epi32 16 (get key i))); reflexivity|].
  apply vret_bind; [apply cv_z_load_offsets16_value|]. intros [lo hi].
  apply vret_bind; [apply v_loop_value; [apply z_agree|intros; apply cv_msg16_value]|]. intros h.
  eapply vret_val; [apply (v_map_value _ (fun _ => set1_epi32 16 0)); reflexivity|].
  eapply vret_val; [apply z_transpose16_value|]. unfold store16.
  change (map (fun _ : nat => set1_epi32 16 0) (seq 0 8)) with (repeat (set1_epi32 16 0) 8). cbv zeta.
  generalize (z_transpose16 (h ++ repeat (set1_epi32 16 0) 8)). intros r.
  eapply vret_val; [apply (v_map_value _ (fun i => storeu (firstn 8 (vrow r i)))); reflexivity|].
  rewrite flat_map_concat_map. reflexivity.
Qed.

Lemma hash_one_loop_value : forall vc comp, comp_value vc comp ->
  forall blocks k p st x o bf fl fe,
  vret (cv_hash_one_loop vc k p blocks st x o bf fl fe) (hash_one_loop comp blocks st x o bf fl fe).
Proof.
  intros vc comp H. induction blocks as [|blocks IH]; intros; [reflexivity|].
  cbn [cv_hash_one_loop hash_one_loop]. cbv zeta. apply vret_bind; [reflexivity|]. intros b.
  eapply vret_val; [apply H|]. apply IH.
Qed.
Lemma hash_one_value : forall vc comp, comp_value vc comp ->
  forall blocks key fl fs fe k x o,
  vret (cv_hash_one vc blocks key fl fs fe k x o)
       (let* st := hash_one_loop comp (N.to_nat blocks) key x o (N.lor fl fs) fl fe in
        Ok (bytes_of_words st)).
Proof.
  intros. unfold cv_hash_one. eapply vret_val; [reflexivity|].
  apply vret_bind; [now apply hash_one_loop_value|]. reflexivity.
Qed.
Lemma hash_one_portable_value : forall blocks key fl fs fe k x o,
  vret (cv_hash_one_portable blocks key fl fs fe k x o) (hash_one_portable x blocks key o fl fs fe).
Proof.
  intros. unfold cv_hash_one_portable, hash_one_portable. eapply vret_val; [reflexivity|].
  apply vret_bind; [apply hash_one_loop_value, cv_portable_value|]. intros st.
  eapply vret_val; [apply (v_map_value _ (fun i => store32 (get st i))); reflexivity|].
  unfold write_state_bytes. rewrite flat_map_concat_map. reflexivity.
Qed.
Lemma many_loop_value : forall degree vh h vrest rest,
  (forall k i o, vret (vh k i o) (h i o)) ->
  (forall k i o out, vret (vrest k i o out) (rest i o out)) ->
  forall fuel k inputs o d out,
  vret (cv_many_loop fuel degree vh vrest k inputs o d out)
       (many_loop fuel degree h rest inputs o d out).
Proof.
  intros degree vh h vrest rest H Hr. induction fuel as [|fuel IH]; intros;
    cbn [cv_many_loop many_loop]; destruct (_ <=? _); try apply Hr; [reflexivity|].
  apply vret_bind; [apply H|]. intros x. apply vret_bind; [reflexivity|]. intros y. cbv zeta.
  apply vret_bind; [reflexivity|]. intros z. apply vret_bind; [apply IH|]. reflexivity.
Qed.
Lemma single_loop_value : forall vh h, (forall k i o, vret (vh k i o) (h i o)) ->
  forall d k inputs o out,
  vret (cv_single_loop vh d k inputs o out) (single_loop h d inputs o out).
Proof.
  intros vh h H *. unfold cv_single_loop, single_loop. apply many_loop_value; [|reflexivity].
  intros. apply vret_bind; [reflexivity|]. intros. apply H.
Qed.

Lemma c_sse41_many_value : forall k inputs blocks key o d fl fs fe out,
  vret (cv_hash_many_sse41 k inputs blocks key o d fl fs fe out)
       (hash_many_sse41 inputs blocks key o d fl fs fe out).
Proof.
  intros. unfold cv_hash_many_sse41, hash_many_sse41. apply many_loop_value.
  - intros. apply (cv_hash4_value _ _ _ _ _ _ _ s_agree s_transpose_value (cv_load_offsets_value 4)).
  - intros. apply single_loop_value. intros. apply hash_one_value, cv_sse41_value.
Qed.
Lemma c_many_value : forall opt k inputs blocks key o d fl fs fe out,
  vret (cv_hash_many opt k inputs blocks key o d fl fs fe out)
       (c_hash_many opt inputs blocks key o d fl fs fe out).
Proof.
  intros. unfold cv_hash_many, c_hash_many.
  destruct (use_avx512 opt); [|destruct (use_avx2 opt); [|destruct (use_sse41 opt); [|destruct (use_neon opt)]]].
  - unfold cv_hash_many_avx512, hash_many_avx512. apply many_loop_value.
    { intros. apply cv_hash16_value. }
    intros. apply many_loop_value.
    { intros. apply (cv_hash8_value _ _ _ _ _ z_agree (cv_z_load_offsets_value 8)). }
    intros. apply many_loop_value.
    { intros. apply (cv_hash4_value _ _ _ _ _ _ _ z_agree z_transpose4_value (cv_z_load_offsets_value 4)). }
    intros. apply single_loop_value. intros. apply hash_one_value, cv_avx512_value.
  - unfold cv_hash_many_avx2, hash_many_avx2. apply many_loop_value.
    { intros. apply (cv_hash8_value _ _ _ _ _ a_agree (cv_load_offsets_value 8)). }
    intros. apply c_sse41_many_value.
  - apply c_sse41_many_value.
  - unfold cv_hash_many_neon, hash_many_neon. apply many_loop_value.
    { intros. apply (cv_hash4_value _ _ _ _ _ _ _ n_agree n_transpose_value (cv_load_offsets_value 4)). }
    intros. apply single_loop_value. intros. apply hash_one_value, cv_portable_value.
  - unfold cv_hash_many_portable, hash_many_portable. apply single_loop_value.
    intros. apply hash_one_portable_value.
Qed.
Lemma c_compress_value : forall opt st b n o f,
  vret (cv_compress opt st b n o f) (Ok (c_compress opt st b n o f)).
Proof.
  intros. unfold cv_compress, c_compress. destruct (use_avx512 opt); [|destruct (use_sse41 opt)].
  - apply cv_avx512_value.
  - apply cv_sse41_value.
  - apply cv_portable_value.
Qed.
Lemma c_steps_values : forall opt st block block_len o flags k inputs blocks key d fs fe out,
  snd (cv_compress opt st block block_len o flags) = Ok (c_compress opt st block block_len o flags) /\
  snd (cv_hash_many opt k inputs blocks key o d flags fs fe out) =
    c_hash_many opt inputs blocks key o d flags fs fe out.
Proof. intros. split; [apply c_compress_value|apply c_many_value]. Qed.

(* ---- steps ---- *)

Lemma s_same : same_ops cv_s_ops.
Proof. repeat split. Qed.
Lemma a_same : same_ops cv_a_ops.
Proof. repeat split. Qed.
Lemma z_same : same_ops cv_z_ops.
Proof. repeat split. Qed.
Lemma n_same : same_ops cv_n_ops.
Proof. repeat split. Qed.

Section CSameRows.
Variable S : svops.
Hypothesis A : same_ops S.
Let g1_same := same_g1 S A.
Let g2_same := same_g2 S A.
Hint Resolve g1_same g2_same : core.
Lemma same_c_sse41_row_round1 : forall m0 m1 m2 m3 a b c d m0' m1' m2' m3' a' b' c' d',
  vrel any (v_c_sse41_row_round1 S m0 m1 m2 m3 a b c d) (v_c_sse41_row_round1 S m0' m1' m2' m3' a' b' c' d').
Proof. intros. unfold v_c_sse41_row_round1. loose. Qed.
Lemma same_c_sse41_row_round2 : forall m0 m1 m2 m3 a b c d m0' m1' m2' m3' a' b' c' d',
  vrel any (v_c_sse41_row_round2 S m0 m1 m2 m3 a b c d) (v_c_sse41_row_round2 S m0' m1' m2' m3' a' b' c' d').
Proof. intros. unfold v_c_sse41_row_round2. loose. Qed.
Lemma same_c_sse41_row_round3 : forall m0 m1 m2 m3 a b c d m0' m1' m2' m3' a' b' c' d',
  vrel any (v_c_sse41_row_round3 S m0 m1 m2 m3 a b c d) (v_c_sse41_row_round3 S m0' m1' m2' m3' a' b' c' d').
Proof. intros. unfold v_c_sse41_row_round3. loose. Qed.
Lemma same_c_sse41_row_round4 : forall m0 m1 m2 m3 a b c d m0' m1' m2' m3' a' b' c' d',
  vrel any (v_c_sse41_row_round4 S m0 m1 m2 m3 a b c d) (v_c_sse41_row_round4 S m0' m1' m2' m3' a' b' c' d').
Proof. intros. unfold v_c_sse41_row_round4. loose. Qed.
Lemma same_c_sse41_row_round5 : forall m0 m1 m2 m3 a b c d m0' m1' m2' m3' a' b' c' d',
  vrel any (v_c_sse41_row_round5 S m0 m1 m2 m3 a b c d) (v_c_sse41_row_round5 S m0' m1' m2' m3' a' b' c' d').
Proof. intros. unfold v_c_sse41_row_round5. loose. Qed.
Lemma same_c_sse41_row_round6 : forall m0 m1 m2 m3 a b c d m0' m1' m2' m3' a' b' c' d',
  vrel any (v_c_sse41_row_round6 S m0 m1 m2 m3 a b c d) (v_c_sse41_row_round6 S m0' m1' m2' m3' a' b' c' d').
Proof. intros. unfold v_c_sse41_row_round6. loose. Qed.
Lemma same_c_sse41_row_round7 : forall m0 m1 m2 m3 a b c d m0' m1' m2' m3' a' b' c' d',
  vrel any (v_c_sse41_row_round7 S m0 m1 m2 m3 a b c d) (v_c_sse41_row_round7 S m0' m1' m2' m3' a' b' c' d').
Proof. intros. unfold v_c_sse41_row_round7. loose. Qed.
Lemma same_c_avx512_row_round1 : forall m0 m1 m2 m3 a b c d m0' m1' m2' m3' a' b' c' d',
  vrel any (v_c_avx512_row_round1 S m0 m1 m2 m3 a b c d) (v_c_avx512_row_round1 S m0' m1' m2' m3' a' b' c' d').
Proof. intros. unfold v_c_avx512_row_round1. loose. Qed.
Lemma same_c_avx512_row_round2 : forall m0 m1 m2 m3 a b c d m0' m1' m2' m3' a' b' c' d',
  vrel any (v_c_avx512_row_round2 S m0 m1 m2 m3 a b c d) (v_c_avx512_row_round2 S m0' m1' m2' m3' a' b' c' d').
Proof. intros. unfold v_c_avx512_row_round2. loose. Qed.
Lemma same_c_avx512_row_round3 : forall m0 m1 m2 m3 a b c d m0' m1' m2' m3' a' b' c' d',
  vrel any (v_c_avx512_row_round3 S m0 m1 m2 m3 a b c d) (v_c_avx512_row_round3 S m0' m1' m2' m3' a' b' c' d').
Proof. intros. unfold v_c_avx512_row_round3. loose. Qed.
Lemma same_c_avx512_row_round4 : forall m0 m1 m2 m3 a b c d m0' m1' m2' m3' a' b' c' d',
  vrel any (v_c_avx512_row_round4 S m0 m1 m2 m3 a b c d) (v_c_avx512_row_round4 S m0' m1' m2' m3' a' b' c' d').
Proof. intros. unfold v_c_avx512_row_round4. loose. Qed.
Lemma same_c_avx512_row_round5 : forall m0 m1 m2 m3 a b c d m0' m1' m2' m3' a' b' c' d',
  vrel any (v_c_avx512_row_round5 S m0 m1 m2 m3 a b c d) (v_c_avx512_row_round5 S m0' m1' m2' m3' a' b' c' d').
Proof. intros. unfold v_c_avx512_row_round5. loose. Qed.
Lemma same_c_avx512_row_round6 : forall m0 m1 m2 m3 a b c d m0' m1' m2' m3' a' b' c' d',
  vrel any (v_c_avx512_row_round6 S m0 m1 m2 m3 a b c d) (v_c_avx512_row_round6 S m0' m1' m2' m3' a' b' c' d').
Proof. intros. unfold v_c_avx512_row_round6. loose. Qed.
Lemma same_c_avx512_row_round7 : forall m0 m1 m2 m3 a b c d m0' m1' m2' m3' a' b' c' d',
  vrel any (v_c_avx512_row_round7 S m0 m1 m2 m3 a b c d) (v_c_avx512_row_round7 S m0' m1' m2' m3' a' b' c' d').
Proof. intros. unfold v_c_avx512_row_round7. loose. Qed.
End CSameRows.

Lemma same_sse41_comp : same_comp cv_compress_sse41.
Proof.
  intros cv b n o f cv' b' n' o' f'. unfold cv_compress_sse41. pose proof s_same as A.
  do 12 (eapply (vrel_bind _ _ _ _ any); [split; [reflexivity|exact I]|intros]).
  eapply (vrel_bind _ _ _ _ any); [now apply same_c_sse41_row_round1|]. intros [[[? ?] ?] ?] [[[? ?] ?] ?] _.
  eapply (vrel_bind _ _ _ _ any); [now apply same_c_sse41_row_round2|]. intros [[[? ?] ?] ?] [[[? ?] ?] ?] _.
  eapply (vrel_bind _ _ _ _ any); [now apply same_c_sse41_row_round3|]. intros [[[? ?] ?] ?] [[[? ?] ?] ?] _.
  eapply (vrel_bind _ _ _ _ any); [now apply same_c_sse41_row_round4|]. intros [[[? ?] ?] ?] [[[? ?] ?] ?] _.
  eapply (vrel_bind _ _ _ _ any); [now apply same_c_sse41_row_round5|]. intros [[[? ?] ?] ?] [[[? ?] ?] ?] _.
  eapply (vrel_bind _ _ _ _ any); [now apply same_c_sse41_row_round6|]. intros [[[? ?] ?] ?] [[[? ?] ?] ?] _.
  eapply (vrel_bind _ _ _ _ any); [now apply same_c_sse41_row_round7|]. intros [[[? ?] ?] ?] [[[? ?] ?] ?] _.
  split; [reflexivity|exact I].
Qed.
Lemma same_avx512_comp : same_comp cv_compress_avx512.
Proof.
  intros cv b n o f cv' b' n' o' f'. unfold cv_compress_avx512. pose proof z_same as A.
  do 12 (eapply (vrel_bind _ _ _ _ any); [split; [reflexivity|exact I]|intros]).
  eapply (vrel_bind _ _ _ _ any); [now apply same_c_avx512_row_round1|]. intros [[[? ?] ?] ?] [[[? ?] ?] ?] _.
  eapply (vrel_bind _ _ _ _ any); [now apply same_c_avx512_row_round2|]. intros [[[? ?] ?] ?] [[[? ?] ?] ?] _.
  eapply (vrel_bind _ _ _ _ any); [now apply same_c_avx512_row_round3|]. intros [[[? ?] ?] ?] [[[? ?] ?] ?] _.
  eapply (vrel_bind _ _ _ _ any); [now apply same_c_avx512_row_round4|]. intros [[[? ?] ?] ?] [[[? ?] ?] ?] _.
  eapply (vrel_bind _ _ _ _ any); [now apply same_c_avx512_row_round5|]. intros [[[? ?] ?] ?] [[[? ?] ?] ?] _.
  eapply (vrel_bind _ _ _ _ any); [now apply same_c_avx512_row_round6|]. intros [[[? ?] ?] ?] [[[? ?] ?] ?] _.
  eapply (vrel_bind _ _ _ _ any); [now apply same_c_avx512_row_round7|]. intros [[[? ?] ?] ?] [[[? ?] ?] ?] _.
  split; [reflexivity|exact I].
Qed.

Lemma same_c_portable : same_comp cv_compress_portable.
Proof.
  intros cv b n o f cv' b' n' o' f'. split; [|exact I]. cbn [cv_compress_portable fst].
  apply (f_equal (map Scalar)). apply steps_c_compress.
Qed.

Lemma same_index : forall (d d' : list N) i, like d d' -> relr any (index d i) (index d' i).
Proof.
  intros d d' i L. unfold index, like, len in *.
  assert (Q : length d = length d') by lia.
  destruct (nth_error d (N.to_nat i)) eqn:E, (nth_error d' (N.to_nat i)) eqn:E'; try exact I.
  - apply nth_error_None in E'. assert (nth_error d (N.to_nat i) <> None) as X by congruence.
    apply nth_error_Some in X. lia.
  - apply nth_error_None in E. assert (nth_error d' (N.to_nat i) <> None) as X by congruence.
    apply nth_error_Some in X. lia.
Qed.
Lemma same_slice : forall (d d' : list N) i n, like d d' -> relr like (slice d i n) (slice d' i n).
Proof.
  intros d d' i n L. unfold slice. rewrite <- L. destruct (_ <=? _); [|exact I].
  apply like_take, like_drop, L.
Qed.
Lemma same_deltas : forall n o o' d d', like d d' ->
  vrel any (cv_delta_offsets n o d) (cv_delta_offsets n o' d').
Proof.
  intros. unfold cv_delta_offsets. apply same_map. intros i.
  eapply (vrel_bind _ _ _ _ any); [split; [reflexivity|now apply same_index]|]. intros. now apply vrel_ok.
Qed.
Lemma same_load_offsets : forall n o o' d d', like d d' ->
  vrel any (cv_load_offsets n o d) (cv_load_offsets n o' d').
Proof.
  intros. unfold cv_load_offsets.
  eapply (vrel_bind _ _ _ _ any); [now apply same_deltas|]. intros.
  eapply (vrel_bind _ _ _ _ any); [now apply vrel_ok|]. intros.
  eapply (vrel_bind _ _ _ _ any); [now apply same_deltas|]. intros. split; [reflexivity|exact I].
Qed.
Lemma same_z_load_offsets : forall n o o' d d', like d d' ->
  vrel any (cv_z_load_offsets n o d) (cv_z_load_offsets n o' d').
Proof.
  intros. unfold cv_z_load_offsets.
  eapply (vrel_bind _ _ _ _ any); [now apply vrel_ok|]. intros.
  eapply vrel_bind; [split; [reflexivity|now apply same_slice]|]. intros. split; [reflexivity|exact I].
Qed.
Lemma same_z_load_offsets16 : forall o o' d d', like d d' ->
  vrel any (cv_z_load_offsets16 o d) (cv_z_load_offsets16 o' d').
Proof.
  intros. unfold cv_z_load_offsets16.
  eapply (vrel_bind _ _ _ _ any); [now apply vrel_ok|]. intros.
  eapply vrel_bind; [split; [reflexivity|now apply same_slice]|]. intros.
  eapply (vrel_bind _ _ _ _ any); [now apply vrel_ok|]. intros.
  eapply (vrel_bind _ _ _ _ any); [now apply vrel_ok|]. intros.
  eapply vrel_bind; [split; [reflexivity|now apply same_slice]|]. intros. split; [reflexivity|exact I].
Qed.
Definition same_transpose (t : list vec -> vs (list vec)) : Prop := forall v v', vrel any (t v) (t v').
Lemma same_s_transpose : same_transpose cv_s_transpose.
Proof. intros v v'. split; [reflexivity|exact I]. Qed.
Lemma same_a_transpose : same_transpose cv_a_transpose.
Proof. intros v v'. split; [reflexivity|exact I]. Qed.
Lemma same_z_transpose4 : same_transpose cv_z_transpose4.
Proof. intros v v'. split; [reflexivity|exact I]. Qed.
Lemma same_z_transpose16 : same_transpose cv_z_transpose16.
Proof. intros v v'. split; [reflexivity|exact I]. Qed.
Lemma same_n_transpose : same_transpose cv_n_transpose.
Proof. intros v v'. split; [reflexivity|exact I]. Qed.
Lemma same_c_msg4 : forall t, same_transpose t -> forall k xs ys bo, L2 like xs ys ->
  vrel any (cv_msg4 t k xs bo) (cv_msg4 t k ys bo).
Proof.
  intros t T * X. unfold cv_msg4. eapply (vrel_bind _ _ _ _ any); [now apply same_load_grid|]. intros.
  do 4 (eapply (vrel_bind _ _ _ _ any); [apply T|]; intros). now apply vrel_ok.
Qed.
Lemma same_c_msg8 : forall k xs ys bo, L2 like xs ys -> vrel any (cv_msg8 k xs bo) (cv_msg8 k ys bo).
Proof.
  intros * X. unfold cv_msg8. eapply (vrel_bind _ _ _ _ any); [now apply same_load_grid|]. intros.
  do 2 (eapply (vrel_bind _ _ _ _ any); [apply same_a_transpose|]; intros). now apply vrel_ok.
Qed.
Lemma same_c_msg16 : forall k xs ys bo, L2 like xs ys -> vrel any (cv_msg16 k xs bo) (cv_msg16 k ys bo).
Proof.
  intros * X. unfold cv_msg16. eapply (vrel_bind _ _ _ _ any); [now apply same_load_grid|]. intros.
  apply same_z_transpose16.
Qed.
Definition same_offs (l : N -> list N -> vs (vec * vec)) : Prop :=
  forall o o' d d', like d d' -> vrel any (l o d) (l o' d').
Lemma same_c_hash4 : forall S code t l, same_ops S -> same_transpose t -> same_offs l ->
  forall k xs ys blocks key key' o o' d d' fl fs fe fl' fs' fe', L2 like xs ys -> like d d' ->
  vrel any (cv_hash4 S code t l k xs blocks key o d fl fs fe) (cv_hash4 S code t l k ys blocks key' o' d' fl' fs' fe').
Proof.
  intros S code t l A T L * X D. unfold cv_hash4.
  eapply (vrel_bind _ _ _ _ any); [apply same_map; intros; split; [reflexivity|exact I]|]. intros.
  eapply (vrel_bind _ _ _ _ any); [now apply L|]. intros [lo hi] [lo' hi'] _.
  eapply (vrel_bind _ _ _ _ any); [apply same_loop; [exact A|intros; now apply same_c_msg4]|]. intros.
  do 2 (eapply (vrel_bind _ _ _ _ any); [apply T|]; intros). cbv zeta.
  eapply (vrel_bind _ _ _ _ any); [apply same_map; intros; split; [reflexivity|exact I]|]. intros. now apply vrel_ok.
Qed.
Lemma same_c_hash8 : forall S code l, same_ops S -> same_offs l ->
  forall k xs ys blocks key key' o o' d d' fl fs fe fl' fs' fe', L2 like xs ys -> like d d' ->
  vrel any (cv_hash8 S code l k xs blocks key o d fl fs fe) (cv_hash8 S code l k ys blocks key' o' d' fl' fs' fe').
Proof.
  intros S code l A L * X D. unfold cv_hash8.
  eapply (vrel_bind _ _ _ _ any); [apply same_map; intros; split; [reflexivity|exact I]|]. intros.
  eapply (vrel_bind _ _ _ _ any); [now apply L|]. intros [lo hi] [lo' hi'] _.
  eapply (vrel_bind _ _ _ _ any); [apply same_loop; [exact A|intros; now apply same_c_msg8]|]. intros.
  eapply (vrel_bind _ _ _ _ any); [apply same_a_transpose|]; intros.
  eapply (vrel_bind _ _ _ _ any); [apply same_map; intros; split; [reflexivity|exact I]|]. intros. now apply vrel_ok.
Qed.
Lemma same_c_hash16 :
  forall k xs ys blocks key key' o o' d d' fl fs fe fl' fs' fe', L2 like xs ys -> like d d' ->
  vrel any (cv_hash16_avx512 k xs blocks key o d fl fs fe) (cv_hash16_avx512 k ys blocks key' o' d' fl' fs' fe').
Proof.
  intros * X D. unfold cv_hash16_avx512.
  eapply (vrel_bind _ _ _ _ any); [apply same_map; intros; split; [reflexivity|exact I]|]. intros.
  eapply (vrel_bind _ _ _ _ any); [now apply same_z_load_offsets16|]. intros [lo hi] [lo' hi'] _.
  eapply (vrel_bind _ _ _ _ any); [apply same_loop; [apply z_same|intros; now apply same_c_msg16]|]. intros.
  eapply (vrel_bind _ _ _ _ any); [split; [reflexivity|exact I]|]. intros.
  eapply (vrel_bind _ _ _ _ any); [apply same_z_transpose16|]; intros.
  eapply (vrel_bind _ _ _ _ any); [apply same_map; intros; split; [reflexivity|exact I]|]. intros. now apply vrel_ok.
Qed.

Lemma same_one_loop : forall vc, same_comp vc ->
  forall blocks k p st x o bf fl fe st' y o' bf' fl' fe', like x y ->
  vrel any (cv_hash_one_loop vc k p blocks st x o bf fl fe) (cv_hash_one_loop vc k p blocks st' y o' bf' fl' fe').
Proof.
  intros vc H. induction blocks as [|blocks IH]; intros * L; cbn [cv_hash_one_loop]; [now apply vrel_ok|].
  cbv zeta. eapply vrel_bind; [split; [reflexivity|now apply same_slice]|]. intros.
  eapply (vrel_bind _ _ _ _ any); [apply H|]. intros. apply IH. now apply like_drop.
Qed.
Definition same_one (h h' : nat -> list N -> N -> vs (list N)) : Prop :=
  forall k x y o o', like x y -> vrel any (h k x o) (h' k y o').
Lemma same_hash_one : forall vc, same_comp vc -> forall blocks key key' fl fs fe fl' fs' fe',
  same_one (cv_hash_one vc blocks key fl fs fe) (cv_hash_one vc blocks key' fl' fs' fe').
Proof.
  intros vc H * k x y o o' L. unfold cv_hash_one.
  eapply (vrel_bind _ _ _ _ any); [now apply vrel_ok|]. intros.
  eapply (vrel_bind _ _ _ _ any); [now apply same_one_loop|]. intros. now apply vrel_ok.
Qed.
Lemma same_hash_one_portable : forall blocks key key' fl fs fe fl' fs' fe',
  same_one (cv_hash_one_portable blocks key fl fs fe) (cv_hash_one_portable blocks key' fl' fs' fe').
Proof.
  intros * k x y o o' L. unfold cv_hash_one_portable.
  eapply (vrel_bind _ _ _ _ any); [now apply vrel_ok|]. intros.
  eapply (vrel_bind _ _ _ _ any); [apply same_one_loop; [apply same_c_portable|exact L]|]. intros.
  split; [reflexivity|exact I].
Qed.
Definition same_rest (r r' : nat -> list (list N) -> N -> list N -> vs (list N)) : Prop :=
  forall k xs ys o o' out out', L2 like xs ys -> like out out' -> vrel any (r k xs o out) (r' k ys o' out').
Lemma same_many_loop : forall degree h h' r r',
  (forall k xs ys o o', L2 like xs ys -> vrel any (h k xs o) (h' k ys o')) -> same_rest r r' ->
  forall fuel k xs ys o o' d d' out out', L2 like xs ys -> like d d' -> like out out' ->
  vrel any (cv_many_loop fuel degree h r k xs o d out) (cv_many_loop fuel degree h' r' k ys o' d' out').
Proof.
  intros degree h h' r r' H Hr. induction fuel as [|fuel IH]; intros * X D L; cbn [cv_many_loop];
    rewrite (L2_len _ _ _ _ _ X); destruct (_ <=? _); try (now apply Hr); try (now apply vrel_lift).
  eapply (vrel_bind _ _ _ _ any); [apply H; now apply L2_take|]. intros.
  eapply (vrel_bind _ _ _ _ any); [split; [reflexivity|now apply same_index]|]. intros. cbv zeta.
  eapply (vrel_bind _ _ _ _ like).
  { apply vrel_lift. unfold slice_from. rewrite <- L. destruct (_ <=? _); [|exact I]. now apply like_drop. }
  intros. eapply (vrel_bind _ _ _ _ any); [apply IH; auto; now apply L2_drop|]. intros. now apply vrel_ok.
Qed.
Lemma same_single : forall h h', same_one h h' -> forall d d', like d d' ->
  same_rest (cv_single_loop h d) (cv_single_loop h' d').
Proof.
  intros h h' H d d' D k xs ys o o' out out' X L. unfold cv_single_loop.
  rewrite <- (L2_length _ _ _ _ _ X). apply same_many_loop; auto.
  - intros k' xs' ys' p p' X'. destruct X'; cbn [index nth_error]; [now apply vrel_lift|].
    eapply (vrel_bind _ _ _ _ like); [now apply vrel_ok|]. intros. now apply H.
  - intros ? ? ? ? ? ? ? _ _. now apply vrel_ok.
Qed.
Lemma same_c_many4 : forall k xs ys blocks key key' o o' d d' fl fs fe fl' fs' fe' out out',
  L2 like xs ys -> like d d' -> like out out' ->
  vrel any (cv_hash_many_sse41 k xs blocks key o d fl fs fe out)
           (cv_hash_many_sse41 k ys blocks key' o' d' fl' fs' fe' out').
Proof.
  intros * X D L. unfold cv_hash_many_sse41. rewrite <- (L2_length _ _ _ _ _ X). apply same_many_loop; auto.
  - intros. apply same_c_hash4; auto; [apply s_same|apply same_s_transpose|exact (same_load_offsets 4)].
  - apply same_single; auto. apply same_hash_one, same_sse41_comp.
Qed.
Lemma same_c_many : forall opt k xs ys blocks key key' o o' d d' fl fs fe fl' fs' fe' out out',
  L2 like xs ys -> like d d' -> like out out' ->
  vrel any (cv_hash_many opt k xs blocks key o d fl fs fe out)
           (cv_hash_many opt k ys blocks key' o' d' fl' fs' fe' out').
Proof.
  intros * X D L. unfold cv_hash_many.
  destruct (use_avx512 opt); [|destruct (use_avx2 opt); [|destruct (use_sse41 opt); [|destruct (use_neon opt)]]].
  - unfold cv_hash_many_avx512. rewrite <- (L2_length _ _ _ _ _ X). apply same_many_loop; auto.
    { intros. now apply same_c_hash16. }
    intros k1 xs1 ys1 o1 o1' out1 out1' X1 L1. rewrite <- (L2_length _ _ _ _ _ X1). apply same_many_loop; auto.
    { intros. apply same_c_hash8; auto; [apply z_same|exact (same_z_load_offsets 8)]. }
    intros k2 xs2 ys2 o2 o2' out2 out2' X2 L2'. rewrite <- (L2_length _ _ _ _ _ X2). apply same_many_loop; auto.
    { intros. apply same_c_hash4; auto; [apply z_same|apply same_z_transpose4|exact (same_z_load_offsets 4)]. }
    apply same_single; auto. apply same_hash_one, same_avx512_comp.
  - unfold cv_hash_many_avx2. rewrite <- (L2_length _ _ _ _ _ X). apply same_many_loop; auto.
    { intros. apply same_c_hash8; auto; [apply a_same|exact (same_load_offsets 8)]. }
    intros k1 xs1 ys1 o1 o1' out1 out1' X1 L1. now apply same_c_many4.
  - now apply same_c_many4.
  - unfold cv_hash_many_neon. rewrite <- (L2_length _ _ _ _ _ X). apply same_many_loop; auto.
    { intros. apply same_c_hash4; auto; [apply n_same|apply same_n_transpose|exact (same_load_offsets 4)]. }
    apply same_single; auto. apply same_hash_one, same_c_portable.
  - unfold cv_hash_many_portable. apply same_single; auto. apply same_hash_one_portable.
Qed.
Lemma same_c_compress : forall opt, same_comp (cv_compress opt).
Proof.
  intros opt. unfold cv_compress. destruct (use_avx512 opt); [|destruct (use_sse41 opt)].
  - exact same_avx512_comp.
  - exact same_sse41_comp.
  - exact same_c_portable.
Qed.
