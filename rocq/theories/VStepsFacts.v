(* The functions of VSteps.v return what the functions of Sse41.v, Avx2.v, Portable.v and
   Platform.v return, and their steps depend only on lengths and offsets. *)
From Coq Require Import NArith List Bool Lia ZArith.
From Coq Require Import ZifyBool ZifyNat ZifyN.
From Verif Require Import Base BaseFacts Portable Simd SimdGen SimdHash SecretFacts.
From Verif Require Import Steps StepsFacts VOps VSimdGen VSteps.
From Verif Require Sse41 Avx2 Platform.
Import ListNotations.
Open Scope N_scope.

(* ---- returned values ---- *)

Definition vret {A : Type} (t : vs A) (r : res A) : Prop := snd t = r.

Lemma vret_lift : forall A (r : res A), vret (vlift r) r.
Proof. reflexivity. Qed.
Lemma vret_pure : forall A l (r : res A), vret (l, r) r.
Proof. reflexivity. Qed.
Lemma vret_bind : forall A B (m : vs A) r (f : A -> vs B) g,
  vret m r -> (forall x, vret (f x) (g x)) -> vret (vbind m f) (bind r g).
Proof.
  intros A B [l q] r f g Hm Hf. unfold vret, vbind in *. cbn [snd] in Hm. subst q.
  destruct r as [x| |]; cbn [bind]; try reflexivity.
  specialize (Hf x). destruct (f x) as [l' r']. exact Hf.
Qed.
Lemma vret_val : forall A B (m : vs A) v (f : A -> vs B) r,
  vret m (Ok v) -> vret (f v) r -> vret (vbind m f) r.
Proof.
  intros A B [l q] v f r Hm Hf. unfold vret, vbind in *. cbn [snd] in Hm. subst q.
  destruct (f v) as [l' r']. exact Hf.
Qed.
Lemma vret_op1 : forall o a, vret (op1 o a) (Ok (sem1 o a)).
Proof. reflexivity. Qed.
Lemma vret_op2 : forall o a b, vret (op2 o a b) (Ok (sem2 o a b)).
Proof. reflexivity. Qed.

(* the noted operations of a round compute the operations of SimdHash.v *)
Definition agree (S : svops) (O : vops vec) : Prop :=
  v_nil O = [] /\
  (forall a b, vret (sv_add S a b) (Ok (v_add O a b))) /\
  (forall a b, vret (sv_xor S a b) (Ok (v_xor O a b))) /\
  (forall a, vret (sv_rot16 S a) (Ok (v_rot16 O a))) /\
  (forall a, vret (sv_rot12 S a) (Ok (v_rot12 O a))) /\
  (forall a, vret (sv_rot8 S a) (Ok (v_rot8 O a))) /\
  (forall a, vret (sv_rot7 S a) (Ok (v_rot7 O a))).

Lemma sse41_agree : agree sse41_vops Sse41.ops.
Proof. repeat split. Qed.
Lemma avx2_agree : agree avx2_vops Avx2.ops.
Proof. repeat split. Qed.

Section Rows.
Variable S : svops.
Variable O : vops vec.
Hypothesis A : agree S O.

Ltac ag := destruct A as (An & Aa & Ax & A16 & A12 & A8 & A7).

Lemma v_g1_value : forall a b c d m, vret (v_g1 S a b c d m) (Ok (g1 O a b c d m)).
Proof.
  ag. intros. unfold v_g1, g1.
  do 7 (eapply vret_val; [first [apply Aa|apply Ax|apply A16|apply A12]|]). reflexivity.
Qed.
Lemma v_g2_value : forall a b c d m, vret (v_g2 S a b c d m) (Ok (g2 O a b c d m)).
Proof.
  ag. intros. unfold v_g2, g2.
  do 7 (eapply vret_val; [first [apply Aa|apply Ax|apply A8|apply A7]|]). reflexivity.
Qed.
Lemma v_diag_value : forall a c d, vret (v_diagonalize a c d) (Ok (diagonalize a c d)).
Proof. reflexivity. Qed.
Lemma v_undiag_value : forall a c d, vret (v_undiagonalize a c d) (Ok (undiagonalize a c d)).
Proof. reflexivity. Qed.

Ltac row_step :=
  lazymatch goal with
  | |- vret (vbind (v_g1 S ?a ?b ?c ?d ?m) _) _ =>
      eapply vret_val; [apply v_g1_value|]; cbv beta; destruct (g1 O a b c d m) as [[[? ?] ?] ?]
  | |- vret (vbind (v_g2 S ?a ?b ?c ?d ?m) _) _ =>
      eapply vret_val; [apply v_g2_value|]; cbv beta; destruct (g2 O a b c d m) as [[[? ?] ?] ?]
  | |- vret (vbind (v_diagonalize ?a ?c ?d) _) _ =>
      eapply vret_val; [apply v_diag_value|]; cbv beta; destruct (diagonalize a c d) as [[? ?] ?]
  | |- vret (vbind (v_undiagonalize ?a ?c ?d) _) _ =>
      eapply vret_val; [apply v_undiag_value|]; cbv beta; destruct (undiagonalize a c d) as [[? ?] ?]
  | |- vret (vbind (op1 _ _) _) _ => eapply vret_val; [apply vret_op1|]; cbv beta; cbn [sem1]
  | |- vret (vbind (op2 _ _ _) _) _ => eapply vret_val; [apply vret_op2|]; cbv beta; cbn [sem2]
  end.
Ltac row_round := intros; cbv zeta; repeat row_step; reflexivity.

Lemma v_row1 : forall m0 m1 m2 m3 a b c d,
  vret (v_sse41_row_round1 S m0 m1 m2 m3 a b c d) (Ok (sse41_row_round1 O m0 m1 m2 m3 a b c d)).
Proof. unfold v_sse41_row_round1, sse41_row_round1. row_round. Qed.
Lemma v_row2 : forall m0 m1 m2 m3 a b c d,
  vret (v_sse41_row_round2 S m0 m1 m2 m3 a b c d) (Ok (sse41_row_round2 O m0 m1 m2 m3 a b c d)).
Proof. unfold v_sse41_row_round2, sse41_row_round2. row_round. Qed.
Lemma v_row3 : forall m0 m1 m2 m3 a b c d,
  vret (v_sse41_row_round3 S m0 m1 m2 m3 a b c d) (Ok (sse41_row_round3 O m0 m1 m2 m3 a b c d)).
Proof. unfold v_sse41_row_round3, sse41_row_round3. row_round. Qed.
Lemma v_row4 : forall m0 m1 m2 m3 a b c d,
  vret (v_sse41_row_round4 S m0 m1 m2 m3 a b c d) (Ok (sse41_row_round4 O m0 m1 m2 m3 a b c d)).
Proof. unfold v_sse41_row_round4, sse41_row_round4. row_round. Qed.
Lemma v_row5 : forall m0 m1 m2 m3 a b c d,
  vret (v_sse41_row_round5 S m0 m1 m2 m3 a b c d) (Ok (sse41_row_round5 O m0 m1 m2 m3 a b c d)).
Proof. unfold v_sse41_row_round5, sse41_row_round5. row_round. Qed.
Lemma v_row6 : forall m0 m1 m2 m3 a b c d,
  vret (v_sse41_row_round6 S m0 m1 m2 m3 a b c d) (Ok (sse41_row_round6 O m0 m1 m2 m3 a b c d)).
Proof. unfold v_sse41_row_round6, sse41_row_round6. row_round. Qed.
Lemma v_row7 : forall m0 m1 m2 m3 a b c d,
  vret (v_sse41_row_round7 S m0 m1 m2 m3 a b c d) (Ok (sse41_row_round7 O m0 m1 m2 m3 a b c d)).
Proof. unfold v_sse41_row_round7, sse41_row_round7. row_round. Qed.

(* ---- the transposed rounds ---- *)

Lemma v_exec_value : forall m r v i, vret (v_exec_instr S m r v i) (Ok (exec_instr O m r v i)).
Proof.
  ag. intros m r v i. unfold exec_instr. rewrite An.
  destruct i; cbn [v_exec_instr]; try (eapply vret_val; [auto|reflexivity]).
  eapply vret_val; [reflexivity|]. eapply vret_val; [apply Aa|reflexivity].
Qed.
Lemma v_run_value : forall code v m r,
  vret (v_run_round S code v m r) (Ok (run_round O code v m r)).
Proof.
  induction code as [|i code IH]; intros; [reflexivity|]. cbn [v_run_round].
  eapply vret_val; [apply v_exec_value|]. apply IH.
Qed.
Lemma v_map_value : forall {X Y : Type} (f : X -> vs Y) g xs,
  (forall x, vret (f x) (Ok (g x))) -> vret (v_map f xs) (Ok (map g xs)).
Proof.
  intros X Y f g xs H. induction xs as [|x xs IH]; [reflexivity|]. cbn [v_map map].
  eapply vret_val; [apply H|]. eapply vret_val; [apply IH|]. reflexivity.
Qed.
Lemma v_vec_compress_value : forall code n h msg lo hi bl bf,
  vret (v_vec_compress S code n h msg lo hi bl bf)
       (Ok (vec_compress O code (set1_epi32 n) h msg lo hi bl bf)).
Proof.
  intros. unfold v_vec_compress, vec_compress.
  eapply vret_val; [apply (v_map_value _ (fun i => set1_epi32 n (get IV i))); reflexivity|].
  cbv zeta. do 7 (eapply vret_val; [apply v_run_value|]).
  destruct A as (-> & _ & Ax & _).
  apply v_map_value. intros. apply Ax.
Qed.
Lemma v_loop_value : forall code n lv l, (forall x, vret (lv x) (l x)) ->
  forall todo block blocks h lo hi bf fl fe,
  vret (v_vec_hash_loop S code n lv todo block blocks h lo hi bf fl fe)
       (vec_hash_loop O code (set1_epi32 n) l todo block blocks h lo hi bf fl fe).
Proof.
  intros code n lv l H. induction todo as [|todo IH]; intros; [reflexivity|].
  cbn [v_vec_hash_loop vec_hash_loop]. cbv zeta.
  eapply vret_val; [reflexivity|]. eapply vret_val; [reflexivity|].
  apply vret_bind; [apply H|]. intros msg.
  eapply vret_val; [apply v_vec_compress_value|]. apply IH.
Qed.
End Rows.

(* ---- sse41.rs ---- *)

Lemma sse41_inner_value : forall cv b n o f,
  vret (sse41_v_compress_inner cv b n o f) (Ok (Sse41.compress_inner cv b n o f)).
Proof.
  intros. unfold sse41_v_compress_inner, Sse41.compress_inner.
  do 12 (eapply vret_val; [reflexivity|]; cbv beta).
  change (get IV 0) with 0x6A09E667. change (get IV 1) with 0xBB67AE85.
  change (get IV 2) with 0x3C6EF372. change (get IV 3) with 0xA54FF53A.
  cbv zeta.
  generalize (words_of_bytes (take 16 (drop 0 b))) as m0.
  generalize (words_of_bytes (take 16 (drop 16 b))) as m1.
  generalize (words_of_bytes (take 16 (drop 32 b))) as m2.
  generalize (words_of_bytes (take 16 (drop 48 b))) as m3. intros m3 m2 m1 m0.
  pose proof sse41_agree as A.
  eapply vret_val; [apply v_row1, A|]; cbv beta; destruct (sse41_row_round1 _ _ _ _ _ _ _ _ _) as [[[? ?] ?] ?].
  eapply vret_val; [apply v_row2, A|]; cbv beta; destruct (sse41_row_round2 _ _ _ _ _ _ _ _ _) as [[[? ?] ?] ?].
  eapply vret_val; [apply v_row3, A|]; cbv beta; destruct (sse41_row_round3 _ _ _ _ _ _ _ _ _) as [[[? ?] ?] ?].
  eapply vret_val; [apply v_row4, A|]; cbv beta; destruct (sse41_row_round4 _ _ _ _ _ _ _ _ _) as [[[? ?] ?] ?].
  eapply vret_val; [apply v_row5, A|]; cbv beta; destruct (sse41_row_round5 _ _ _ _ _ _ _ _ _) as [[[? ?] ?] ?].
  eapply vret_val; [apply v_row6, A|]; cbv beta; destruct (sse41_row_round6 _ _ _ _ _ _ _ _ _) as [[[? ?] ?] ?].
  eapply vret_val; [apply v_row7, A|]; cbv beta; destruct (sse41_row_round7 _ _ _ _ _ _ _ _ _) as [[[? ?] ?] ?].
  reflexivity.
Qed.
Lemma sse41_compress_value : forall cv b n o f,
  vret (sse41_v_compress cv b n o f) (Ok (Sse41.compress cv b n o f)).
Proof.
  intros. unfold sse41_v_compress, Sse41.compress.
  eapply vret_val; [apply sse41_inner_value|]. cbv beta zeta.
  generalize (Sse41.compress_inner cv b n o f). reflexivity.
Qed.
Lemma sse41_xof_value : forall cv b n o f,
  vret (sse41_v_compress_xof cv b n o f) (Ok (Sse41.compress_xof cv b n o f)).
Proof.
  intros. unfold sse41_v_compress_xof, Sse41.compress_xof.
  eapply vret_val; [apply sse41_inner_value|]. cbv beta zeta.
  generalize (Sse41.compress_inner cv b n o f). reflexivity.
Qed.
Lemma sse41_transpose_value : forall v,
  vret (sse41_v_transpose_vecs v) (Ok (Sse41.transpose_vecs v)).
Proof. reflexivity. Qed.
Lemma avx2_transpose_value : forall v,
  vret (avx2_v_transpose_vecs v) (Ok (Avx2.transpose_vecs v)).
Proof. reflexivity. Qed.

Lemma seq_res_app : forall X (a b : list (res X)),
  seq_res (a ++ b) = let* x := seq_res a in let* y := seq_res b in Ok (x ++ y).
Proof.
  induction a as [|[x| |] a IH]; intros b; cbn [app seq_res bind]; try reflexivity.
  - destruct (seq_res b); reflexivity.
  - rewrite IH. destruct (seq_res a); cbn [bind]; try reflexivity.
    destruct (seq_res b); reflexivity.
Qed.
Lemma v_load_row_value : forall bytes inputs k off,
  vret (v_load_row k bytes inputs off) (seq_res (map (fun i => loadu bytes i off) inputs)).
Proof.
  intros bytes. induction inputs as [|i inputs IH]; intros; [reflexivity|].
  cbn [v_load_row map seq_res]. apply vret_bind; [reflexivity|]. intros x.
  apply vret_bind; [apply IH|]. reflexivity.
Qed.
Lemma v_load_grid_value : forall k bytes inputs bo cols,
  vret (v_load_grid k bytes inputs bo cols) (load_grid bytes inputs bo cols).
Proof.
  intros k bytes inputs bo. unfold load_grid. induction cols as [|col cols IH]; [reflexivity|].
  cbn [v_load_grid flat_map]. rewrite seq_res_app.
  apply vret_bind; [apply v_load_row_value|]. intros x.
  apply vret_bind; [apply IH|]. reflexivity.
Qed.
Lemma sse41_msgs_value : forall k inputs bo,
  vret (sse41_v_transpose_msg_vecs k inputs bo) (Sse41.transpose_msg_vecs inputs bo).
Proof.
  intros. unfold sse41_v_transpose_msg_vecs, Sse41.transpose_msg_vecs.
  apply vret_bind; [apply v_load_grid_value|]. intros v.
  do 4 (eapply vret_val; [apply sse41_transpose_value|]). reflexivity.
Qed.
Lemma avx2_msgs_value : forall k inputs bo,
  vret (avx2_v_transpose_msg_vecs k inputs bo) (Avx2.transpose_msg_vecs inputs bo).
Proof.
  intros. unfold avx2_v_transpose_msg_vecs, Avx2.transpose_msg_vecs.
  apply vret_bind; [apply v_load_grid_value|]. intros v.
  do 2 (eapply vret_val; [apply avx2_transpose_value|]). reflexivity.
Qed.
Lemma v_offsets_value : forall c n off d,
  vret (v_load_offsets c n off d)
       (let* offs := lane_offsets c n off d in Ok (map offset_low offs, map offset_high offs)).
Proof. intros. unfold v_load_offsets. apply vret_bind; reflexivity. Qed.

Lemma hash4_value : forall c k inputs blocks key off d fl fs fe,
  vret (sse41_v_hash4 c k inputs blocks key off d fl fs fe)
       (Sse41.hash4 c inputs blocks key off d fl fs fe).
Proof.
  intros. unfold sse41_v_hash4, Sse41.hash4.
  eapply vret_val; [apply (v_map_value _ (fun i => set1_epi32 4 (get key i))); reflexivity|].
  apply vret_bind; [apply v_offsets_value|]. intros [lo hi].
  apply vret_bind; [apply v_loop_value; [apply sse41_agree|apply sse41_msgs_value]|]. intros h.
  do 2 (eapply vret_val; [apply sse41_transpose_value|]). cbv zeta.
  generalize (Sse41.transpose_vecs (firstn 4 h) ++ Sse41.transpose_vecs (skipn 4 h)). reflexivity.
Qed.
Lemma hash8_value : forall c k inputs blocks key off d fl fs fe,
  vret (avx2_v_hash8 c k inputs blocks key off d fl fs fe)
       (Avx2.hash8 c inputs blocks key off d fl fs fe).
Proof.
  intros. unfold avx2_v_hash8, Avx2.hash8.
  eapply vret_val; [apply (v_map_value _ (fun i => set1_epi32 8 (get key i))); reflexivity|].
  apply vret_bind; [apply v_offsets_value|]. intros [lo hi].
  apply vret_bind; [apply v_loop_value; [apply avx2_agree|apply avx2_msgs_value]|]. intros h.
  eapply vret_val; [apply avx2_transpose_value|]. cbv zeta.
  generalize (Avx2.transpose_vecs h). reflexivity.
Qed.

(* ---- hash1, hash_many ---- *)

Definition comp_value (vc : list N -> list N -> N -> N -> N -> vs (list N))
  (comp : list N -> list N -> N -> N -> N -> list N) : Prop :=
  forall cv b n o f, vret (vc cv b n o f) (Ok (comp cv b n o f)).

Lemma hash1_loop_value : forall vc comp, comp_value vc comp ->
  forall fuel k p cv slice off bf fl fe,
  vret (v_hash1_loop vc k p fuel cv slice off bf fl fe)
       (hash1_loop comp fuel cv slice off bf fl fe).
Proof.
  intros vc comp H. induction fuel as [|fuel IH]; intros; cbn [v_hash1_loop hash1_loop];
    destruct (BLOCK_LEN <=? len slice); try reflexivity.
  cbv zeta. eapply vret_val; [reflexivity|]. eapply vret_val; [apply H|]. apply IH.
Qed.
Lemma hash1_value : forall vc comp, comp_value vc comp -> forall c k input key off fl fs fe,
  vret (v_hash1 c vc k input key off fl fs fe)
       (dassert c (len input mod BLOCK_LEN =? 0) ;;
        let* cv := hash1_loop comp (length input) key input off (N.lor fl fs) fl fe in
        Ok (bytes_of_words cv)).
Proof.
  intros. unfold v_hash1. apply vret_bind; [reflexivity|]. intros _.
  eapply vret_val; [reflexivity|]. apply vret_bind; [now apply hash1_loop_value|]. reflexivity.
Qed.
Lemma hash_each_value : forall c vh h, (forall k i o, vret (vh k i o) (h i o)) ->
  forall inputs k off d out,
  vret (v_hash_each c vh k inputs off d out) (hash_each c h inputs off d out).
Proof.
  intros c vh h H. induction inputs as [|i inputs IH]; intros; [reflexivity|].
  cbn [v_hash_each hash_each]. destruct (OUT_LEN <=? len out); [|reflexivity].
  apply vret_bind; [apply H|]. intros x. apply vret_bind; [reflexivity|]. intros o.
  apply vret_bind; [apply IH|]. reflexivity.
Qed.
Lemma batch_value : forall c degree vh h vrest rest,
  (forall k i o, vret (vh k i o) (h i o)) ->
  (forall k i o out, vret (vrest k i o out) (rest i o out)) ->
  forall fuel k inputs off d out,
  vret (v_batch_loop c fuel degree vh vrest k inputs off d out)
       (batch_loop c fuel degree h rest inputs off d out).
Proof.
  intros c degree vh h vrest rest H Hr. induction fuel as [|fuel IH]; intros;
    cbn [v_batch_loop batch_loop]; destruct (_ && _); try apply Hr; [reflexivity|].
  apply vret_bind; [apply H|]. intros x. apply vret_bind; [reflexivity|]. intros y.
  apply vret_bind; [reflexivity|]. intros z. apply vret_bind; [apply IH|]. reflexivity.
Qed.
Lemma sse41_many_value : forall c cap k inputs key off d fl fs fe out,
  vret (sse41_v_hash_many c cap k inputs key off d fl fs fe out)
       (Sse41.hash_many c cap inputs key off d fl fs fe out).
Proof.
  intros. unfold sse41_v_hash_many, Sse41.hash_many. apply vret_bind; [reflexivity|]. intros _.
  apply batch_value.
  - intros. apply hash4_value.
  - intros. apply hash_each_value. intros. unfold Sse41.hash1. apply hash1_value.
    intros x y z u v. apply sse41_compress_value.
Qed.
Lemma avx2_many_value : forall c cap k inputs key off d fl fs fe out,
  vret (avx2_v_hash_many c cap k inputs key off d fl fs fe out)
       (Avx2.hash_many c cap inputs key off d fl fs fe out).
Proof.
  intros. unfold avx2_v_hash_many, Avx2.hash_many. apply vret_bind; [reflexivity|]. intros _.
  apply batch_value.
  - intros. apply hash8_value.
  - intros. apply sse41_many_value.
Qed.
Lemma p_compress_value : forall p cv b n o f,
  vret (p_compress p cv b n o f) (Ok (Platform.compress p cv b n o f)).
Proof. intros []; intros; [reflexivity|apply sse41_compress_value..]. Qed.
Lemma p_xof_value : forall p cv b n o f,
  vret (p_compress_xof p cv b n o f) (Ok (Platform.compress_xof p cv b n o f)).
Proof. intros []; intros; [reflexivity|apply sse41_xof_value..]. Qed.
Lemma p_many_value : forall c p cap inputs key off d fl fs fe out,
  vret (p_hash_many c p cap inputs key off d fl fs fe out)
       (Platform.hash_many c p cap inputs key off d fl fs fe out).
Proof.
  intros c [] *; cbn [p_hash_many Platform.hash_many].
  - unfold portable_v_hash_many, Portable.hash_many. apply vret_bind; [reflexivity|]. intros _.
    apply hash_each_value. intros. unfold Portable.hash1. apply hash1_value. intros x y z u v. reflexivity.
  - apply sse41_many_value.
  - apply avx2_many_value.
Qed.

(* ---- steps ---- *)

(* the same steps, and related results *)
Definition vrel {A A' : Type} (R : A -> A' -> Prop) (m : vs A) (m' : vs A') : Prop :=
  fst m = fst m' /\ relr R (snd m) (snd m').
Definition any {A A' : Type} (x : A) (y : A') : Prop := True.

Lemma vrel_bind : forall A A' B B' (R : A -> A' -> Prop) (Q : B -> B' -> Prop) m m' f f',
  vrel R m m' -> (forall a a', R a a' -> vrel Q (f a) (f' a')) -> vrel Q (vbind m f) (vbind m' f').
Proof.
  intros * [H1 H2] K. destruct m as [l r], m' as [l' r']. unfold vbind. cbn [fst snd] in *. subst l'.
  destruct r as [x| |], r' as [y| |]; cbn [relr] in H2; try contradiction; try (split; [reflexivity|exact I]).
  destruct (K _ _ H2) as [K1 K2]. destruct (f x) as [l1 r1], (f' y) as [l2 r2].
  cbn [fst snd] in *. subst l2. now split.
Qed.
Lemma vrel_lift : forall A A' (R : A -> A' -> Prop) r r', relr R r r' -> vrel R (vlift r) (vlift r').
Proof. intros * H. now split. Qed.
Lemma vrel_ok : forall A A' (R : A -> A' -> Prop) l a a', R a a' -> vrel R (l, Ok a) (l, Ok a').
Proof. intros * H. now split. Qed.
Lemma vrel_impl : forall A A' (R Q : A -> A' -> Prop) m m', vrel R m m' ->
  (forall a a', R a a' -> Q a a') -> vrel Q m m'.
Proof. intros * [H1 H2] K. split; [exact H1|]. eapply relr_impl; eauto. Qed.
Lemma vrel_refl : forall A (m : vs A), vrel eq m m.
Proof. intros. split; [reflexivity|apply relr_refl]. Qed.

(* Code that does the same whatever the values are: vbind of operations. *)
Ltac loose :=
  repeat first
    [ lazymatch goal with
      | |- vrel _ (vbind _ _) (vbind _ _) =>
          eapply (vrel_bind _ _ _ _ any);
            [|let a := fresh in let b := fresh in intros a b _;
              try (destruct a as [[[? ?] ?] ?], b as [[[? ?] ?] ?]);
              try (destruct a as [[? ?] ?], b as [[? ?] ?]); cbv beta iota zeta]
      end
    | solve [apply vrel_ok; exact I]
    | solve [split; [reflexivity|exact I]]
    | solve [auto] ].

Definition same_ops (S : svops) : Prop :=
  (forall a b a' b', vrel any (sv_add S a b) (sv_add S a' b')) /\
  (forall a b a' b', vrel any (sv_xor S a b) (sv_xor S a' b')) /\
  (forall a a', vrel any (sv_rot16 S a) (sv_rot16 S a')) /\
  (forall a a', vrel any (sv_rot12 S a) (sv_rot12 S a')) /\
  (forall a a', vrel any (sv_rot8 S a) (sv_rot8 S a')) /\
  (forall a a', vrel any (sv_rot7 S a) (sv_rot7 S a')).

Lemma sse41_same : same_ops sse41_vops.
Proof. repeat split. Qed.
Lemma avx2_same : same_ops avx2_vops.
Proof. repeat split. Qed.

Section SameRows.
Variable S : svops.
Hypothesis A : same_ops S.

Lemma same_g1 : forall a b c d m a' b' c' d' m',
  vrel any (v_g1 S a b c d m) (v_g1 S a' b' c' d' m').
Proof. destruct A as (Aa & Ax & A16 & A12 & A8 & A7). intros. unfold v_g1. loose. Qed.
Lemma same_g2 : forall a b c d m a' b' c' d' m',
  vrel any (v_g2 S a b c d m) (v_g2 S a' b' c' d' m').
Proof. destruct A as (Aa & Ax & A16 & A12 & A8 & A7). intros. unfold v_g2. loose. Qed.
Hint Resolve same_g1 same_g2 : core.

Lemma same_row1 : forall m0 m1 m2 m3 a b c d m0' m1' m2' m3' a' b' c' d',
  vrel any (v_sse41_row_round1 S m0 m1 m2 m3 a b c d) (v_sse41_row_round1 S m0' m1' m2' m3' a' b' c' d').
Proof. intros. unfold v_sse41_row_round1. loose. Qed.
Lemma same_row2 : forall m0 m1 m2 m3 a b c d m0' m1' m2' m3' a' b' c' d',
  vrel any (v_sse41_row_round2 S m0 m1 m2 m3 a b c d) (v_sse41_row_round2 S m0' m1' m2' m3' a' b' c' d').
Proof. intros. unfold v_sse41_row_round2. loose. Qed.
Lemma same_row3 : forall m0 m1 m2 m3 a b c d m0' m1' m2' m3' a' b' c' d',
  vrel any (v_sse41_row_round3 S m0 m1 m2 m3 a b c d) (v_sse41_row_round3 S m0' m1' m2' m3' a' b' c' d').
Proof. intros. unfold v_sse41_row_round3. loose. Qed.
Lemma same_row4 : forall m0 m1 m2 m3 a b c d m0' m1' m2' m3' a' b' c' d',
  vrel any (v_sse41_row_round4 S m0 m1 m2 m3 a b c d) (v_sse41_row_round4 S m0' m1' m2' m3' a' b' c' d').
Proof. intros. unfold v_sse41_row_round4. loose. Qed.
Lemma same_row5 : forall m0 m1 m2 m3 a b c d m0' m1' m2' m3' a' b' c' d',
  vrel any (v_sse41_row_round5 S m0 m1 m2 m3 a b c d) (v_sse41_row_round5 S m0' m1' m2' m3' a' b' c' d').
Proof. intros. unfold v_sse41_row_round5. loose. Qed.
Lemma same_row6 : forall m0 m1 m2 m3 a b c d m0' m1' m2' m3' a' b' c' d',
  vrel any (v_sse41_row_round6 S m0 m1 m2 m3 a b c d) (v_sse41_row_round6 S m0' m1' m2' m3' a' b' c' d').
Proof. intros. unfold v_sse41_row_round6. loose. Qed.
Lemma same_row7 : forall m0 m1 m2 m3 a b c d m0' m1' m2' m3' a' b' c' d',
  vrel any (v_sse41_row_round7 S m0 m1 m2 m3 a b c d) (v_sse41_row_round7 S m0' m1' m2' m3' a' b' c' d').
Proof. intros. unfold v_sse41_row_round7. loose. Qed.

Lemma same_msg : forall m m' r k, vrel any (msg_at m r k) (msg_at m' r k).
Proof. intros. split; [reflexivity|exact I]. Qed.
Hint Resolve same_msg : core.
Lemma same_exec : forall m m' r v v' i, vrel any (v_exec_instr S m r v i) (v_exec_instr S m' r v' i).
Proof.
  destruct A as (Aa & Ax & A16 & A12 & A8 & A7). intros m m' r v v' i.
  destruct i; cbn [v_exec_instr]; loose.
Qed.
Lemma same_run : forall code v v' m m' r, vrel any (v_run_round S code v m r) (v_run_round S code v' m' r).
Proof.
  induction code as [|i code IH]; intros; cbn [v_run_round]; [now apply vrel_ok|].
  eapply (vrel_bind _ _ _ _ any); [apply same_exec|]. intros. apply IH.
Qed.
Lemma same_map : forall {X Y : Type} (f f' : X -> vs Y) xs,
  (forall x, vrel any (f x) (f' x)) -> vrel any (v_map f xs) (v_map f' xs).
Proof.
  intros X Y f f' xs H. induction xs as [|x xs IH]; cbn [v_map]; [now apply vrel_ok|].
  eapply (vrel_bind _ _ _ _ any); [apply H|]. intros y y' _.
  eapply (vrel_bind _ _ _ _ any); [apply IH|]. intros. now apply vrel_ok.
Qed.
Lemma same_vec : forall code n h msg lo hi bl bf h' msg' lo' hi' bl' bf',
  vrel any (v_vec_compress S code n h msg lo hi bl bf) (v_vec_compress S code n h' msg' lo' hi' bl' bf').
Proof.
  intros. unfold v_vec_compress.
  eapply (vrel_bind _ _ _ _ any); [apply same_map; intros; split; [reflexivity|exact I]|]. intros. cbv zeta.
  do 7 (eapply (vrel_bind _ _ _ _ any); [apply same_run|]; intros).
  apply same_map. intros. destruct A as (_ & Ax & _). apply Ax.
Qed.
Lemma same_loop : forall code n lv lv', (forall x, vrel any (lv x) (lv' x)) ->
  forall todo block blocks h lo hi bf fl fe h' lo' hi' bf' fl' fe',
  vrel any (v_vec_hash_loop S code n lv todo block blocks h lo hi bf fl fe)
           (v_vec_hash_loop S code n lv' todo block blocks h' lo' hi' bf' fl' fe').
Proof.
  intros code n lv lv' H. induction todo as [|todo IH]; intros; cbn [v_vec_hash_loop]; [now apply vrel_ok|].
  cbv zeta. eapply (vrel_bind _ _ _ _ any); [now apply vrel_ok|]. intros.
  eapply (vrel_bind _ _ _ _ any); [now apply vrel_ok|]. intros.
  eapply (vrel_bind _ _ _ _ any); [apply H|]. intros.
  eapply (vrel_bind _ _ _ _ any); [apply same_vec|]. intros. apply IH.
Qed.
End SameRows.

Lemma same_inner : forall cv b n o f cv' b' n' o' f',
  vrel any (sse41_v_compress_inner cv b n o f) (sse41_v_compress_inner cv' b' n' o' f').
Proof.
  intros. unfold sse41_v_compress_inner. pose proof sse41_same as A.
  do 12 (eapply (vrel_bind _ _ _ _ any); [split; [reflexivity|exact I]|intros]).
  eapply (vrel_bind _ _ _ _ any); [now apply same_row1|]. intros [[[? ?] ?] ?] [[[? ?] ?] ?] _.
  eapply (vrel_bind _ _ _ _ any); [now apply same_row2|]. intros [[[? ?] ?] ?] [[[? ?] ?] ?] _.
  eapply (vrel_bind _ _ _ _ any); [now apply same_row3|]. intros [[[? ?] ?] ?] [[[? ?] ?] ?] _.
  eapply (vrel_bind _ _ _ _ any); [now apply same_row4|]. intros [[[? ?] ?] ?] [[[? ?] ?] ?] _.
  eapply (vrel_bind _ _ _ _ any); [now apply same_row5|]. intros [[[? ?] ?] ?] [[[? ?] ?] ?] _.
  eapply (vrel_bind _ _ _ _ any); [now apply same_row6|]. intros [[[? ?] ?] ?] [[[? ?] ?] ?] _.
  eapply (vrel_bind _ _ _ _ any); [now apply same_row7|]. intros [[[? ?] ?] ?] [[[? ?] ?] ?] _.
  now apply vrel_ok.
Qed.
Lemma same_sse41_compress : forall cv b n o f cv' b' n' o' f',
  vrel any (sse41_v_compress cv b n o f) (sse41_v_compress cv' b' n' o' f').
Proof.
  intros. unfold sse41_v_compress. eapply (vrel_bind _ _ _ _ any); [apply same_inner|].
  intros. split; [reflexivity|exact I].
Qed.
Lemma same_sse41_xof : forall cv b n o f cv' b' n' o' f',
  vrel any (sse41_v_compress_xof cv b n o f) (sse41_v_compress_xof cv' b' n' o' f').
Proof.
  intros. unfold sse41_v_compress_xof. eapply (vrel_bind _ _ _ _ any); [apply same_inner|].
  intros. split; [reflexivity|exact I].
Qed.
Lemma same_transpose4 : forall v v', vrel any (sse41_v_transpose_vecs v) (sse41_v_transpose_vecs v').
Proof. intros. split; [reflexivity|exact I]. Qed.
Lemma same_transpose8 : forall v v', vrel any (avx2_v_transpose_vecs v) (avx2_v_transpose_vecs v').
Proof. intros. split; [reflexivity|exact I]. Qed.

(* inputs of the same lengths *)
Definition like (a b : list N) : Prop := len a = len b.

Lemma same_load : forall k n x y off, like x y -> vrel any (load k n x off) (load k n y off).
Proof.
  intros k n x y off H. split; [reflexivity|]. cbn [load snd]. unfold loadu, slice. rewrite H.
  destruct (_ <=? _); exact I.
Qed.
Lemma same_load_row : forall n xs ys, L2 like xs ys -> forall k off,
  vrel any (v_load_row k n xs off) (v_load_row k n ys off).
Proof.
  intros n xs ys H. induction H as [|x y xs ys Hx H IH]; intros; cbn [v_load_row]; [now apply vrel_ok|].
  eapply (vrel_bind _ _ _ _ any); [now apply same_load|]. intros.
  eapply (vrel_bind _ _ _ _ any); [apply IH|]. intros. now apply vrel_ok.
Qed.
Lemma same_load_grid : forall k n xs ys bo cols, L2 like xs ys ->
  vrel any (v_load_grid k n xs bo cols) (v_load_grid k n ys bo cols).
Proof.
  intros k n xs ys bo cols H. induction cols as [|col cols IH]; cbn [v_load_grid]; [now apply vrel_ok|].
  eapply (vrel_bind _ _ _ _ any); [now apply same_load_row|]. intros.
  eapply (vrel_bind _ _ _ _ any); [apply IH|]. intros. now apply vrel_ok.
Qed.
Lemma same_msgs4 : forall k xs ys bo, L2 like xs ys ->
  vrel any (sse41_v_transpose_msg_vecs k xs bo) (sse41_v_transpose_msg_vecs k ys bo).
Proof.
  intros. unfold sse41_v_transpose_msg_vecs.
  eapply (vrel_bind _ _ _ _ any); [now apply same_load_grid|]. intros.
  do 4 (eapply (vrel_bind _ _ _ _ any); [apply same_transpose4|]; intros). now apply vrel_ok.
Qed.
Lemma same_msgs8 : forall k xs ys bo, L2 like xs ys ->
  vrel any (avx2_v_transpose_msg_vecs k xs bo) (avx2_v_transpose_msg_vecs k ys bo).
Proof.
  intros. unfold avx2_v_transpose_msg_vecs.
  eapply (vrel_bind _ _ _ _ any); [now apply same_load_grid|]. intros.
  do 2 (eapply (vrel_bind _ _ _ _ any); [apply same_transpose8|]; intros). now apply vrel_ok.
Qed.
Lemma same_hash4 : forall c k xs ys blocks key key' off d fl fs fe fl' fs' fe', L2 like xs ys ->
  vrel any (sse41_v_hash4 c k xs blocks key off d fl fs fe) (sse41_v_hash4 c k ys blocks key' off d fl' fs' fe').
Proof.
  intros. unfold sse41_v_hash4.
  eapply (vrel_bind _ _ _ _ any); [apply same_map; intros; split; [reflexivity|exact I]|]. intros.
  eapply vrel_bind; [apply vrel_refl|]. intros [lo hi] [lo' hi'] _.
  eapply (vrel_bind _ _ _ _ any); [apply same_loop; [apply sse41_same|intros; now apply same_msgs4]|]. intros.
  do 2 (eapply (vrel_bind _ _ _ _ any); [apply same_transpose4|]; intros).
  split; [reflexivity|exact I].
Qed.
Lemma same_hash8 : forall c k xs ys blocks key key' off d fl fs fe fl' fs' fe', L2 like xs ys ->
  vrel any (avx2_v_hash8 c k xs blocks key off d fl fs fe) (avx2_v_hash8 c k ys blocks key' off d fl' fs' fe').
Proof.
  intros. unfold avx2_v_hash8.
  eapply (vrel_bind _ _ _ _ any); [apply same_map; intros; split; [reflexivity|exact I]|]. intros.
  eapply vrel_bind; [apply vrel_refl|]. intros [lo hi] [lo' hi'] _.
  eapply (vrel_bind _ _ _ _ any); [apply same_loop; [apply avx2_same|intros; now apply same_msgs8]|]. intros.
  eapply (vrel_bind _ _ _ _ any); [apply same_transpose8|]. intros.
  split; [reflexivity|exact I].
Qed.

Definition same_comp (vc : list N -> list N -> N -> N -> N -> vs (list N)) : Prop :=
  forall cv b n o f cv' b' n' o' f', vrel any (vc cv b n o f) (vc cv' b' n' o' f').
Lemma same_portable : same_comp portable_v_compress.
Proof.
  intros cv b n o f cv' b' n' o' f'. split; [|exact I]. cbn [portable_v_compress fst].
  apply (f_equal (map Scalar)). apply steps_compress.
Qed.

Lemma len_like : forall a b, like a b -> length b = length a.
Proof. unfold like, len. intros. lia. Qed.
Lemma like_take : forall n a b, like a b -> like (take n a) (take n b).
Proof. unfold like. intros. rewrite !len_take. congruence. Qed.
Lemma like_drop : forall n a b, like a b -> like (drop n a) (drop n b).
Proof. unfold like. intros. rewrite !len_drop. congruence. Qed.

Lemma same_hash1_loop : forall vc, same_comp vc ->
  forall fuel k p cv x off bf fl fe cv' y off' bf' fl' fe', like x y ->
  vrel any (v_hash1_loop vc k p fuel cv x off bf fl fe) (v_hash1_loop vc k p fuel cv' y off' bf' fl' fe').
Proof.
  intros vc H. induction fuel as [|fuel IH]; intros * L; cbn [v_hash1_loop]; rewrite <- L;
    destruct (BLOCK_LEN <=? len x); try (now apply vrel_ok); try (now apply vrel_lift).
  cbv zeta. eapply (vrel_bind _ _ _ _ any); [now apply vrel_ok|]. intros.
  eapply (vrel_bind _ _ _ _ any); [apply H|]. intros. apply IH. now apply like_drop.
Qed.
Lemma same_hash1 : forall c vc, same_comp vc ->
  forall k x y key key' off off' fl fs fe fl' fs' fe', like x y ->
  vrel any (v_hash1 c vc k x key off fl fs fe) (v_hash1 c vc k y key' off' fl' fs' fe').
Proof.
  intros c vc H * L. unfold v_hash1. rewrite <- L, (len_like _ _ L).
  eapply vrel_bind; [apply vrel_refl|]. intros.
  eapply (vrel_bind _ _ _ _ any); [now apply vrel_ok|]. intros.
  eapply (vrel_bind _ _ _ _ any); [now apply same_hash1_loop|]. intros. now apply vrel_ok.
Qed.
Lemma same_hash_each : forall c h h', (forall k x y o, like x y -> vrel any (h k x o) (h' k y o)) ->
  forall xs ys, L2 like xs ys -> forall k off d out out', like out out' ->
  vrel any (v_hash_each c h k xs off d out) (v_hash_each c h' k ys off d out').
Proof.
  intros c h h' H xs ys X. induction X as [|x y xs ys Hx X IH]; intros * L; cbn [v_hash_each]; [now apply vrel_ok|].
  rewrite <- L. destruct (OUT_LEN <=? len out); [|now apply vrel_ok].
  eapply (vrel_bind _ _ _ _ any); [now apply H|]. intros.
  eapply vrel_bind; [apply vrel_refl|]. intros ? ? <-.
  eapply (vrel_bind _ _ _ _ any); [apply IH; now apply like_drop|]. intros. now apply vrel_ok.
Qed.
Lemma same_batch : forall c degree h h' r r',
  (forall k xs ys o, L2 like xs ys -> vrel any (h k xs o) (h' k ys o)) ->
  (forall k xs ys o out out', L2 like xs ys -> like out out' -> vrel any (r k xs o out) (r' k ys o out')) ->
  forall fuel k xs ys off d out out', L2 like xs ys -> like out out' ->
  vrel any (v_batch_loop c fuel degree h r k xs off d out) (v_batch_loop c fuel degree h' r' k ys off d out').
Proof.
  intros c degree h h' r r' H Hr. induction fuel as [|fuel IH]; intros * X L; cbn [v_batch_loop];
    rewrite (L2_len _ _ _ _ _ X), <- L; destruct (_ && _); try (now apply Hr); try (now apply vrel_lift).
  eapply (vrel_bind _ _ _ _ any); [apply H; now apply L2_take|]. intros.
  eapply vrel_bind; [apply vrel_refl|]. intros ? ? <-.
  eapply vrel_bind; [apply vrel_refl|]. intros ? ? <-.
  eapply (vrel_bind _ _ _ _ any); [apply IH; [now apply L2_drop|now apply like_drop]|]. intros. now apply vrel_ok.
Qed.
Lemma same_many4 : forall c cap k xs ys key key' off d fl fs fe fl' fs' fe' out out',
  L2 like xs ys -> like out out' ->
  vrel any (sse41_v_hash_many c cap k xs key off d fl fs fe out)
           (sse41_v_hash_many c cap k ys key' off d fl' fs' fe' out').
Proof.
  intros * X L. unfold sse41_v_hash_many. rewrite (L2_len _ _ _ _ _ X), <- L, <- (L2_length _ _ _ _ _ X).
  eapply vrel_bind; [apply vrel_refl|]. intros.
  apply same_batch; auto.
  - intros. now apply same_hash4.
  - intros. apply same_hash_each; auto. intros. apply same_hash1; auto. exact same_sse41_compress.
Qed.
Lemma same_many : forall c p cap xs ys key key' off d fl fs fe fl' fs' fe' out out',
  L2 like xs ys -> like out out' ->
  vrel any (p_hash_many c p cap xs key off d fl fs fe out)
           (p_hash_many c p cap ys key' off d fl' fs' fe' out').
Proof.
  intros c [] * X L; cbn [p_hash_many].
  - unfold portable_v_hash_many. rewrite (L2_len _ _ _ _ _ X), <- L.
    eapply vrel_bind; [apply vrel_refl|]. intros. apply same_hash_each; auto.
    intros. apply same_hash1; auto. exact same_portable.
  - now apply same_many4.
  - unfold avx2_v_hash_many. rewrite (L2_len _ _ _ _ _ X), <- L, <- (L2_length _ _ _ _ _ X).
    eapply vrel_bind; [apply vrel_refl|]. intros.
    apply same_batch; auto.
    + intros. now apply same_hash8.
    + intros. now apply same_many4.
Qed.
Lemma same_compress : forall p cv b n o f cv' b' n' o' f',
  vrel any (p_compress p cv b n o f) (p_compress p cv' b' n' o' f').
Proof. intros []; intros; [apply same_portable|apply same_sse41_compress..]. Qed.
Lemma same_compress_xof : forall p cv b n o f cv' b' n' o' f',
  vrel any (p_compress_xof p cv b n o f) (p_compress_xof p cv' b' n' o' f').
Proof.
  intros []; intros; [|apply same_sse41_xof|apply same_sse41_xof].
  split; [|exact I]. cbn [p_compress_xof portable_v_compress_xof fst]. apply (f_equal (map Scalar)). apply steps_compress_xof.
Qed.
