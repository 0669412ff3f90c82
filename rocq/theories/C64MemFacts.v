(* The functions of C64Mem.v return what the functions of C64.v return, and the memory they
   access depends only on lengths, is inside the arrays, and each byte of it is accessed once. *)
From Coq Require Import NArith List Bool Lia ZArith.
From Coq Require Import ZifyBool ZifyNat ZifyN.
From Verif Require Import Base BaseFacts Portable Simd SecretFacts SecretSpec Steps StepsFacts.
From Verif Require Import VOps VSteps VStepsFacts VStepsSpec VMemSpec VMemFacts.
From Verif Require Import CVSteps CVStepsFacts CVMemFacts LibStepsFacts.
From Verif Require Import Spec64 Simd64 Simd64Gen C64 C64Mem C64MemSpec.
From Verif Require CSimd.
Import ListNotations.
Open Scope N_scope.

(* ---- returned values ---- *)

Definition mcomp := vplace -> N -> list N -> list N -> N -> N -> N -> vs (list N).
Definition mcomp_value (mc : mcomp) (comp : list N -> list N -> N -> N -> N -> list N) : Prop :=
  forall p pos st b n o f, vret (mc p pos st b n o f) (Ok (comp st b n o f)).
Lemma m_portable_value : mcomp_value m_compress_portable compress_portable.
Proof. intros p pos st b n o f. reflexivity. Qed.
Lemma m_avx512_value : mcomp_value m_compress_avx512 compress_avx512.
Proof. intros p pos st b n o f. reflexivity. Qed.

Lemma m_one_loop_value : forall mc comp, mcomp_value mc comp ->
  forall blocks k pos st x o bf fl fe,
  vret (m_hash_one_loop mc k pos blocks st x o bf fl fe) (hash_one_loop comp blocks st x o bf fl fe).
Proof.
  intros mc comp H. induction blocks as [|blocks IH]; intros; [reflexivity|].
  cbn [m_hash_one_loop hash_one_loop]. cbv zeta. apply vret_bind; [reflexivity|]. intros b.
  eapply vret_val; [apply H|]. apply IH.
Qed.
Lemma m_one_portable_value : forall blocks key fl fs fe k x o,
  vret (m_hash_one_portable blocks key fl fs fe k x o) (hash_one_portable x blocks key o fl fs fe).
Proof.
  intros. unfold m_hash_one_portable, hash_one_portable. eapply vret_val; [reflexivity|].
  apply vret_bind; [apply m_one_loop_value, m_portable_value|]. reflexivity.
Qed.
Lemma m_one_value : forall mc comp, mcomp_value mc comp -> forall blocks key fl fs fe k x o,
  vret (m_hash_one mc blocks key fl fs fe k x o)
       (let* st := hash_one_loop comp (N.to_nat blocks) key x o (N.lor fl fs) fl fe in
        Ok (bytes_of_words64 st)).
Proof.
  intros. unfold m_hash_one. eapply vret_val; [reflexivity|].
  apply vret_bind; [now apply m_one_loop_value|]. reflexivity.
Qed.

Lemma seq_ok_app : forall X (a b : list (res X)),
  seq_ok (a ++ b) = let* x := seq_ok a in let* y := seq_ok b in Ok (x ++ y).
Proof.
  induction a as [|[x| |] a IH]; intros b; cbn [app seq_ok bind]; try reflexivity.
  - destruct (seq_ok b); reflexivity.
  - rewrite IH. destruct (seq_ok a); cbn [bind]; try reflexivity.
    destruct (seq_ok b); reflexivity.
Qed.
Lemma m_row_value : forall n inputs k off,
  vret (m_load_row k n inputs off) (seq_ok (map (fun i => loadu64 n i off) inputs)).
Proof.
  intros n. induction inputs as [|i inputs IH]; intros; [reflexivity|].
  cbn [m_load_row map seq_ok]. apply vret_bind; [reflexivity|]. intros x.
  apply vret_bind; [apply IH|]. reflexivity.
Qed.
Lemma m_grid_value : forall k n inputs bo cols,
  vret (m_load_grid k n inputs bo cols) (load_grid64 n inputs bo cols).
Proof.
  intros k n inputs bo. unfold load_grid64. induction cols as [|col cols IH]; [reflexivity|].
  cbn [m_load_grid flat_map]. rewrite seq_ok_app.
  apply vret_bind; [apply m_row_value|]. intros x. apply vret_bind; [apply IH|]. reflexivity.
Qed.
Lemma m_msg2_value : forall k inputs bo, vret (m_msg2 transpose2 k inputs bo) (transpose_msg2 inputs bo).
Proof. intros. apply vret_bind; [apply m_grid_value|]. reflexivity. Qed.
Lemma m_n_msg2_value : forall k inputs bo, vret (m_msg2 n_transpose2 k inputs bo) (n_transpose_msg2 inputs bo).
Proof. intros. apply vret_bind; [apply m_grid_value|]. reflexivity. Qed.
Lemma m_msg4_value : forall k inputs bo, vret (m_msg4 k inputs bo) (transpose_msg4 inputs bo).
Proof. intros. apply vret_bind; [apply m_grid_value|]. reflexivity. Qed.
Lemma m_msg8_value : forall k inputs bo, vret (m_msg8 k inputs bo) (transpose_msg8 inputs bo).
Proof. intros. apply vret_bind; [apply m_grid_value|]. reflexivity. Qed.
Lemma m_n_offsets_value : forall o d, vret (m_n_load_offsets o d) (n_load_offsets o d).
Proof.
  intros. apply vret_bind; [reflexivity|]. intros. apply vret_bind; [reflexivity|]. reflexivity.
Qed.
Lemma m_loop_value : forall O code n lm l, (forall x, vret (lm x) (l x)) ->
  forall todo block blocks h ov bf fl fe,
  vret (m_vec_loop O code n lm todo block blocks h ov bf fl fe)
       (vec_loop64 O code (set1_epi64 n) l todo block blocks h ov bf fl fe).
Proof.
  intros O code n lm l H. induction todo as [|todo IH]; intros; [reflexivity|].
  cbn [m_vec_loop vec_loop64]. cbv zeta. apply vret_bind; [apply H|]. intros msg. apply IH.
Qed.
Lemma bind_bind : forall A B C (m : res A) (f : A -> res B) (g : B -> res C),
  bind (bind m f) g = bind m (fun x => bind (f x) g).
Proof. intros A B C [x| |] f g; reflexivity. Qed.
Lemma m_hashN_value : forall O code n lm l lo lo' piece pieces result,
  (forall k ins x, vret (lm k ins x) (l ins x)) -> (forall o d, vret (lo o d) (lo' o d)) ->
  forall blocks key d fl fs fe k ins o,
  vret (m_hashN O code n lm lo piece pieces result blocks key d fl fs fe k ins o)
       (let* h := hashN_loop O code n l lo' ins blocks key o d fl fs fe in Ok (result h)).
Proof.
  intros * H Ho *. unfold m_hashN, hashN_loop. eapply vret_val; [reflexivity|]. cbv zeta.
  rewrite bind_bind. apply vret_bind; [apply Ho|]. intros ov.
  apply vret_bind; [apply m_loop_value; intros; apply H|]. reflexivity.
Qed.

Lemma m_many_value : forall degree vh h vrest rest,
  (forall k i o, vret (vh k i o) (h i o)) ->
  (forall k i o out, vret (vrest k i o out) (rest i o out)) ->
  forall fuel k inputs o d out,
  vret (cv_many_loop fuel degree vh vrest k inputs o d out)
       (many_loop fuel degree h rest inputs o d out).
Proof.
  intros degree vh h vrest rest H Hr. induction fuel as [|fuel IH]; intros;
    cbn [cv_many_loop many_loop]; destruct (_ <=? _); try apply Hr; [reflexivity|].
  apply vret_bind; [apply H|]. intros x. apply vret_bind; [reflexivity|]. intros y. cbv zeta.
  apply vret_bind; [reflexivity|]. intros z. apply vret_bind; [apply IH|]. reflexivity.
Qed.
Lemma m_single_value : forall vh h, (forall k i o, vret (vh k i o) (h i o)) ->
  forall d k inputs o out,
  vret (cv_single_loop vh d k inputs o out) (single_loop h d inputs o out).
Proof.
  intros vh h H *. unfold cv_single_loop, single_loop. apply m_many_value; [|reflexivity].
  intros. apply vret_bind; [reflexivity|]. intros. apply H.
Qed.
Lemma m_portable_many_value : forall k ins blocks key o d fl fs fe out,
  vret (m_hash_many_portable k ins blocks key o d fl fs fe out)
       (hash_many_portable ins blocks key o d fl fs fe out).
Proof. intros. apply m_single_value. intros. apply m_one_portable_value. Qed.
Lemma m_sse41_many_value : forall k ins blocks key o d fl fs fe out,
  vret (m_hash_many_sse41 k ins blocks key o d fl fs fe out)
       (hash_many_sse41 ins blocks key o d fl fs fe out).
Proof.
  intros. apply m_many_value; intros; [|apply m_portable_many_value].
  apply m_hashN_value; [exact m_msg2_value|reflexivity].
Qed.
Lemma m_many_values : forall b ins blocks key o d fl fs fe out,
  snd (run_hash_many64 b ins blocks key o d fl fs fe out)
  = hash_many64 b ins blocks key o d fl fs fe out.
Proof.
  intros []; intros; cbn [run_hash_many64 hash_many64].
  - apply m_portable_many_value.
  - apply m_sse41_many_value.
  - apply m_many_value; intros; [|apply m_sse41_many_value].
    apply m_hashN_value; [exact m_msg4_value|reflexivity].
  - apply m_many_value; intros.
    { apply m_hashN_value; [exact m_msg8_value|reflexivity]. }
    apply m_many_value; intros.
    { apply m_hashN_value; [exact m_msg4_value|reflexivity]. }
    apply m_many_value; intros.
    { apply m_hashN_value; [exact m_msg2_value|reflexivity]. }
    apply m_single_value. intros. apply m_one_value, m_avx512_value.
  - apply m_many_value; intros.
    { apply m_hashN_value; [exact m_n_msg2_value|exact m_n_offsets_value]. }
    apply m_single_value. intros. apply m_one_value, m_portable_value.
Qed.

(* ---- steps ---- *)

Definition same_mcomp (mc : mcomp) : Prop :=
  forall p pos st b n o f st' b' n' o' f', vrel any (mc p pos st b n o f) (mc p pos st' b' n' o' f').
Lemma same_m_portable : same_mcomp m_compress_portable.
Proof. intros p pos *. now apply vrel_ok. Qed.
Lemma same_m_avx512 : same_mcomp m_compress_avx512.
Proof. intros p pos *. now apply vrel_ok. Qed.
Lemma same_m_one_loop : forall mc, same_mcomp mc ->
  forall blocks k p st x o bf fl fe st' y o' bf' fl' fe', like x y ->
  vrel any (m_hash_one_loop mc k p blocks st x o bf fl fe) (m_hash_one_loop mc k p blocks st' y o' bf' fl' fe').
Proof.
  intros mc H. induction blocks as [|blocks IH]; intros * L; cbn [m_hash_one_loop]; [now apply vrel_ok|].
  cbv zeta. eapply (vrel_bind _ _ _ _ any).
  { apply vrel_lift. eapply relr_impl; [now apply same_slice|]. intros; exact I. }
  intros. eapply (vrel_bind _ _ _ _ any); [apply H|]. intros. apply IH. now apply like_drop.
Qed.
Lemma same_m_one : forall mc, same_mcomp mc -> forall blocks key key' fl fs fe fl' fs' fe',
  same_one (m_hash_one mc blocks key fl fs fe) (m_hash_one mc blocks key' fl' fs' fe').
Proof.
  intros mc H * k x y o o' L. unfold m_hash_one.
  eapply (vrel_bind _ _ _ _ any); [now apply vrel_ok|]. intros.
  eapply (vrel_bind _ _ _ _ any); [now apply same_m_one_loop|]. intros. now apply vrel_ok.
Qed.
Lemma same_m_one_portable : forall blocks key key' fl fs fe fl' fs' fe',
  same_one (m_hash_one_portable blocks key fl fs fe) (m_hash_one_portable blocks key' fl' fs' fe').
Proof.
  intros * k x y o o' L. unfold m_hash_one_portable.
  eapply (vrel_bind _ _ _ _ any); [now apply vrel_ok|]. intros.
  eapply (vrel_bind _ _ _ _ any); [apply same_m_one_loop; [apply same_m_portable|exact L]|].
  intros. now apply vrel_ok.
Qed.
Lemma same_loadu64 : forall n x y off, like x y -> relr any (loadu64 n x off) (loadu64 n y off).
Proof.
  intros n x y off L. unfold loadu64. pose proof (same_slice x y off n L) as S.
  destruct (slice x off n), (slice y off n); cbn [relr bind] in *; try contradiction; exact I.
Qed.
Lemma same_m_row : forall n xs ys, L2 like xs ys -> forall k off,
  vrel any (m_load_row k n xs off) (m_load_row k n ys off).
Proof.
  intros n xs ys H. induction H as [|x y xs ys Hx H IH]; intros; cbn [m_load_row]; [now apply vrel_ok|].
  eapply (vrel_bind _ _ _ _ any); [split; [reflexivity|now apply same_loadu64]|]. intros.
  eapply (vrel_bind _ _ _ _ any); [apply IH|]. intros. now apply vrel_ok.
Qed.
Lemma same_m_grid : forall k n xs ys bo cols, L2 like xs ys ->
  vrel any (m_load_grid k n xs bo cols) (m_load_grid k n ys bo cols).
Proof.
  intros k n xs ys bo cols H. induction cols as [|col cols IH]; cbn [m_load_grid]; [now apply vrel_ok|].
  eapply (vrel_bind _ _ _ _ any); [now apply same_m_row|]. intros.
  eapply (vrel_bind _ _ _ _ any); [apply IH|]. intros. now apply vrel_ok.
Qed.
Definition same_msgs (lm : nat -> list (list N) -> N -> vs (list vec)) : Prop :=
  forall k xs ys bo, L2 like xs ys -> vrel any (lm k xs bo) (lm k ys bo).
Lemma same_m_msg2 : forall t, same_msgs (m_msg2 t).
Proof.
  intros t k xs ys bo X. eapply (vrel_bind _ _ _ _ any); [now apply same_m_grid|]. intros. now apply vrel_ok.
Qed.
Lemma same_m_msg4 : same_msgs m_msg4.
Proof.
  intros k xs ys bo X. eapply (vrel_bind _ _ _ _ any); [now apply same_m_grid|]. intros. now apply vrel_ok.
Qed.
Lemma same_m_msg8 : same_msgs m_msg8.
Proof.
  intros k xs ys bo X. eapply (vrel_bind _ _ _ _ any); [now apply same_m_grid|]. intros. now apply vrel_ok.
Qed.
Definition same_offs (lo : N -> list N -> vs vec) : Prop :=
  forall o o' d d', like d d' -> vrel any (lo o d) (lo o' d').
Lemma same_m_offs : forall n, same_offs (m_load_offsets n).
Proof.
  intros n o o' d d' L. split; [reflexivity|]. cbn [snd m_load_offsets]. unfold load_offsets.
  pose proof (same_slice d d' 0 (N.of_nat n) L) as S.
  destruct (slice d 0 _), (slice d' 0 _); cbn [relr bind] in *; try contradiction; exact I.
Qed.
Lemma same_m_n_offs : same_offs m_n_load_offsets.
Proof.
  intros o o' d d' L. unfold m_n_load_offsets.
  eapply (vrel_bind _ _ _ _ any); [split; [reflexivity|now apply same_index]|]. intros.
  eapply (vrel_bind _ _ _ _ any); [split; [reflexivity|now apply same_index]|]. intros. now apply vrel_ok.
Qed.
Lemma same_m_loop : forall O code n lm lm', (forall bo, vrel any (lm bo) (lm' bo)) ->
  forall todo block blocks h ov bf fl fe h' ov' bf' fl' fe',
  vrel any (m_vec_loop O code n lm todo block blocks h ov bf fl fe)
           (m_vec_loop O code n lm' todo block blocks h' ov' bf' fl' fe').
Proof.
  intros O code n lm lm' H. induction todo as [|todo IH]; intros; cbn [m_vec_loop]; [now apply vrel_ok|].
  cbv zeta. eapply (vrel_bind _ _ _ _ any); [apply H|]. intros. apply IH.
Qed.
Lemma same_hashN : forall O code n lm lo piece pieces result, same_msgs lm -> same_offs lo ->
  forall blocks key key' d d' fl fs fe fl' fs' fe' k xs ys o o', like d d' -> L2 like xs ys ->
  vrel any (m_hashN O code n lm lo piece pieces result blocks key d fl fs fe k xs o)
           (m_hashN O code n lm lo piece pieces result blocks key' d' fl' fs' fe' k ys o').
Proof.
  intros * Hm Ho * D X. unfold m_hashN.
  eapply (vrel_bind _ _ _ _ any); [now apply vrel_ok|]. intros.
  eapply (vrel_bind _ _ _ _ any); [now apply Ho|]. intros.
  eapply (vrel_bind _ _ _ _ any); [apply same_m_loop; intros; now apply Hm|]. intros. now apply vrel_ok.
Qed.
Lemma same_m_portable_many : forall blocks key key' d d' fl fs fe fl' fs' fe', like d d' ->
  same_rest (fun k xs o out => m_hash_many_portable k xs blocks key o d fl fs fe out)
            (fun k xs o out => m_hash_many_portable k xs blocks key' o d' fl' fs' fe' out).
Proof. intros * D k xs ys o o' out out' X L. apply same_single; auto. apply same_m_one_portable. Qed.
Lemma same_m_sse41_many : forall blocks key key' d d' fl fs fe fl' fs' fe', like d d' ->
  same_rest (fun k xs o out => m_hash_many_sse41 k xs blocks key o d fl fs fe out)
            (fun k xs o out => m_hash_many_sse41 k xs blocks key' o d' fl' fs' fe' out).
Proof.
  intros * D k xs ys o o' out out' X L. unfold m_hash_many_sse41. rewrite <- (L2_length _ _ _ _ _ X).
  apply same_many_loop; auto.
  - intros. apply same_hashN; auto; [apply same_m_msg2|apply same_m_offs].
  - now apply same_m_portable_many.
Qed.
Lemma same_m_many : forall b xs ys blocks key key' o o' d d' fl fs fe fl' fs' fe' out out',
  L2 like xs ys -> like d d' -> like out out' ->
  vrel any (run_hash_many64 b xs blocks key o d fl fs fe out)
           (run_hash_many64 b ys blocks key' o' d' fl' fs' fe' out').
Proof.
  intros b * X D L. destruct b; cbn [run_hash_many64].
  - now apply same_m_portable_many.
  - now apply same_m_sse41_many.
  - unfold m_hash_many_avx2. rewrite <- (L2_length _ _ _ _ _ X). apply same_many_loop; auto.
    + intros. apply same_hashN; auto; [apply same_m_msg4|apply same_m_offs].
    + now apply same_m_sse41_many.
  - unfold m_hash_many_avx512. rewrite <- (L2_length _ _ _ _ _ X). apply same_many_loop; auto.
    { intros. apply same_hashN; auto; [apply same_m_msg8|apply same_m_offs]. }
    intros k1 xs1 ys1 o1 o1' out1 out1' X1 L1. rewrite <- (L2_length _ _ _ _ _ X1). apply same_many_loop; auto.
    { intros. apply same_hashN; auto; [apply same_m_msg4|apply same_m_offs]. }
    intros k2 xs2 ys2 o2 o2' out2 out2' X2 L2'. rewrite <- (L2_length _ _ _ _ _ X2). apply same_many_loop; auto.
    { intros. apply same_hashN; auto; [apply same_m_msg2|apply same_m_offs]. }
    apply same_single; auto. apply same_m_one, same_m_avx512.
  - unfold m_hash_many_neon. rewrite <- (L2_length _ _ _ _ _ X). apply same_many_loop; auto.
    { intros. apply same_hashN; auto; [apply same_m_msg2|apply same_m_n_offs]. }
    apply same_single; auto. apply same_m_one, same_m_portable.
Qed.
Lemma m_many_seen : forall b inputs inputs' blocks key key' offset offset'
  deltas deltas' flags flags' flags_start flags_start' flags_end flags_end' out out',
  Forall2 (fun x y => len x = len y) inputs inputs' ->
  len deltas = len deltas' -> len out = len out' ->
  steps_seen (run_hash_many64 b inputs blocks key offset deltas flags flags_start flags_end out) =
  steps_seen (run_hash_many64 b inputs' blocks key' offset' deltas' flags' flags_start' flags_end' out').
Proof.
  intros * X D L. eapply vrel_seen. apply same_m_many; auto.
Qed.

(* ---- every byte once ---- *)

Section Blocks.
Variable blocks : N.
Let cap : N := 64 * (2 * blocks).

Lemma reads_loads : forall j k pos n count, pieces_read j (loads (PInput k) pos n count) =
  if Nat.eqb k j then map (fun i => (pos + n * N.of_nat i, n)) (seq 0 count) else [].
Proof.
  intros. unfold loads, pieces_read. induction (seq 0 count) as [|i l IH]; cbn [map flat_map read_of].
  - now destruct (Nat.eqb k j).
  - rewrite IH. now destruct (Nat.eqb k j).
Qed.
Lemma quiet_loads : forall p pos n count, (forall k, p <> PInput k) -> quiet (loads p pos n count).
Proof.
  intros * H. unfold loads, quiet. induction (seq 0 count) as [|i l IH]; [reflexivity|].
  cbn [map forallb quiet_step]. rewrite IH. destruct p; try reflexivity. now destruct (H k).
Qed.
Definition mcomp_reads (mc : mcomp) : Prop := forall k pos st b n o f,
  reads_part k 1 pos (pos + 128) (fst (mc (PInput k) pos st b n o f)) /\
  pieces_written (fst (mc (PInput k) pos st b n o f)) = [].
Ltac comp_reads :=
  intros k pos st b n o f; split; [split|];
  [ intros j Hj; assert (j = k) as -> by lia; cbn -[N.mul N.add N.of_nat Nat.add];
    rewrite Nat.eqb_refl; cbn -[N.mul N.add N.of_nat Nat.add]; repeat split; lia
  | intros j Hj; assert (Nat.eqb k j = false) as E by lia; cbn -[N.mul N.add N.of_nat Nat.add];
    rewrite E; reflexivity
  | reflexivity].
Lemma m_portable_reads : mcomp_reads m_compress_portable.
Proof. comp_reads. Qed.
Lemma m_avx512_reads : mcomp_reads m_compress_avx512.
Proof. comp_reads. Qed.

Lemma m_one_loop_reads : forall mc, mcomp_reads mc -> forall n k p st x o bf fl fe,
  logs (m_hash_one_loop mc k p n st x o bf fl fe)
       (fun l _ => reads_part k 1 p (p + 128 * N.of_nat n) l /\ pieces_written l = []).
Proof.
  intros mc Q. induction n as [|n IH]; intros; cbn [m_hash_one_loop].
  - apply logs_lift. intros _ _. replace (p + 128 * N.of_nat 0) with p by lia.
    split; [apply reads_part_quiet; reflexivity|reflexivity].
  - cbv zeta. apply logs_bind, logs_lift. intros b _. apply logs_bind. intros st' _.
    change BLOCK_LEN with 128. cbn [app].
    destruct (Q k p st b 128 o (match n with O => N.lor bf fe | Datatypes.S _ => bf end)) as [R W].
    eapply logs_impl; [apply IH|]. intros l' _ [R' W']. split.
    + eapply reads_part_app; [exact R|].
      replace (p + 128 * N.of_nat (Datatypes.S n)) with (p + 128 + 128 * N.of_nat n) by lia. exact R'.
    + now rewrite writes_app, W, W'.
Qed.
Lemma m_one_whole : forall mc, mcomp_reads mc -> forall key fl fs fe,
  one_whole (2 * blocks) (m_hash_one mc blocks key fl fs fe).
Proof.
  intros mc Q * k x o. unfold m_hash_one. apply logs_bind, logs_pure. intros _ _. apply logs_bind.
  eapply logs_impl; [now apply m_one_loop_reads|]. intros l st [R W]. apply logs_pure. intros y _.
  apply (whole_quiet_l _ k 1 [Load PKey 0 32]); [reflexivity|]. split.
  - eapply reads_part_app; [exact R|].
    replace (0 + 128 * N.of_nat (N.to_nat blocks)) with (64 * (2 * blocks)) by lia.
    split; intros; reflexivity.
  - rewrite writes_app, W. unfold pieces_written. cbn [flat_map write_of app tiles]. split; [reflexivity|lia].
Qed.
Lemma m_one_portable_whole : forall key fl fs fe,
  one_whole (2 * blocks) (m_hash_one_portable blocks key fl fs fe).
Proof.
  intros * k x o. unfold m_hash_one_portable. apply logs_bind, logs_pure. intros _ _. apply logs_bind.
  eapply logs_impl; [apply m_one_loop_reads, m_portable_reads|]. intros l st [R W]. apply logs_pure. intros y _.
  apply (whole_quiet_l _ k 1 [Load PKey 0 32]); [reflexivity|]. split.
  - eapply reads_part_app; [exact R|].
    replace (0 + 128 * N.of_nat (N.to_nat blocks)) with (64 * (2 * blocks)) by lia.
    split; intros; reflexivity.
  - rewrite writes_app, W. cbn -[N.mul N.add N.of_nat Nat.add]. repeat split; lia.
Qed.

Lemma m_row_reads : forall n inputs k0 off,
  logs (m_load_row k0 n inputs off)
       (fun l _ => reads_part k0 (length inputs) off (off + n) l /\ pieces_written l = []).
Proof.
  intros n. induction inputs as [|x inputs IH]; intros k0 off; cbn [m_load_row length].
  - apply logs_lift. intros _ _. split; [|reflexivity]. split; intros; [lia|reflexivity].
  - apply logs_bind, logs_pure. intros v _. apply logs_bind.
    eapply logs_impl; [apply IH|]. intros l vs [[R1 R2] W]. apply logs_lift. intros _ _.
    rewrite app_nil_r. split.
    + split; intros k Hk; rewrite reads_app; cbn [pieces_read flat_map read_of app].
      * destruct (Nat.eqb_spec k0 k) as [->|Hn].
        { rewrite R2 by lia. cbn [tiles app]. split; [reflexivity|reflexivity]. }
        { apply R1. lia. }
      * destruct (Nat.eqb_spec k0 k); [lia|]. rewrite R2 by lia. reflexivity.
    + rewrite writes_app. exact W.
Qed.
Lemma m_grid_reads : forall n k0 inputs bo cols from to,
  tiles from (map (fun col => (col, n)) cols) to ->
  logs (m_load_grid k0 n inputs bo cols)
       (fun l _ => reads_part k0 (length inputs) (bo + from) (bo + to) l /\ pieces_written l = []).
Proof.
  intros n k0 inputs bo. induction cols as [|col cols IH]; intros from to T; cbn [m_load_grid].
  - cbn in T. subst to. apply logs_lift. intros _ _. split; [apply reads_part_quiet|]; reflexivity.
  - cbn [map tiles] in T. destruct T as [-> T]. apply logs_bind.
    eapply logs_impl; [apply m_row_reads|]. intros l v [R W]. apply logs_bind.
    eapply logs_impl; [apply (IH _ _ T)|]. intros l' v' [R' W']. apply logs_lift. intros _ _.
    rewrite app_nil_r. split; [|now rewrite writes_app, W, W'].
    eapply reads_part_app; [exact R|]. now rewrite <- N.add_assoc.
Qed.
Definition msgs_read (lm : nat -> list (list N) -> N -> vs (list vec)) : Prop := forall k ins bo,
  logs (lm k ins bo) (fun l _ => reads_part k (length ins) bo (bo + 128) l /\ pieces_written l = []).
Ltac msgs n cols :=
  intros k ins bo; apply reads_then_quiet; [|reflexivity];
  pose proof (m_grid_reads n k ins bo cols 0 128) as H; rewrite N.add_0_r in H;
  apply H; cbn; auto 20.
Lemma m_msg2_reads : forall t, msgs_read (m_msg2 t).
Proof. intros t. msgs 16 [0 * 16; 1 * 16; 2 * 16; 3 * 16; 4 * 16; 5 * 16; 6 * 16; 7 * 16]. Qed.
Lemma m_msg4_reads : msgs_read m_msg4.
Proof. msgs 32 [0 * 32; 1 * 32; 2 * 32; 3 * 32]. Qed.
Lemma m_msg8_reads : msgs_read m_msg8.
Proof. msgs 64 [0 * 64; 1 * 64]. Qed.
Lemma m_loop_reads : forall O code n lm k0 m,
  (forall bo, logs (lm bo) (fun l _ => reads_part k0 m bo (bo + 128) l /\ pieces_written l = [])) ->
  forall todo block bs h ov bf fl fe,
  logs (m_vec_loop O code n lm todo block bs h ov bf fl fe)
       (fun l _ => reads_part k0 m (block * 128) ((block + N.of_nat todo) * 128) l /\ pieces_written l = []).
Proof.
  intros O code n lm k0 m Hl. induction todo as [|todo IH]; intros; cbn [m_vec_loop].
  - apply logs_lift. intros _ _. replace (block + N.of_nat 0) with block by lia.
    split; [apply reads_part_quiet|]; reflexivity.
  - cbv zeta. apply logs_bind. eapply logs_impl; [apply Hl|]. change BLOCK_LEN with 128. intros l msg [R W].
    eapply logs_impl; [apply IH|]. intros l' y [R' W']. split; [|now rewrite writes_app, W, W'].
    eapply reads_part_app; [exact R|]. replace (block * 128 + 128) with ((block + 1) * 128) by lia.
    replace (block + N.of_nat (Datatypes.S todo)) with (block + 1 + N.of_nat todo) by lia. exact R'.
Qed.
Lemma stores_reads : forall j pos n count, pieces_read j (stores POut pos n count) = [].
Proof. intros. unfold stores, pieces_read. now induction (seq 0 count). Qed.
Lemma m_hashN_whole : forall O code n lm lo piece pieces result,
  msgs_read lm -> (forall o d, quiet_logs (lo o d)) ->
  (forall k, tiles (32 * N.of_nat k) (pieces_written (stores POut (32 * N.of_nat k) piece pieces))
               (32 * N.of_nat (k + n))) ->
  forall key d fl fs fe k ins o, length ins = n ->
  logs (m_hashN O code n lm lo piece pieces result blocks key d fl fs fe k ins o)
       (fun l _ => whole cap k n l).
Proof.
  intros * Hm Ho Hs * L. unfold m_hashN. apply logs_bind, logs_pure. intros h _.
  apply logs_bind. eapply logs_impl; [apply Ho|]. intros l1 ov Q1.
  apply logs_bind. eapply logs_impl; [apply (m_loop_reads _ _ _ _ k n); intros; rewrite <- L; apply Hm|].
  intros l2 h' [R W]. apply logs_pure. intros y _.
  apply whole_quiet_l; [reflexivity|]. apply whole_quiet_l; [exact Q1|]. split.
  - replace ((0 + N.of_nat (N.to_nat blocks)) * 128) with cap in R by (unfold cap; lia).
    eapply reads_part_app; [exact R|]. split; intros; now rewrite stores_reads.
  - rewrite writes_app, W. apply Hs.
Qed.
Lemma m_offs_quiet : forall n o d, quiet_logs (m_load_offsets n o d).
Proof. intros. now apply quiet_logs_pure. Qed.
Lemma m_n_offs_quiet : forall o d, quiet_logs (m_n_load_offsets o d).
Proof.
  intros. apply quiet_logs_bind; [now apply quiet_logs_pure|]. intros.
  apply quiet_logs_bind; [now apply quiet_logs_pure|]. intros. now apply quiet_logs_pure.
Qed.
Ltac hashed msgs := intros; apply m_hashN_whole; auto;
  [apply msgs|first [apply m_n_offs_quiet|apply m_offs_quiet]
  |intros; cbn -[N.mul N.add N.of_nat Nat.add]; repeat split; lia].

Lemma m_portable_many_whole : forall key d fl fs fe,
  rest_whole (2 * blocks) (fun k xs o out => m_hash_many_portable k xs blocks key o d fl fs fe out).
Proof. intros * k xs o out. apply single_whole, m_one_portable_whole. Qed.
Lemma m_sse41_many_whole : forall key d fl fs fe,
  rest_whole (2 * blocks) (fun k xs o out => m_hash_many_sse41 k xs blocks key o d fl fs fe out).
Proof.
  intros * k xs o out. apply (many_loop_whole _ 2); [hashed m_msg2_reads|apply m_portable_many_whole].
Qed.
Lemma m_many_whole : forall b key d fl fs fe xs o out,
  logs (run_hash_many64 b xs blocks key o d fl fs fe out) (fun l _ => whole cap 0 (length xs) l).
Proof.
  intros []; intros; cbn [run_hash_many64].
  - apply m_portable_many_whole.
  - apply m_sse41_many_whole.
  - apply (many_loop_whole _ 4); [hashed m_msg4_reads|apply m_sse41_many_whole].
  - apply (many_loop_whole _ 8); [hashed m_msg8_reads|]. intros ? ? ? ?.
    apply (many_loop_whole _ 4); [hashed m_msg4_reads|]. intros ? ? ? ?.
    apply (many_loop_whole _ 2); [hashed m_msg2_reads|]. intros ? ? ? ?.
    apply single_whole, m_one_whole, m_avx512_reads.
  - apply (many_loop_whole _ 2); [hashed m_msg2_reads|]. intros ? ? ? ?.
    apply single_whole, m_one_whole, m_portable_reads.
Qed.
End Blocks.

Lemma m_many_memory : forall b inputs blocks key offset deltas flags flags_start flags_end out result,
  let run := run_hash_many64 b inputs blocks key offset deltas flags flags_start flags_end out in
  snd run = Ok result ->
  (forall k, (k < length inputs)%nat -> tiles 0 (pieces_read k (fst run)) (128 * blocks)) /\
  (forall k, (length inputs <= k)%nat -> pieces_read k (fst run) = []) /\
  tiles 0 (pieces_written (fst run)) (32 * len inputs).
Proof.
  intros * E.
  destruct (m_many_whole blocks b key deltas flags flags_start flags_end inputs offset out result E)
    as [[R1 R2] W].
  replace (64 * (2 * blocks)) with (128 * blocks) in R1 by lia.
  split; [|split].
  - intros. apply R1. lia.
  - intros. apply R2. lia.
  - exact W.
Qed.

(* ---- bounds ---- *)

Section Bounds.
Variables nd n : nat.
Variables blocks : N.
Let cap : N := 128 * blocks.
Let out_len : N := 32 * N.of_nat n.
Definition ok64 {A : Type} (m : vs A) : Prop := forallb (inside64 nd n cap out_len) (fst m) = true.
Lemma ok64_bind : forall A B (m : vs A) (f : A -> vs B),
  ok64 m -> (forall x, ok64 (f x)) -> ok64 (vbind m f).
Proof.
  intros A B [l r] f H K. unfold ok64, vbind in *. destruct r as [x| |]; try exact H.
  specialize (K x). destruct (f x) as [l' r']. cbn [fst] in *. now rewrite forallb_app, H, K.
Qed.
Definition mcomp_ok (mc : mcomp) : Prop := forall k pos st b bl o f,
  (k < n)%nat -> pos + 128 <= cap -> ok64 (mc (PInput k) pos st b bl o f).
Lemma m_portable_ok : mcomp_ok m_compress_portable.
Proof. intros k pos * Hk L. unfold ok64. cbn -[N.mul N.add N.of_nat Nat.ltb cap]. lia. Qed.
Lemma m_avx512_ok : mcomp_ok m_compress_avx512.
Proof. intros k pos * Hk L. unfold ok64. cbn -[N.mul N.add N.of_nat Nat.ltb cap]. lia. Qed.
Lemma m_one_loop_ok : forall mc, mcomp_ok mc -> forall m k p st x o bf fl fe,
  (k < n)%nat -> p + 128 * N.of_nat m <= cap -> ok64 (m_hash_one_loop mc k p m st x o bf fl fe).
Proof.
  intros mc H. induction m as [|m IH]; intros * Hk L; cbn [m_hash_one_loop]; [reflexivity|].
  cbv zeta. change BLOCK_LEN with 128. apply ok64_bind; [reflexivity|].
  intros b. apply ok64_bind; [apply H; [exact Hk|lia]|]. intros st'. apply IH; [exact Hk|lia].
Qed.
Definition one_ok (h : nat -> list N -> N -> vs (list N)) : Prop :=
  forall k x o, (k < n)%nat -> ok64 (h k x o).
Lemma m_one_ok : forall mc, mcomp_ok mc -> forall key fl fs fe, one_ok (m_hash_one mc blocks key fl fs fe).
Proof.
  intros mc H * k x o Hk. apply ok64_bind; [reflexivity|]. intros _.
  apply ok64_bind; [apply m_one_loop_ok; auto; unfold cap; lia|].
  intros st. unfold ok64. cbn [fst forallb inside64]. unfold out_len. lia.
Qed.
Lemma m_one_portable_ok : forall key fl fs fe, one_ok (m_hash_one_portable blocks key fl fs fe).
Proof.
  intros * k x o Hk. apply ok64_bind; [reflexivity|]. intros _.
  apply ok64_bind; [apply m_one_loop_ok; [apply m_portable_ok|exact Hk|unfold cap; lia]|].
  intros st. unfold ok64. cbn -[N.mul N.add N.of_nat out_len]. unfold out_len. lia.
Qed.
Lemma m_row_ok : forall b inputs k off, (k + length inputs <= n)%nat -> off + b <= cap ->
  ok64 (m_load_row k b inputs off).
Proof.
  intros b. induction inputs as [|x inputs IH]; intros * Hk L; cbn [m_load_row length] in *; [reflexivity|].
  apply ok64_bind; [unfold ok64; cbn [fst forallb inside64]; lia|]. intros.
  apply ok64_bind; [apply IH; [lia|exact L]|]. reflexivity.
Qed.
Lemma m_grid_ok : forall b k inputs bo cols, (k + length inputs <= n)%nat ->
  Forall (fun col => bo + col + b <= cap) cols -> ok64 (m_load_grid k b inputs bo cols).
Proof.
  intros b k inputs bo cols Hk H. induction H as [|col cols Hc H IH]; cbn [m_load_grid]; [reflexivity|].
  apply ok64_bind; [apply m_row_ok; [exact Hk|exact Hc]|]. intros.
  apply ok64_bind; [exact IH|]. reflexivity.
Qed.
Definition msgs_ok (lm : nat -> list (list N) -> N -> vs (list vec)) : Prop := forall k ins bo,
  (k + length ins <= n)%nat -> bo + 128 <= cap -> ok64 (lm k ins bo).
Ltac msgs_ok := intros k ins bo Hk L; apply ok64_bind; [|reflexivity]; apply m_grid_ok; [exact Hk|];
  repeat constructor; lia.
Lemma m_msg2_ok : forall t, msgs_ok (m_msg2 t).
Proof. intros t. msgs_ok. Qed.
Lemma m_msg4_ok : msgs_ok m_msg4.
Proof. msgs_ok. Qed.
Lemma m_msg8_ok : msgs_ok m_msg8.
Proof. msgs_ok. Qed.
Lemma m_loop_ok : forall O code m lm,
  (forall bo, bo + 128 <= cap -> ok64 (lm bo)) ->
  forall todo block bs h ov bf fl fe, (block + N.of_nat todo) * 128 <= cap ->
  ok64 (m_vec_loop O code m lm todo block bs h ov bf fl fe).
Proof.
  intros O code m lm H. induction todo as [|todo IH]; intros * L; cbn [m_vec_loop]; [reflexivity|].
  cbv zeta. change BLOCK_LEN with 128. apply ok64_bind; [apply H; lia|]. intros. apply IH. lia.
Qed.
Lemma m_hashN_ok : forall O code m lm lo piece pieces result,
  msgs_ok lm -> (forall o d, ok64 (lo o d)) -> piece * N.of_nat pieces = 32 * N.of_nat m ->
  forall key d fl fs fe k ins o, length ins = m -> (k + m <= n)%nat ->
  ok64 (m_hashN O code m lm lo piece pieces result blocks key d fl fs fe k ins o).
Proof.
  intros * Hm Ho Hs * L Hk. apply ok64_bind; [reflexivity|]. intros.
  apply ok64_bind; [apply Ho|]. intros. apply ok64_bind.
  { apply m_loop_ok; [|unfold cap; lia]. intros. apply Hm; [lia|assumption]. }
  intros. unfold ok64, stores. cbn [fst]. apply forallb_forall. intros s Hin.
  apply in_map_iff in Hin. destruct Hin as (i & <- & Hi). apply in_seq in Hi. cbn [inside64].
  assert (piece * N.of_nat i + piece <= piece * N.of_nat pieces) by nia. unfold out_len. lia.
Qed.
Lemma m_offs_ok : forall m, (m <= nd)%nat -> forall o d, ok64 (m_load_offsets m o d).
Proof. intros. unfold ok64. cbn [fst m_load_offsets forallb inside64]. lia. Qed.
Lemma m_n_offs_ok : (2 <= nd)%nat -> forall o d, ok64 (m_n_load_offsets o d).
Proof.
  intros. apply ok64_bind; [unfold ok64; cbn [fst forallb inside64]; lia|]. intros.
  apply ok64_bind; [unfold ok64; cbn [fst forallb inside64]; lia|]. reflexivity.
Qed.
Definition rest_ok (r : nat -> list (list N) -> N -> list N -> vs (list N)) : Prop :=
  forall k xs o out, (k + length xs <= n)%nat -> ok64 (r k xs o out).
Lemma m_many_loop_ok : forall degree h r, (degree < nd)%nat ->
  (forall k xs o, length xs = degree -> (k + degree <= n)%nat -> ok64 (h k xs o)) -> rest_ok r ->
  forall fuel k xs o d out, (k + length xs <= n)%nat ->
  ok64 (cv_many_loop fuel (N.of_nat degree) h r k xs o d out).
Proof.
  intros degree h r Hd H Hr. induction fuel as [|fuel IH]; intros * Hk; cbn [cv_many_loop];
    destruct (N.leb_spec (N.of_nat degree) (len xs)) as [E|E]; try (now apply Hr); [reflexivity|].
  destruct (take_drop_length degree xs E) as (T & D & E2).
  apply ok64_bind; [apply H; [exact T|lia]|]. intros y.
  apply ok64_bind; [unfold ok64; cbn [fst forallb inside64]; lia|]. intros delta. cbv zeta.
  apply ok64_bind; [reflexivity|]. intros tl.
  apply ok64_bind; [apply IH; rewrite D; lia|]. reflexivity.
Qed.
Lemma m_single_ok : (1 < nd)%nat -> forall h, one_ok h -> forall d, rest_ok (cv_single_loop h d).
Proof.
  intros Hd h H d k xs o out Hk. unfold cv_single_loop. apply (m_many_loop_ok 1); auto.
  - intros. apply ok64_bind; [reflexivity|]. intros. apply H. lia.
  - intros ? ? ? ? _. reflexivity.
Qed.
Ltac hashed msgs := intros; apply m_hashN_ok; auto;
  [apply msgs|first [apply m_n_offs_ok|apply m_offs_ok]; lia].
Lemma m_portable_many_ok : (2 <= nd)%nat -> forall key d fl fs fe,
  rest_ok (fun k xs o out => m_hash_many_portable k xs blocks key o d fl fs fe out).
Proof. intros Hd * k xs o out Hk. apply m_single_ok; auto. apply m_one_portable_ok. Qed.
Lemma m_sse41_many_ok : (3 <= nd)%nat -> forall key d fl fs fe,
  rest_ok (fun k xs o out => m_hash_many_sse41 k xs blocks key o d fl fs fe out).
Proof.
  intros Hd * k xs o out Hk. apply (m_many_loop_ok 2); auto; [hashed m_msg2_ok|].
  apply m_portable_many_ok. lia.
Qed.
Lemma m_many_ok : forall b, (deltas_needed64 b <= nd)%nat -> forall key d fl fs fe xs o out,
  (length xs <= n)%nat -> ok64 (run_hash_many64 b xs blocks key o d fl fs fe out).
Proof.
  intros b Hd * Hk. destruct b; cbn [deltas_needed64 run_hash_many64] in *.
  - apply m_portable_many_ok; auto.
  - apply m_sse41_many_ok; auto.
  - apply (m_many_loop_ok 4); auto; [hashed m_msg4_ok|]. apply m_sse41_many_ok. lia.
  - apply (m_many_loop_ok 8); auto; [hashed m_msg8_ok|]. intros ? ? ? ? Hk1.
    apply (m_many_loop_ok 4); auto; [lia|hashed m_msg4_ok|]. intros ? ? ? ? Hk2.
    apply (m_many_loop_ok 2); auto; [lia|hashed m_msg2_ok|].
    apply m_single_ok; [lia|]. apply m_one_ok, m_avx512_ok.
  - apply (m_many_loop_ok 2); auto; [hashed m_msg2_ok|].
    apply m_single_ok; [lia|]. apply m_one_ok, m_portable_ok.
Qed.
End Bounds.

Lemma m_many_inside : forall b inputs blocks key offset deltas flags flags_start flags_end out,
  forallb (inside64 (deltas_needed64 b) (length inputs) (128 * blocks) (32 * len inputs))
    (fst (run_hash_many64 b inputs blocks key offset deltas flags flags_start flags_end out)) = true.
Proof. intros. apply m_many_ok; auto. Qed.

Lemma m_compress_memory : forall state block block_len offset flags,
  let good run := 
    forallb (inside64 0 0 0 0) (fst run) = true /\
    tiles 0 (pieces_loaded is_block (fst run)) 128 /\
    tiles 0 (pieces_loaded is_cv (fst run)) 32 /\
    tiles 0 (pieces_stored is_cv (fst run)) 32 in
  good (m_compress_portable PBlock 0 state block block_len offset flags) /\
  good (m_compress_avx2 PBlock 0 state block block_len offset flags) /\
  good (m_compress_avx512 PBlock 0 state block block_len offset flags).
Proof. intros. cbv. auto 30. Qed.
