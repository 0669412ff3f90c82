(* Every interleaving of the concurrent recursion ends, and ends with the sequential
   result. *)
From Coq Require Import NArith List Bool Lia ZArith.
From Coq Require Import ZifyBool ZifyNat ZifyN.
From Verif Require Import Base BaseFacts Spec TreeFacts CompressFacts ManyFacts SpecFacts.
From Verif Require Import Portable Platform Lib ChunkFacts LibFacts Session ApiFacts Schedule.
Import ListNotations.
Open Scope N_scope.

(* ---- arrays used by a thread ---- *)

Fixpoint arrays (t : thread) : list nat :=
  match t with
  | TJoin f _ _ a b _ => f :: arrays a ++ arrays b
  | _ => []
  end.

(* Every thread has its own arrays, and they have the right sizes. *)
Fixpoint wf (m : memory) (n : nat) (r : region) (t : thread) : Prop :=
  (r_array r < n)%nat /\ r_base r + r_len r <= len (m (r_array r)) /\
  match t with
  | TJoin f size split a b k =>
      (f < n)%nat /\ r_array r <> f /\ ~ In (r_array r) (arrays a) /\ ~ In (r_array r) (arrays b) /\
      ~ In f (arrays a) /\ ~ In f (arrays b) /\
      (forall g, In g (arrays a) -> ~ In g (arrays b)) /\
      split <= size /\ len (m f) = size /\
      wf m n (Region f 0 split) a /\ wf m n (Region f split (size - split)) b
  | _ => True
  end.

(* What t will do if it runs alone from here. *)
Fixpoint eval (m : memory) (r : region) (t : thread) : res (list N * N) :=
  match t with
  | TRun p => seq_run p (view m r)
  | TDone n => Ok (view m r, n)
  | TPanic => Panic
  | TJoin f size split a b k =>
      let* (x, n1) := eval m (Region f 0 split) a in
      let* (y, n2) := eval m (Region f split (size - split)) b in
      seq_run (k n1 n2 (x ++ y)) (view m r)
  end.

Lemma wf_arrays : forall t m n r, wf m n r t -> forall g, In g (arrays t) -> (g < n)%nat.
Proof.
  induction t as [p|f size split a IHa b IHb k|x|]; intros m n r W g Hg; cbn [arrays] in Hg;
    try contradiction.
  cbn [wf] in W. destruct W as (_ & _ & H & _ & _ & _ & _ & _ & _ & _ & _ & Wa & Wb).
  destruct Hg as [<-|Hg]; [exact H|]. apply in_app_or in Hg. destruct Hg; eauto.
Qed.

(* The part of array r outside the region. *)
Definition outside (m : memory) (r : region) : list N * list N :=
  (take (r_base r) (m (r_array r)), drop (r_base r + r_len r) (m (r_array r))).

Lemma view_set_other : forall m r f v, r_array r <> f -> view (set_array m f v) r = view m r.
Proof.
  intros m r f v H. unfold view, set_array.
  rewrite (proj2 (Nat.eqb_neq _ _)) by exact H. reflexivity.
Qed.

Lemma set_nth_take_drop : forall A (l : list A) i v, (i < length l)%nat ->
  set_nth l i v = firstn i l ++ v :: skipn (S i) l.
Proof.
  induction l as [|x l IH]; intros [|i] v H; cbn in *; try lia; auto.
  now rewrite IH by lia.
Qed.

Lemma split3 : forall (l : list N) b n, b + n <= len l ->
  l = take b l ++ take n (drop b l) ++ drop (b + n) l.
Proof.
  intros l b n H. rewrite <- (take_drop _ b l) at 1. f_equal.
  rewrite <- (take_drop _ n (drop b l)) at 1. f_equal. rewrite drop_drop. f_equal. lia.
Qed.

Lemma set_nth_app_l : forall A (a b : list A) i v, (i < length a)%nat ->
  set_nth (a ++ b) i v = set_nth a i v ++ b.
Proof. induction a as [|x a IH]; intros b [|i] v H; cbn in *; try lia; auto. now rewrite IH by lia. Qed.
Lemma set_nth_app_r : forall A (a b : list A) i v, 
  set_nth (a ++ b) (length a + i) v = a ++ set_nth b i v.
Proof. induction a as [|x a IH]; intros b i v; cbn in *; auto. now rewrite IH. Qed.

Lemma put_array : forall m r i b, i < r_len r -> r_base r + r_len r <= len (m (r_array r)) ->
  put m r i b (r_array r)
  = take (r_base r) (m (r_array r)) ++ set_nth (view m r) (N.to_nat i) b
    ++ drop (r_base r + r_len r) (m (r_array r)).
Proof.
  intros m r i b H1 H2. unfold put, set_array. rewrite Nat.eqb_refl.
  rewrite (split3 (m (r_array r)) (r_base r) (r_len r) H2) at 1.
  fold (view m r).
  assert (Lt : len (take (r_base r) (m (r_array r))) = r_base r) by (rewrite len_take; lia).
  assert (Lv : len (view m r) = r_len r) by (unfold view; rewrite len_take, len_drop; lia).
  replace (N.to_nat (r_base r + i))
    with (length (take (r_base r) (m (r_array r))) + N.to_nat i)%nat by (unfold len in Lt; lia).
  rewrite set_nth_app_r, set_nth_app_l by (unfold len in Lv; lia). reflexivity.
Qed.

Lemma put_view : forall m r i b, i < r_len r -> r_base r + r_len r <= len (m (r_array r)) ->
  view (put m r i b) r = set_nth (view m r) (N.to_nat i) b /\
  len (put m r i b (r_array r)) = len (m (r_array r)) /\
  outside (put m r i b) r = outside m r.
Proof.
  intros m r i b H1 H2. pose proof (put_array m r i b H1 H2) as E.
  assert (Lt : len (take (r_base r) (m (r_array r))) = r_base r) by (rewrite len_take; lia).
  assert (Lv : len (set_nth (view m r) (N.to_nat i) b) = r_len r).
  { unfold len. rewrite length_set_nth. fold (len (view m r)). unfold view.
    rewrite len_take, len_drop. lia. }
  split; [|split].
  - unfold view at 1. rewrite E, drop_app_eq, take_app_eq by auto. reflexivity.
  - rewrite E, !len_app, len_drop. lia.
  - unfold outside. rewrite E. f_equal.
    + now apply take_app_eq.
    + rewrite app_assoc. apply drop_app_eq. rewrite len_app. lia.
Qed.

(* eval looks only at the region and at the thread's arrays *)
Lemma eval_ext : forall t m m' r, view m r = view m' r ->
  (forall g, In g (arrays t) -> m g = m' g) -> eval m r t = eval m' r t.
Proof.
  induction t as [p|f size split a IHa b IHb k|x|]; intros m m' r V A; cbn [eval]; try now rewrite V.
  - assert (Ef : m f = m' f) by (apply A; now left).
    rewrite (IHa m m') by (try (unfold view; cbn [r_array r_base r_len]; now rewrite Ef);
      intros g Hg; apply A; right; apply in_or_app; auto).
    rewrite (IHb m m') by (try (unfold view; cbn [r_array r_base r_len]; now rewrite Ef);
      intros g Hg; apply A; right; apply in_or_app; auto).
    now rewrite V.
  - reflexivity.
Qed.

(* so does wf *)
Lemma wf_ext : forall t m m' n n' r, (n <= n')%nat -> len (m' (r_array r)) = len (m (r_array r)) ->
  (forall g, In g (arrays t) -> m' g = m g) -> wf m n r t -> wf m' n' r t.
Proof.
  induction t as [p|f size split a IHa b IHb k|x|]; intros m m' n n' r Hn L A W; cbn [wf] in *.
  - rewrite L. intuition lia.
  - destruct W as (W1 & W2 & W3 & W4 & W5 & W6 & W7 & W8 & W9 & W10 & W11 & W12 & W13).
    assert (Ef : m' f = m f) by (apply A; now left).
    rewrite L, Ef. do 10 (split; [first [assumption|lia]|]). split; [assumption|]. split.
    + apply (IHa m m' n n'); auto; [cbn [r_array]; now rewrite Ef|].
      intros g Hg. apply A. right. apply in_or_app. auto.
    + apply (IHb m m' n n'); auto; [cbn [r_array]; now rewrite Ef|].
      intros g Hg. apply A. right. apply in_or_app. auto.
  - rewrite L. intuition lia.
  - rewrite L. intuition lia.
Qed.

(* ---- one step ---- *)

Record preserved (m : memory) (n : nat) (r : region) (t : thread) (m' : memory) (n' : nat)
  (t' : thread) : Prop :=
  { pr_wf : wf m' n' r t';
    pr_eval : eval m' r t' = eval m r t;
    pr_n : (n <= n')%nat;
    pr_len : len (m' (r_array r)) = len (m (r_array r));
    pr_out : outside m' r = outside m r;
    pr_other : forall g, (g < n)%nat -> g <> r_array r -> ~ In g (arrays t) -> m' g = m g;
    pr_arrays : forall g, In g (arrays t') -> In g (arrays t) \/ (n <= g)%nat }.

Lemma same : forall m n r t t', wf m n r t' -> eval m r t' = eval m r t ->
  (forall g, In g (arrays t') -> In g (arrays t)) -> preserved m n r t m n t'.
Proof. intros m n r t t' W E A. constructor; auto. Qed.

Lemma view_whole : forall m f size split, split <= size -> len (m f) = size ->
  view m (Region f 0 split) ++ view m (Region f split (size - split)) = m f.
Proof.
  intros m f size split H L. unfold view. cbn [r_array r_base r_len]. rewrite drop_0.
  rewrite (take_all _ (size - split)) by (rewrite len_drop; lia). apply take_drop.
Qed.

(* eval of a finished or running thread keeps the size of the region *)
Lemma seq_run_len : forall p out out' n, seq_run p out = Ok (out', n) -> len out' = len out.
Proof.
  induction p as [x| |i b k IH|size split a IHa b IHb k IHk]; intros out out' n E; cbn [seq_run] in E;
    try discriminate.
  - now injection E as <- _.
  - destruct (i <? len out); [|discriminate]. apply IH in E. rewrite E.
    unfold len. now rewrite length_set_nth.
  - destruct (split <=? size); [|discriminate].
    destruct (seq_run a (zeros split)) as [[x n1]| |]; cbn [bind] in E; try discriminate.
    destruct (seq_run b (zeros (size - split))) as [[y n2]| |]; cbn [bind] in E; try discriminate.
    now apply IHk in E.
Qed.

Lemma step_preserved : forall r s s', tstep r s s' ->
  forall m n t m' n' t', s = (m, n, t) -> s' = (m', n', t') -> wf m n r t ->
  preserved m n r t m' n' t'.
Proof.
  induction 1 as [r m n x|r m n|r m n i b k Hi|r m n i b k Hi|r m n size split a b k Hs
    |r m n size split a b k Hs|r m n m' n' f size split a a' b k S IH
    |r m n m' n' f size split a b b' k S IH|r m n f size split x y k|r m n f size split b k Fb
    |r m n f size split x k];
    intros m0 n0 t0 m1 n1 t1 E0 E1 W; injection E0 as <- <- <-; injection E1 as <- <- <-.
  - apply same; auto.
  - apply same; auto.
  - (* write *)
    cbn [wf] in W. destruct W as (W1 & W2 & _).
    destruct (put_view m r i b Hi W2) as (V & L & O).
    constructor; auto.
    + cbn [wf]. rewrite L. auto.
    + cbn [eval seq_run]. rewrite V.
      assert (Lv : len (view m r) = r_len r) by (unfold view; rewrite len_take, len_drop; lia).
      rewrite Lv, (proj2 (N.ltb_lt _ _)) by exact Hi. reflexivity.
    + intros g _ Hg _. unfold put, set_array. now rewrite (proj2 (Nat.eqb_neq _ _)) by exact Hg.
  - (* write out of bounds *)
    cbn [wf] in W. apply same; cbn [wf]; auto. cbn [eval seq_run].
    assert (Lv : len (view m r) = r_len r) by (unfold view; rewrite len_take, len_drop; lia).
    rewrite Lv, (proj2 (N.ltb_ge _ _)) by exact Hi. reflexivity.
  - (* fork *)
    cbn [wf] in W. destruct W as (W1 & W2 & _).
    assert (Nr : r_array r <> n) by lia.
    assert (Er : set_array m n (zeros size) (r_array r) = m (r_array r)).
    { unfold set_array. now rewrite (proj2 (Nat.eqb_neq _ _)) by exact Nr. }
    assert (En : set_array m n (zeros size) n = zeros size).
    { unfold set_array. now rewrite Nat.eqb_refl. }
    constructor.
    + cbn [wf r_array r_base r_len arrays]. rewrite Er, En, len_zeros.
      cbn [In]. intuition lia.
    + cbn [eval seq_run]. rewrite (proj2 (N.leb_le _ _)) by exact Hs.
      rewrite (view_set_other m r) by exact Nr.
      replace (view (set_array m n (zeros size)) (Region n 0 split)) with (zeros split).
      2:{ unfold view. cbn [r_array r_base r_len]. rewrite En, drop_0. unfold zeros, take.
          rewrite <- (firstn_all2 (repeat 0 (N.to_nat split)) (le_n _)), repeat_length at 1.
          replace (N.to_nat size) with (N.to_nat split + N.to_nat (size - split))%nat by lia.
          rewrite repeat_app, firstn_app, repeat_length, Nat.sub_diag. cbn [firstn].
          now rewrite app_nil_r. }
      replace (view (set_array m n (zeros size)) (Region n split (size - split)))
        with (zeros (size - split)).
      2:{ unfold view. cbn [r_array r_base r_len]. rewrite En.
          rewrite take_all by (rewrite len_drop, len_zeros; lia). unfold zeros, drop.
          replace (N.to_nat size) with (N.to_nat split + N.to_nat (size - split))%nat by lia.
          rewrite repeat_app, skipn_app, repeat_length, Nat.sub_diag.
          rewrite skipn_all2 by (rewrite repeat_length; lia). reflexivity. }
      reflexivity.
    + lia.
    + now rewrite Er.
    + unfold outside. now rewrite Er.
    + intros g Hg _ _. unfold set_array. now rewrite (proj2 (Nat.eqb_neq _ _)) by lia.
    + cbn [arrays app]. intros g [<-|[]]. right. lia.
  - (* fork out of bounds *)
    cbn [wf] in W. apply same; cbn [wf]; auto. cbn [eval seq_run].
    rewrite (proj2 (N.leb_gt _ _)) by exact Hs. reflexivity.
  - (* left *)
    cbn [wf] in W.
    destruct W as (W1 & W2 & W3 & W4 & W5 & W6 & W7 & W8 & W9 & W10 & W11 & W12 & W13).
    specialize (IH _ _ _ _ _ _ eq_refl eq_refl W12). destruct IH as [P1 P2 P3 P4 P5 P6 P7].
    cbn [r_array] in *.
    assert (Vb : view m' (Region f split (size - split)) = view m (Region f split (size - split))).
    { unfold view. cbn [r_array r_base r_len].
      unfold outside in P5. cbn [r_array r_base r_len] in P5. apply (f_equal snd) in P5.
      cbn [snd] in P5. rewrite N.add_0_l in P5. now rewrite P5. }
    assert (Ab : forall g, In g (arrays b) -> m' g = m g).
    { intros g Hg. apply P6.
      - now apply (wf_arrays _ _ _ _ W13).
      - intros ->. auto.
      - intros Hg'. now apply (W9 g). }
    assert (Er : m' (r_array r) = m (r_array r)) by (apply P6; auto).
    assert (Vr : view m' r = view m r) by (unfold view; now rewrite Er).
    assert (Fresh : forall g, (g < n)%nat -> ~ In g (arrays a) -> ~ In g (arrays a')).
    { intros g Hg N1 N2. destruct (P7 g N2); [auto|lia]. }
    constructor.
    + cbn [wf]. rewrite Er, P4. do 2 (split; [first [assumption|lia]|]).
      split; [lia|]. split; [assumption|]. split; [apply Fresh; auto|]. split; [assumption|].
      split; [apply Fresh; auto|]. split; [assumption|]. split.
      { intros g Hg Hb. destruct (P7 g Hg) as [H|H]; [now apply (W9 g)|].
        pose proof (wf_arrays _ _ _ _ W13 g Hb). lia. }
      split; [assumption|]. split; [assumption|]. split; [assumption|].
      apply (wf_ext b m m' n n'); auto.
    + cbn [eval]. rewrite P2, Vr.
      rewrite (eval_ext b m' m) by auto. reflexivity.
    + exact P3.
    + now rewrite Er.
    + unfold outside. now rewrite Er.
    + cbn [arrays]. intros g Hg Nr Na. apply P6; auto.
      * intros ->. apply Na. now left.
      * intros Ha. apply Na. right. apply in_or_app. auto.
    + cbn [arrays]. intros g [<-|Hg]; [left; now left|]. apply in_app_or in Hg.
      destruct Hg as [Hg|Hg].
      * destruct (P7 g Hg); [left; right; apply in_or_app; auto|auto].
      * left. right. apply in_or_app. auto.
  - (* right *)
    cbn [wf] in W.
    destruct W as (W1 & W2 & W3 & W4 & W5 & W6 & W7 & W8 & W9 & W10 & W11 & W12 & W13).
    specialize (IH _ _ _ _ _ _ eq_refl eq_refl W13). destruct IH as [P1 P2 P3 P4 P5 P6 P7].
    cbn [r_array] in *.
    assert (Va : view m' (Region f 0 split) = view m (Region f 0 split)).
    { unfold view. cbn [r_array r_base r_len]. rewrite !drop_0.
      unfold outside in P5. cbn [r_array r_base r_len] in P5. now apply (f_equal fst) in P5. }
    assert (Aa : forall g, In g (arrays a) -> m' g = m g).
    { intros g Hg. apply P6.
      - now apply (wf_arrays _ _ _ _ W12).
      - intros ->. auto.
      - intros Hg'. now apply (W9 g). }
    assert (Er : m' (r_array r) = m (r_array r)) by (apply P6; auto).
    assert (Vr : view m' r = view m r) by (unfold view; now rewrite Er).
    assert (Fresh : forall g, (g < n)%nat -> ~ In g (arrays b) -> ~ In g (arrays b')).
    { intros g Hg N1 N2. destruct (P7 g N2); [auto|lia]. }
    constructor.
    + cbn [wf]. rewrite Er, P4. do 2 (split; [first [assumption|lia]|]).
      split; [lia|]. split; [assumption|]. split; [assumption|]. split; [apply Fresh; auto|].
      split; [assumption|]. split; [apply Fresh; auto|]. split.
      { intros g Hg Hb. destruct (P7 g Hb) as [H|H]; [now apply (W9 g)|].
        pose proof (wf_arrays _ _ _ _ W12 g Hg). lia. }
      split; [assumption|]. split; [assumption|]. split; [|assumption].
      apply (wf_ext a m m' n n'); auto.
    + cbn [eval]. rewrite P2, Vr.
      rewrite (eval_ext a m' m) by auto. reflexivity.
    + exact P3.
    + now rewrite Er.
    + unfold outside. now rewrite Er.
    + cbn [arrays]. intros g Hg Nr Na. apply P6; auto.
      * intros ->. apply Na. now left.
      * intros Hb. apply Na. right. apply in_or_app. auto.
    + cbn [arrays]. intros g [<-|Hg]; [left; now left|]. apply in_app_or in Hg.
      destruct Hg as [Hg|Hg].
      * left. right. apply in_or_app. auto.
      * destruct (P7 g Hg); [left; right; apply in_or_app; auto|auto].
  - (* join *)
    cbn [wf] in W.
    destruct W as (W1 & W2 & W3 & W4 & W5 & W6 & W7 & W8 & W9 & W10 & W11 & W12 & W13).
    apply same.
    + cbn [wf]. auto.
    + cbn [eval bind]. rewrite view_whole by auto. reflexivity.
    + cbn [arrays]. intros g [].
  - cbn [wf] in W. apply same; [cbn [wf]; tauto| |intros g []].
    cbn [eval bind]. reflexivity.
  - cbn [wf] in W. apply same; [cbn [wf]; tauto| |intros g []].
    cbn [eval bind]. reflexivity.
Qed.

Lemma steps_preserved : forall r s s', tsteps r s s' ->
  forall m n t m' n' t', s = (m, n, t) -> s' = (m', n', t') -> wf m n r t ->
  wf m' n' r t' /\ eval m' r t' = eval m r t /\ len (m' (r_array r)) = len (m (r_array r)).
Proof.
  induction 1 as [s|s1 s2 s3 S SS IH]; intros m n t m' n' t' E0 E1 W.
  - rewrite E0 in E1. injection E1 as <- <- <-. auto.
  - destruct s2 as [[m2 n2] t2].
    destruct (step_preserved _ _ _ S _ _ _ _ _ _ E0 eq_refl W) as [P1 P2 P3 P4 P5 P6 P7].
    destruct (IH _ _ _ _ _ _ eq_refl E1 P1) as (Q1 & Q2 & Q3).
    rewrite Q2, Q3. auto.
Qed.

Lemma initial_wf : forall p out, wf (fst (fst (initial p out))) 1 (out_region out) (TRun p).
Proof. intros p out. cbn. lia. Qed.

(* ---- no interleaving gets stuck ---- *)

Lemma progress : forall t m n r, finished t \/ exists s', tstep r (m, n, t) s'.
Proof.
  induction t as [p|f size split a IHa b IHb k|x|]; intros m n r; cbn [finished]; auto.
  - right. destruct p as [x| |i b k|size split a b k].
    + eexists. constructor.
    + eexists. constructor.
    + destruct (N.lt_ge_cases i (r_len r)); eexists; [now apply s_write|now apply s_write_bounds].
    + destruct (N.le_gt_cases split size); eexists; [now apply s_fork|now apply s_fork_bounds].
  - right. destruct (IHa m n (Region f 0 split)) as [Fa|([[m' n'] a'] & Sa)].
    2:{ eexists. apply s_left. exact Sa. }
    destruct (IHb m n (Region f split (size - split))) as [Fb|([[m' n'] b'] & Sb)].
    2:{ eexists. apply s_right. exact Sb. }
    destruct a; try contradiction.
    + destruct b; try contradiction; eexists; [apply s_join|apply s_join_panic_b].
    + eexists. now apply s_join_panic_a.
Qed.

Lemma finished_final : forall t m n r s', finished t -> ~ tstep r (m, n, t) s'.
Proof. intros t m n r s' F S. inversion S; subst; contradiction. Qed.

(* ---- every interleaving ends ---- *)

Definition thread_step (t' t : thread) : Prop :=
  exists r m n m' n', tstep r (m, n, t) (m', n', t').

Lemma join_terminates : forall a, Acc thread_step a -> forall b, Acc thread_step b ->
  forall k, (forall x y v, Acc thread_step (TRun (k x y v))) ->
  forall f size split, Acc thread_step (TJoin f size split a b k).
Proof.
  induction 1 as [a Ha IHa]. induction 1 as [b Hb IHb]. intros k Hk f size split.
  constructor. intros t' (r & m & n & m' & n' & S). inversion S; subst.
  - apply IHa; auto; [|now constructor]. do 5 eexists. eassumption.
  - apply IHb; auto. do 5 eexists. eassumption.
  - apply Hk.
  - constructor. intros t (r1 & m1 & n1 & m2 & n2 & S2). inversion S2.
  - constructor. intros t (r1 & m1 & n1 & m2 & n2 & S2). inversion S2.
Qed.

Lemma run_terminates : forall p, Acc thread_step (TRun p).
Proof.
  assert (Stop : forall t, finished t -> Acc thread_step t).
  { intros t F. constructor. intros t' (r & m & n & m' & n' & S).
    exfalso. eapply finished_final; eauto. }
  induction p as [x| |i b k IH|size split a IHa b IHb k IHk]; constructor;
    intros t' (r & m & n & m' & n' & S); inversion S; subst; auto; try (apply Stop; exact I).
  apply join_terminates; auto.
Qed.

Lemma terminates : forall t, Acc thread_step t.
Proof.
  induction t as [p|f size split a IHa b IHb k|x|].
  - apply run_terminates.
  - apply join_terminates; auto. intros. apply run_terminates.
  - constructor. intros t' (r & m & n & m' & n' & S). inversion S.
  - constructor. intros t' (r & m & n & m' & n' & S). inversion S.
Qed.

(* no infinite interleaving *)
Lemma no_infinite_run : forall r (s : nat -> config), ~ (forall i, tstep r (s i) (s (S i))).
Proof.
  intros r s H.
  assert (G : forall t, Acc thread_step t -> forall i, snd (s i) = t -> False).
  { induction 1 as [t _ IH]. intros i E.
    apply (IH (snd (s (S i)))) with (i := S i); auto.
    specialize (H i). destruct (s i) as [[m n] t0]. destruct (s (S i)) as [[m' n'] t1].
    cbn [snd] in *. subst. do 5 eexists. exact H. }
  exact (G _ (terminates _) 0%nat eq_refl).
Qed.

(* ---- no data race ---- *)

Lemma touches_where : forall r t x i, touches r t x i ->
  (x = r_array r /\ r_base r <= i < r_base r + r_len r) \/ In x (arrays t).
Proof.
  induction 1 as [r i b k Hi|r f size split a b k x i T IH|r f size split a b k x i T IH
    |r f size split x y k i Hi]; cbn [arrays r_array r_base r_len] in *.
  - left. lia.
  - right. destruct IH as [(-> & _)|IH]; [now left|right; apply in_or_app; auto].
  - right. destruct IH as [(-> & _)|IH]; [now left|right; apply in_or_app; auto].
  - right. now left.
Qed.

Lemma wf_no_race : forall t m n r, wf m n r t -> ~ race t.
Proof.
  induction t as [p|f size split a IHa b IHb k|x|]; intros m n r W R; inversion R; subst;
    cbn [wf] in W;
    destruct W as (W1 & W2 & W3 & W4 & W5 & W6 & W7 & W8 & W9 & W10 & W11 & W12 & W13);
    try solve [eapply IHa; eauto]; try solve [eapply IHb; eauto].
  match goal with H : touches _ a _ _ |- _ => apply touches_where in H as Ta end.
  match goal with H : touches _ b _ _ |- _ => apply touches_where in H as Tb end.
  cbn [r_array r_base r_len] in *.
  destruct Ta as [(-> & Ia)|Ta], Tb as [(Eb & Ib)|Tb]; subst; auto.
  - lia.
  - eapply W9; eauto.
Qed.

Lemma no_race : forall p out m n t,
  tsteps (out_region out) (initial p out) (m, n, t) -> ~ race t.
Proof.
  intros p out m n t S.
  destruct (steps_preserved _ _ _ S _ _ _ _ _ _ eq_refl eq_refl (initial_wf p out)) as (W & _).
  eapply wf_no_race, W.
Qed.

(* ---- the end of an interleaving ---- *)

Lemma final_state : forall p out m n t,
  tsteps (out_region out) (initial p out) (m, n, t) -> finished t ->
  match seq_run p out with
  | Ok (out', x) => t = TDone x /\ m 0%nat = out'
  | _ => t = TPanic
  end.
Proof.
  intros p out m n t S Ft.
  destruct (steps_preserved _ _ _ S _ _ _ _ _ _ eq_refl eq_refl (initial_wf p out)) as (W & E & L).
  cbn [eval] in E.
  assert (V : view (fun a : nat => if (a =? 0)%nat then out else []) (out_region out) = out).
  { unfold view, out_region. cbn [r_array r_base r_len Nat.eqb]. rewrite drop_0, take_all by lia.
    reflexivity. }
  rewrite V in E. destruct t; try contradiction; cbn [eval] in E.
  - rewrite <- E. split; [reflexivity|].
    unfold view, out_region. cbn [r_array r_base r_len] in *. cbn in L.
    rewrite drop_0, take_all by lia. reflexivity.
  - now rewrite <- E.
Qed.

(* some interleaving ends *)
Lemma some_end : forall r m n t, exists m' n' t', tsteps r (m, n, t) (m', n', t') /\ finished t'.
Proof.
  intros r m n t. revert m n. induction (terminates t) as [t _ IH]. intros m n.
  destruct (progress t m n r) as [Ft|([[m1 n1] t1] & S)].
  - exists m, n, t. split; [constructor|exact Ft].
  - destruct (IH t1) with (m := m1) (n := n1) as (m2 & n2 & t2 & SS & F2).
    + do 5 eexists. exact S.
    + exists m2, n2, t2. split; [|exact F2]. econstructor; eauto.
Qed.

Lemma steps_end : forall r s s', tsteps r s s' -> forall s'', tsteps r s' s'' -> tsteps r s s''.
Proof. induction 1; intros s'' H'; auto. econstructor; eauto. Qed.

(* ---- run alone, the concurrent recursion is hash_recurse ---- *)

Lemma writes_run : forall bs (a b : list N) k, len bs <= len b ->
  seq_run (writes (len a) bs k) (a ++ b) = seq_run k (a ++ bs ++ drop (len bs) b).
Proof.
  induction bs as [|x bs IH]; intros a b k H; cbn [writes].
  - reflexivity.
  - destruct b as [|y b]; rewrite ?len_cons, ?len_nil in H; [lia|].
    cbn [seq_run]. rewrite len_app, len_cons, (proj2 (N.ltb_lt _ _)) by lia.
    assert (E : set_nth (a ++ y :: b) (N.to_nat (len a)) x = (a ++ [x]) ++ b).
    { unfold len. rewrite Nat2N.id. rewrite <- (Nat.add_0_r (length a)).
      rewrite set_nth_app_r. cbn [set_nth]. now rewrite <- app_assoc. }
    rewrite E. replace (len a + 1) with (len (a ++ [x])) by (rewrite len_app; reflexivity).
    rewrite IH by lia. rewrite <- app_assoc. cbn [app].
    replace (drop (len (x :: bs)) (y :: b)) with (drop (len bs) b); [reflexivity|].
    rewrite len_cons. unfold drop. replace (N.to_nat (1 + len bs)) with (S (N.to_nat (len bs))) by lia.
    reflexivity.
Qed.

Lemma emit_run : forall (l : list (list N)) rest out, Forall (fun h => len h = 32 /\ bytes h) l ->
  32 * len l <= len out ->
  seq_run (emit (Ok (concat l ++ rest, len l))) out = Ok (concat l ++ drop (32 * len l) out, len l).
Proof.
  intros l rest out H1 H2. unfold emit. change OUT_LEN with 32.
  rewrite take_app_eq by (rewrite concat_32 by auto; lia).
  pose proof (writes_run (concat l) [] out (PRet (len l))) as E. cbn [app] in E.
  change (len (@nil N)) with 0 in E. rewrite E by (rewrite concat_32 by auto; lia).
  cbn [seq_run]. rewrite concat_32 by auto. reflexivity.
Qed.

Section Key.
Variable c : cfg.
Variable p : platform.
Variable key : list N.
Variable flags : N.
Hypothesis Pok : platform_ok c p.
Hypothesis Lkey : length key = 8%nat.
Hypothesis Wkey : words key.

Notation cvs := (SpecFacts.cvs key flags).
Notation pcv := (SpecFacts.pcv key flags).
Notation is32 := (fun h : list N => len h = 32 /\ bytes h).
Notation D := (LibFacts.D p).

Lemma recurse_prog_ok : forall fuel input i out,
  bytes input -> 1 <= len input -> len input < WU c -> 2048 * i + len input < W64 ->
  len input <= 2048 * 2 ^ N.of_nat fuel ->
  32 * N.min (len (pieces 2048 input)) D <= len out ->
  exists l, compressed p key flags l (cvs i (pieces 2048 input)) /\
    seq_run (recurse_prog c p fuel input key (2048 * i) flags (len out)) out
    = Ok (concat l ++ drop (32 * len l) out, len l).
Proof.
  pose proof (simd_degree_max c p Pok) as SM.
  assert (S1 : 1 <= simd_degree p) by (destruct p; cbn; lia).
  assert (Small : forall fuel input i out,
    bytes input -> 1 <= len input -> 2048 * i + len input < W64 ->
    32 * N.min (len (pieces 2048 input)) D <= len out ->
    len input <= simd_degree p * 2048 ->
    exists l, compressed p key flags l (cvs i (pieces 2048 input)) /\
      seq_run (recurse_prog c p fuel input key (2048 * i) flags (len out)) out
      = Ok (concat l ++ drop (32 * len l) out, len l)).
  { intros fuel input i out B H1 H3 H5 Hs.
    exists (cvs i (pieces 2048 input)). rewrite len_cvs.
    pose proof (pieces_len _ 2048 input eq_refl H1) as PL.
    assert (len (pieces 2048 input) <= D) by (unfold LibFacts.D; lia).
    assert (Sh : Forall is32 (cvs i (pieces 2048 input))).
    { apply cvs_shape; auto. now apply pieces_Forall. }
    split.
    - apply compressed_self; rewrite ?len_cvs; auto; lia.
    - assert (E : hash_chunks_parallel c p input key (2048 * i) flags (zeros (len out))
        = Ok (concat (cvs i (pieces 2048 input)) ++ drop (32 * len (pieces 2048 input)) (zeros (len out)),
              len (pieces 2048 input))).
      { apply hash_chunks_parallel_ok; auto; rewrite ?len_zeros; nia. }
      rewrite <- (len_cvs key flags (pieces 2048 input) i) in E |- *.
      destruct fuel; cbn [recurse_prog]; change CHUNK_LEN with 2048;
        rewrite (proj2 (N.leb_le _ _) Hs), E; apply emit_run; auto; rewrite len_cvs; lia. }
  induction fuel as [|fuel IH]; intros input i out B H1 H2 H3 H4 H5.
  { cbn in H4. apply Small; auto. nia. }
  destruct (N.le_gt_cases (len input) (simd_degree p * 2048)) as [Hs|Hs]; [now apply Small|].
  cbn [recurse_prog]. change CHUNK_LEN with 2048.
  rewrite (proj2 (N.leb_gt _ _) Hs).
  pose proof (pieces_len _ 2048 input eq_refl H1) as PL.
  assert (Hb : 2048 < len input) by nia.
  destruct (pieces_left key Lkey _ Hb) as (P1 & P2 & P3 & P4).
  destruct (left_chunks_spec _ Hb) as (A1 & A2 & A3).
  rewrite left_len_ok by auto. cbn [bind].
  remember (left_chunks (len input)) as k eqn:Ek.
  assert (Kp : k = 2 ^ N.log2 ((len input - 1) / 2048)) by exact Ek.
  unfold split_at at 1. rewrite (proj2 (N.leb_le _ _)) by lia. cbn [bind].
  rewrite len_take, N.min_l by lia.
  rewrite add64_ok by lia. cbn [bind].
  rewrite dassert_ok by (destruct p; reflexivity). cbn [bind]. cbv zeta.
  rewrite len_take, N.min_l by lia.
  pose proof (D_max c p Pok) as DM. assert (D2 : 2 <= D) by (unfold LibFacts.D; lia).
  change OUT_LEN with 32.
  set (deg := if 2048 * k =? 2048 then 1 else N.max (simd_degree p) 2).
  assert (Hdeg : (k = 1 /\ deg = 1 /\ D = 2) \/ (2 <= k /\ deg = D /\ D <= k)).
  { unfold deg. destruct (N.eqb_spec (2048 * k) 2048) as [E|E].
    - left. split; [lia|]. split; [reflexivity|]. unfold LibFacts.D.
      assert (len input <= 4096) by lia. destruct p; cbn in *; lia.
    - right. split; [lia|]. split; [reflexivity|]. unfold LibFacts.D.
      assert (simd_degree p < 2 * k) by lia.
      assert (simd_degree p <= k); [|lia].
      assert (X : forall t, 2 ^ t < 2 * k -> 2 ^ t <= k).
      { intros t Ht. rewrite Kp in *. rewrite <- N.pow_succ_r' in Ht.
        apply N.pow_lt_mono_r_iff in Ht; [|lia]. apply N.pow_le_mono_r; lia. }
      destruct p; [apply (X 0)|apply (X 2)|apply (X 3)]; cbn in *; lia. }
  cbn [seq_run]. rewrite (proj2 (N.leb_le _ _)) by lia.
  assert (Bt : bytes (take (2048 * k) input)) by now apply bytes_take.
  assert (Bd : bytes (drop (2048 * k) input)) by now apply bytes_drop.
  assert (Lt : len (take (2048 * k) input) = 2048 * k) by lenlia.
  assert (Ld : len (drop (2048 * k) input) = len input - 2048 * k) by lenlia.
  assert (H4' : k <= 2 ^ N.of_nat fuel).
  { rewrite Nat2N.inj_succ in H4. rewrite Kp in *.
    assert (Q : 2 ^ N.log2 ((len input - 1) / 2048) < 2 ^ N.succ (N.of_nat fuel)) by lia.
    apply N.pow_lt_mono_r_iff in Q; [|lia]. apply N.pow_le_mono_r; lia. }
  destruct (IH (take (2048 * k) input) i (zeros (deg * 32))) as (ll & Cl & El); auto; try lia.
  { rewrite P2, len_zeros. lia. }
  rewrite len_zeros in El. rewrite El. cbn [bind].
  set (size := 2 * MAX_SIMD_DEGREE_OR_2 c * 32) in *.
  destruct (IH (drop (2048 * k) input) (i + k) (zeros (size - deg * 32))) as (lr & Cr & Er);
    auto; try lia.
  { rewrite len_zeros. unfold size. lia. }
  rewrite len_zeros in Er.
  replace (2048 * i + 2048 * k) with (2048 * (i + k)) by lia.
  rewrite Er. cbn [bind].
  pose proof Cl as [L1 L2 L3 L4 L5 L6]. pose proof Cr as [R1 R2 R3 R4 R5 R6].
  rewrite len_cvs in L3, L5, L6, R3, R5, R6.
  assert (Hll : len ll = deg).
  { destruct Hdeg as [(K1 & D1 & _)|(K1 & D1 & DK)]; [lia|].
    rewrite D1. eapply L6; rewrite P2; [exact Kp|lia]. }
  rewrite dassert_ok by lia. cbn [bind].
  rewrite dassert_ok by lia. cbn [bind].
  rewrite (drop_all _ (32 * len ll)) by (rewrite len_zeros; lia). rewrite app_nil_r.
  rewrite app_assoc, <- concat_app.
  assert (Fa : Forall is32 (ll ++ lr)) by (apply Forall_app; auto).
  assert (Lc : len (concat (ll ++ lr)) = 32 * (len ll + len lr)).
  { rewrite concat_32, len_app by auto. lia. }
  rewrite P1, cvs_app, P2.
  destruct Hdeg as [(K1 & D1 & DD)|(K1 & D1 & DK)].
  - rewrite (proj2 (N.eqb_eq (len ll) 1)) by lia.
    assert (len lr = 1) by lia.
    exists (ll ++ lr). split.
    + apply compressed_pair; auto; rewrite ?len_cvs; try lia.
    + rewrite slice_to_ok by (rewrite len_zeros; lia). cbn [bind].
      rewrite slice_to_ok by (rewrite len_app; lia). cbn [bind].
      rewrite (take_app_eq _ (2 * 32)) by lia.
      pose proof (emit_run (ll ++ lr) [] out Fa) as E. rewrite app_nil_r, len_app in E.
      replace (len ll + len lr) with 2 in E by lia. rewrite len_app.
      replace (len ll + len lr) with 2 by lia. apply E. lia.
  - rewrite (proj2 (N.eqb_neq (len ll) 1)) by lia.
    rewrite slice_to_ok by (rewrite len_app; lia). cbn [bind].
    rewrite (take_app_eq _ ((len ll + len lr) * 32)) by lia.
    pose proof (len_pairs _ pcv (ll ++ lr)) as LP. rewrite len_app in LP.
    assert (Cj : compressed p key flags (pairs pcv (ll ++ lr)) 
      (cvs i (pieces 2048 (take (2048 * k) input)) ++ cvs (i + k) (pieces 2048 (drop (2048 * k) input)))).
    { eapply compressed_join; eauto; rewrite ?len_cvs, ?P2; try lia. exact Kp. }
    exists (pairs pcv (ll ++ lr)). split; [exact Cj|].
    assert (E : hash_parents_parallel c p (concat (ll ++ lr)) key flags (zeros (len out))
      = Ok (concat (pairs pcv (ll ++ lr)) ++ drop (32 * len (pairs pcv (ll ++ lr))) (zeros (len out)),
            len (pairs pcv (ll ++ lr)))).
    { apply hash_parents_parallel_ok; auto; rewrite ?len_app, ?len_zeros; try lia. }
    rewrite E. destruct Cj as [J1 _ _ _ _ _]. apply emit_run; auto. lia.
Qed.

End Key.

Lemma outcome_ok : forall c p key flags, platform_ok c p -> length key = 8%nat -> words key ->
  forall input, bytes input -> len input < WU c ->
  forall r, outcome c p input key flags r <-> r = hash_internal c p input key flags.
Proof.
  intros c p key flags P Lk Wk input B L r.
  unfold outcome, hash_internal. change CHUNK_LEN with 2048.
  destruct (N.leb_spec (len input) 2048) as [Hs|Hs]; [reflexivity|].
  pose proof (D_max c p P) as DM. 
  assert (WL : WU c <= W64) by (unfold WU; destruct (w64 c); unfold W32, W64; lia).
  set (out := zeros (MAX_SIMD_DEGREE_OR_2 c * OUT_LEN)).
  assert (Hf : len input <= 2048 * 2 ^ N.of_nat (depth_fuel input)).
  { unfold depth_fuel. rewrite N2Nat.id. pose proof (N.size_gt (len input)). lia. }
  assert (Ho : 32 * N.min (len (pieces 2048 input)) (D p) <= len out).
  { unfold out. rewrite len_zeros. change OUT_LEN with 32. lia. }
  destruct (hash_recurse_ok c p key flags P Lk Wk (depth_fuel input) input 0 out)
    as (l & Cl & E); auto; try lia.
  destruct (recurse_prog_ok c p key flags P Lk Wk (depth_fuel input) input 0 out)
    as (l' & Cl' & E'); auto; try lia.
  change (2048 * 0) with 0 in E, E'. rewrite E. cbn [bind].
  assert (Top : forall l, compressed p key flags l (SpecFacts.cvs key flags 0 (pieces 2048 input)) ->
    (let* children := slice_to (concat l ++ drop (32 * len l) out) (len l * OUT_LEN) in
     condense_root c p children key flags)
    = Ok (out_of p (parent_node key flags
        (fst (TreeFacts.topf [] (SpecFacts.pcv key flags) (SpecFacts.cvs key flags 0 (pieces 2048 input))))
        (snd (TreeFacts.topf [] (SpecFacts.pcv key flags) (SpecFacts.cvs key flags 0 (pieces 2048 input)))))
        Root)).
  { intros l0 [C1 C2 C3 C4 C5 C6]. change OUT_LEN with 32.
    rewrite slice_to_ok by (rewrite len_app, concat_32 by auto; lia). cbn [bind].
    rewrite take_app_eq by (rewrite concat_32 by auto; lia).
    destruct C5 as [C5 C5'].
    { rewrite len_cvs, pieces_len by lia. lia. }
    rewrite <- C5'. apply (condense_root_ok c p key flags P Lk Wk l0); auto. lia. }
  cbv zeta. rewrite (Top l Cl), <- (Top l' Cl').
  split.
  - intros (m & n & t & S & R). 
    pose proof (final_state _ _ _ _ _ S) as Ft. rewrite E' in Ft.
    destruct t; try contradiction.
    + destruct (Ft I) as (Fx & Fm). injection Fx as ->. rewrite Fm in R. exact R.
    + destruct (Ft I) as (Fx & _). discriminate Fx.
  - intros ->. 
    destruct (some_end (out_region out) (fst (fst (initial (recurse_prog c p (depth_fuel input) input key 0 flags (len out)) out))) 1
      (TRun (recurse_prog c p (depth_fuel input) input key 0 flags (len out)))) as (m & n & t & S & Ft).
    exists m, n, t. split; [exact S|].
    pose proof (final_state _ _ _ _ _ S Ft) as G. rewrite E' in G. destruct G as (-> & ->).
    reflexivity.
Qed.

Lemma outcome_of_ok : forall c p, platform_ok c p -> forall m input,
  mode_ok m -> bytes input -> len input < WU c ->
  forall r, outcome_of c p m input r <-> r = oneshot_xof c p m input.
Proof.
  intros c p P m input M B L r. destruct (mode_key_ok m M) as [Lk Wk].
  destruct m as [|k|k]; apply (outcome_ok c p _ _ P Lk Wk input B L).
Qed.

(* from every reachable configuration the end can be reached *)
Lemma can_finish : forall r m n t, ~ finished t -> exists s', tstep r (m, n, t) s'.
Proof. intros r m n t H. destruct (progress t m n r) as [F|S]; [contradiction|exact S]. Qed.

Lemma outcome_hash : forall c p, platform_ok c p -> forall m input,
  mode_ok m -> bytes input -> len input < WU c ->
  forall r, outcome_of c p m input r ->
  exists o, r = Ok o /\ to_hash o = spec_hash blake_compress m input.
Proof.
  intros c p P m input M B L r H. apply (outcome_of_ok c p P m input M B L) in H.
  rewrite oneshot_xof_ok in H by auto. eexists. split; [exact H|].
  rewrite to_hash_at; [reflexivity| |reflexivity]. now apply spec_root_wf.
Qed.
