(* Left-balanced binary trees over a list, and the ways the code builds them. *)
From Coq Require Import NArith List Bool Lia ZArith.
From Coq Require Import ZifyBool ZifyNat ZifyN.
From Verif Require Import Base BaseFacts.
Import ListNotations.
Open Scope N_scope.

Lemma pow2_pos : forall k, 0 < 2 ^ k.
Proof. intros. apply N.neq_0_lt_0, N.pow_nonzero. lia. Qed.
Lemma pow2_S : forall k, 2 ^ (k + 1) = 2 * 2 ^ k.
Proof. intros. rewrite N.add_1_r. apply N.pow_succ_r'. Qed.

Lemma log2_up_bound : forall n, 1 <= n -> n <= 2 ^ N.log2_up n.
Proof. intros n H. apply N.log2_log2_up_spec. lia. Qed.

Lemma list2_ind : forall A (P : list A -> Prop), P [] -> (forall a, P [a]) ->
  (forall a b r, P r -> P (a :: b :: r)) -> forall l, P l.
Proof.
  intros A P H0 H1 H2 l. enough (P l /\ forall a, P (a :: l)) by tauto.
  induction l as [|x l [IH1 IH2]]; auto.
Qed.

Section Tree.
Variable A : Type.
Variable d : A.
Variable par : A -> A -> A.

(* The tree over 1 .. 2^k elements. *)
Fixpoint lb (k : nat) (l : list A) : A :=
  match k with
  | O => hd d l
  | S k' =>
      let half := 2 ^ N.of_nat k' in
      if len l <=? half then lb k' l else par (lb k' (take half l)) (lb k' (drop half l))
  end.
Definition lbf (l : list A) : A := lb (N.to_nat (N.log2_up (len l))) l.

(* The two children of the top of the tree over 2 .. 2^k elements. *)
Fixpoint top (k : nat) (l : list A) : A * A :=
  match k with
  | O => (d, d)
  | S k' =>
      let half := 2 ^ N.of_nat k' in
      if len l <=? half then top k' l else (lb k' (take half l), lb k' (drop half l))
  end.
Definition topf (l : list A) : A * A := top (N.to_nat (N.log2_up (len l))) l.

Lemma lb_more : forall k l j, 1 <= len l -> len l <= 2 ^ N.of_nat k -> lb (j + k) l = lb k l.
Proof.
  intros k l j H1 H2. induction j as [|j IH]; [reflexivity|]. cbn [Nat.add lb].
  rewrite (proj2 (N.leb_le _ _)); [exact IH|].
  apply N.le_trans with (1 := H2). apply N.pow_le_mono_r; lia.
Qed.
Lemma top_more : forall k l j, 1 <= len l -> len l <= 2 ^ N.of_nat k -> top (j + k) l = top k l.
Proof.
  intros k l j H1 H2. induction j as [|j IH]; [reflexivity|]. cbn [Nat.add top].
  rewrite (proj2 (N.leb_le _ _)); [exact IH|].
  apply N.le_trans with (1 := H2). apply N.pow_le_mono_r; lia.
Qed.

Lemma lb_lbf : forall k l, 1 <= len l -> len l <= 2 ^ N.of_nat k -> lb k l = lbf l.
Proof.
  intros k l H1 H2. unfold lbf.
  assert (N.log2_up (len l) <= N.of_nat k) by (apply N.log2_up_le_pow2; lia).
  replace k with ((k - N.to_nat (N.log2_up (len l))) + N.to_nat (N.log2_up (len l)))%nat at 1 by lia.
  apply lb_more; auto. rewrite N2Nat.id. now apply log2_up_bound.
Qed.
Lemma top_topf : forall k l, 1 <= len l -> len l <= 2 ^ N.of_nat k -> top k l = topf l.
Proof.
  intros k l H1 H2. unfold topf.
  assert (N.log2_up (len l) <= N.of_nat k) by (apply N.log2_up_le_pow2; lia).
  replace k with ((k - N.to_nat (N.log2_up (len l))) + N.to_nat (N.log2_up (len l)))%nat at 1 by lia.
  apply top_more; auto. rewrite N2Nat.id. now apply log2_up_bound.
Qed.

Lemma lbf_one : forall x, lbf [x] = x.
Proof. reflexivity. Qed.

Lemma topf_split : forall j a b, len a = 2 ^ j -> 1 <= len b -> len b <= 2 ^ j ->
  topf (a ++ b) = (lbf a, lbf b).
Proof.
  intros j a b Ha Hb1 Hb2. pose proof (pow2_pos j).
  rewrite <- (top_topf (S (N.to_nat j))).
  - cbn [top]. rewrite N2Nat.id, len_app, Ha.
    rewrite (proj2 (N.leb_gt _ _)) by lia.
    rewrite take_app_eq, drop_app_eq by exact Ha.
    rewrite !lb_lbf by (rewrite ?N2Nat.id; lia). reflexivity.
  - rewrite len_app. lia.
  - rewrite len_app. replace (N.of_nat (S (N.to_nat j))) with (j + 1) by lia. rewrite pow2_S. lia.
Qed.

Lemma lbf_split : forall j a b, len a = 2 ^ j -> 1 <= len b -> len b <= 2 ^ j ->
  lbf (a ++ b) = par (lbf a) (lbf b).
Proof.
  intros j a b Ha Hb1 Hb2. pose proof (pow2_pos j).
  rewrite <- (lb_lbf (S (N.to_nat j)) (a ++ b)).
  - cbn [lb]. rewrite N2Nat.id, len_app, Ha.
    rewrite (proj2 (N.leb_gt _ _)) by lia.
    rewrite take_app_eq, drop_app_eq by exact Ha.
    rewrite !lb_lbf by (rewrite ?N2Nat.id; lia). reflexivity.
  - rewrite len_app. lia.
  - rewrite len_app. replace (N.of_nat (S (N.to_nat j))) with (j + 1) by lia. rewrite pow2_S. lia.
Qed.

(* Every list of at least two elements splits that way. *)
Lemma split_exists : forall l : list A, 2 <= len l -> exists j a b,
  l = a ++ b /\ len a = 2 ^ j /\ 1 <= len b /\ len b <= 2 ^ j.
Proof.
  intros l H. set (k := N.log2_up (len l)).
  assert (K : 0 < k) by (apply N.log2_up_pos; lia).
  assert (B : 2 ^ N.pred k < len l <= 2 ^ k) by (apply N.log2_up_spec; lia).
  exists (N.pred k), (take (2 ^ N.pred k) l), (drop (2 ^ N.pred k) l).
  assert (E : 2 ^ k = 2 * 2 ^ N.pred k).
  { rewrite <- N.pow_succ_r', N.succ_pred by lia. reflexivity. }
  rewrite take_drop. split; [reflexivity|]. autorewrite with len. lia.
Qed.

Lemma lbf_topf : forall l, 2 <= len l -> lbf l = par (fst (topf l)) (snd (topf l)).
Proof.
  intros l H. destruct (split_exists l H) as (j & a & b & -> & Ha & Hb1 & Hb2).
  rewrite (lbf_split j), (topf_split j) by auto. reflexivity.
Qed.

(* ---- joining neighbours ---- *)

Fixpoint pairs (l : list A) : list A :=
  match l with
  | a :: b :: r => par a b :: pairs r
  | _ => l
  end.

Lemma len_pairs : forall l, len (pairs l) = (len l + 1) / 2.
Proof.
  apply list2_ind; [reflexivity|reflexivity|].
  intros a b r IH. cbn [pairs]. rewrite !len_cons, IH. lia.
Qed.

Lemma pairs_app : forall a b, len a mod 2 = 0 -> pairs (a ++ b) = pairs a ++ pairs b.
Proof.
  intros a b. pattern a. apply list2_ind.
  - reflexivity.
  - intros x H. discriminate H.
  - intros x y r IH H. cbn [pairs app]. f_equal. apply IH. rewrite !len_cons in H. lia.
Qed.

Lemma pairs_split : forall l, 3 <= len l -> exists j a b,
  l = a ++ b /\ len a = 2 ^ (j + 1) /\ 1 <= len b /\ len b <= 2 ^ (j + 1) /\
  pairs l = pairs a ++ pairs b /\ len (pairs a) = 2 ^ j /\ 1 <= len (pairs b) /\
  len (pairs b) <= 2 ^ j.
Proof.
  intros l H. destruct (split_exists l) as (j & a & b & -> & Ha & Hb1 & Hb2); [lia|].
  rewrite len_app in H.
  destruct (N.eq_dec j 0) as [->|Nz]. { cbn in *. lia. }
  assert (E : 2 ^ j = 2 * 2 ^ N.pred j).
  { rewrite <- N.pow_succ_r', N.succ_pred by lia. reflexivity. }
  exists (N.pred j), a, b. replace (N.pred j + 1) with j by lia.
  rewrite pairs_app by (rewrite Ha, E; lia). rewrite !len_pairs. repeat split; auto; lia.
Qed.

Lemma lbf_pairs : forall l, 1 <= len l -> lbf (pairs l) = lbf l.
Proof.
  intros l. induction l as [l IH] using list_len_ind. intros H.
  destruct (N.le_gt_cases 3 (len l)) as [G|G].
  - destruct (pairs_split l G) as (j & a & b & -> & Ha & Hb1 & Hb2 & Ep & Hpa & Hpb1 & Hpb2).
    rewrite Ep, (lbf_split j), (lbf_split (j + 1)) by auto.
    pose proof (pow2_pos (j + 1)). rewrite len_app in IH. rewrite !IH by lia. reflexivity.
  - destruct l as [|x [|y [|z l]]].
    + rewrite len_nil in H. lia.
    + reflexivity.
    + cbn [pairs]. rewrite lbf_one. symmetry. apply (lbf_split 0 [x] [y]); cbn; lia.
    + rewrite !len_cons in G. lia.
Qed.

Lemma topf_pairs : forall l, 3 <= len l -> topf (pairs l) = topf l.
Proof.
  intros l G.
  destruct (pairs_split l G) as (j & a & b & -> & Ha & Hb1 & Hb2 & Ep & Hpa & Hpb1 & Hpb2).
  pose proof (pow2_pos (j + 1)).
  rewrite Ep, (topf_split j), (topf_split (j + 1)), !lbf_pairs by (auto; lia). reflexivity.
Qed.

(* Joining neighbours until two are left gives the children of the top. *)
Lemma topf_two : forall x y, topf [x; y] = (x, y).
Proof. intros. exact (topf_split 0 [x] [y] eq_refl ltac:(cbn; lia) ltac:(cbn; lia)). Qed.

(* Replacing both sides of a split by lists with the same trees. *)
Lemma topf_join : forall i j a b a' b',
  len a = 2 ^ i -> 1 <= len b -> len b <= 2 ^ i ->
  len a' = 2 ^ j -> 1 <= len b' -> len b' <= 2 ^ j ->
  lbf a' = lbf a -> lbf b' = lbf b -> topf (a' ++ b') = topf (a ++ b).
Proof.
  intros i j a b a' b' H1 H2 H3 H4 H5 H6 H7 H8.
  rewrite (topf_split i a b), (topf_split j a' b') by auto. now rewrite H7, H8.
Qed.

(* ---- the stack of completed subtrees ---- *)

(* st holds the tops of complete subtrees that cover l, largest first. *)
Inductive rep : list A -> list A -> Prop :=
| rep_nil : rep [] []
| rep_snoc : forall st l x t, rep st l -> len x = 2 ^ t -> len l mod 2 ^ (t + 1) = 0 ->
    rep (st ++ [lbf x]) (l ++ x).

Definition lazy_rep (st l : list A) : Prop :=
  rep st l \/ exists st0 l0 c, st = st0 ++ [c] /\ l = l0 ++ [c] /\ rep st0 l0.

End Tree.

Arguments lb {A}. Arguments lbf {A}. Arguments top {A}. Arguments topf {A}.
Arguments pairs {A}. Arguments rep {A}. Arguments lazy_rep {A}.

(* ---- population count ---- *)

Lemma popcount_double : forall n, popcount (2 * n) = popcount n.
Proof. intros [|p]; reflexivity. Qed.
Lemma popcount_double_1 : forall n, popcount (2 * n + 1) = popcount n + 1.
Proof.
  intros [|p]; [reflexivity|]. change (popcount (2 * N.pos p + 1)) with (1 + popcount_pos p).
  change (popcount (N.pos p)) with (popcount_pos p). lia.
Qed.
Lemma popcount_pow_mul : forall t n, popcount (2 ^ t * n) = popcount n.
Proof.
  intros t n. induction t using N.peano_ind.
  - now rewrite N.pow_0_r, N.mul_1_l.
  - rewrite N.pow_succ_r', <- N.mul_assoc, popcount_double. exact IHt.
Qed.
Lemma popcount_succ : forall n, popcount (n + 1) <= popcount n + 1.
Proof.
  intros [|p]; [cbn; lia|]. cbn [N.add]. rewrite Pos.add_1_r. cbn [popcount].
  induction p; cbn [Pos.succ popcount_pos]; lia.
Qed.

Lemma mod_pow_mul : forall n t, n mod 2 ^ t = 0 -> n = 2 ^ t * (n / 2 ^ t).
Proof.
  intros n t H. pose proof (pow2_pos t). pose proof (N.div_mod n (2 ^ t) ltac:(lia)). lia.
Qed.

Lemma popcount_add_pow : forall n t, n mod 2 ^ (t + 1) = 0 ->
  popcount (n + 2 ^ t) = popcount n + 1.
Proof.
  intros n t H. rewrite (mod_pow_mul _ _ H). generalize (n / 2 ^ (t + 1)). intros q.
  rewrite pow2_S.
  replace (2 * 2 ^ t * q + 2 ^ t) with (2 ^ t * (2 * q + 1)) by lia.
  replace (2 * 2 ^ t * q) with (2 ^ t * (2 * q)) by lia.
  rewrite !popcount_pow_mul, popcount_double_1, popcount_double. reflexivity.
Qed.
Lemma popcount_add_pow_le : forall n t, n mod 2 ^ t = 0 ->
  popcount (n + 2 ^ t) <= popcount n + 1.
Proof.
  intros n t H. rewrite (mod_pow_mul _ _ H). generalize (n / 2 ^ t). intros q.
  replace (2 ^ t * q + 2 ^ t) with (2 ^ t * (q + 1)) by lia.
  rewrite !popcount_pow_mul. apply popcount_succ.
Qed.

Lemma popcount_bound : forall k n, n < 2 ^ k -> popcount n <= k.
Proof.
  intros k. induction k using N.peano_ind; intros n H.
  - assert (n = 0) by (cbn in H; lia). subst. reflexivity.
  - rewrite N.pow_succ_r' in H. pose proof (N.div_mod n 2 ltac:(lia)) as E.
    assert (n / 2 < 2 ^ k) by lia. specialize (IHk _ H0).
    assert (M : n mod 2 = 0 \/ n mod 2 = 1) by lia. destruct M as [M|M]; rewrite M in E; rewrite E.
    + rewrite N.add_0_r, popcount_double. lia.
    + rewrite popcount_double_1. lia.
Qed.
Lemma popcount_bound_1 : forall k n, n + 1 < 2 ^ k -> popcount n < k.
Proof.
  intros k. induction k using N.peano_ind; intros n H.
  - cbn in H; lia.
  - rewrite N.pow_succ_r' in H. pose proof (N.div_mod n 2 ltac:(lia)) as E.
    assert (M : n mod 2 = 0 \/ n mod 2 = 1) by lia. destruct M as [M|M]; rewrite M in E; rewrite E.
    + rewrite N.add_0_r, popcount_double.
      assert (n / 2 < 2 ^ k) by lia. pose proof (popcount_bound _ _ H0). lia.
    + rewrite popcount_double_1. assert (n / 2 + 1 < 2 ^ k) by lia. specialize (IHk _ H0). lia.
Qed.

Section Stack.
Variable A : Type.
Variable d : A.
Variable par : A -> A -> A.

Lemma rep_len : forall st l, rep d par st l -> len st = popcount (len l).
Proof.
  intros st l H. induction H as [|st l x t H IH Hx Hm]; [reflexivity|].
  rewrite !len_app, Hx, popcount_add_pow by exact Hm. rewrite len_cons, len_nil, IH. lia.
Qed.

Lemma mod_pow_le : forall n s t, s <= t -> n mod 2 ^ t = 0 -> n mod 2 ^ s = 0.
Proof.
  intros n s t H E. rewrite (mod_pow_mul _ _ E). replace t with (s + (t - s)) by lia.
  rewrite N.pow_add_r, <- N.mul_assoc, N.mul_comm. apply N.mod_mul. pose proof (pow2_pos s). lia.
Qed.

(* One step of merging: either the new subtree completes the cover, or it is
   joined with the subtree of the same size before it. *)
Lemma rep_step : forall st l x t, rep d par st l -> len x = 2 ^ t -> len l mod 2 ^ t = 0 ->
  (rep d par (st ++ [lbf d par x]) (l ++ x) /\ len st + 1 = popcount (len (l ++ x))) \/
  (exists st' l' y, st = st' ++ [lbf d par y] /\ l = l' ++ y /\ rep d par st' l' /\
     len y = 2 ^ t /\ len l' mod 2 ^ (t + 1) = 0 /\
     lbf d par (y ++ x) = par (lbf d par y) (lbf d par x) /\
     popcount (len (l ++ x)) < len st + 1).
Proof.
  intros st l x t H Hx Hl. destruct H as [|st l y s H Hy Hs].
  - left. split; [apply (rep_snoc _ d par [] [] x t); [constructor|exact Hx|apply N.mod_0_l]|].
    + pose proof (pow2_pos (t + 1)). lia.
    + cbn [app]. rewrite len_nil, Hx. pose proof (pow2_pos (t + 1)) as P.
      assert (E : popcount (0 + 2 ^ t) = popcount 0 + 1)
        by (apply popcount_add_pow; apply N.mod_0_l; lia).
      rewrite N.add_0_l in E. rewrite E. reflexivity.
  - assert (R : rep d par (st ++ [lbf d par y]) (l ++ y)) by (now apply (rep_snoc _ d par) with (t := s)).
    rewrite len_app, Hy in Hl.
    destruct (N.lt_trichotomy s t) as [L|[->|G]].
    + exfalso. apply (mod_pow_le _ (s + 1) t) in Hl; [|lia].
      rewrite (mod_pow_mul _ _ Hs) in Hl. rewrite N.add_comm, N.mul_comm, N.mod_add in Hl
        by (pose proof (pow2_pos (s + 1)); lia).
      pose proof (pow2_pos s). rewrite N.mod_small in Hl by (rewrite pow2_S; lia). lia.
    + right. exists st, l, y. repeat split; auto.
      * apply (lbf_split _ d par t); auto; rewrite Hx; [pose proof (pow2_pos t); lia|lia].
      * rewrite !len_app, Hx, Hy, len_cons, len_nil.
        replace (len l + 2 ^ t + 2 ^ t) with (len l + 2 ^ (t + 1)) by (rewrite pow2_S; lia).
        pose proof (popcount_add_pow_le _ _ Hs). rewrite (rep_len _ _ H). lia.
    + left. assert (M : len (l ++ y) mod 2 ^ (t + 1) = 0).
      { rewrite len_app, Hy. rewrite N.add_mod by (pose proof (pow2_pos (t + 1)); lia).
        rewrite (mod_pow_le (len l) (t + 1) (s + 1)) by (auto; lia).
        rewrite (mod_pow_le (2 ^ s) (t + 1) s); [reflexivity|lia|].
        apply N.mod_same. pose proof (pow2_pos s). lia. }
      split; [now apply (rep_snoc _ d par) with (t := t)|].
      rewrite (len_app _ (l ++ y) x), Hx, popcount_add_pow by exact M. now rewrite (rep_len _ _ R).
Qed.

(* Folding the stack from the right onto a last, incomplete subtree. *)
Fixpoint roll (st : list A) (w : A) : A :=
  match st with
  | [] => w
  | x :: r => par x (roll r w)
  end.

Lemma roll_snoc : forall st x w, roll (st ++ [x]) w = roll st (par x w).
Proof. induction st; intros; cbn; [reflexivity|now rewrite IHst]. Qed.

Lemma rep_roll : forall st l, rep d par st l -> forall x t,
  1 <= len x -> len x <= 2 ^ t -> len l mod 2 ^ t = 0 ->
  roll st (lbf d par x) = lbf d par (l ++ x).
Proof.
  intros st l H. induction H as [|st l y s H IH Hy Hs]; intros x t Hx1 Hx2 Hl; [reflexivity|].
  assert (B : len x <= 2 ^ s).
  { rewrite len_app, Hy in Hl. destruct (N.le_gt_cases t s) as [L|G].
    - apply N.le_trans with (1 := Hx2). apply N.pow_le_mono_r; lia.
    - exfalso. apply (mod_pow_le _ (s + 1) t) in Hl; [|lia].
      rewrite (mod_pow_mul _ _ Hs) in Hl. rewrite N.add_comm, N.mul_comm, N.mod_add in Hl
        by (pose proof (pow2_pos (s + 1)); lia).
      pose proof (pow2_pos s). rewrite N.mod_small in Hl by (rewrite pow2_S; lia). lia. }
  rewrite roll_snoc, <- (lbf_split _ d par s) by (auto; lia).
  rewrite <- app_assoc. apply (IH (y ++ x) (s + 1)); [rewrite len_app; lia| |exact Hs].
  rewrite len_app, Hy, pow2_S. lia.
Qed.

Lemma rep_top : forall st l, rep d par st l -> st <> [] -> forall x t,
  1 <= len x -> len x <= 2 ^ t -> len l mod 2 ^ t = 0 ->
  topf d par (l ++ x) = (hd d st, roll (tl st) (lbf d par x)).
Proof.
  intros st l H. induction H as [|st l y s H IH Hy Hs]; intros Ne x t Hx1 Hx2 Hl; [congruence|].
  assert (B : len x <= 2 ^ s).
  { rewrite len_app, Hy in Hl. destruct (N.le_gt_cases t s) as [L|G].
    - apply N.le_trans with (1 := Hx2). apply N.pow_le_mono_r; lia.
    - exfalso. apply (mod_pow_le _ (s + 1) t) in Hl; [|lia].
      rewrite (mod_pow_mul _ _ Hs) in Hl. rewrite N.add_comm, N.mul_comm, N.mod_add in Hl
        by (pose proof (pow2_pos (s + 1)); lia).
      pose proof (pow2_pos s). rewrite N.mod_small in Hl by (rewrite pow2_S; lia). lia. }
  destruct st as [|z st].
  - inversion H as [E1 E2|? ? ? ? ? ? ? E]; [|now destruct st].
    cbn [app hd tl roll]. apply (topf_split _ d par s); auto.
  - cbn [app hd tl]. rewrite roll_snoc, <- (lbf_split _ d par s) by (auto; lia).
    rewrite <- app_assoc. apply (IH ltac:(discriminate) (y ++ x) (s + 1)); [rewrite len_app; lia| |exact Hs].
    rewrite len_app, Hy, pow2_S. lia.
Qed.

End Stack.
