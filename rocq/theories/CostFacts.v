(* The work of a single update or finalize, and the size of the hasher's state. *)
From Coq Require Import NArith List Bool Lia ZArith.
From Coq Require Import ZifyBool ZifyNat ZifyN.
From Verif Require Import Base BaseFacts Spec TreeFacts CompressFacts SpecFacts.
From Verif Require Import Portable Platform Lib Session ChunkFacts LibFacts HasherFacts ApiFacts.
From Verif Require Import Calls SecurityFacts LibCalls TraceFacts WeightFacts StreamWeights CallFacts.
Import ListNotations.
Open Scope N_scope.

Notation one := (fun _ : node => 1).

Lemma W_one : forall l, W one l = len l.
Proof. induction l as [|x l IH]; [reflexivity|]. rewrite W_cons, len_cons, IH. reflexivity. Qed.

Section Key.
Variable c : cfg.
Variable p : platform.
Variable key : list N.
Variable flags : N.
Hypothesis Pok : platform_ok c p.
Hypothesis Lkey : length key = 8%nat.
Hypothesis Wkey : words key.

Notation is32 := (fun h : list N => len h = 32 /\ bytes h).
Notation fullc := (fun ch : list N => len ch = 2048 /\ bytes ch).
Notation acvs := (WeightFacts.acvs one key flags).
Notation apar := (WeightFacts.apar one key flags).
Notation cw := (WeightFacts.cw one key flags).
Notation rep := (TreeFacts.rep ad apar).
Notation inter := (StreamWeights.inter one key flags).
Notation holds := (StreamWeights.holds one p key flags).

Lemma cw_count : forall i d, 1 <= len d -> cw i d = (len d - 1) / 64.
Proof.
  intros i d H. unfold WeightFacts.cw. rewrite W_one.
  assert (pieces 64 d <> []).
  { intros E. pose proof (pieces_len_1 _ 64 d eq_refl) as P. rewrite E, len_nil in P. lia. }
  pose proof (chunk_calls_len F (pieces 64 d) key (2048 * i) flags Spec.CHUNK_START H0) as Q.
  rewrite pieces_len in Q by lia. lia.
Qed.

Lemma sum_acvs : forall cs i, Forall fullc cs -> sum (acvs i cs) = 32 * len cs.
Proof.
  induction cs as [|ch cs IH]; intros i H; [reflexivity|].
  inversion H as [|? ? [L _] H']; subst. cbn [WeightFacts.acvs].
  change (sum (WeightFacts.acv one key flags i ch :: acvs (i + 1) cs))
    with (cw i ch + 1 + sum (acvs (i + 1) cs)).
  rewrite IH, cw_count, L, len_cons by (auto; lia). change ((2048 - 1) / 64) with 31. lia.
Qed.

Lemma lb_count : forall k l, 1 <= len l -> len l <= 2 ^ N.of_nat k ->
  snd (lb ad apar k l) + 1 = sum l + len l.
Proof.
  induction k as [|k IH]; intros l H1 H2.
  - destruct l as [|x [|y l]].
    + rewrite len_nil in H1. lia.
    + rewrite (sum_one key Lkey), len_cons, len_nil. cbn [lb hd]. lia.
    + rewrite !len_cons in H2. change (2 ^ N.of_nat 0) with 1 in H2. lia.
  - cbn [lb]. pose proof (pow2_pos (N.of_nat k)) as P.
    assert (E : 2 ^ N.of_nat (S k) = 2 * 2 ^ N.of_nat k).
    { rewrite Nat2N.inj_succ. apply N.pow_succ_r'. }
    destruct (N.leb_spec (len l) (2 ^ N.of_nat k)) as [L|G]; [now apply IH|].
    set (h := 2 ^ N.of_nat k) in *.
    pose proof (IH (take h l) ltac:(lenlia) ltac:(lenlia)) as A.
    pose proof (IH (drop h l) ltac:(lenlia) ltac:(lenlia)) as B.
    change (snd (apar (lb ad apar k (take h l)) (lb ad apar k (drop h l))))
      with (snd (lb ad apar k (take h l)) + snd (lb ad apar k (drop h l)) + 1).
    assert (S : sum l = sum (take h l) + sum (drop h l)).
    { rewrite <- (take_drop _ h l) at 1. apply (sum_app key Lkey). }
    assert (T1 : len (take h l) = h) by lenlia. assert (T2 : len (drop h l) = len l - h) by lenlia.
    lia.
Qed.

Lemma rep_count : forall st l, rep st l -> sum st + len st = sum l + len l.
Proof.
  intros st l R. induction R as [|st l x t R IH Hx Hm]; [reflexivity|].
  rewrite !(sum_app key Lkey), !len_app, (sum_one key Lkey), len_cons, len_nil.
  assert (H1 : 1 <= len x) by (rewrite Hx; pose proof (pow2_pos t); lia).
  pose proof (lb_count (N.to_nat (N.log2_up (len x))) x H1) as Q.
  unfold TreeFacts.lbf. rewrite N2Nat.id in Q.
  assert (Q2 : len x <= 2 ^ N.log2_up (len x)) by (apply N.log2_log2_up_spec; lia). specialize (Q Q2). lia.
Qed.

Lemma inter_count : forall st l, inter st l -> sum st + len st = sum l + len l.
Proof.
  intros st l [[-> ->]|(st0 & l0 & x & -> & -> & R)]; [reflexivity|].
  apply rep_count in R. rewrite !(sum_app key Lkey), !len_app. lia.
Qed.

Lemma holds_count : forall h data n, holds h data n -> len data < W64 ->
  exists cs k, len (h_stack h) <= 53 /\ n + len (h_stack h) = k + cs /\
    (len data = 2048 * cs + (len data - 2048 * cs) /\ 2048 * cs <= len data) /\
    len data <= 2048 * cs + 2048 /\
    ((1 <= len data /\ 2048 * cs < len data /\ k = (len data - 1) / 64) \/
     (len data = 2048 * cs /\ k = 32 * cs /\ (len data = 0 \/ 2 <= len (h_stack h)))) /\
    (cs = 0 -> len (h_stack h) = 0) /\ Forall is32 (h_stack h) /\ len (cs_buf (h_chunk h)) = 64.
Proof.
  intros h data n (cs & rest & st & Fc & Br & -> & H & Lr & Es & Cs & ->) L.
  assert (Fb : Forall bytes cs) by (eapply Forall_impl; [|exact Fc]; cbn; tauto).
  assert (Lc : len (concat cs) = 2048 * len cs) by now apply len_concat_full.
  rewrite len_app, Lc in *.
  assert (Sa : sum (acvs 0 cs) = 32 * len cs) by now apply sum_acvs.
  assert (Le : len (acvs 0 cs) = len cs) by apply len_acvs.
  assert (Sc : Forall is32 (vals (acvs 0 cs))) by (rewrite vals_acvs; now apply cvs_shape).
  assert (Ct : sum st + len st = 33 * len cs).
  { destruct Cs as [[R _]|(_ & _ & I)]; [apply rep_count in R|apply inter_count in I]; lia. }
  assert (Lb : len (cs_buf (h_chunk h)) = 64).
  { destruct H as (dn & bf & _ & A). rewrite (ca_buf _ _ _ _ _ _ _ A). pose proof (ca_bf _ _ _ _ _ _ _ A). unfold pad64. lenlia. }
  exists (len cs), (32 * len cs + cw (len cs) rest). rewrite Es, len_vals.
  split.
  { destruct Cs as [[R E]|(E & L2 & I)].
    - rewrite (rep_len _ _ _ _ _ R), Le. destruct (N.eq_dec (len cs) 0) as [Z|Z]; [rewrite Z; discriminate|].
      assert (1 <= len rest).
      { destruct rest; [|rewrite len_cons; lia]. rewrite E in Z by auto. now rewrite len_nil in Z. }
      apply popcount_bound. unfold W64 in L. change (2 ^ 53) with 9007199254740992. lia.
    - destruct I as [[-> _]|(st0 & l0 & x & -> & El & R)]; [discriminate|].
      rewrite len_app, len_cons, len_nil, (rep_len _ _ _ _ _ R).
      assert (len l0 + 1 = len cs) by (rewrite <- Le, El, len_app, len_cons, len_nil; lia).
      assert (popcount (len l0) < 53).
      { apply popcount_bound_1. unfold W64 in L. change (2 ^ 53) with 9007199254740992. lia. }
      lia. }
  split; [lia|]. split; [lia|]. split; [lia|].
  split; [|split; [|split; [|exact Lb]]].
  - destruct (N.eq_dec (len rest) 0) as [Z|Z].
    + right. rewrite (len_0_nil _ _ Z) in *. rewrite len_nil, cw_nil in *. split; [lia|]. split; [lia|].
      destruct Cs as [[R E]|(_ & L2 & I)].
      * left. rewrite E by auto. reflexivity.
      * right. destruct I as [[_ E]|(st0 & l0 & x & -> & El & R)].
        { rewrite E, len_nil in Le. lia. }
        rewrite len_app, len_cons, len_nil.
        destruct st0 as [|y st0]; [|rewrite len_cons; lia]. exfalso.
        apply rep_nil in R. subst l0. rewrite El in Le. cbn in Le. lia.
    + left. rewrite cw_count by lia. split; [lia|]. split; [lia|].
      lia.
  - intros Z. rewrite Z in Ct. lia.
  - rewrite <- len_vals in *. destruct Cs as [[R _]|(_ & _ & I)].
    + now apply (rep_shape one key flags Lkey Wkey) in R.
    + destruct I as [[-> _]|(st0 & l0 & x & -> & El & R)]; [constructor|].
      rewrite El, vals_app in Sc. apply Forall_app in Sc. rewrite vals_app. apply Forall_app.
      split; [|tauto]. apply (rep_shape one key flags Lkey Wkey) in R; tauto.
Qed.

End Key.

(* ---- statements ---- *)

Lemma feed_holds : forall c p m inputs, platform_ok c p -> mode_ok m -> Forall bytes inputs ->
  len (concat inputs) < W64 ->
  exists h n, feed c (start p m) inputs = Ok h /\
    StreamWeights.holds one p (mode_key m) (mode_flags m) h (concat inputs) n.
Proof.
  intros c p m inputs P M B L. destruct (mode_key_ok m M) as [Lk Wk].
  assert (H0 : StreamWeights.holds one p (mode_key m) (mode_flags m) (start p m) [] 0)
    by (destruct m; now apply StreamWeights.new_holds).
  destruct (t_feed_ok one c p _ _ P Lk Wk inputs (start p m) [] 0 [] H0 B)
    as (h & n & s1 & E1 & H1 & _); [rewrite len_nil; lia|].
  exists h, n. split; [|exact H1].
  rewrite <- (ret_feed c inputs (start p m) []). now rewrite E1.
Qed.

Lemma update_cost : forall c p m inputs input,
  platform_ok c p -> mode_ok m -> Forall bytes inputs -> bytes input ->
  len (concat inputs) + len input < W64 ->
  exists h h' log, feed c (start p m) inputs = Ok h /\
    t_update c h input [] = (log, Ok h') /\
    len log <= len input / 64 + len input / 2048 + 56.
Proof.
  intros c p m inputs input P M B Bi L. destruct (mode_key_ok m M) as [Lk Wk].
  destruct (feed_holds c p m inputs P M B) as (h & n & E & H); [lia|].
  destruct (t_update_ok one c p _ _ P Lk Wk h _ n input [] H Bi L) as (h' & n' & lg & E' & H' & Wt).
  exists h, h', lg. split; [exact E|]. split; [exact E'|].
  rewrite !W_one, len_nil in Wt.
  destruct (holds_count p _ _ Lk Wk h _ n H) as (cs & k & S1 & N1 & _ & M1 & K1 & _); [lia|].
  destruct (holds_count p _ _ Lk Wk h' _ n' H') as (cs' & k' & S2 & N2 & (_ & X2) & M2 & K2 & _);
    [rewrite len_app; lia|].
  rewrite len_app in *. set (d := len (concat inputs)) in *. set (i := len input) in *. 
  clearbody d i. clear -Wt S1 N1 M1 K1 S2 N2 X2 M2 K2.
  assert (cs' <= cs + i / 2048 + 1) by lia.
  assert (k' <= k + i / 64 + 2) by lia.
  lia.
Qed.

Lemma finalize_cost : forall c p m inputs,
  platform_ok c p -> mode_ok m -> Forall bytes inputs -> len (concat inputs) < W64 ->
  exists h d log, feed c (start p m) inputs = Ok h /\
    t_finalize c h [] = (log, Ok d) /\ len log <= 54.
Proof.
  intros c p m inputs P M B L. destruct (mode_key_ok m M) as [Lk Wk].
  destruct (feed_holds c p m inputs P M B L) as (h & n & E & H).
  destruct (t_finalize_xof_ok one c p _ _ Lk Wk h (concat inputs) n [] H L) as (lg & E2 & W2).
  exists h, (spec_hash F m (concat inputs)), (lg ++ [root_call F m (concat inputs) 0]).
  split; [exact E|]. split.
  - unfold t_finalize. erewrite tbind_eq by exact E2. cbv beta.
    apply t_to_hash_root; auto. now apply bytes_concat.
  - rewrite len_app. change (len [root_call F m (concat inputs) 0]) with 1.
    pose proof (calls_len F m (concat inputs)) as Q. unfold calls in Q. rewrite len_app in Q.
    change (len [root_call F m (concat inputs) 0]) with 1 in Q.
    change (WeightFacts.below one (mode_key m) (mode_flags m) (concat inputs))
      with (W one (interior_calls F m (concat inputs))) in W2.
    rewrite !W_one, len_nil in W2.
    destruct (holds_count p _ _ Lk Wk h _ n H L) as (cs & k & S1 & N1 & _ & M1 & K1 & Z1 & _).
    set (d := len (concat inputs)) in *. set (b := len (interior_calls F m (concat inputs))) in *.
    clearbody d b. clear -W2 Q S1 N1 M1 K1 Z1.
    destruct K1 as [(D1 & D2 & ->)|(D & -> & [D0|D0])]; lia.
Qed.

Lemma state_size : forall c p m inputs,
  platform_ok c p -> mode_ok m -> Forall bytes inputs -> len (concat inputs) < W64 ->
  exists h, feed c (start p m) inputs = Ok h /\
    len (h_stack h) <= 53 /\ Forall (fun x => len x = 32) (h_stack h) /\
    len (cs_buf (h_chunk h)) = 64.
Proof.
  intros c p m inputs P M B L. destruct (mode_key_ok m M) as [Lk Wk].
  destruct (feed_holds c p m inputs P M B L) as (h & n & E & H).
  destruct (holds_count p _ _ Lk Wk h _ n H L) as (cs & k & S1 & _ & _ & _ & _ & _ & F1 & L1).
  exists h. split; [exact E|]. split; [exact S1|]. split; [|exact L1].
  eapply Forall_impl; [|exact F1]. cbn. tauto.
Qed.
