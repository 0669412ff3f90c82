(* Facts about CSafe.v, for Prop_CSafe.v. *)
From Coq Require Import NArith List Bool Lia ZArith.
From Coq Require Import ZifyBool ZifyNat ZifyN.
From Verif Require Import Base BaseFacts Spec TreeFacts CompressFacts ManyFacts SpecFacts ChunkFacts.
From Verif Require Import HasherFacts ApiFacts WrapSpec WrapFacts BeyondFacts SessionSpec CSimd CSimdFacts CSimdProps.
From Verif Require Import CImpl CImplFacts CSpec CImplProps CBeyondFacts CSessionSpec CSession.
From Verif Require Import CSessionFacts CSafe.
Import ListNotations.
Open Scope N_scope.

(* ---- the two models agree ---- *)

Lemma forget_of : forall A (r : res A), forget (of r) = r.
Proof. intros A [x| |]; reflexivity. Qed.
Lemma forget_bind : forall A B (m : outcome A) (f : A -> outcome B) (r : res A) (g : A -> res B),
  forget m = r -> (forall x, forget (f x) = g x) -> forget (obind m f) = bind r g.
Proof. intros A B [x| | |] f r g <- H; cbn [obind forget bind]; auto. Qed.

Lemma forget_push : forall o h x off,
  forget (u_push_chunk_hash o h x off) = hasher_push_chunk_hash o h x off.
Proof.
  intros. unfold u_push_chunk_hash, hasher_push_chunk_hash.
  apply forget_bind.
  { destruct (ndebug o); [reflexivity|]. unfold assert_. destruct (_ <? _); reflexivity. }
  intros _. apply forget_bind; [apply forget_of|]. intros h'. apply forget_bind; [apply forget_of|].
  reflexivity.
Qed.
Lemma forget_push_chunks : forall o n i h out,
  forget (u_push_chunks o n i h out) = push_chunks o n i h out.
Proof.
  intros o. induction n as [|n IH]; intros; cbn [u_push_chunks push_chunks]; [reflexivity|].
  apply forget_bind; [apply forget_of|]. intros x. apply forget_bind; [apply forget_push|]. intros. apply IH.
Qed.
Lemma forget_chunks_loop : forall o fuel h input out,
  forget (u_chunks_loop o fuel h input out) = chunks_loop o fuel h input out.
Proof.
  intros o. induction fuel as [|fuel IH]; intros; cbn [u_chunks_loop chunks_loop];
    destruct (_ <=? _); try reflexivity.
  destruct (gather_chunks _ _) as [ptrs rest].
  apply forget_bind; [apply forget_of|]. intros. apply forget_bind; [apply forget_push_chunks|]. intros. apply IH.
Qed.
Lemma forget_update_rest : forall o junk h input,
  forget (u_update_rest o junk h input) = hasher_update_rest o junk h input.
Proof.
  intros. unfold u_update_rest, hasher_update_rest.
  apply forget_bind; [apply forget_chunks_loop|]. intros [h' r]. destruct (_ <? _); [|reflexivity].
  apply forget_bind; [apply forget_of|]. intros. apply forget_bind; [apply forget_of|]. reflexivity.
Qed.
Lemma forget_update : forall o junk h input,
  forget (u_hasher_update o junk h input) = hasher_update o junk h input.
Proof.
  intros. unfold u_hasher_update, hasher_update. destruct (_ || _); [|apply forget_update_rest].
  apply forget_bind; [apply forget_of|]. intros src. apply forget_bind; [apply forget_of|]. intros s.
  destruct (_ <? _); [|reflexivity].
  apply forget_bind; [apply forget_push|]. intros. apply forget_update_rest.
Qed.
Lemma forget_updates : forall o us h, forget (u_updates o h us) = c_updates o h us.
Proof.
  intros o. induction us as [|[input junk] us IH]; intros h; cbn [u_updates c_updates]; [reflexivity|].
  apply forget_bind; [apply forget_update|]. intros. apply IH.
Qed.
Lemma forget_hash : forall o memory key flags us,
  forget (u_hash o memory key flags us) = c_hash o memory key flags us.
Proof.
  intros. unfold u_hash, c_hash. apply forget_bind; [apply forget_updates|]. intros. apply forget_of.
Qed.
Lemma forget_step : forall o w x, forget (u_step o w x) = c_step o w x.
Proof.
  intros o w x.
  assert (Nth : forall i, forget (match nth_error w i with Some h => Done h | None => Abort end)
    = match nth_error w i with Some h => Ok h | None => Panic end).
  { intros i. now destruct (nth_error w i). }
  destruct x; cbn [u_step c_step]; try reflexivity;
    (apply forget_bind; [apply Nth|]; intros); try reflexivity.
  - apply forget_bind; [apply Nth|]. reflexivity.
  - apply forget_bind; [apply forget_update|]. reflexivity.
  - apply forget_bind; [apply forget_of|]. reflexivity.
Qed.
Lemma forget_run : forall o xs w, forget (u_run o w xs) = c_run o w xs.
Proof.
  intros o. induction xs as [|x xs IH]; intros w; cbn [u_run c_run]; [reflexivity|].
  apply forget_bind; [apply forget_step|]. intros [w' s]. apply forget_bind; [apply IH|].
  intros [w'' ss]. reflexivity.
Qed.

(* ---- how a run can end ---- *)

Section Ends.
Variables (o : copts) (cap : N).
(* when n bytes have been given to the hasher *)
Definition abort_at (n : N) : Prop := ndebug o = false /\ 2 ^ 63 + 2048 <= n.
Definition bad_at (n : N) : Prop :=
  (cap < 53 * 32 /\ (52 * 32 <= cap -> 2 ^ 63 <= n)) \/ (ndebug o = true /\ 2 ^ 64 <= n).
Definition ends {A} (n : N) (r : outcome A) (P : A -> Prop) : Prop :=
  (r = Abort /\ abort_at n) \/ (r = Undefined /\ bad_at n) \/ exists x, r = Done x /\ P x.

Lemma ends_ok : forall A n (x : A) (P : A -> Prop), P x -> ends n (Done x) P.
Proof. intros A n x P H. right. right. eauto. Qed.
Lemma ends_bind : forall A B n (r : outcome A) (f : A -> outcome B) P Q,
  ends n r P -> (forall x, P x -> ends n (f x) Q) -> ends n (obind r f) Q.
Proof.
  intros A B n r f P Q [[-> H]|[[-> H]|(x & -> & H)]] K; cbn [obind]; auto.
  - left. auto.
  - right. left. auto.
Qed.
Lemma ends_weaken : forall A n m (r : outcome A) (P Q : A -> Prop), n <= m ->
  ends n r P -> (forall x, P x -> Q x) -> ends m r Q.
Proof.
  intros A n m r P Q L [[-> [H1 H2]]|[[-> H]|(x & -> & H)]] K.
  - left. split; [reflexivity|]. split; [exact H1|lia].
  - right. left. split; [reflexivity|]. destruct H as [[H1 H2]|[H1 H2]]; [left|right]; split; auto; lia.
  - right. right. eauto.
Qed.
End Ends.

Section Key.
Variable o : copts.
Variable key : list N.
Variable flags : N.
Hypothesis Lkey : length key = 8%nat.
Hypothesis Wkey : words key.
Variable cap : N.
Hypothesis Hcap : cap <= 53 * 32.

Notation cvs := (SpecFacts.cvs key flags).
Notation ccv := (SpecFacts.ccv key flags).
Notation is32 := (fun h : list N => len h = 32 /\ bytes h).
Notation rep := (TreeFacts.rep (@nil N) (SpecFacts.pcv key flags)).
Notation inter := (HasherFacts.inter key flags).
Notation stk := (CImplFacts.stk cap).
Notation c_holds := (CImplFacts.c_holds key flags cap).
Notation ck_holds := (CImplFacts.ck_holds key flags).
Notation ends := (ends o cap).
Notation fullc := (fun ch : list N => len ch = 2048 /\ bytes ch).

Lemma push_len : forall st l, inter st l \/ rep st l -> len l < 2 ^ 52 -> len st < 53.
Proof.
  intros st l I H. destruct I as [I|R].
  - apply (inter_len key flags Lkey) in I. assert (popcount (len l - 1) < 52); [|lia].
    destruct (N.eq_dec (len l) 0) as [->|Z]; [reflexivity|]. apply popcount_bound_1. lia.
  - rewrite (rep_len _ _ _ _ _ R). pose proof (popcount_bound 52 (len l) H). lia.
Qed.
Lemma push_least : forall st l, inter st l \/ rep st l -> popcount (len l) <= len st.
Proof.
  intros st l [[[-> ->]|(st0 & l0 & x & -> & -> & R)]|R]; [reflexivity| |].
  - rewrite !len_app, !len_cons, !len_nil, (rep_len _ _ _ _ _ R). apply popcount_succ.
  - rewrite (rep_len _ _ _ _ _ R). reflexivity.
Qed.

Lemma push_any : forall h st l x, stk h st -> inter st l \/ rep st l -> Forall is32 l -> is32 x ->
  k_key (c_chunk_of h) = key -> k_flags (c_chunk_of h) = flags -> 2048 * len l < W64 ->
  ends (2048 * (len l + 1)) (u_push_chunk_hash o h x (2048 * len l)) (fun h' =>
    c_chunk_of h' = c_chunk_of h /\ 2048 * (len l + 1) < W64 /\
    exists st', stk h' (st' ++ [x]) /\ rep st' l).
Proof.
  intros h st l x S I F Sx Hk Hf Lim. unfold u_push_chunk_hash.
  apply (ends_bind o cap _ _ _ _ _ (fun _ => ndebug o = true \/ len st < 53)).
  { destruct (ndebug o) eqn:Nd; [apply ends_ok; auto|]. pose proof S as (Es & _). rewrite Es.
    change C_MAX_DEPTH with 53. destruct (N.ltb_spec (len st) 53) as [L|L]; [apply ends_ok; auto|].
    left. split; [reflexivity|]. split; [exact Nd|].
    destruct (N.le_gt_cases (2 ^ 63 + 2048) (2048 * (len l + 1))) as [G|G]; [exact G|exfalso].
    pose proof (push_len st l I) as Q. change (2 ^ 63) with 9223372036854775808 in G.
    change (2 ^ 52) with 4503599627370496 in Q. lia. }
  intros _ Asrt.
  destruct (c_merge_ok o key flags Lkey Wkey cap h st l)
    as (h1 & st1 & E1 & C1 & (S1 & F1 & L1 & junk & S2 & S3) & R1); auto.
  rewrite E1. cbn [of obind]. rewrite S1. change C_OUT_LEN with 32.
  pose proof (rep_len _ _ _ _ _ R1) as P. destruct Sx as [Lx Bx].
  assert (Cs : len (concat st1) = len st1 * 32) by (rewrite concat_32 by auto; lia).
  destruct (N.le_gt_cases (len st1 * 32 + len x) (len (c_stack h1))) as [Room|Room].
  2: { right. left. unfold copy_at. rewrite (proj2 (N.leb_gt _ _)) by exact Room.
       split; [reflexivity|]. rewrite Lx, S3, P in Room.
       destruct (N.eq_dec cap (53 * 32)) as [Ec|Ec].
       - right. assert (Pl : popcount (len l) = 53).
         { pose proof (pop53 key Lkey (len l)) as Q. lia. }
         assert (Nl : 2 ^ 53 - 1 <= len l).
         { destruct (N.le_gt_cases (2 ^ 53 - 1) (len l)) as [G|G]; [exact G|exfalso].
           pose proof (popcount_bound_1 53 (len l)). lia. }
         split; [|change (2 ^ 53) with 9007199254740992 in Nl; lia].
         destruct Asrt as [Nd|Asrt]; [exact Nd|exfalso].
         pose proof (push_least st l I). lia.
       - left. split; [lia|]. intros C52.
         assert (Pl : 52 <= popcount (len l)) by lia.
         destruct (N.le_gt_cases (2 ^ 52 - 1) (len l)) as [G|G].
         + change (2 ^ 52) with 4503599627370496 in G. lia.
         + exfalso. pose proof (popcount_bound_1 52 (len l)). lia. }
  rewrite copy_at_ok by lia. cbn [of obind]. apply ends_ok.
  assert (N53 : len l <> 2 ^ 53 - 1).
  { intros E. rewrite E in P. change (popcount (2 ^ 53 - 1)) with 53 in P. lia. }
  split; [exact C1|].
  split. { unfold W64 in *. change (2 ^ 53 - 1) with 9007199254740991 in N53. lia. }
  exists st1. split; [|exact R1].
  split; [|split; [|split]].
  - cbn [c_stack_len]. rewrite N.mod_small by (unfold W8; lia). rewrite len_app. reflexivity.
  - apply Forall_app. split; auto.
  - rewrite len_app, len_cons, len_nil. lia.
  - cbn [c_stack]. exists (drop (len st1 * 32 + len x) (c_stack h1)).
    rewrite concat_app. cbn [concat]. rewrite app_nil_r, <- app_assoc. split.
    + f_equal. rewrite S2. now rewrite take_app_eq by auto.
    + rewrite !len_app, len_take, len_drop, Lx. lia.
Qed.

Lemma push_chunks_any : forall xs idx h st l pre r, stk h st -> inter st l -> Forall is32 (l ++ xs) ->
  ck_holds (c_chunk_of h) (len l) [] -> 2048 * len l < W64 -> len pre = idx * 32 ->
  ends (2048 * len (l ++ xs)) (u_push_chunks o (length xs) idx h (pre ++ concat xs ++ r)) (fun h' =>
    2048 * len (l ++ xs) < W64 /\ ck_holds (c_chunk_of h') (len (l ++ xs)) [] /\
    exists st', stk h' st' /\ inter st' (l ++ xs)).
Proof.
  induction xs as [|x xs IH]; intros idx h st l pre r S I F H Lim Lp; cbn [u_push_chunks length concat].
  - rewrite app_nil_r. apply ends_ok. eauto.
  - apply Forall_app in F. destruct F as [Fl Fx].
    pose proof (Forall_inv Fx) as Sx.
    change C_OUT_LEN with 32. rewrite <- app_assoc.
    assert (Lx : len x = 32) by (cbn beta in Sx; tauto).
    rewrite slice_ok by (rewrite !len_app; lia). cbn [of obind].
    rewrite drop_app_eq by auto. rewrite take_app_eq by auto.
    destruct (ck_fields _ _ _ _ _ H) as (Hk & Hf & Ho). rewrite Ho.
    eapply ends_bind.
    { eapply ends_weaken; [|now apply (push_any h st l x); auto|intros ? Q; exact Q].
      rewrite len_app, len_cons. lia. }
    intros h1 (C1 & Lim1 & st1 & S1 & R1). rewrite C1, Ho. change C_CHUNK_LEN with 2048.
    rewrite N.mod_small by lia.
    replace (2048 * len l + 2048) with (2048 * len (l ++ [x])) by lenlia.
    rewrite (app_assoc pre x).
    replace (l ++ x :: xs) with ((l ++ [x]) ++ xs) by now rewrite <- app_assoc.
    apply IH with (st := st1 ++ [x]).
    + exact S1.
    + right. exists st1, l, x. auto.
    + rewrite <- app_assoc. apply Forall_app. auto.
    + cbn [c_chunk_of]. now apply ck_move with (i := len l).
    + rewrite len_app, len_cons, len_nil. lia.
    + rewrite len_app. lia.
Qed.

Lemma u_push_chunks_app : forall a b idx h out,
  u_push_chunks o (a + b) idx h out
  = obind (u_push_chunks o a idx h out) (fun h => u_push_chunks o b (idx + N.of_nat a) h out).
Proof.
  induction a as [|a IH]; intros b idx h out.
  - cbn [Nat.add u_push_chunks obind]. f_equal. lia.
  - cbn [Nat.add u_push_chunks].
    destruct (slice out (idx * C_OUT_LEN) C_OUT_LEN) as [l| |]; cbn [of obind]; auto.
    destruct (u_push_chunk_hash o h l (k_offset (c_chunk_of h))); cbn [obind]; auto.
    rewrite IH. match goal with |- obind ?e _ = obind ?e _ => destruct e; cbn [obind]; auto end.
    f_equal. lia.
Qed.

(* one batch, which may run past the last chunk of 2^64 bytes *)
Lemma batch_any : forall fuel input h st cs out, stk h st -> Forall fullc cs ->
  inter st (cvs 0 cs) -> ck_holds (c_chunk_of h) (len cs) [] ->
  bytes input -> 2048 <= len input -> 2048 * len cs < W64 -> len out = 512 ->
  (u_chunks_loop o (S fuel) h input out = Abort /\ abort_at o (2048 * len cs + len input)) \/
  (u_chunks_loop o (S fuel) h input out = Undefined /\ bad_at o cap (2048 * len cs + len input)) \/
  exists h' st' ba rest out', input = concat ba ++ rest /\ Forall fullc ba /\ 1 <= len ba <= 16 /\
    len out' = 512 /\ 2048 * len (cs ++ ba) < W64 /\
    stk h' st' /\ inter st' (cvs 0 (cs ++ ba)) /\ ck_holds (c_chunk_of h') (len (cs ++ ba)) [] /\
    u_chunks_loop o (S fuel) h input out = u_chunks_loop o fuel h' rest out'.
Proof.
  intros fuel input h st cs out S Fc I H B G Lim Lo.
  cbn [u_chunks_loop]. change C_CHUNK_LEN with 2048.
  rewrite (proj2 (N.leb_le _ _) G).
  destruct (gather_ok key Lkey (N.to_nat C_MAX_SIMD_DEGREE) input B)
    as (ptrs & ba & rest & E1 & E2 & E3 & E4 & E5 & E6 & E7).
  rewrite E1. change (N.to_nat C_MAX_SIMD_DEGREE) with 16%nat in *.
  destruct (ck_fields _ _ _ _ _ H) as (Hk & Hfl & Ho). rewrite Hk, Hfl, Ho.
  assert (Lp : len ptrs = len ba) by (rewrite <- E4; unfold len; now rewrite map_length).
  assert (L16 : len ba <= 16) by (unfold len; lia).
  assert (Lin : len input = 2048 * len ba + len rest).
  { rewrite E2 at 1. rewrite len_app, len_concat_full by auto. lia. }
  assert (L1 : 1 <= len ba) by (destruct E7 as [E7|E7]; [unfold len; lia|lia]).
  change (2048 / C_BLOCK_LEN) with 32.
  rewrite (c_hash_many_ok o 32 key 2048 flags _ _ CHUNK_OFFSET_DELTAS Lkey Wkey eq_refl).
  4: { lia. }
  2: { exact E5. }
  2: { lia. }
  cbn [of obind]. unfold many_result. change (64 * 32) with 2048. rewrite E4, Lp.
  (* the chunks that start below 2^64 *)
  set (k := N.min (len ba) (2 ^ 53 - len cs)).
  assert (K : 1 <= k /\ len cs + k <= 2 ^ 53 /\ (k = len ba \/ len cs + k = 2 ^ 53)).
  { unfold k, W64 in *. change (2 ^ 53) with 9007199254740992. lia. }
  destruct K as (K1 & K2 & K3).
  pose (b1 := take k ba). pose (b2 := drop k ba).
  assert (Lb1 : len b1 = k) by (unfold b1; rewrite len_take; unfold k in *; lia).
  assert (Eb : ba = b1 ++ b2) by (symmetry; apply take_drop).
  assert (F1 : Forall fullc b1 /\ Forall fullc b2) by (apply Forall_app; now rewrite <- Eb).
  destruct F1 as [F1 F2].
  pose (tl := concat (hash_all WF key flags C_CHUNK_START C_CHUNK_END (2048 * len cs + len b1 * 2048) 2048 b2)
              ++ drop (32 * len ba) out).
  assert (Eo : concat (hash_all WF key flags C_CHUNK_START C_CHUNK_END (2048 * len cs) 2048 ba)
               ++ drop (32 * len ba) out = concat (cvs (len cs) b1) ++ tl).
  { rewrite Eb at 1. rewrite hash_all_app, concat_app, <- app_assoc. fold tl. f_equal. f_equal.
    rewrite hash_all_last.
    - change (hash_all F key flags C_CHUNK_START C_CHUNK_END (2048 * len cs) 2048 b1)
        with (hash_all F key flags CHUNK_START CHUNK_END (2048 * len cs) 2048 b1).
      apply hash_all_cvs. eapply Forall_impl; [|exact F1]. cbn beta. tauto.
    - exact Lim.
    - intros _. rewrite Lb1. unfold W64. change (2 ^ 53) with 9007199254740992 in *. lia. }
  assert (Lo' : len (concat (cvs (len cs) b1) ++ tl) = 512).
  { rewrite <- Eo, len_app, len_drop.
    assert (Q : len (concat (hash_all WF key flags C_CHUNK_START C_CHUNK_END (2048 * len cs) 2048 ba)) = 32 * len ba).
    { rewrite concat_32, hash_all_count; [reflexivity|].
      apply hash_all_shape; auto. now apply full_bytes. }
    rewrite Q. lia. }
  rewrite Eo.
  assert (Np : length ptrs = (length (cvs (len cs) b1) + length b2)%nat).
  { pose proof (len_cvs key flags b1 (len cs)) as Q.
    assert (length ptrs = length ba) by (unfold len in Lp; lia).
    rewrite Eb, app_length in *. unfold len in *. lia. }
  rewrite Np, u_push_chunks_app.
  assert (Sp : ends (2048 * len cs + len input) (u_push_chunks o (length (cvs (len cs) b1)) 0 h (concat (cvs (len cs) b1) ++ tl)) (fun h' =>
    2048 * len (cs ++ b1) < W64 /\ ck_holds (c_chunk_of h') (len (cs ++ b1)) [] /\
    exists st', stk h' st' /\ inter st' (cvs 0 (cs ++ b1)))).
  { pose proof (push_chunks_any (cvs (len cs) b1) 0 h st (cvs 0 cs) [] tl S I) as Q.
    cbn [app] in Q. rewrite cvs_join in Q. rewrite !len_cvs in Q.
    eapply ends_weaken; [|apply Q; auto|intros ? Z; exact Z].
    { rewrite len_app, Lb1, Lin. unfold k. lia. }
    apply cvs_shape; auto. apply full_bytes. apply Forall_app. auto. }
  destruct Sp as [[-> Q]|[[-> Q]|(h1 & -> & Lim1 & H1 & st1 & S1 & I1)]]; [now left|right; now left|].
  right. right. rewrite len_app, Lb1 in Lim1.
  destruct K3 as [K3|K3].
  2: { exfalso. rewrite K3 in Lim1. now apply (N.lt_irrefl W64). }
  assert (b2 = []) as Z.
  { apply len_0_nil. unfold b2. rewrite len_drop. lia. }
  rewrite Z, app_nil_r in Eb. rewrite Z. cbn [length u_push_chunks bind].
  exists h1, st1, ba, rest, (concat (cvs (len cs) b1) ++ tl). rewrite Eb at 5 6 7.
  split; [exact E2|]. split; [exact E3|]. split; [lia|]. split; [exact Lo'|].
  split; [rewrite len_app; lia|]. auto.
Qed.

Lemma chunks_loop_any : forall fuel input h st cs out, stk h st ->
  Forall fullc cs -> bytes input -> (length input <= fuel)%nat ->
  inter st (cvs 0 cs) -> ck_holds (c_chunk_of h) (len cs) [] ->
  2048 * len cs < W64 -> len out = 512 ->
  ends (2048 * len cs + len input) (u_chunks_loop o fuel h input out) (fun '(h', rest) =>
    exists st' ch, input = concat ch ++ rest /\ len rest < 2048 /\ Forall fullc ch /\
    2048 * len (cs ++ ch) < W64 /\
    stk h' st' /\ inter st' (cvs 0 (cs ++ ch)) /\ ck_holds (c_chunk_of h') (len (cs ++ ch)) []).
Proof.
  induction fuel as [|fuel IH]; intros input h st cs out S Fc B Hf I H Lim Lo.
  - destruct input; [|cbn in Hf; lia].
    cbn [u_chunks_loop]. change (C_CHUNK_LEN <=? len []) with false. apply ends_ok.
    exists st, []. rewrite (app_nil_r cs). cbn [concat app].
    split; [reflexivity|]. split; [rewrite len_nil; lia|]. split; [constructor|]. auto.
  - destruct (N.le_gt_cases 2048 (len input)) as [G|G].
    + destruct (batch_any fuel input h st cs out) as
        [E|[E|(h1 & st1 & ba & rest & out1 & E1 & E2 & E3 & Lo1 & Lim1 & S1 & I1 & H1 & E5)]]; auto.
      { now left. } { right. now left. }
      assert (Lin : len input = 2048 * len ba + len rest).
      { rewrite E1 at 1. rewrite len_app, len_concat_full by auto. lia. }
      rewrite E5. eapply ends_weaken; [|apply (IH rest h1 st1 (cs ++ ba) out1)|]; auto.
      * rewrite len_app. lia.
      * apply Forall_app; auto.
      * rewrite E1 in B. apply bytes_app in B. tauto.
      * unfold len in *. lia.
      * intros (h2 & rest2) (st2 & ch & E10 & E11 & E12 & Lim2 & S2 & I2 & H2).
        exists st2, (ba ++ ch). rewrite <- app_assoc in Lim2, I2, H2.
        split. { rewrite concat_app, <- app_assoc, <- E10. exact E1. }
        split; [exact E11|]. split; [apply Forall_app; auto|]. auto.
    + cbn [u_chunks_loop]. change C_CHUNK_LEN with 2048. rewrite (proj2 (N.leb_gt _ _) G).
      apply ends_ok. exists st, []. rewrite (app_nil_r cs). cbn [concat app]. auto 10.
Qed.

(* h has been given data, at most 2^64 bytes *)
Definition held (data : list N) (h : c_hasher) : Prop := c_holds h data /\ len data <= W64.

Lemma update_rest_any : forall junk h st cs input, stk h st -> len junk = 512 ->
  Forall fullc cs -> inter st (cvs 0 cs) -> ck_holds (c_chunk_of h) (len cs) [] ->
  bytes input -> 2048 * len cs < W64 ->
  (len cs + len input / 2048 = 1 -> len input mod 2048 <> 0) ->
  ends (len (concat cs ++ input)) (u_update_rest o junk h input) (held (concat cs ++ input)).
Proof.
  intros junk h st cs input S Lj Fc I H B Lim Hn. unfold u_update_rest.
  rewrite len_app, len_concat_full by auto.
  eapply ends_bind; [apply (chunks_loop_any (length input) input h st cs junk); auto|].
  intros (h1 & rm) (st1 & ch & C1 & C2 & Fk & Lim1 & S1 & I1 & H1).
  assert (Li : len input = 2048 * len ch + len rm) by (rewrite C1, len_app, len_concat_full by auto; lia).
  assert (Br : bytes rm) by (rewrite C1 in B; apply bytes_app in B; tauto).
  assert (Fa : Forall fullc (cs ++ ch)) by (apply Forall_app; auto).
  assert (Ld : len (concat cs ++ input) <= W64).
  { rewrite len_app, len_concat_full by auto. rewrite len_app in Lim1. unfold W64 in *. lia. }
  destruct (ck_fields _ _ _ _ _ H1) as (Hk & Hfl & Ho).
  destruct (N.ltb_spec 0 (len rm)) as [Z|Z].
  - rewrite Ho. rewrite <- (len_cvs key flags (cs ++ ch) 0).
    destruct (c_merge_ok o key flags Lkey Wkey cap h1 st1 (cvs 0 (cs ++ ch)))
      as (h2 & st2 & E & C3 & S2 & R); auto.
    { apply cvs_shape; auto. now apply full_bytes. }
    { now rewrite len_cvs. }
    rewrite E. cbn [of obind]. rewrite C3.
    destruct (ck_update_ok o key flags Lkey (c_chunk_of h1) (len (cs ++ ch)) [] rm) as (s' & E' & H'); auto.
    { rewrite len_nil. lia. }
    rewrite E'. cbn [of obind]. apply ends_ok. split; [|exact Ld].
    exists (cs ++ ch), rm, st2. cbn [c_chunk_of]. cbn [app] in H'.
    split; [exact S2|]. split; [exact Fa|]. split; [exact Br|].
    split; [now rewrite concat_app, <- app_assoc, <- C1|]. split; [exact H'|]. split; [lia|].
    left. split; auto. intros ->. rewrite len_nil in Z. lia.
  - apply ends_ok. split; [|exact Ld].
    assert (Erm : rm = []) by (apply len_0_nil; lia). subst rm.
    rewrite app_nil_r in C1. rewrite len_nil in *.
    exists (cs ++ ch), [], st1. rewrite app_nil_r, concat_app, <- C1.
    split; [exact S1|]. split; [exact Fa|]. split; [constructor|]. split; [reflexivity|].
    split; [exact H1|]. split; [rewrite len_nil; lia|].
    destruct (N.eq_dec (len (cs ++ ch)) 0) as [Z0|Z0].
    + left. pose proof (len_0_nil _ _ Z0) as E0. rewrite E0 in *. split; auto.
      destruct I1 as [[-> _]|(st0 & l0 & x & _ & E & _)]; [constructor|].
      cbn in E. now destruct l0.
    + right. split; auto. split; auto. rewrite len_app in *. lia.
Qed.

Lemma update_any : forall junk h data input, held data h -> bytes input -> len junk = 512 ->
  ends (len (data ++ input)) (u_hasher_update o junk h input) (held (data ++ input)).
Proof.
  intros junk h data input [(cs & rest & st & S & Fc & Br & -> & H & Lr & Cs) Ld] B Lj.
  rewrite len_app, len_concat_full in Ld by auto.
  assert (Lim : 2048 * len cs < W64).
  { destruct (N.lt_ge_cases (2048 * len cs) W64) as [L|L]; auto. exfalso.
    assert (Lc : len cs = 2 ^ 53) by (unfold W64 in *; change (2 ^ 53) with 9007199254740992; lia).
    assert (Er : rest = []) by (apply len_0_nil; lia). destruct Cs as [[_ E]|(_ & _ & I)].
    - rewrite (E Er) in Lc. discriminate Lc.
    - destruct I as [[_ E]|(st0 & l0 & x & E1 & E2 & R)].
      + apply (f_equal len) in E. rewrite len_cvs, Lc in E. discriminate E.
      + apply (f_equal len) in E2. rewrite len_cvs, Lc, len_app, len_cons, len_nil in E2.
        destruct S as (_ & _ & L53 & _). rewrite E1, len_app, len_cons, len_nil in L53.
        rewrite (rep_len _ _ _ _ _ R) in L53.
        replace (len l0) with (2 ^ 53 - 1) in L53 by lia.
        change (popcount (2 ^ 53 - 1)) with 53 in L53. lia. }
  destruct (ck_fields _ _ _ _ _ H) as (Hk & Hfl & Ho).
  unfold u_hasher_update. rewrite Ho, (ck_len_ok key flags Lkey _ _ _ H). change C_CHUNK_LEN with 2048. cbv zeta.
  assert (Sc : Forall is32 (cvs 0 cs)) by (apply cvs_shape; auto; now apply full_bytes).
  assert (Z0 : (2048 * len cs =? 0) = (len cs =? 0)).
  { destruct (N.eqb_spec (len cs) 0), (N.eqb_spec (2048 * len cs) 0); auto; lia. }
  rewrite Z0.
  destruct (((len cs =? 0) && (len input =? 2048)) || (0 <? len rest)) eqn:Eb.
  - (* the chunk state takes bytes *)
    assert (R : rep st (cvs 0 cs)).
    { destruct Cs as [[R _]|(E1 & E2 & _)]; auto. subst rest. rewrite len_nil in Eb.
      exfalso. lia. }
    rewrite sub_size_ok by (unfold W32; lia). rewrite min_if, N.min_comm.
    set (n := N.min (2048 - len rest) (len input)).
    rewrite slice_ok by lia. cbn [of obind]. rewrite drop_0.
    destruct (ck_update_ok o key flags Lkey (c_chunk_of h) (len cs) rest (take n input))
      as (s1 & E1 & H1); auto; try lenlia.
    { now apply bytes_take. }
    rewrite E1. cbn [of obind]. rewrite len_drop.
    destruct (N.ltb_spec 0 (len input - n)) as [Z|Z].
    + assert (Lf : len (rest ++ take n input) = 2048) by lenlia.
      assert (Bf : bytes (rest ++ take n input)) by (apply bytes_app; split; [auto|now apply bytes_take]).
      rewrite (ck_finalize_chain o key flags Lkey Wkey s1 (len cs) (rest ++ take n input)) by (auto; lia).
      destruct (ck_fields _ _ _ _ _ H1) as (Hk1 & Hfl1 & Ho1). rewrite Ho1.
      set (x := ccv (len cs) (rest ++ take n input)).
      assert (Sx : is32 x) by (apply ccv_shape; auto).
      pose proof (push_any (CHasher s1 (c_stack_len h) (c_stack h)) st (cvs 0 cs) x) as P.
      rewrite len_cvs in P. cbn [c_chunk_of] in P. eapply ends_bind.
      { eapply ends_weaken; [|apply P; auto|intros ? Q; exact Q].
        rewrite !len_app, len_concat_full by auto. rewrite !len_app, len_take in Lf. lia. }
      intros h1 (C2 & Lim1 & st1 & S2 & R2). rewrite C2, Ho1.
      rewrite N.mod_small by lia.
      replace (2048 * len cs + 2048) with (2048 * (len cs + 1)) by lia.
      unfold chunk_state_reset. rewrite Hk1, Hfl1.
      replace ((concat cs ++ rest) ++ input)
        with (concat (cs ++ [rest ++ take n input]) ++ drop n input).
      2: { rewrite concat_app. cbn [concat]. now rewrite app_nil_r, <- !app_assoc, take_drop. }
      apply update_rest_any with (st := st1 ++ [x]); auto.
      * apply Forall_app. split; auto.
      * right. exists st1, (cvs 0 cs), x. rewrite cvs_app. cbn [SpecFacts.cvs]. auto.
      * cbn [c_chunk_of]. rewrite len_app. apply (ck_fresh key flags Lkey Wkey).
      * now apply bytes_drop.
      * rewrite len_app, len_cons, len_nil. lia.
      * rewrite len_app, len_cons, len_nil, len_drop. lia.
    + apply ends_ok. rewrite take_all in H1 by lia. split.
      * exists cs, (rest ++ input), st. cbn [c_chunk_of].
        split; [exact S|]. split; [exact Fc|]. split; [apply bytes_app; auto|].
        split; [now rewrite app_assoc|]. split; [exact H1|]. split; [rewrite len_app; lia|].
        left. split; auto. intros E. apply app_eq_nil in E. destruct E as [-> ->].
        rewrite !len_nil in Eb. exfalso. lia.
      * rewrite !len_app, len_concat_full by auto. unfold W64 in *. lia.
  - (* the chunk state is empty *)
    assert (Er : rest = []) by (apply len_0_nil; lia). subst rest. rewrite app_nil_r.
    apply (update_rest_any junk h st); auto.
    + destruct Cs as [[R E]|(_ & _ & I)]; auto. rewrite (E eq_refl) in *. left.
      split; [|reflexivity]. apply len_0_nil. rewrite (rep_len _ _ _ _ _ R). reflexivity.
    + destruct Cs as [[R E]|(_ & E & _)]; [|lia]. specialize (E eq_refl). subst cs.
      rewrite len_nil in *. cbn [orb] in Eb. lia.
Qed.

Lemma updates_any : forall us h data, held data h -> c_updates_ok us ->
  ends (len (data ++ c_data us)) (u_updates o h us) (held (data ++ c_data us)).
Proof.
  induction us as [|[input junk] us IH]; intros h data H U.
  - unfold c_data. cbn. rewrite app_nil_r. now apply ends_ok.
  - cbn [u_updates]. pose proof (Forall_inv U) as [B J]. cbn [fst snd] in *.
    eapply ends_bind.
    { eapply ends_weaken; [|apply (update_any junk h data input); auto|intros ? Q; exact Q].
      unfold c_data. cbn [map concat fst]. rewrite !len_app. lia. }
    intros h1 H1. unfold c_data in *. cbn [map concat fst]. rewrite app_assoc.
    apply IH; [exact H1|exact (Forall_inv_tail U)].
Qed.
End Key.

Lemma u_hash_any : forall o memory key flags us,
  length key = 32%nat -> bytes key -> c_updates_ok us -> len memory <= 53 * 32 ->
  ends o (len memory) (len (c_data us)) (u_hash o memory key flags us)
    (fun hash => len (c_data us) <= W64 /\
       hash = take 32 (root_block F (root_node F (words_of_bytes key) flags (c_data us)) 0)).
Proof.
  intros o memory key flags us L B U Lm. unfold u_hash, hasher_init.
  destruct (key_words key L B) as (E & L8 & W). rewrite E.
  pose proof (c_init_holds (words_of_bytes key) flags L8 W (len memory) memory eq_refl) as H.
  eapply ends_bind.
  { apply (updates_any o _ flags L8 W (len memory) Lm us _ []); auto. split; [exact H|discriminate]. }
  intros h [H1 L1]. cbn [app] in *. unfold u_hasher_finalize.
  rewrite (c_finalize_ok o _ _ L8 W (len memory) h (c_data us) H1 L1). now apply ends_ok.
Qed.

(* ---- programs ---- *)

Definition u_good (h : c_hasher) : Prop := exists key flags data,
  length key = 8%nat /\ words key /\ held key flags (53 * 32) data h.

Lemma good_init : forall memory key flags, len memory = 53 * 32 -> length key = 32%nat -> bytes key ->
  u_good (hasher_init memory key flags).
Proof.
  intros memory key flags Lm L B. destruct (key_words key L B) as (E & L8 & W).
  exists (words_of_bytes key), flags, []. split; [exact L8|]. split; [exact W|].
  unfold hasher_init. rewrite E. split; [now apply c_init_holds|discriminate].
Qed.
Lemma good_memory : forall h, u_good h -> len (c_stack h) = 53 * 32.
Proof.
  intros h (key & flags & data & _ & _ & (cs & rest & st & (_ & _ & _ & junk & _ & L) & _) & _). exact L.
Qed.

(* an assertion failed, or a value with property P *)
Definition stops {A} (r : outcome A) (P : A -> Prop) : Prop := r = Abort \/ exists x, r = Done x /\ P x.
Lemma stops_bind : forall A B (r : outcome A) (f : A -> outcome B) P Q,
  stops r P -> (forall x, P x -> stops (f x) Q) -> stops (obind r f) Q.
Proof. intros A B r f P Q [->|(x & -> & H)] K; cbn [obind]; [now left|auto]. Qed.

Lemma Forall_replace : forall A (P : A -> Prop) l i x, Forall P l -> P x -> Forall P (replace l i x).
Proof.
  intros A P l i x F. revert i. induction F as [|y l H F IH]; intros i Px; [destruct i; constructor|].
  destruct i; cbn [replace]; constructor; auto.
Qed.

Lemma u_step_stops : forall o w x, ndebug o = false -> Forall u_good w -> c_call_typed x ->
  stops (u_step o w x) (fun r => Forall u_good (fst r)).
Proof.
  intros o w x Nd G C.
  assert (Nth : forall i, stops match nth_error w i with Some h => Done h | None => Abort end u_good).
  { intros i. destruct (nth_error w i) as [h|] eqn:E; [|now left]. right. exists h. split; [reflexivity|].
    exact (proj1 (Forall_forall _ _) G h (nth_error_In _ _ E)). }
  assert (App : forall h, u_good h -> Forall u_good (w ++ [h])).
  { intros h H. apply Forall_app. auto. }
  destruct x as [memory key flags|i key flags|i|i j|i input junk|i]; cbn [u_step c_call_typed] in *.
  - right. eexists. split; [reflexivity|]. apply App. now apply good_init.
  - eapply stops_bind; [apply Nth|]. intros h H. right. eexists. split; [reflexivity|].
    apply Forall_replace; [exact G|]. apply good_init; try tauto. now apply good_memory.
  - eapply stops_bind; [apply Nth|]. intros h H. right. eexists. split; [reflexivity|]. now apply App.
  - eapply stops_bind; [apply Nth|]. intros g Hg. eapply stops_bind; [apply Nth|]. intros h H.
    right. eexists. split; [reflexivity|]. now apply Forall_replace.
  - eapply stops_bind; [apply Nth|]. intros h (key & flags & data & L8 & W & H).
    apply (stops_bind _ _ _ _ u_good).
    + destruct (update_any o key flags L8 W (53 * 32) (N.le_refl _) junk h data input H)
        as [[-> _]|[[_ Q]|(h' & -> & H')]]; try tauto.
      * now left.
      * exfalso. destruct Q as [[Q _]|[Q _]]; [now apply N.lt_irrefl in Q|congruence].
      * right. exists h'. split; [reflexivity|]. exists key, flags, (data ++ input). auto.
    + intros h' H'. right. eexists. split; [reflexivity|]. now apply Forall_replace.
  - eapply stops_bind; [apply Nth|]. intros h (key & flags & data & L8 & W & H & Ld).
    unfold u_hasher_finalize. rewrite (c_finalize_ok o key flags L8 W (53 * 32) h data H Ld).
    right. eexists. split; [reflexivity|]. exact G.
Qed.
Lemma u_run_stops : forall o xs w, ndebug o = false -> Forall u_good w -> Forall c_call_typed xs ->
  stops (u_run o w xs) (fun r => Forall u_good (fst r)).
Proof.
  intros o xs w Nd G F. revert w G. induction F as [|x xs C F IH]; intros w G; cbn [u_run].
  - right. eexists. split; [reflexivity|exact G].
  - eapply stops_bind; [now apply u_step_stops|]. intros [w1 s] G1. cbn [fst] in G1.
    eapply stops_bind; [now apply IH|]. intros [w2 ss] G2. cbn [fst] in G2.
    right. eexists. split; [reflexivity|exact G2].
Qed.

Lemma program_safe : forall o xs, ndebug o = false -> Forall c_call_typed xs ->
  u_run o [] xs = Abort \/ exists w answers, u_run o [] xs = Done (w, answers).
Proof.
  intros o xs Nd F. destruct (u_run_stops o xs [] Nd (Forall_nil _) F) as [E|([w a] & E & _)]; eauto.
Qed.

Lemma hash_done_or : forall o memory key flags us, length key = 32%nat -> bytes key -> c_updates_ok us ->
  (ndebug o = false /\ len memory = 53 * 32 \/ len memory = 53 * 32 /\ len (c_data us) < 2 ^ 64 \/
   RUST_SUBTREE_HASHES <= len memory <= 53 * 32 /\ len (c_data us) < 2 ^ 63) ->
  (exists hash, u_hash o memory key flags us = Done hash) \/
  u_hash o memory key flags us = Abort /\ ndebug o = false /\ 2 ^ 63 + 2048 <= len (c_data us).
Proof.
  intros o memory key flags us L B U H. change RUST_SUBTREE_HASHES with (52 * 32) in H.
  assert (Lm : len memory <= 53 * 32).
  { destruct H as [[_ ->]|[[-> _]|[[_ H] _]]]; [reflexivity|reflexivity|exact H]. }
  destruct (u_hash_any o memory key flags us L B U Lm) as [[-> [Q1 Q2]]|[[_ Q]|(x & -> & _)]]; eauto.
  exfalso. change (2 ^ 64) with 18446744073709551616 in *. change (2 ^ 63) with 9223372036854775808 in *.
  destruct Q as [[Q1 Q2]|[Q1 Q2]], H as [[H1 H2]|[[H1 H2]|[H1 H2]]]; try congruence; lia.
Qed.

Lemma no_abort : forall o us h, ndebug o = true -> u_updates o h us <> Abort.
Proof.
  intros o us h Nd.
  assert (Of : forall A (r : res A), of r <> Abort) by (intros A [x| |]; discriminate).
  assert (Bd : forall A B (m : outcome A) (f : A -> outcome B), m <> Abort -> (forall x, f x <> Abort) ->
    obind m f <> Abort).
  { intros A B [x| | |] f H K; cbn [obind]; try discriminate; auto. }
  assert (Pu : forall h x off, u_push_chunk_hash o h x off <> Abort).
  { intros. unfold u_push_chunk_hash. rewrite Nd. apply Bd; [discriminate|]. intros _.
    apply Bd; [apply Of|]. intros. apply Bd; [apply Of|]. discriminate. }
  assert (Pc : forall n i h out, u_push_chunks o n i h out <> Abort).
  { induction n as [|n IH]; intros; cbn [u_push_chunks]; [discriminate|].
    apply Bd; [apply Of|]. intros. apply Bd; [apply Pu|]. intros. apply IH. }
  assert (Cl : forall fuel h input out, u_chunks_loop o fuel h input out <> Abort).
  { induction fuel as [|fuel IH]; intros; cbn [u_chunks_loop]; destruct (_ <=? _); try discriminate.
    destruct (gather_chunks _ _). apply Bd; [apply Of|]. intros. apply Bd; [apply Pc|]. intros. apply IH. }
  assert (Ur : forall junk h input, u_update_rest o junk h input <> Abort).
  { intros. unfold u_update_rest. apply Bd; [apply Cl|]. intros [h' r]. destruct (_ <? _); [|discriminate].
    apply Bd; [apply Of|]. intros. apply Bd; [apply Of|]. discriminate. }
  revert h. induction us as [|[input junk] us IH]; intros h; cbn [u_updates]; [discriminate|].
  apply Bd; [|intros; apply IH]. unfold u_hasher_update. destruct (_ || _); [|apply Ur].
  apply Bd; [apply Of|]. intros. apply Bd; [apply Of|]. intros. destruct (_ <? _); [|discriminate].
  apply Bd; [apply Pu|]. intros. apply Ur.
Qed.

Lemma hash_undefined_ndebug : forall o memory key flags us, ndebug o = true ->
  length key = 32%nat -> bytes key -> c_updates_ok us -> len memory = 53 * 32 ->
  2 ^ 64 < len (c_data us) -> u_hash o memory key flags us = Undefined.
Proof.
  intros o memory key flags us Nd L B U Lm H.
  pose proof (c_too_long o memory key flags us L B U) as T.
  rewrite <- forget_hash in T.
  assert (Na : u_hash o memory key flags us <> Abort).
  { unfold u_hash. pose proof (no_abort o us (hasher_init memory key flags) Nd) as Q.
    destruct (u_updates _ _ _); cbn [obind]; try discriminate; [|now elim Q].
    unfold u_hasher_finalize. destruct (hasher_finalize o x); discriminate. }
  assert (P : forget (u_hash o memory key flags us) = Panic).
  { apply T; [rewrite Lm; apply N.le_refl|exact H]. }
  destruct (u_hash o memory key flags us); try discriminate P; [now elim Na|reflexivity].
Qed.

Lemma wrapper_undefined : forall o memory key flags us, length key = 32%nat -> bytes key ->
  RUST_SUBTREE_HASHES <= len memory <= RUST_SUBTREE_HASHES + RUST_PADDING ->
  c_updates_ok us -> Forall (fun u => len (fst u) mod 32768 = 0) us -> len (c_data us) = 2 ^ 63 ->
  u_hash o memory key flags us = Undefined.
Proof.
  intros o memory key flags us L B M U F D.
  assert (P : c_hash o memory key flags us = Panic).
  { apply c_writes_outside; auto. rewrite D. split; [apply N.le_refl|reflexivity]. }
  rewrite <- forget_hash in P.
  destruct (u_hash_any o memory key flags us L B U) as [[_ [_ Q]]|[[E _]|(x & E & _)]].
  - change RUST_SUBTREE_HASHES with 1664 in M. change RUST_PADDING with 7 in M. lia.
  - rewrite D in Q. exfalso. revert Q. now vm_compute.
  - exact E.
  - rewrite E in P. discriminate P.
Qed.

Lemma done_iff : forall A (r : outcome A) x, forget r = Ok x -> r = Done x.
Proof. intros A [y| | |] x H; inversion H. reflexivity. Qed.
Lemma program_done_ndebug : forall o xs a ss, ndebug o = true ->
  c_abstract_run (53 * 32) (2 ^ 64 - 1) [] xs = Some (a, ss) -> exists w, u_run o [] xs = Done (w, ss).
Proof.
  intros o xs a ss Nd H. destruct (c_program_no_assertions o xs a ss Nd H) as [w E].
  exists w. apply done_iff. now rewrite forget_run.
Qed.
Lemma program_done_wrapper : forall o cap xs a ss, RUST_SUBTREE_HASHES <= cap ->
  c_abstract_run cap (2 ^ 63 - 1) [] xs = Some (a, ss) -> exists w, u_run o [] xs = Done (w, ss).
Proof.
  intros o cap xs a ss Nd H. destruct (c_wrapper_program_ok o cap xs a ss Nd H) as [w E].
  exists w. apply done_iff. now rewrite forget_run.
Qed.
Lemma hash_abort : forall o memory key flags us,
  length key = 32%nat -> bytes key -> c_updates_ok us -> len memory = 53 * 32 ->
  u_hash o memory key flags us = Abort -> ndebug o = false /\ 2 ^ 63 + 2048 <= len (c_data us).
Proof.
  intros o memory key flags us L B U Lm E.
  assert (Lm' : len memory <= 53 * 32) by (rewrite Lm; apply N.le_refl).
  destruct (u_hash_any o memory key flags us L B U Lm') as [[_ Q]|[[E' _]|(x & E' & _)]]; [exact Q| |];
    rewrite E' in E; discriminate E.
Qed.
Lemma outcome_agrees :
  (forall o memory key flags us,
     c_hash o memory key flags us
     = match u_hash o memory key flags us with
       | Done hash => Ok hash | Abort | Undefined => Panic | Endless => NoFuel end) /\
  (forall o w xs,
     c_run o w xs
     = match u_run o w xs with
       | Done r => Ok r | Abort | Undefined => Panic | Endless => NoFuel end).
Proof.
  split; intros; [rewrite <- forget_hash|rewrite <- forget_run]; reflexivity.
Qed.
