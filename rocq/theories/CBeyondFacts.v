(* The C hasher at every length: it fails, or it holds what it was given. *)
From Coq Require Import NArith List Bool Lia ZArith.
From Coq Require Import ZifyBool ZifyNat ZifyN.
From Verif Require Import Base BaseFacts Spec TreeFacts CompressFacts ManyFacts SpecFacts ChunkFacts.
From Verif Require Import HasherFacts ApiFacts WrapSpec WrapFacts BeyondFacts SessionSpec CSimd CSimdFacts CSimdProps.
From Verif Require Import CImpl CImplFacts CSpec CImplProps.
Import ListNotations.
Open Scope N_scope.

(* The result is an abort, or a value with property P. *)
Definition safe {A} (r : res A) (P : A -> Prop) : Prop :=
  r = Panic \/ exists x, r = Ok x /\ P x.

Lemma safe_ok : forall A (x : A) (P : A -> Prop), P x -> safe (Ok x) P.
Proof. intros A x P H. right. eauto. Qed.

Lemma safe_bind : forall A B (r : res A) (f : A -> res B) P Q,
  safe r P -> (forall x, P x -> safe (f x) Q) -> safe (bind r f) Q.
Proof.
  intros A B r f P Q [->|(x & -> & H)] K; cbn [bind]; [left; reflexivity|auto].
Qed.

Lemma safe_weaken : forall A (r : res A) (P Q : A -> Prop),
  safe r P -> (forall x, P x -> Q x) -> safe r Q.
Proof. intros A r P Q [->|(x & -> & H)] K; [now left|right; eauto]. Qed.

Lemma hash_all_count : forall G key flags fs fe delta inputs off,
  len (hash_all G key flags fs fe off delta inputs) = len inputs.
Proof.
  intros G key flags fs fe delta inputs. induction inputs as [|i r IH]; intros off; [reflexivity|].
  cbn [hash_all]. now rewrite !len_cons, IH.
Qed.

Section Key.
Variable o : copts.
Variable key : list N.
Variable flags : N.
Hypothesis Lkey : length key = 8%nat.
Hypothesis Wkey : words key.
Variable cap : N.
Hypothesis Hcap : cap <= 53 * 32.

Notation cvs := (SpecFacts.cvs key flags).
Notation ccv := (SpecFacts.ccv key flags).
Notation is32 := (fun h : list N => len h = 32 /\ bytes h).
Notation rep := (TreeFacts.rep (@nil N) (SpecFacts.pcv key flags)).
Notation inter := (HasherFacts.inter key flags).
Notation stk := (CImplFacts.stk cap).
Notation c_holds := (CImplFacts.c_holds key flags cap).
Notation ck_holds := (CImplFacts.ck_holds key flags).
Notation fullc := (fun ch : list N => len ch = 2048 /\ bytes ch).

Lemma push_any : forall h st l x, stk h st -> inter st l \/ rep st l -> Forall is32 l -> is32 x ->
  k_key (c_chunk_of h) = key -> k_flags (c_chunk_of h) = flags -> 2048 * len l < W64 ->
  safe (hasher_push_chunk_hash o h x (2048 * len l)) (fun h' =>
    c_chunk_of h' = c_chunk_of h /\ 2048 * (len l + 1) < W64 /\
    exists st', stk h' (st' ++ [x]) /\ rep st' l).
Proof.
  intros h st l x S I F Sx Hk Hf Lim. unfold hasher_push_chunk_hash.
  apply (safe_bind _ _ _ _ (fun _ => True)).
  { destruct (ndebug o); [now apply safe_ok|]. unfold assert_.
    destruct (c_stack_len h <? C_MAX_DEPTH); [now apply safe_ok|now left]. }
  intros _ _.
  destruct (c_merge_ok o key flags Lkey Wkey cap h st l)
    as (h1 & st1 & E1 & C1 & (S1 & F1 & L1 & junk & S2 & S3) & R1); auto.
  rewrite E1. cbn [bind]. rewrite S1. change C_OUT_LEN with 32.
  pose proof (rep_len _ _ _ _ _ R1) as P. destruct Sx as [Lx Bx].
  assert (Cs : len (concat st1) = len st1 * 32) by (rewrite concat_32 by auto; lia).
  destruct (N.le_gt_cases (len st1 * 32 + len x) (len (c_stack h1))) as [Room|Room].
  2: { left. unfold copy_at. now rewrite (proj2 (N.leb_gt _ _)) by exact Room. }
  rewrite copy_at_ok by lia. cbn [bind]. apply safe_ok.
  assert (N53 : len l <> 2 ^ 53 - 1).
  { intros E. rewrite E in P. change (popcount (2 ^ 53 - 1)) with 53 in P. lia. }
  split; [exact C1|].
  split. { unfold W64 in *. change (2 ^ 53 - 1) with 9007199254740991 in N53. lia. }
  exists st1. split; [|exact R1].
  split; [|split; [|split]].
  - cbn [c_stack_len]. rewrite N.mod_small by (unfold W8; lia). rewrite len_app. reflexivity.
  - apply Forall_app. split; auto.
  - rewrite len_app, len_cons, len_nil. lia.
  - cbn [c_stack]. exists (drop (len st1 * 32 + len x) (c_stack h1)).
    rewrite concat_app. cbn [concat]. rewrite app_nil_r, <- app_assoc. split.
    + f_equal. rewrite S2. now rewrite take_app_eq by auto.
    + rewrite !len_app, len_take, len_drop, Lx. lia.
Qed.

Lemma push_chunks_any : forall xs idx h st l pre r, stk h st -> inter st l -> Forall is32 (l ++ xs) ->
  ck_holds (c_chunk_of h) (len l) [] -> 2048 * len l < W64 -> len pre = idx * 32 ->
  safe (push_chunks o (length xs) idx h (pre ++ concat xs ++ r)) (fun h' =>
    2048 * len (l ++ xs) < W64 /\ ck_holds (c_chunk_of h') (len (l ++ xs)) [] /\
    exists st', stk h' st' /\ inter st' (l ++ xs)).
Proof.
  induction xs as [|x xs IH]; intros idx h st l pre r S I F H Lim Lp; cbn [push_chunks length concat].
  - rewrite app_nil_r. apply safe_ok. eauto.
  - apply Forall_app in F. destruct F as [Fl Fx].
    pose proof (Forall_inv Fx) as Sx.
    change C_OUT_LEN with 32. rewrite <- app_assoc.
    assert (Lx : len x = 32) by (cbn beta in Sx; tauto).
    rewrite slice_ok by (rewrite !len_app; lia). cbn [bind].
    rewrite drop_app_eq by auto. rewrite take_app_eq by auto.
    destruct (ck_fields _ _ _ _ _ H) as (Hk & Hf & Ho). rewrite Ho.
    eapply safe_bind; [now apply (push_any h st l x); auto|].
    intros h1 (C1 & Lim1 & st1 & S1 & R1). rewrite C1, Ho. change C_CHUNK_LEN with 2048.
    rewrite N.mod_small by lia.
    replace (2048 * len l + 2048) with (2048 * len (l ++ [x])) by lenlia.
    rewrite (app_assoc pre x).
    replace (l ++ x :: xs) with ((l ++ [x]) ++ xs) by now rewrite <- app_assoc.
    apply IH with (st := st1 ++ [x]).
    + exact S1.
    + right. exists st1, l, x. auto.
    + rewrite <- app_assoc. apply Forall_app. auto.
    + cbn [c_chunk_of]. now apply ck_move with (i := len l).
    + rewrite len_app, len_cons, len_nil. lia.
    + rewrite len_app. lia.
Qed.

(* one batch, which may run past the last chunk of 2^64 bytes *)
Lemma batch_any : forall fuel input h st cs out, stk h st -> Forall fullc cs ->
  inter st (cvs 0 cs) -> ck_holds (c_chunk_of h) (len cs) [] ->
  bytes input -> 2048 <= len input -> 2048 * len cs < W64 -> len out = 512 ->
  chunks_loop o (S fuel) h input out = Panic \/
  exists h' st' ba rest out', input = concat ba ++ rest /\ Forall fullc ba /\ 1 <= len ba <= 16 /\
    len out' = 512 /\ 2048 * len (cs ++ ba) < W64 /\
    stk h' st' /\ inter st' (cvs 0 (cs ++ ba)) /\ ck_holds (c_chunk_of h') (len (cs ++ ba)) [] /\
    chunks_loop o (S fuel) h input out = chunks_loop o fuel h' rest out'.
Proof.
  intros fuel input h st cs out S Fc I H B G Lim Lo.
  cbn [chunks_loop]. change C_CHUNK_LEN with 2048.
  rewrite (proj2 (N.leb_le _ _) G).
  destruct (gather_ok key Lkey (N.to_nat C_MAX_SIMD_DEGREE) input B)
    as (ptrs & ba & rest & E1 & E2 & E3 & E4 & E5 & E6 & E7).
  rewrite E1. change (N.to_nat C_MAX_SIMD_DEGREE) with 16%nat in *.
  destruct (ck_fields _ _ _ _ _ H) as (Hk & Hfl & Ho). rewrite Hk, Hfl, Ho.
  assert (Lp : len ptrs = len ba) by (rewrite <- E4; unfold len; now rewrite map_length).
  assert (L16 : len ba <= 16) by (unfold len; lia).
  assert (Lin : len input = 2048 * len ba + len rest).
  { rewrite E2 at 1. rewrite len_app, len_concat_full by auto. lia. }
  assert (L1 : 1 <= len ba) by (destruct E7 as [E7|E7]; [unfold len; lia|lia]).
  change (2048 / C_BLOCK_LEN) with 32.
  rewrite (c_hash_many_ok o 32 key 2048 flags _ _ CHUNK_OFFSET_DELTAS Lkey Wkey eq_refl).
  4: { lia. }
  2: { exact E5. }
  2: { lia. }
  cbn [bind]. unfold many_result. change (64 * 32) with 2048. rewrite E4, Lp.
  (* the chunks that start below 2^64 *)
  set (k := N.min (len ba) (2 ^ 53 - len cs)).
  assert (K : 1 <= k /\ len cs + k <= 2 ^ 53 /\ (k = len ba \/ len cs + k = 2 ^ 53)).
  { unfold k, W64 in *. change (2 ^ 53) with 9007199254740992. lia. }
  destruct K as (K1 & K2 & K3).
  pose (b1 := take k ba). pose (b2 := drop k ba).
  assert (Lb1 : len b1 = k) by (unfold b1; rewrite len_take; unfold k in *; lia).
  assert (Eb : ba = b1 ++ b2) by (symmetry; apply take_drop).
  assert (F1 : Forall fullc b1 /\ Forall fullc b2) by (apply Forall_app; now rewrite <- Eb).
  destruct F1 as [F1 F2].
  pose (tl := concat (hash_all WF key flags C_CHUNK_START C_CHUNK_END (2048 * len cs + len b1 * 2048) 2048 b2)
              ++ drop (32 * len ba) out).
  assert (Eo : concat (hash_all WF key flags C_CHUNK_START C_CHUNK_END (2048 * len cs) 2048 ba)
               ++ drop (32 * len ba) out = concat (cvs (len cs) b1) ++ tl).
  { rewrite Eb at 1. rewrite hash_all_app, concat_app, <- app_assoc. fold tl. f_equal. f_equal.
    rewrite hash_all_last.
    - change (hash_all F key flags C_CHUNK_START C_CHUNK_END (2048 * len cs) 2048 b1)
        with (hash_all F key flags CHUNK_START CHUNK_END (2048 * len cs) 2048 b1).
      apply hash_all_cvs. eapply Forall_impl; [|exact F1]. cbn beta. tauto.
    - exact Lim.
    - intros _. rewrite Lb1. unfold W64. change (2 ^ 53) with 9007199254740992 in *. lia. }
  assert (Lo' : len (concat (cvs (len cs) b1) ++ tl) = 512).
  { rewrite <- Eo, len_app, len_drop.
    assert (Q : len (concat (hash_all WF key flags C_CHUNK_START C_CHUNK_END (2048 * len cs) 2048 ba)) = 32 * len ba).
    { rewrite concat_32, hash_all_count; [reflexivity|].
      apply hash_all_shape; auto. now apply full_bytes. }
    rewrite Q. lia. }
  rewrite Eo.
  assert (Np : length ptrs = (length (cvs (len cs) b1) + length b2)%nat).
  { pose proof (len_cvs key flags b1 (len cs)) as Q.
    assert (length ptrs = length ba) by (unfold len in Lp; lia).
    rewrite Eb, app_length in *. unfold len in *. lia. }
  rewrite Np, (push_chunks_app o key Lkey).
  assert (Sp : safe (push_chunks o (length (cvs (len cs) b1)) 0 h (concat (cvs (len cs) b1) ++ tl)) (fun h' =>
    2048 * len (cs ++ b1) < W64 /\ ck_holds (c_chunk_of h') (len (cs ++ b1)) [] /\
    exists st', stk h' st' /\ inter st' (cvs 0 (cs ++ b1)))).
  { pose proof (push_chunks_any (cvs (len cs) b1) 0 h st (cvs 0 cs) [] tl S I) as Q.
    cbn [app] in Q. rewrite cvs_join in Q. rewrite !len_cvs in Q. apply Q; auto.
    apply cvs_shape; auto. apply full_bytes. apply Forall_app. auto. }
  destruct Sp as [->|(h1 & -> & Lim1 & H1 & st1 & S1 & I1)]; [now left|].
  right. rewrite len_app, Lb1 in Lim1.
  destruct K3 as [K3|K3].
  2: { exfalso. rewrite K3 in Lim1. now apply (N.lt_irrefl W64). }
  assert (b2 = []) as Z.
  { apply len_0_nil. unfold b2. rewrite len_drop. lia. }
  rewrite Z, app_nil_r in Eb. rewrite Z. cbn [length push_chunks bind].
  exists h1, st1, ba, rest, (concat (cvs (len cs) b1) ++ tl). rewrite Eb at 5 6 7.
  split; [exact E2|]. split; [exact E3|]. split; [lia|]. split; [exact Lo'|].
  split; [rewrite len_app; lia|]. auto.
Qed.

Lemma chunks_loop_any : forall fuel input h st cs out, stk h st ->
  Forall fullc cs -> bytes input -> (length input <= fuel)%nat ->
  inter st (cvs 0 cs) -> ck_holds (c_chunk_of h) (len cs) [] ->
  2048 * len cs < W64 -> len out = 512 ->
  safe (chunks_loop o fuel h input out) (fun '(h', rest) =>
    exists st' ch, input = concat ch ++ rest /\ len rest < 2048 /\ Forall fullc ch /\
    2048 * len (cs ++ ch) < W64 /\
    stk h' st' /\ inter st' (cvs 0 (cs ++ ch)) /\ ck_holds (c_chunk_of h') (len (cs ++ ch)) []).
Proof.
  induction fuel as [|fuel IH]; intros input h st cs out S Fc B Hf I H Lim Lo.
  - destruct input; [|cbn in Hf; lia].
    cbn [chunks_loop]. change (C_CHUNK_LEN <=? len []) with false. apply safe_ok.
    exists st, []. rewrite (app_nil_r cs). cbn [concat app].
    split; [reflexivity|]. split; [rewrite len_nil; lia|]. split; [constructor|]. auto.
  - destruct (N.le_gt_cases 2048 (len input)) as [G|G].
    + destruct (batch_any fuel input h st cs out) as
        [E|(h1 & st1 & ba & rest & out1 & E1 & E2 & E3 & Lo1 & Lim1 & S1 & I1 & H1 & E5)]; auto.
      { now left. }
      assert (Lin : len input = 2048 * len ba + len rest).
      { rewrite E1 at 1. rewrite len_app, len_concat_full by auto. lia. }
      rewrite E5. eapply safe_weaken; [apply (IH rest h1 st1 (cs ++ ba) out1)|]; auto.
      * apply Forall_app; auto.
      * rewrite E1 in B. apply bytes_app in B. tauto.
      * unfold len in *. lia.
      * intros (h2 & rest2) (st2 & ch & E10 & E11 & E12 & Lim2 & S2 & I2 & H2).
        exists st2, (ba ++ ch). rewrite <- app_assoc in Lim2, I2, H2.
        split. { rewrite concat_app, <- app_assoc, <- E10. exact E1. }
        split; [exact E11|]. split; [apply Forall_app; auto|]. auto.
    + cbn [chunks_loop]. change C_CHUNK_LEN with 2048. rewrite (proj2 (N.leb_gt _ _) G).
      apply safe_ok. exists st, []. rewrite (app_nil_r cs). cbn [concat app]. auto 10.
Qed.

(* h has been given data, at most 2^64 bytes *)
Definition held (data : list N) (h : c_hasher) : Prop := c_holds h data /\ len data <= W64.

Lemma update_rest_any : forall junk h st cs input, stk h st -> len junk = 512 ->
  Forall fullc cs -> inter st (cvs 0 cs) -> ck_holds (c_chunk_of h) (len cs) [] ->
  bytes input -> 2048 * len cs < W64 ->
  (len cs + len input / 2048 = 1 -> len input mod 2048 <> 0) ->
  safe (hasher_update_rest o junk h input) (held (concat cs ++ input)).
Proof.
  intros junk h st cs input S Lj Fc I H B Lim Hn. unfold hasher_update_rest.
  eapply safe_bind; [apply (chunks_loop_any (length input) input h st cs junk); auto|].
  intros (h1 & rm) (st1 & ch & C1 & C2 & Fk & Lim1 & S1 & I1 & H1).
  assert (Li : len input = 2048 * len ch + len rm) by (rewrite C1, len_app, len_concat_full by auto; lia).
  assert (Br : bytes rm) by (rewrite C1 in B; apply bytes_app in B; tauto).
  assert (Fa : Forall fullc (cs ++ ch)) by (apply Forall_app; auto).
  assert (Ld : len (concat cs ++ input) <= W64).
  { rewrite len_app, len_concat_full by auto. rewrite len_app in Lim1. unfold W64 in *. lia. }
  destruct (ck_fields _ _ _ _ _ H1) as (Hk & Hfl & Ho).
  destruct (N.ltb_spec 0 (len rm)) as [Z|Z].
  - rewrite Ho. rewrite <- (len_cvs key flags (cs ++ ch) 0).
    destruct (c_merge_ok o key flags Lkey Wkey cap h1 st1 (cvs 0 (cs ++ ch)))
      as (h2 & st2 & E & C3 & S2 & R); auto.
    { apply cvs_shape; auto. now apply full_bytes. }
    { now rewrite len_cvs. }
    rewrite E. cbn [bind]. rewrite C3.
    destruct (ck_update_ok o key flags Lkey (c_chunk_of h1) (len (cs ++ ch)) [] rm) as (s' & E' & H'); auto.
    { rewrite len_nil. lia. }
    rewrite E'. cbn [bind]. apply safe_ok. split; [|exact Ld].
    exists (cs ++ ch), rm, st2. cbn [c_chunk_of]. cbn [app] in H'.
    split; [exact S2|]. split; [exact Fa|]. split; [exact Br|].
    split; [now rewrite concat_app, <- app_assoc, <- C1|]. split; [exact H'|]. split; [lia|].
    left. split; auto. intros ->. rewrite len_nil in Z. lia.
  - apply safe_ok. split; [|exact Ld].
    assert (Erm : rm = []) by (apply len_0_nil; lia). subst rm.
    rewrite app_nil_r in C1. rewrite len_nil in *.
    exists (cs ++ ch), [], st1. rewrite app_nil_r, concat_app, <- C1.
    split; [exact S1|]. split; [exact Fa|]. split; [constructor|]. split; [reflexivity|].
    split; [exact H1|]. split; [rewrite len_nil; lia|].
    destruct (N.eq_dec (len (cs ++ ch)) 0) as [Z0|Z0].
    + left. pose proof (len_0_nil _ _ Z0) as E0. rewrite E0 in *. split; auto.
      destruct I1 as [[-> _]|(st0 & l0 & x & _ & E & _)]; [constructor|].
      cbn in E. now destruct l0.
    + right. split; auto. split; auto. rewrite len_app in *. lia.
Qed.

Lemma update_any : forall junk h data input, held data h -> bytes input -> len junk = 512 ->
  safe (hasher_update o junk h input) (held (data ++ input)).
Proof.
  intros junk h data input [(cs & rest & st & S & Fc & Br & -> & H & Lr & Cs) Ld] B Lj.
  rewrite len_app, len_concat_full in Ld by auto.
  assert (Lim : 2048 * len cs < W64).
  { destruct (N.lt_ge_cases (2048 * len cs) W64) as [L|L]; auto. exfalso.
    assert (Lc : len cs = 2 ^ 53) by (unfold W64 in *; change (2 ^ 53) with 9007199254740992; lia).
    assert (Er : rest = []) by (apply len_0_nil; lia). destruct Cs as [[_ E]|(_ & _ & I)].
    - rewrite (E Er) in Lc. discriminate Lc.
    - destruct I as [[_ E]|(st0 & l0 & x & E1 & E2 & R)].
      + apply (f_equal len) in E. rewrite len_cvs, Lc in E. discriminate E.
      + apply (f_equal len) in E2. rewrite len_cvs, Lc, len_app, len_cons, len_nil in E2.
        destruct S as (_ & _ & L53 & _). rewrite E1, len_app, len_cons, len_nil in L53.
        rewrite (rep_len _ _ _ _ _ R) in L53.
        replace (len l0) with (2 ^ 53 - 1) in L53 by lia.
        change (popcount (2 ^ 53 - 1)) with 53 in L53. lia. }
  destruct (ck_fields _ _ _ _ _ H) as (Hk & Hfl & Ho).
  unfold hasher_update. rewrite Ho, (ck_len_ok key flags Lkey _ _ _ H). change C_CHUNK_LEN with 2048. cbv zeta.
  assert (Sc : Forall is32 (cvs 0 cs)) by (apply cvs_shape; auto; now apply full_bytes).
  assert (Z0 : (2048 * len cs =? 0) = (len cs =? 0)).
  { destruct (N.eqb_spec (len cs) 0), (N.eqb_spec (2048 * len cs) 0); auto; lia. }
  rewrite Z0.
  destruct (((len cs =? 0) && (len input =? 2048)) || (0 <? len rest)) eqn:Eb.
  - (* the chunk state takes bytes *)
    assert (R : rep st (cvs 0 cs)).
    { destruct Cs as [[R _]|(E1 & E2 & _)]; auto. subst rest. rewrite len_nil in Eb.
      exfalso. lia. }
    rewrite sub_size_ok by (unfold W32; lia). rewrite min_if, N.min_comm.
    set (n := N.min (2048 - len rest) (len input)).
    rewrite slice_ok by lia. cbn [bind]. rewrite drop_0.
    destruct (ck_update_ok o key flags Lkey (c_chunk_of h) (len cs) rest (take n input))
      as (s1 & E1 & H1); auto; try lenlia.
    { now apply bytes_take. }
    rewrite E1. cbn [bind]. rewrite len_drop.
    destruct (N.ltb_spec 0 (len input - n)) as [Z|Z].
    + assert (Lf : len (rest ++ take n input) = 2048) by lenlia.
      assert (Bf : bytes (rest ++ take n input)) by (apply bytes_app; split; [auto|now apply bytes_take]).
      rewrite (ck_finalize_chain o key flags Lkey Wkey s1 (len cs) (rest ++ take n input)) by (auto; lia).
      destruct (ck_fields _ _ _ _ _ H1) as (Hk1 & Hfl1 & Ho1). rewrite Ho1.
      set (x := ccv (len cs) (rest ++ take n input)).
      assert (Sx : is32 x) by (apply ccv_shape; auto).
      pose proof (push_any (CHasher s1 (c_stack_len h) (c_stack h)) st (cvs 0 cs) x) as P.
      rewrite len_cvs in P. cbn [c_chunk_of] in P. eapply safe_bind; [apply P; auto|].
      intros h1 (C2 & Lim1 & st1 & S2 & R2). rewrite C2, Ho1.
      rewrite N.mod_small by lia.
      replace (2048 * len cs + 2048) with (2048 * (len cs + 1)) by lia.
      unfold chunk_state_reset. rewrite Hk1, Hfl1.
      replace ((concat cs ++ rest) ++ input)
        with (concat (cs ++ [rest ++ take n input]) ++ drop n input).
      2: { rewrite concat_app. cbn [concat]. now rewrite app_nil_r, <- !app_assoc, take_drop. }
      apply update_rest_any with (st := st1 ++ [x]); auto.
      * apply Forall_app. split; auto.
      * right. exists st1, (cvs 0 cs), x. rewrite cvs_app. cbn [SpecFacts.cvs]. auto.
      * cbn [c_chunk_of]. rewrite len_app. apply (ck_fresh key flags Lkey Wkey).
      * now apply bytes_drop.
      * rewrite len_app, len_cons, len_nil. lia.
      * rewrite len_app, len_cons, len_nil, len_drop. lia.
    + apply safe_ok. rewrite take_all in H1 by lia. split.
      * exists cs, (rest ++ input), st. cbn [c_chunk_of].
        split; [exact S|]. split; [exact Fc|]. split; [apply bytes_app; auto|].
        split; [now rewrite app_assoc|]. split; [exact H1|]. split; [rewrite len_app; lia|].
        left. split; auto. intros E. apply app_eq_nil in E. destruct E as [-> ->].
        rewrite !len_nil in Eb. exfalso. lia.
      * rewrite !len_app, len_concat_full by auto. unfold W64 in *. lia.
  - (* the chunk state is empty *)
    assert (Er : rest = []) by (apply len_0_nil; lia). subst rest. rewrite app_nil_r.
    apply (update_rest_any junk h st); auto.
    + destruct Cs as [[R E]|(_ & _ & I)]; auto. rewrite (E eq_refl) in *. left.
      split; [|reflexivity]. apply len_0_nil. rewrite (rep_len _ _ _ _ _ R). reflexivity.
    + destruct Cs as [[R E]|(_ & E & _)]; [|lia]. specialize (E eq_refl). subst cs.
      rewrite len_nil in *. cbn [orb] in Eb. lia.
Qed.

Lemma updates_any : forall us h data, held data h -> c_updates_ok us ->
  safe (c_updates o h us) (held (data ++ c_data us)).
Proof.
  induction us as [|[input junk] us IH]; intros h data H U.
  - unfold c_data. cbn. rewrite app_nil_r. now apply safe_ok.
  - cbn [c_updates]. pose proof (Forall_inv U) as [B J]. cbn [fst snd] in *.
    eapply safe_bind; [apply (update_any junk h data input); auto|].
    intros h1 H1. unfold c_data in *. cbn [map concat fst]. rewrite app_assoc.
    apply IH; [exact H1|exact (Forall_inv_tail U)].
Qed.
End Key.

Lemma c_hash_any : forall o memory key flags us,
  length key = 32%nat -> bytes key -> c_updates_ok us -> len memory <= 53 * 32 ->
  safe (c_hash o memory key flags us) (fun hash => len (c_data us) <= W64 /\
    hash = take 32 (root_block F (root_node F (words_of_bytes key) flags (c_data us)) 0)).
Proof.
  intros o memory key flags us L B U Lm. unfold c_hash, hasher_init.
  destruct (key_words key L B) as (E & L8 & W). rewrite E.
  pose proof (c_init_holds (words_of_bytes key) flags L8 W (len memory) memory eq_refl) as H.
  eapply safe_bind.
  { apply (updates_any o _ flags L8 W (len memory) Lm us _ []); auto. split; [exact H|discriminate]. }
  intros h [H1 L1]. cbn [app] in *.
  rewrite (c_finalize_ok o _ _ L8 W (len memory) h (c_data us) H1 L1). now apply safe_ok.
Qed.

Lemma mode_key_bytes : forall m, mode_ok m ->
  length (bytes_of_words (mode_key m)) = 32%nat /\ bytes (bytes_of_words (mode_key m)) /\
  words_of_bytes (bytes_of_words (mode_key m)) = mode_key m.
Proof.
  intros m M. assert (K : length (mode_key m) = 8%nat /\ words (mode_key m)) by now apply mode_key_ok.
  destruct K as [K1 K2]. split; [|split].
  - destruct (list8 _ K1) as (a & b & c & d & e & f & g & h & ->). reflexivity.
  - now apply bytes_of_words_bytes.
  - now rewrite words_of_bytes_of_words.
Qed.

Lemma c_never_wrong : forall o memory m us hash,
  mode_ok m -> c_updates_ok us -> len memory <= 53 * 32 ->
  c_hash o memory (bytes_of_words (mode_key m)) (mode_flags m) us = Ok hash ->
  hash = spec_hash F m (c_data us).
Proof.
  intros o memory m us hash M U Lm E. destruct (mode_key_bytes m M) as (K1 & K2 & K3).
  destruct (c_hash_any o memory _ (mode_flags m) us K1 K2 U Lm) as [E'|(x & E' & _ & Hx)].
  - rewrite E' in E. discriminate E.
  - rewrite E' in E. injection E as <-. rewrite Hx, K3. reflexivity.
Qed.

Lemma c_panic_or_hash : forall o memory m us,
  mode_ok m -> c_updates_ok us -> len memory <= 53 * 32 ->
  c_hash o memory (bytes_of_words (mode_key m)) (mode_flags m) us = Panic \/
  c_hash o memory (bytes_of_words (mode_key m)) (mode_flags m) us
  = Ok (spec_hash F m (c_data us)).
Proof.
  intros o memory m us M U Lm. destruct (mode_key_bytes m M) as (K1 & K2 & K3).
  destruct (c_hash_any o memory _ (mode_flags m) us K1 K2 U Lm) as [E'|(x & E' & _ & Hx)].
  - now left.
  - right. rewrite E', Hx, K3. reflexivity.
Qed.

Lemma c_too_long : forall o memory key flags us,
  length key = 32%nat -> bytes key -> c_updates_ok us -> len memory <= 53 * 32 ->
  W64 < len (c_data us) -> c_hash o memory key flags us = Panic.
Proof.
  intros o memory key flags us L B U Lm G.
  destruct (c_hash_any o memory key flags us L B U Lm) as [E|(x & _ & E & _)]; [exact E|lia].
Qed.

(* One update with all of 2^64 bytes pushes every chunk. *)
Lemma c_one_update : forall o memory key flags junk input,
  length key = 32%nat -> bytes key -> bytes input -> len junk = 512 -> len memory <= 53 * 32 ->
  W64 <= len input -> hasher_update o junk (hasher_init memory key flags) input = Panic.
Proof.
  intros o memory key flags junk input L B Bi Lj Lm G. unfold hasher_init.
  destruct (key_words key L B) as (E & L8 & W). rewrite E.
  pose proof (init_whole (words_of_bytes key) flags L8 W (len memory) memory eq_refl) as Wh.
  rewrite (whole_update o _ flags L8 (len memory) _ []); [|exact Wh|unfold W64 in G; lia].
  destruct Wh as (_ & H & st & S & I). unfold hasher_update_rest.
  destruct (chunks_loop_any o _ flags L8 W (len memory) Lm (length input) input
      (CHasher (chunk_state_init (words_of_bytes key) flags) 0 memory) st [] junk)
    as [E1|((h1 & rm) & _ & st1 & ch & C1 & C2 & Fk & Lim & _)]; auto; try constructor; try reflexivity.
  - rewrite E1. reflexivity.
  - exfalso. rewrite C1, len_app, len_concat_full in G by auto. cbn [app] in Lim. unfold W64 in *. lia.
Qed.

Lemma c_runs_agree : forall o1 o2 memory1 memory2 m us1 us2 hash1 hash2,
  mode_ok m -> c_updates_ok us1 -> c_updates_ok us2 ->
  len memory1 <= 53 * 32 -> len memory2 <= 53 * 32 -> c_data us1 = c_data us2 ->
  c_hash o1 memory1 (bytes_of_words (mode_key m)) (mode_flags m) us1 = Ok hash1 ->
  c_hash o2 memory2 (bytes_of_words (mode_key m)) (mode_flags m) us2 = Ok hash2 ->
  hash1 = hash2.
Proof.
  intros o1 o2 memory1 memory2 m us1 us2 hash1 hash2 M U1 U2 L1 L2 E E1 E2.
  rewrite (c_never_wrong o1 memory1 m us1 hash1 M U1 L1 E1).
  rewrite (c_never_wrong o2 memory2 m us2 hash2 M U2 L2 E2). now rewrite E.
Qed.
