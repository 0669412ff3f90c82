(* The work of a single call of the C hasher. *)
From Coq Require Import NArith List Bool Lia ZArith.
From Coq Require Import ZifyBool ZifyNat ZifyN.
From Verif Require Import Base BaseFacts Spec SpecFacts TreeFacts CompressFacts ChunkFacts HasherFacts ApiFacts.
From Verif Require Import CSimd CImpl CImplFacts CSpec CImplProps.
From Verif Require Import Calls SecurityFacts LibCalls TraceFacts WeightFacts StreamWeights CallFacts.
From Verif Require Import CCalls CTraceFacts CWeights CCallFacts CostFacts.
Import ListNotations.
Open Scope N_scope.

Section Key.
Variable key : list N.
Variable flags : N.
Hypothesis Lkey : length key = 8%nat.
Hypothesis Wkey : words key.
Variable cap : N.

Notation fullc := (fun ch : list N => len ch = 2048 /\ bytes ch).
Notation acvs := (WeightFacts.acvs one key flags).
Notation apar := (WeightFacts.apar one key flags).
Notation cw := (WeightFacts.cw one key flags).
Notation n_holds := (CWeights.n_holds one key flags cap).

Lemma n_holds_count : forall h data n, n_holds h data n ->
  exists cs k, c_stack_len h <= 53 /\ n + c_stack_len h = k + cs /\
    2048 * cs <= len data /\ len data <= 2048 * cs + 2048 /\
    ((1 <= len data /\ 2048 * cs < len data /\ k = (len data - 1) / 64) \/
     (len data = 2048 * cs /\ k = 32 * cs /\ (len data = 0 \/ 2 <= c_stack_len h))) /\
    (cs = 0 -> c_stack_len h = 0) /\ len (c_stack h) = cap.
Proof.
  intros h data n (cs & rest & st & S & Fc & Br & -> & H & Lr & Cs & ->).
  destruct S as (S1 & S2 & S3 & junk & S4 & S5). rewrite len_vals in *.
  assert (Lc : len (concat cs) = 2048 * len cs) by now apply len_concat_full.
  rewrite len_app, Lc in *.
  assert (Sa : sum (acvs 0 cs) = 32 * len cs) by now apply sum_acvs.
  assert (Le : len (acvs 0 cs) = len cs) by apply len_acvs.
  assert (Ct : sum st + len st = 33 * len cs).
  { destruct Cs as [[R _]|(_ & _ & I)];
      [apply (rep_count key flags Lkey) in R|apply (inter_count key flags Lkey) in I]; lia. }
  exists (len cs), (32 * len cs + cw (len cs) rest). rewrite S1.
  split; [lia|]. split; [lia|]. split; [lia|]. split; [lia|].
  split; [|split; [|exact S5]].
  - destruct (N.eq_dec (len rest) 0) as [Z|Z].
    + right. rewrite (len_0_nil _ _ Z) in *. rewrite len_nil, cw_nil in *. split; [lia|]. split; [lia|].
      destruct Cs as [[R E]|(_ & L2 & I)].
      * left. rewrite E by auto. reflexivity.
      * right. destruct I as [[_ E]|(st0 & l0 & x & -> & El & R)].
        { rewrite E, len_nil in Le. lia. }
        rewrite len_app, len_cons, len_nil.
        destruct st0 as [|y st0]; [|rewrite len_cons; lia]. exfalso.
        apply rep_nil in R. subst l0. rewrite El in Le. cbn in Le. lia.
    + left. rewrite (cw_count key flags) by lia. split; [lia|]. split; [lia|]. lia.
  - intros Z. rewrite Z in Ct. lia.
Qed.

End Key.

Lemma c_fed : forall o memory m us, mode_ok m -> c_updates_ok us ->
  limit o (len memory) (len (c_data us)) ->
  exists h n, c_updates o (hasher_init memory (bytes_of_words (mode_key m)) (mode_flags m)) us = Ok h /\
    CWeights.n_holds one (mode_key m) (mode_flags m) (len memory) h (c_data us) n.
Proof.
  intros o memory m us M U Lim.
  assert (K : length (mode_key m) = 8%nat /\ words (mode_key m)) by now apply mode_key_ok.
  destruct K as [K1 K2]. set (key := bytes_of_words (mode_key m)).
  assert (Lk : length key = 32%nat).
  { unfold key. destruct (list8 _ K1) as (a & b & c & d & e & f & g & h & ->). reflexivity. }
  assert (Bk : bytes key) by now apply bytes_of_words_bytes.
  destruct (key_words key Lk Bk) as (Ek & _ & _).
  assert (Ew : words_of_bytes key = mode_key m) by now apply words_of_bytes_of_words.
  unfold hasher_init. rewrite Ek, Ew.
  pose proof (n_init_holds one (mode_key m) (mode_flags m) K1 K2 (len memory) memory eq_refl) as H.
  destruct (n_updates_ok one o _ (mode_flags m) K1 K2 (len memory) us _ [] 0 [] H U)
    as (h & n & lg & E1 & H1 & W1).
  { eapply (limit_le o _ K1); [|exact Lim]. rewrite len_nil. lia. }
  exists h, n. split; [|exact H1].
  rewrite <- (ret_n_updates o us _ []). now rewrite E1.
Qed.

Lemma c_update_cost_limit : forall o memory m us input junk,
  mode_ok m -> c_updates_ok us -> bytes input -> len junk = 512 ->
  limit o (len memory) (len (c_data us) + len input) ->
  exists h h' log,
    c_updates o (hasher_init memory (bytes_of_words (mode_key m)) (mode_flags m)) us = Ok h /\
    n_hasher_update o junk h input [] = (log, Ok h') /\
    len log <= len input / 64 + len input / 2048 + 56.
Proof.
  intros o memory m us input junk M U B Lj Lim. destruct (mode_key_ok m M) as [K1 K2].
  destruct (c_fed o memory m us M U) as (h & n & E & H).
  { eapply (limit_le o _ K1); [|exact Lim]. lia. }
  destruct (n_update_ok one o _ _ K1 K2 (len memory) junk h _ n input [] H B Lj Lim)
    as (h' & n' & lg & E' & H' & Wt).
  exists h, h', lg. split; [exact E|]. split; [exact E'|].
  rewrite !W_one, len_nil in Wt.
  destruct (n_holds_count _ _ K1 _ h _ n H) as (cs & k & S1 & N1 & X1 & M1 & Q1 & _).
  destruct (n_holds_count _ _ K1 _ h' _ n' H') as (cs' & k' & S2 & N2 & X2 & M2 & Q2 & _).
  rewrite len_app in *. set (d := len (c_data us)) in *. set (i := len input) in *.
  clearbody d i. clear -Wt S1 N1 M1 Q1 S2 N2 X2 M2 Q2.
  assert (cs' <= cs + i / 2048 + 1) by lia.
  assert (k' <= k + i / 64 + 2) by lia.
  lia.
Qed.

Lemma c_finalize_cost_limit : forall o memory m us,
  mode_ok m -> c_updates_ok us -> limit o (len memory) (len (c_data us)) ->
  exists h log,
    c_updates o (hasher_init memory (bytes_of_words (mode_key m)) (mode_flags m)) us = Ok h /\
    n_hasher_finalize o h [] = (log, Ok (spec_hash F m (c_data us))) /\ len log <= 54 /\
    c_stack_len h <= 53 /\ len (c_stack h) = len memory.
Proof.
  intros o memory m us M U Lim. destruct (mode_key_ok m M) as [K1 K2].
  destruct (c_fed o memory m us M U Lim) as (h & n & E & H).
  destruct (n_finalize_ok one o _ _ K1 K2 (len memory) h (c_data us) n [] H) as (l & E2 & W2).
  { apply Lim. }
  pose proof (c_hash_mode o memory m us M U Lim) as R. unfold c_hash in R. rewrite E in R. cbn [bind] in R.
  exists h, (fst (n_hasher_finalize o h [])). split; [exact E|].
  destruct (n_holds_count _ _ K1 _ h _ n H) as (cs & k & S1 & N1 & X1 & M1 & Q1 & Z1 & Z2).
  split; [|split; [|split; [exact S1|exact Z2]]].
  - rewrite <- R, <- (ret_n_finalize o h []). apply surjective_pairing.
  - rewrite E2, len_app.
    change (len [root_call_of (root_node F (mode_key m) (mode_flags m) (c_data us))]) with 1.
    pose proof (calls_len F m (c_data us)) as Q. unfold calls in Q. rewrite len_app in Q.
    change (len [root_call F m (c_data us) 0]) with 1 in Q.
    change (WeightFacts.below one (mode_key m) (mode_flags m) (c_data us))
      with (W one (interior_calls F m (c_data us))) in W2.
    rewrite !W_one, len_nil in W2.
    set (d := len (c_data us)) in *. set (b := len (interior_calls F m (c_data us))) in *.
    clearbody d b. clear -W2 Q S1 N1 M1 Q1 Z1.
    destruct Q1 as [(D1 & D2 & ->)|(D & -> & [D0|D0])]; lia.
Qed.

(* ---- statements ---- *)

Lemma c_update_cost : forall o memory m us input junk,
  mode_ok m -> c_updates_ok us -> bytes input -> len junk = 16 * 32 -> len memory = 53 * 32 ->
  (len (c_data us) + len input <= 2 ^ 63 \/
   ndebug o = true /\ len (c_data us) + len input < 2 ^ 64) ->
  exists h h' log,
    c_updates o (hasher_init memory (bytes_of_words (mode_key m)) (mode_flags m)) us = Ok h /\
    n_hasher_update o junk h input [] = (log, Ok h') /\
    len log <= len input / 64 + len input / 2048 + 56.
Proof.
  intros o memory m us input junk M U B Lj Lm [L|[N L]]; apply c_update_cost_limit; auto.
  - now apply limit_63.
  - now apply limit_ndebug.
Qed.

Lemma c_finalize_cost : forall o memory m us,
  mode_ok m -> c_updates_ok us -> len memory = 53 * 32 ->
  (len (c_data us) <= 2 ^ 63 \/ ndebug o = true /\ len (c_data us) < 2 ^ 64) ->
  exists h log,
    c_updates o (hasher_init memory (bytes_of_words (mode_key m)) (mode_flags m)) us = Ok h /\
    n_hasher_finalize o h [] = (log, Ok (spec_hash F m (c_data us))) /\ len log <= 54 /\
    c_stack_len h <= 53 /\ len (c_stack h) = 53 * 32.
Proof.
  intros o memory m us M U Lm [L|[N L]]; rewrite <- Lm; apply c_finalize_cost_limit; auto.
  - now apply limit_63.
  - now apply limit_ndebug.
Qed.
