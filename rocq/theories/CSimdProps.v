(* Proofs of the statements about the C backends in Prop_C.v. *)
From Coq Require Import NArith List Bool Lia ZArith.
From Coq Require Import ZifyBool ZifyNat ZifyN.
From Verif Require Import Base BaseFacts Spec ManySpec CompressFacts TreeFacts ManyFacts SimdProps WrapSpec WrapFacts CSimd CSimdFacts.
From Verif Require Portable Platform.
Import ListNotations.
Open Scope N_scope.

Lemma c_compress_agree : forall cv block block_len offset flags,
  length cv = 8%nat -> length block = 64%nat -> bytes block -> offset < W64 ->
  compress_sse41 cv block block_len offset flags
    = compress_portable cv block block_len offset flags /\
  compress_avx512 cv block block_len offset flags
    = compress_portable cv block block_len offset flags /\
  compress_portable cv block block_len offset flags
    = Portable.compress cv block block_len offset flags /\
  compress_portable cv block block_len offset flags
    = firstn 8 (blake_compress cv block block_len offset flags).
Proof.
  intros cv block bl off flags L Lb B Ho.
  rewrite c_sse41_comp_ok, c_avx512_comp_ok, c_portable_comp_ok, portable_comp_ok by auto. auto.
Qed.

Lemma c_hash_many_any : forall inputs blocks key offset delta deltas flags fs fe out,
  length key = 8%nat -> words key ->
  Forall (fun i => 64 * blocks <= len i /\ bytes i) inputs ->
  32 * len inputs <= len out -> offset < W64 ->
  let table k := firstn k deltas = map (fun i => (N.of_nat i * delta) mod W64) (seq 0 k) in
  let result := concat (hash_all (wrapped blake_compress) key flags fs fe offset delta
                          (map (take (64 * blocks)) inputs))
                ++ drop (32 * len inputs) out in
  (table 2%nat -> hash_many_portable inputs blocks key offset deltas flags fs fe out = Ok result) /\
  (table 5%nat -> hash_many_sse41 inputs blocks key offset deltas flags fs fe out = Ok result) /\
  (table 9%nat -> hash_many_avx2 inputs blocks key offset deltas flags fs fe out = Ok result) /\
  (table 17%nat -> hash_many_avx512 inputs blocks key offset deltas flags fs fe out = Ok result) /\
  (table 5%nat -> hash_many_neon inputs blocks key offset deltas flags fs fe out = Ok result).
Proof.
  intros inputs blocks key off delta deltas flags fs fe out Lk Wk Fi Lo H table result.
  split; [|split; [|split; [|split]]]; intros T.
  - exact (hash_many_portable_ok blocks key delta flags fs fe deltas Lk Wk T inputs off out Fi Lo H).
  - exact (hash_many_sse41_ok blocks key delta flags fs fe deltas Lk Wk T inputs off out Fi Lo H).
  - exact (hash_many_avx2_ok blocks key delta flags fs fe deltas Lk Wk T inputs off out Fi Lo H).
  - exact (hash_many_avx512_ok blocks key delta flags fs fe deltas Lk Wk T inputs off out Fi Lo H).
  - exact (hash_many_neon_ok blocks key delta flags fs fe deltas Lk Wk T inputs off out Fi Lo H).
Qed.

Lemma c_hash_many_all : forall inputs blocks key offset delta deltas flags fs fe out,
  length key = 8%nat -> words key ->
  Forall (fun i => 64 * blocks <= len i /\ bytes i) inputs ->
  32 * len inputs <= len out ->
  offset < W64 -> (0 < len inputs -> offset + (len inputs - 1) * delta < W64) ->
  let table k := firstn k deltas = map (fun i => (N.of_nat i * delta) mod W64) (seq 0 k) in
  let result := concat (hash_all blake_compress key flags fs fe offset delta
                          (map (take (64 * blocks)) inputs))
                ++ drop (32 * len inputs) out in
  (table 2%nat -> hash_many_portable inputs blocks key offset deltas flags fs fe out = Ok result) /\
  (table 5%nat -> hash_many_sse41 inputs blocks key offset deltas flags fs fe out = Ok result) /\
  (table 9%nat -> hash_many_avx2 inputs blocks key offset deltas flags fs fe out = Ok result) /\
  (table 17%nat -> hash_many_avx512 inputs blocks key offset deltas flags fs fe out = Ok result) /\
  (table 5%nat -> hash_many_neon inputs blocks key offset deltas flags fs fe out = Ok result).
Proof.
  intros inputs blocks key off delta deltas flags fs fe out Lk Wk Fi Lo H1 H2.
  rewrite <- hash_all_last.
  - now apply c_hash_many_any.
  - exact H1.
  - now rewrite len_map.
Qed.

Lemma c_hash_many_rust : forall c p f inputs blocks key offset delta deltas flags fs fe out,
  In f [hash_many_portable; hash_many_sse41; hash_many_avx2; hash_many_avx512; hash_many_neon] ->
  length key = 8%nat -> words key ->
  Forall (fun i => len i = 64 * blocks /\ bytes i) inputs ->
  32 * len inputs <= len out -> offset < W64 ->
  firstn 17 deltas = map (fun i => (N.of_nat i * delta) mod W64) (seq 0 17) ->
  (dbg c = true -> offset + len inputs * delta < W64) ->
  f inputs blocks key offset deltas flags fs fe out
  = Platform.hash_many c p (64 * blocks) inputs key offset delta flags fs fe out.
Proof.
  intros c p f inputs blocks key off delta deltas flags fs fe out I Lk Wk Fi Lo H T D.
  rewrite hash_many_any by (auto; lia).
  destruct (c_hash_many_any inputs blocks key off delta deltas flags fs fe out)
    as (E1 & E2 & E3 & E4 & E5); auto.
  { eapply Forall_impl; [|exact Fi]. cbn beta. intros i [-> B]. split; auto. lia. }
  change (dtable 17 delta deltas) in T.
  specialize (E1 ltac:(change (dtable 2 delta deltas); dt)).
  specialize (E2 ltac:(change (dtable 5 delta deltas); dt)).
  specialize (E3 ltac:(change (dtable 9 delta deltas); dt)).
  specialize (E4 T). specialize (E5 ltac:(change (dtable 5 delta deltas); dt)).
  transitivity (Ok (concat (hash_all (wrapped blake_compress) key flags fs fe off delta
                              (map (take (64 * blocks)) inputs)) ++ drop (32 * len inputs) out)).
  { cbn [In] in I. destruct I as [<-|[<-|[<-|[<-|[<-|[]]]]]]; assumption. }
  unfold WrapSpec.many_result. change (2 ^ 64) with W64.
  replace (dbg c && (W64 <=? off + len inputs * delta)) with false.
  2: { destruct (dbg c); [|reflexivity]. specialize (D eq_refl). cbn [andb]. symmetry. now apply N.leb_gt. }
  do 4 f_equal.
  clear -Fi. induction Fi as [|i l [L B] _ IH]; [reflexivity|]. cbn [map]. rewrite IH.
  f_equal. apply take_all. lia.
Qed.

Lemma c_chunk_deltas : CHUNK_OFFSET_DELTAS = map (fun i => N.of_nat i * 2048) (seq 0 17).
Proof. reflexivity. Qed.

(* ---- counting bits ---- *)

Lemma popcount_div2 : forall x, popcount x = popcount (N.shiftr x 1) + N.land (x mod 256) 1.
Proof.
  intros x. rewrite <- N.div2_spec.
  replace (N.land (x mod 256) 1) with (x mod 2).
  2: { change 1 with (N.ones 1). rewrite N.land_ones. change (2 ^ 1) with 2. lia. }
  destruct x as [|[q|q|]]; cbn [N.div2 popcount popcount_pos].
  - reflexivity.
  - replace (N.pos q~1 mod 2) with 1 by lia. lia.
  - replace (N.pos q~0 mod 2) with 0 by lia. lia.
  - reflexivity.
Qed.

Lemma popcnt_loop_ok : forall fuel x count, x < 2 ^ N.of_nat fuel ->
  count + popcount x < 256 -> popcnt_loop fuel x count = Ok (count + popcount x).
Proof.
  induction fuel as [|fuel IH]; intros x count Hx Hc; cbn [popcnt_loop].
  - change (N.of_nat 0) with 0 in Hx. rewrite N.pow_0_r in Hx.
    assert (E : x = 0) by lia. subst x. cbn. f_equal. lia.
  - destruct (N.ltb_spec 0 x) as [G|G].
    + pose proof (popcount_div2 x) as P.
      rewrite IH.
      * rewrite N.mod_small by lia. f_equal. lia.
      * rewrite Nat2N.inj_succ, N.pow_succ_r' in Hx. rewrite N.shiftr_div_pow2.
        change (2 ^ 1) with 2. apply N.div_lt_upper_bound; lia.
      * rewrite N.mod_small by lia. lia.
    + assert (E : x = 0) by lia. subst x. cbn. f_equal. lia.
Qed.

Lemma popcnt_ok : forall insn x, x < W64 -> popcnt insn x = Ok (popcount x).
Proof.
  intros insn x H. pose proof (popcount_bound 64 x H) as B. unfold popcnt. destruct insn.
  - rewrite N.mod_small by lia. reflexivity.
  - rewrite popcnt_loop_ok; [reflexivity|exact H|lia].
Qed.
