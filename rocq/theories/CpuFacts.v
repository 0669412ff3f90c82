(* Instruction sets. *)
From Coq Require Import NArith List Bool Lia.
From Verif Require Import Base BaseFacts Portable SimdHash Platform CSimd CImpl Cpu.
From Verif Require Sse41 Avx2.
Import ListNotations.
Open Scope N_scope.

Section Facts.
Variable x : cpu.
Variable junk : list N.
Variable trap : res (list N).

Lemma needs_true : forall A sets (bad good : A), (forall i, In i sets -> x i = true) ->
  needs x sets bad good = good.
Proof.
  intros A sets bad good H. unfold needs. replace (forallb x sets) with true; [reflexivity|].
  symmetry. now apply forallb_forall.
Qed.

Lemma sse41_many : x SSE41 = true -> x_sse41_hash_many x junk trap = Sse41.hash_many.
Proof.
  intros E. unfold x_sse41_hash_many, x_hash4, x_hash1, x_sse41_compress, needs.
  cbn [forallb]. rewrite E. cbn [andb]. unfold Sse41.hash_many, Sse41.hash1. reflexivity.
Qed.
Lemma avx2_many : x SSE41 = true -> x AVX2 = true -> x_avx2_hash_many x junk trap = Avx2.hash_many.
Proof.
  intros E E2. unfold x_avx2_hash_many. rewrite (sse41_many E). unfold x_hash8, needs.
  cbn [forallb]. rewrite E2. cbn [andb]. unfold Avx2.hash_many. reflexivity.
Qed.

Definition has (p : platform) : Prop :=
  match p with
  | PPortable => True
  | PSSE41 => x SSE41 = true
  | PAVX2 => x SSE41 = true /\ x AVX2 = true
  end.

Lemma platform_legal : forall c p, has p ->
  x_compress x junk p = compress p /\ x_compress_xof x junk p = compress_xof p /\
  x_hash_many x junk trap c p = hash_many c p.
Proof.
  intros c [| |] H; cbn [has] in H.
  - unfold x_compress, x_compress_xof, x_hash_many, compress, compress_xof, hash_many.
    split; [|split]; reflexivity.
  - unfold x_compress, x_compress_xof, x_hash_many. rewrite (sse41_many H).
    unfold x_sse41_compress, x_sse41_compress_xof, needs. cbn [forallb]. rewrite H. cbn [andb].
    unfold compress, compress_xof, hash_many. split; [|split]; reflexivity.
  - destruct H as [H H2]. unfold x_compress, x_compress_xof, x_hash_many. rewrite (avx2_many H H2).
    unfold x_sse41_compress, x_sse41_compress_xof, needs. cbn [forallb]. rewrite H. cbn [andb].
    unfold compress, compress_xof, hash_many. split; [|split]; reflexivity.
Qed.

Lemma detect_legal : forall c, sane x -> platform_ok c (detect_on c x) /\ has (detect_on c x).
Proof.
  intros c S. unfold detect_on, detect, sane in *. destruct (x86 c) eqn:X; [|now split].
  destruct (x AVX2) eqn:A; [|destruct (x SSE41) eqn:B; now split].
  split; [exact X|]. cbn [has]. auto.
Qed.

(* ---- the C files ---- *)

Definition c_has (o : copts) : Prop :=
  if use_avx512 o then x AVX512F = true /\ x AVX512VL = true
  else if use_avx2 o then x AVX2 = true /\ x SSE41 = true /\ use_sse41 o = true
  else if use_sse41 o then x SSE41 = true
  else if use_neon o then x NEON = true
  else True.

Lemma c_sse41_many : x SSE41 = true -> xc_hash_many_sse41 x junk trap = hash_many_sse41.
Proof.
  intros E. unfold xc_hash_many_sse41, xc_hash_one, xc_compress_sse41, needs.
  cbn [forallb]. rewrite E. cbn [andb]. unfold hash_many_sse41, hash_one_sse41. reflexivity.
Qed.

Lemma c_legal : forall o, c_has o ->
  xc_compress x junk o = c_compress o /\ xc_hash_many x junk trap o = c_hash_many o.
Proof.
  intros o H. unfold c_has in H. unfold xc_compress, c_compress, xc_hash_many, c_hash_many.
  destruct (use_avx512 o).
  { destruct H as [E1 E2]. unfold xc_hash_many_avx512, xc_hash_one, xc_compress_avx512, needs.
    cbn [forallb]. rewrite E1, E2. cbn [andb]. cbv zeta.
    unfold hash_many_avx512, hash_one_avx512. split; reflexivity. }
  destruct (use_avx2 o).
  { destruct H as (E1 & E2 & ->). unfold xc_hash_many_avx2. rewrite (c_sse41_many E2).
    unfold xc_compress_sse41, needs. cbn [forallb]. rewrite E1, E2. cbn [andb].
    unfold hash_many_avx2. split; reflexivity. }
  destruct (use_sse41 o).
  { rewrite (c_sse41_many H). unfold xc_compress_sse41, needs. cbn [forallb]. rewrite H. cbn [andb].
    split; reflexivity. }
  destruct (use_neon o); [|now split].
  unfold xc_hash_many_neon, xc_hash_one, needs. cbn [forallb]. rewrite H. cbn [andb].
  unfold hash_many_neon, hash_one_neon. split; reflexivity.
Qed.

End Facts.

Lemma build_legal : forall xt xh host f nd s32 o x, sane host -> sane x ->
  build xt xh host f nd s32 = Some o ->
  (f_detect f = true -> forall i, host i = true -> x i = true) ->
  (forall i, asked f i = true -> x i = true) ->
  c_has x o /\ popcnt_insn o = false.
Proof.
  intros xt xh host f nd s32 o x Sh Sx B D A. unfold build in B.
  destruct (f_detect (cargo f) && _); [discriminate B|]. injection B as <-. split; [|reflexivity].
  change (f_detect (cargo f)) with (f_detect f).
  set (g := if f_detect f then add_detected host (cargo f) else cargo f).
  assert (G : (f_avx512 g = true -> x AVX512F = true /\ x AVX512VL = true) /\
              (f_avx512 g = false -> f_avx2 g = true -> x AVX2 = true /\ f_sse41 g = true) /\
              (f_avx512 g = false -> f_sse41 g = true -> x SSE41 = true) /\
              (f_neon g = true -> x NEON = true)).
  { assert (As : f_sse41 (cargo f) = true -> f_avx512 (cargo f) = false -> x SSE41 = true).
    { cbn. intros H Z. rewrite Z, orb_false_r in H. apply orb_prop in H.
      destruct H as [H|H]; [now apply (A SSE41)|apply Sx; now apply (A AVX2)]. }
    assert (Aa : f_avx2 (cargo f) = true -> f_avx512 (cargo f) = false ->
                 x AVX2 = true /\ f_sse41 (cargo f) = true).
    { cbn. intros H Z. rewrite Z, orb_false_r in *. split; [now apply (A AVX2)|].
      rewrite H. apply orb_true_r. }
    assert (Az : f_avx512 (cargo f) = true -> x AVX512F = true /\ x AVX512VL = true).
    { cbn. intros H. split; [apply (A AVX512F)|apply (A AVX512VL)]; exact H. }
    assert (An : f_neon (cargo f) = true -> x NEON = true) by (cbn; intros H; now apply (A NEON)).
    unfold g. destruct (f_detect f).
    - specialize (D eq_refl). generalize dependent (cargo f). intros k _ As Aa Az An.
      cbn [add_detected f_sse41 f_avx2 f_avx512 f_neon]. split; [|split; [|split; [|exact An]]].
      + rewrite orb_true_iff, andb_true_iff. intros [H|[H1 H2]]; auto.
      + intros Z H. apply orb_false_iff in Z. destruct Z as [Z _]. apply orb_prop in H.
        destruct H as [H|H].
        * destruct (Aa H Z) as [H1 H2]. split; [exact H1|]. now rewrite H2.
        * split; [now apply D|]. rewrite (Sh H). apply orb_true_r.
      + intros Z H. apply orb_false_iff in Z. destruct Z as [Z _]. apply orb_prop in H.
        destruct H as [H|H]; auto.
    - auto. }
  destruct G as (G1 & G2 & G3 & G4). unfold c_has.
  cbn [use_avx512 use_avx2 use_sse41 use_neon]. fold g. clearbody g.
  destruct (f_avx512 g); [now apply G1|]. destruct (f_avx2 g).
  - destruct (G2 eq_refl eq_refl) as [H1 H2]. rewrite H2. auto.
  - destruct (f_sse41 g); [now apply G3|]. destruct (f_neon g); auto.
Qed.

Lemma build_ok : forall xt xh host f nd s32 o x junk trap, sane host -> sane x ->
  build xt xh host f nd s32 = Some o ->
  (f_detect f = true -> forall i, host i = true -> x i = true) ->
  (forall i, asked f i = true -> x i = true) ->
  xc_compress x junk o = c_compress o /\ xc_hash_many x junk trap o = c_hash_many o /\
  popcnt_insn o = false.
Proof.
  intros xt xh host f nd s32 o x junk trap Sh Sx B D A.
  destruct (build_legal xt xh host f nd s32 o x Sh Sx B D A) as [H P].
  destruct (c_legal x junk trap o H) as [H1 H2]. auto.
Qed.

Lemma detected_ok : forall c x junk trap, sane x ->
  let p := detect_on c x in platform_ok c p /\
  x_compress x junk p = compress p /\ x_compress_xof x junk p = compress_xof p /\
  x_hash_many x junk trap c p = hash_many c p.
Proof.
  intros c x junk trap S p. destruct (detect_legal x c S) as [P H]. split; [exact P|].
  now apply platform_legal.
Qed.

Lemma batch_loop_none : forall c fuel degree hashN rest inputs off delta out, len inputs < degree ->
  batch_loop c fuel degree hashN rest inputs off delta out = rest inputs off out.
Proof.
  intros c [|fuel] degree hashN rest inputs off delta out L; cbn [batch_loop];
    replace (degree <=? len inputs) with false by (symmetry; now apply N.leb_gt); reflexivity.
Qed.

(* without the assumption *)
Lemma avx2_only : forall c x junk trap, x86 c = true -> x AVX2 = true -> x SSE41 = false ->
  detect_on c x = PAVX2 /\
  (forall cv block blen off flags, x_compress x junk (detect_on c x) cv block blen off flags = junk) /\
  (forall cap inputs key off delta flags fs fe out, (length inputs < 8)%nat ->
     len inputs * OUT_LEN <= len out ->
     x_hash_many x junk trap c (detect_on c x) cap inputs key off delta flags fs fe out = trap).
Proof.
  intros c x junk trap X A S.
  assert (D : detect_on c x = PAVX2) by (unfold detect_on, detect; now rewrite X, A).
  split; [exact D|]. rewrite D. split.
  - intros. cbn [x_compress]. unfold x_sse41_compress, needs. cbn [forallb]. now rewrite S.
  - intros cap inputs key off delta flags fs fe out L Lo. cbn [x_hash_many].
    unfold x_avx2_hash_many, needs at 1. cbn [forallb]. rewrite A. cbn [andb].
    unfold dassert. replace (len inputs * OUT_LEN <=? len out) with true by (symmetry; now apply N.leb_le).
    rewrite andb_false_r. cbn [bind].
    rewrite batch_loop_none by (unfold len, Avx2.DEGREE; lia). unfold x_sse41_hash_many, needs. cbn [forallb].
    now rewrite S.
Qed.

Lemma build_exact : forall xt xh host f nd s32,
  (build xt xh host f nd s32 = None <-> f_detect f = true /\ (xt = false \/ xh = false)) /\
  (forall o, build xt xh host f nd s32 = Some o ->
     let found i := f_detect f && host i in
     use_avx512 o = asked f AVX512F || (found AVX512F && found AVX512VL) /\
     use_avx2 o = asked f AVX2 || asked f AVX512F || found AVX2 /\
     use_sse41 o = asked f SSE41 || asked f AVX2 || asked f AVX512F || found SSE41 /\
     use_neon o = asked f NEON /\ ndebug o = nd /\ size32 o = s32).
Proof.
  intros xt xh host [s a z n d] nd s32. unfold build, cargo. cbn [f_detect f_sse41 f_avx2 f_avx512 f_neon].
  split.
  - destruct d, xt, xh; cbn [andb negb]; split; try discriminate; intuition discriminate.
  - intros o. destruct d, xt, xh; cbn [andb negb]; intros E; try discriminate E;
      injection E as <-; cbn [use_avx512 use_avx2 use_sse41 use_neon ndebug size32 add_detected asked
        f_sse41 f_avx2 f_avx512 f_neon andb];
      rewrite ?orb_false_r; repeat split; reflexivity.
Qed.
