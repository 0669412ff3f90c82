(* Proofs of the statements about the C hasher in Prop_CHasher.v. *)
From Coq Require Import NArith List Bool Lia ZArith.
From Coq Require Import ZifyBool ZifyNat ZifyN.
From Verif Require Import Base BaseFacts Spec TreeFacts CompressFacts ManyFacts SpecFacts ChunkFacts.
From Verif Require Import Platform Lib SessionSpec Session ApiFacts StreamFacts.
From Verif Require Import HasherFacts CSimd CSimdFacts CSimdProps CImpl CImplFacts CSpec.
Import ListNotations.
Open Scope N_scope.

Section Key.
Variable o : copts.
Variable key : list N.
Variable flags : N.
Hypothesis Lkey : length key = 8%nat.
Hypothesis Wkey : words key.
Variable cap : N.

Notation cvs := (SpecFacts.cvs key flags).
Notation is32 := (fun h : list N => len h = 32 /\ bytes h).
Notation rep := (TreeFacts.rep (@nil N) (SpecFacts.pcv key flags)).
Notation inter := (HasherFacts.inter key flags).
Notation stk := (CImplFacts.stk cap).
Notation limit := (CImplFacts.limit o cap).
Notation c_holds := (CImplFacts.c_holds key flags cap).
Notation ck_holds := (CImplFacts.ck_holds key flags).
Notation fullc := (fun ch : list N => len ch = 2048 /\ bytes ch).

Lemma c_updates_holds : forall us h data, c_holds h data -> c_updates_ok us ->
  limit (len data + len (c_data us)) ->
  exists h', c_updates o h us = Ok h' /\ c_holds h' (data ++ c_data us).
Proof.
  induction us as [|[input junk] us IH]; intros h data H Ok1 L.
  - exists h. cbn. rewrite app_nil_r. auto.
  - cbn [c_updates]. unfold c_data in *. cbn [map concat fst] in *. rewrite len_app in L.
    pose proof (Forall_inv Ok1) as [B J]. cbn [fst snd] in *.
    destruct (c_update_ok o key flags Lkey Wkey cap junk h data input) as (h1 & E1 & H1); auto.
    { eapply (limit_le o key Lkey); [|exact L]. lia. }
    rewrite E1. cbn [bind].
    destruct (IH h1 (data ++ input)) as (h2 & E2 & H2); auto.
    { exact (Forall_inv_tail Ok1). }
    { rewrite len_app. eapply (limit_le o key Lkey); [|exact L]. lia. }
    exists h2. rewrite E2, app_assoc. auto.
Qed.

(* ---- what goes wrong ---- *)

Lemma push_full : forall h st l x, stk h st -> inter st l -> len l = 2 ^ 52 -> ndebug o = false ->
  forall off, hasher_push_chunk_hash o h x off = Panic.
Proof.
  intros h st l x (S & _) I L N off. unfold hasher_push_chunk_hash. rewrite N, S.
  assert (E : len st = 53).
  { destruct I as [[-> ->]|(st0 & l0 & y & -> & -> & R)]; [rewrite len_nil in L; discriminate L|].
    rewrite len_app, len_cons, len_nil in *. rewrite (rep_len _ _ _ _ _ R).
    replace (len l0) with (2 ^ 52 - 1) by lia. reflexivity. }
  rewrite E. reflexivity.
Qed.

Lemma push_outside : forall h st l x, stk h st -> inter st l -> Forall is32 l -> len x = 32 ->
  k_key (c_chunk_of h) = key -> k_flags (c_chunk_of h) = flags ->
  len l = 2 ^ 52 - 1 -> cap < 53 * 32 ->
  hasher_push_chunk_hash o h x (2048 * len l) = Panic.
Proof.
  intros h st l x S I F Lx Hk Hf L C. unfold hasher_push_chunk_hash.
  pose proof S as (E & _). rewrite E. rewrite (push_room o key flags Lkey st l).
  2: { left. exact I. }
  2: { right. rewrite L. reflexivity. }
  cbn [bind].
  destruct (c_merge_ok o key flags Lkey Wkey cap h st l)
    as (h1 & st1 & E1 & C1 & (S1 & F1 & L1 & junk & S2 & S3) & R1); auto.
  { rewrite L. reflexivity. }
  rewrite E1. cbn [bind].
  pose proof (rep_len _ _ _ _ _ R1) as P. rewrite L in P. change (popcount (2 ^ 52 - 1)) with 52 in P.
  unfold copy_at. rewrite (proj2 (N.leb_gt _ _)); [reflexivity|].
  change C_OUT_LEN with 32. lia.
Qed.

Lemma push_chunks_app : forall a b idx h out,
  push_chunks o (a + b) idx h out
  = bind (push_chunks o a idx h out) (fun h => push_chunks o b (idx + N.of_nat a) h out).
Proof.
  induction a as [|a IH]; intros b idx h out.
  - cbn [Nat.add push_chunks bind]. f_equal. lia.
  - cbn [Nat.add push_chunks].
    destruct (slice out (idx * C_OUT_LEN) C_OUT_LEN) as [l| |]; cbn [bind]; auto.
    destruct (hasher_push_chunk_hash o h l (k_offset (c_chunk_of h))); cbn [bind]; auto.
    rewrite IH. match goal with |- bind ?e _ = bind ?e _ => destruct e; cbn [bind]; auto end.
    f_equal. lia.
Qed.

Lemma init_stk : forall memory, len memory = cap ->
  stk (CHasher (chunk_state_init key flags) 0 memory) [].
Proof.
  intros memory L. split; [reflexivity|]. split; [constructor|]. split; [cbn; lia|].
  exists memory. auto.
Qed.

(* A hasher given whole chunks only, all of them pushed. *)
Definition whole (h : c_hasher) (cs : list (list N)) : Prop :=
  Forall fullc cs /\ ck_holds (c_chunk_of h) (len cs) [] /\
  exists st, stk h st /\ inter st (cvs 0 cs).

Lemma init_whole : forall memory, len memory = cap ->
  whole (CHasher (chunk_state_init key flags) 0 memory) [].
Proof.
  intros memory L. split; [constructor|]. split; [apply (ck_fresh key flags Lkey Wkey 0)|].
  exists []. split; [now apply init_stk|]. left. split; reflexivity.
Qed.

Lemma whole_update : forall h cs junk input, whole h cs -> len input <> 2048 ->
  hasher_update o junk h input = hasher_update_rest o junk h input.
Proof.
  intros h cs junk input (_ & H & _) G. unfold hasher_update.
  rewrite (ck_len_ok key flags Lkey _ _ _ H), len_nil. change C_CHUNK_LEN with 2048.
  rewrite (proj2 (N.eqb_neq (len input) 2048)) by lia. rewrite andb_false_r. reflexivity.
Qed.

Lemma whole_step : forall h cs junk input, whole h cs -> len junk = 512 -> bytes input ->
  len input mod 32768 = 0 -> limit (2048 * len cs + len input) ->
  exists h' ch, hasher_update o junk h input = Ok h' /\ input = concat ch /\ whole h' (cs ++ ch).
Proof.
  intros h cs junk input Wh Lj B M Lim. rewrite (whole_update h cs) by (auto; lia).
  destruct Wh as (Fc & H & st & S & I). unfold hasher_update_rest.
  destruct (chunks_loop_ok o key flags Lkey Wkey cap (length input) input h st cs junk)
    as (h1 & st1 & ch & rm & E1 & C1 & C2 & Fk & S1 & I1 & H1); auto.
  rewrite E1. cbn [bind].
  assert (Lin : len input = 2048 * len ch + len rm).
  { rewrite C1 at 1. rewrite len_app, len_concat_full by auto. lia. }
  assert (Lr : len rm = 0) by lia. rewrite Lr. change (0 <? 0) with false. cbv iota.
  assert (rm = []) as -> by (destruct rm; [reflexivity|rewrite len_cons in Lr; lia]).
  exists h1, ch. rewrite app_nil_r in C1. split; [reflexivity|]. split; [exact C1|].
  split; [apply Forall_app; now split|]. split; [exact H1|]. exists st1. now split.
Qed.

Lemma whole_aborts : forall h cs junk input, whole h cs -> len junk = 512 -> bytes input ->
  53 * 32 <= cap -> ndebug o = false -> len cs mod 16 = 0 -> 2048 * len cs <= 2 ^ 63 ->
  2 ^ 63 + 2048 <= 2048 * len cs + len input < W64 -> len input <> 2048 ->
  hasher_update o junk h input = Panic.
Proof.
  intros h0 cs junk input Wh Lj B C N M Lc L Ln.
  rewrite (whole_update h0 cs) by auto. unfold hasher_update_rest.
  destruct Wh as (Fc & H0 & st0 & S0 & I0).
  change (2 ^ 63) with 9223372036854775808 in L, Lc.
  remember (N.to_nat ((9223372036854775808 - 2048 * len cs) / 32768)) as n eqn:En.
  assert (En' : 32768 * N.of_nat n = 9223372036854775808 - 2048 * len cs).
  { rewrite En, N2Nat.id. lia. } clear En.
  replace (length input) with (n + S (length input - n - 1))%nat by (unfold len in *; lia).
  destruct (chunks_loop_batches o key flags Lkey Wkey cap n (S (length input - n - 1)) input
              h0 st0 cs junk)
    as (h & st & ch & rest & out & E1 & E2 & E3 & E4 & S & I & H & E5); auto; try lia.
  { split; [unfold W64; lia|]. split; [right|left; exact C].
    change (2 ^ 63) with 9223372036854775808. lia. }
  rewrite E5.
  assert (Lin : len input = 2048 * len ch + len rest).
  { rewrite E1 at 1. rewrite len_app, len_concat_full by auto. lia. }
  assert (Br : bytes rest) by (rewrite E1 in B; apply bytes_app in B; tauto).
  assert (Lt : len (cs ++ ch) = 4503599627370496) by (rewrite len_app; lia).
  destruct (batch_ok o key flags Lkey Wkey (length input - n - 1) rest h (cs ++ ch) out)
    as (ba & rest2 & F1 & F2 & F3 & F4 & F5 & F6); auto; try (rewrite ?Lt; lia).
  cbv zeta in F6. destruct F6 as [F6 F7]. rewrite F7.
  destruct ba as [|b ba]; [rewrite len_nil in F3; lia|].
  cbn [SpecFacts.cvs length push_chunks].
  match goal with |- context [slice ?l ?a ?b] => destruct (slice l a b) eqn:Es end.
  - cbn [bind].
    rewrite (push_full h st (cvs 0 (cs ++ ch)) _ S I); [reflexivity| |exact N].
    rewrite len_cvs, Lt. reflexivity.
  - reflexivity.
  - exfalso. revert Es. unfold slice. destruct (_ <=? _); discriminate.
Qed.

Lemma whole_outside : forall h cs junk input, whole h cs -> len junk = 512 -> bytes input ->
  52 * 32 <= cap < 53 * 32 -> len cs mod 16 = 0 -> 2048 * len cs < 2 ^ 63 ->
  2 ^ 63 <= 2048 * len cs + len input < W64 -> len input <> 2048 ->
  hasher_update o junk h input = Panic.
Proof.
  intros h0 cs junk input Wh Lj B C M Lc L Ln.
  rewrite (whole_update h0 cs) by auto. unfold hasher_update_rest.
  destruct Wh as (Fc & H0 & st0 & S0 & I0).
  change (2 ^ 63) with 9223372036854775808 in L, Lc.
  remember (N.to_nat ((9223372036854775808 - 2048 * len cs) / 32768 - 1)) as n eqn:En.
  assert (En' : 32768 * N.of_nat n + 32768 = 9223372036854775808 - 2048 * len cs).
  { rewrite En, N2Nat.id. lia. } clear En.
  replace (length input) with (n + S (length input - n - 1))%nat by (unfold len in *; lia).
  destruct (chunks_loop_batches o key flags Lkey Wkey cap n (S (length input - n - 1)) input
              h0 st0 cs junk)
    as (h & st & ch & rest & out & E1 & E2 & E3 & E4 & S & I & H & E5); auto; try lia.
  { split; [unfold W64; lia|]. change (2 ^ 63) with 9223372036854775808.
    split; [right; lia|]. right. split; lia. }
  rewrite E5.
  assert (Lin : len input = 2048 * len ch + len rest).
  { rewrite E1 at 1. rewrite len_app, len_concat_full by auto. lia. }
  assert (Br : bytes rest) by (rewrite E1 in B; apply bytes_app in B; tauto).
  assert (Lt : len (cs ++ ch) = 4503599627370480) by (rewrite len_app; lia).
  assert (Fcc : Forall fullc (cs ++ ch)) by (apply Forall_app; now split).
  clear E5. generalize dependent (cs ++ ch). intros ch' H I Lt Fcc.
  assert (Lrest : 32768 <= len rest) by lia.
  destruct (batch_ok o key flags Lkey Wkey (length input - n - 1) rest h ch' out)
    as (ba & rest2 & F1 & F2 & F3 & F4 & F5 & F6); auto; try (rewrite ?Lt; unfold W64 in *; lia).
  cbv zeta in F6. destruct F6 as [F6 F7]. rewrite F7.
  assert (Lb : len ba = 16).
  { apply (f_equal len) in F1. rewrite len_app, len_concat_full in F1 by auto. lia. }
  destruct (exists_last (l := ba)) as (b15 & b & Eb).
  { intros Q. rewrite Q, len_nil in Lb. lia. }
  assert (L15 : len b15 = 15) by (rewrite Eb, len_app, len_cons, len_nil in Lb; lia).
  rewrite Eb at 1. rewrite cvs_app, app_length, push_chunks_app.
  cbn [SpecFacts.cvs length].
  set (x := SpecFacts.ccv key flags (len ch' + len b15) b).
  assert (Sx : is32 x).
  { rewrite Eb, cvs_app in F5. apply Forall_app in F5. exact (Forall_inv (proj2 F5)). }
  assert (Fch : Forall is32 (cvs 0 ch')).
  { apply cvs_shape; auto. now apply full_bytes. }
  replace (concat (cvs (len ch') ba) ++ drop (32 * len ba) out)
    with (concat (cvs (len ch') b15) ++ (x ++ drop (32 * len ba) out)).
  2: { rewrite Eb, cvs_app, concat_app. cbn [SpecFacts.cvs concat]. fold x.
       now rewrite app_nil_r, <- app_assoc. }
  assert (F15 : Forall is32 (cvs (len ch') b15)).
  { rewrite Eb, cvs_app in F5. apply Forall_app in F5. tauto. }
  destruct (push_chunks_ok o key flags Lkey Wkey cap (cvs (len ch') b15) 0 h st (cvs 0 ch') []
              (x ++ drop (32 * len ba) out)) as (h1 & st1 & G1 & S1 & I1 & H1); auto.
  { apply Forall_app. split; auto. }
  { now rewrite len_cvs. }
  { rewrite !len_cvs, Lt, L15. split; [reflexivity|]. split; [right; reflexivity|].
    right. split; [lia|reflexivity]. }
  cbn [app] in G1. rewrite G1. cbn [bind push_chunks].
  rewrite cvs_join in I1, H1. rewrite len_cvs in H1.
  destruct (ck_fields key flags _ _ _ H1) as (Hk & Hf & Ho). rewrite Ho.
  match goal with |- context [slice ?l ?a ?b] => destruct (slice l a b) as [hash| |] eqn:Es end.
  - cbn [bind].
    assert (Lh : len hash = 32).
    { revert Es. unfold slice. destruct (N.leb_spec (N.of_nat 0 + 0) 0).
      - match goal with |- context [?a <=? ?b] => destruct (N.leb_spec a b) as [Q|Q] end;
          intros Es; [|discriminate]. injection Es as <-. change C_OUT_LEN with 32 in *. lenlia.
      - lia. }
    replace (len (ch' ++ b15)) with (len (cvs 0 (ch' ++ b15))) by apply len_cvs.
    rewrite (push_outside h1 st1 (cvs 0 (ch' ++ b15)) hash S1 I1); auto.
    + apply cvs_shape; auto. apply full_bytes. apply Forall_app. split; auto.
      rewrite Eb in F2. apply Forall_app in F2. tauto.
    + rewrite len_cvs, len_app, Lt, L15. reflexivity.
    + lia.
  - reflexivity.
  - exfalso. revert Es. unfold slice. destruct (_ <=? _); discriminate.
Qed.

(* whole batches of chunks in each update *)
Definition batches (us : list (list N * list N)) : Prop :=
  Forall (fun u => len (fst u) mod 32768 = 0) us.

Lemma updates_abort : forall us h cs, whole h cs -> c_updates_ok us -> batches us ->
  53 * 32 <= cap -> ndebug o = false -> len cs mod 16 = 0 -> 2048 * len cs <= 2 ^ 63 ->
  2 ^ 63 < 2048 * len cs + len (c_data us) < W64 ->
  c_updates o h us = Panic.
Proof.
  induction us as [|[input junk] us IH]; intros h cs Wh Ok1 Ba C N M Lc L.
  - exfalso. unfold c_data in L. cbn [map concat] in L. rewrite len_nil in L.
    change (2 ^ 63) with 9223372036854775808 in *. lia.
  - cbn [c_updates]. unfold c_data in *. cbn [map concat fst] in *. rewrite len_app in L.
    pose proof (Forall_inv Ok1) as [B J]. pose proof (Forall_inv Ba) as Mi. cbn [fst snd] in *.
    change (2 ^ 63) with 9223372036854775808 in *.
    destruct (N.le_gt_cases (2048 * len cs + len input) 9223372036854775808) as [G|G].
    + destruct (whole_step h cs junk input Wh) as (h1 & ch & E1 & E2 & W1); auto.
      { split; [unfold W64; lia|]. split; [right|left; exact C].
        change (2 ^ 63) with 9223372036854775808. lia. }
      rewrite E1. cbn [bind].
      assert (Li : len input = 2048 * len ch).
      { rewrite E2. apply len_concat_full. destruct W1 as [F1 _]. apply Forall_app in F1. tauto. }
      apply (IH h1 (cs ++ ch)); auto; try (rewrite len_app; lia).
      * exact (Forall_inv_tail Ok1).
      * exact (Forall_inv_tail Ba).
    + rewrite (whole_aborts h cs junk input); auto;
        change (2 ^ 63) with 9223372036854775808; lia.
Qed.

Lemma updates_outside : forall us h cs, whole h cs -> c_updates_ok us -> batches us ->
  52 * 32 <= cap < 53 * 32 -> len cs mod 16 = 0 -> 2048 * len cs < 2 ^ 63 ->
  2 ^ 63 <= 2048 * len cs + len (c_data us) < W64 ->
  c_updates o h us = Panic.
Proof.
  induction us as [|[input junk] us IH]; intros h cs Wh Ok1 Ba C M Lc L.
  - exfalso. unfold c_data in L. cbn [map concat] in L. rewrite len_nil in L.
    change (2 ^ 63) with 9223372036854775808 in *. lia.
  - cbn [c_updates]. unfold c_data in *. cbn [map concat fst] in *. rewrite len_app in L.
    pose proof (Forall_inv Ok1) as [B J]. pose proof (Forall_inv Ba) as Mi. cbn [fst snd] in *.
    change (2 ^ 63) with 9223372036854775808 in *.
    destruct (N.lt_ge_cases (2048 * len cs + len input) 9223372036854775808) as [G|G].
    + destruct (whole_step h cs junk input Wh) as (h1 & ch & E1 & E2 & W1); auto.
      { split; [unfold W64; lia|]. change (2 ^ 63) with 9223372036854775808.
        split; [right; lia|right; split; lia]. }
      rewrite E1. cbn [bind].
      assert (Li : len input = 2048 * len ch).
      { rewrite E2. apply len_concat_full. destruct W1 as [F1 _]. apply Forall_app in F1. tauto. }
      apply (IH h1 (cs ++ ch)); auto; try (rewrite len_app; lia).
      * exact (Forall_inv_tail Ok1).
      * exact (Forall_inv_tail Ba).
    + rewrite (whole_outside h cs junk input); auto;
        change (2 ^ 63) with 9223372036854775808; lia.
Qed.

End Key.

(* ---- the statements ---- *)

Lemma key_words : forall key : list N, length key = 32%nat -> bytes key ->
  load_words 8 key = words_of_bytes key /\ length (words_of_bytes key) = 8%nat /\
  words (words_of_bytes key).
Proof.
  intros key L B. split; [now apply load_words_ok|].
  split; [|now apply words_of_bytes_words].
  apply (len_length _ _ 8). rewrite len_words_of_bytes. unfold len. rewrite L. reflexivity.
Qed.

Lemma c_hash_ok : forall o memory key flags us,
  length key = 32%nat -> bytes key -> c_updates_ok us ->
  limit o (len memory) (len (c_data us)) ->
  c_hash o memory key flags us
  = Ok (take 32 (root_block F (root_node F (words_of_bytes key) flags (c_data us)) 0)).
Proof.
  intros o memory key flags us L B U Lim. unfold c_hash, hasher_init.
  destruct (key_words key L B) as (E & L8 & W). rewrite E.
  pose proof (c_init_holds (words_of_bytes key) flags L8 W (len memory) memory eq_refl) as H.
  destruct (c_updates_holds o _ flags L8 W (len memory) us _ [] H U) as (h & E1 & H1).
  { eapply (limit_le o _ L8); [|exact Lim]. rewrite len_nil. lia. }
  rewrite E1. cbn [bind app] in *. destruct Lim as [Lim _].
  exact (c_finalize_ok o _ _ L8 W (len memory) h (c_data us) H1 (N.lt_le_incl _ _ Lim)).
Qed.

Lemma c_hash_mode : forall o memory m us,
  mode_ok m -> c_updates_ok us -> limit o (len memory) (len (c_data us)) ->
  c_hash o memory (bytes_of_words (mode_key m)) (mode_flags m) us
  = Ok (spec_hash F m (c_data us)).
Proof.
  intros o memory m us M U Lim.
  assert (K : length (mode_key m) = 8%nat /\ words (mode_key m)) by now apply mode_key_ok.
  destruct K as [K1 K2].
  rewrite c_hash_ok; auto.
  - now rewrite words_of_bytes_of_words.
  - destruct (list8 _ K1) as (a & b & c & d & e & f & g & h & ->). reflexivity.
  - now apply bytes_of_words_bytes.
Qed.

Lemma c_hasher_ok : forall o memory m us,
  mode_ok m -> c_updates_ok us -> len memory = 53 * 32 -> len (c_data us) <= 2 ^ 63 ->
  c_hash o memory (bytes_of_words (mode_key m)) (mode_flags m) us
  = Ok (spec_hash F m (c_data us)).
Proof.
  intros o memory m us M U Lm L. apply c_hash_mode; auto.
  change (2 ^ 63) with 9223372036854775808 in L.
  split; [unfold W64; lia|]. split; [right; change (2 ^ 63) with 9223372036854775808; lia|left; lia].
Qed.

Lemma c_hasher_any_key : forall o memory key flags us,
  length key = 32%nat -> bytes key -> c_updates_ok us ->
  len memory = 53 * 32 -> len (c_data us) <= 2 ^ 63 ->
  c_hash o memory key flags us
  = Ok (take 32 (root_block F (root_node F (words_of_bytes key) flags (c_data us)) 0)).
Proof.
  intros o memory key flags us Lk Bk U Lm L. apply c_hash_ok; auto.
  change (2 ^ 63) with 9223372036854775808 in L.
  split; [unfold W64; lia|]. split; [right; change (2 ^ 63) with 9223372036854775808; lia|left; lia].
Qed.

Lemma c_hasher_no_assertions : forall o memory m us,
  ndebug o = true -> mode_ok m -> c_updates_ok us -> len memory = 53 * 32 ->
  len (c_data us) < W64 ->
  c_hash o memory (bytes_of_words (mode_key m)) (mode_flags m) us
  = Ok (spec_hash F m (c_data us)).
Proof.
  intros o memory m us N M U Lm L. apply c_hash_mode; auto.
  split; [auto|]. split; [now left|left; lia].
Qed.

Lemma c_wrapper_ok : forall o memory m us,
  mode_ok m -> c_updates_ok us -> RUST_SUBTREE_HASHES <= len memory -> len (c_data us) < 2 ^ 63 ->
  c_hash o memory (bytes_of_words (mode_key m)) (mode_flags m) us
  = Ok (spec_hash F m (c_data us)).
Proof.
  intros o memory m us M U Lm L. apply c_hash_mode; auto. unfold RUST_SUBTREE_HASHES in Lm.
  split; [eapply N.lt_trans; [exact L|reflexivity]|].
  split; [right; eapply N.lt_trans; [exact L|reflexivity]|right; split; [lia|auto]].
Qed.

Lemma c_lib : forall o memory us c p m, platform_ok c p ->
  mode_ok m -> c_updates_ok us -> len memory = 53 * 32 -> len (c_data us) <= 2 ^ 63 ->
  forall inputs, concat inputs = c_data us -> Forall bytes inputs ->
  c_hash o memory (bytes_of_words (mode_key m)) (mode_flags m) us
  = (let* h := feed c (start p m) inputs in finalize c h).
Proof.
  intros o memory us c p m P M U Lm L inputs E B.
  rewrite c_hasher_ok by auto.
  destruct (stream_stream c p m inputs 0%nat P M B) as (h & ou & bs & o' & E1 & E2 & _).
  { rewrite E. eapply N.le_lt_trans; [exact L|reflexivity]. }
  { reflexivity. }
  rewrite E1. cbn [bind]. now rewrite E2, E.
Qed.

Lemma c_aborts_one : forall o memory key flags junk input,
  ndebug o = false -> length key = 32%nat -> bytes key -> len memory = 53 * 32 ->
  len junk = 16 * 32 -> bytes input -> 2 ^ 63 + 2048 <= len input < W64 ->
  hasher_update o junk (hasher_init memory key flags) input = Panic.
Proof.
  intros o memory key flags junk input N L B Lm Lj Bi Li. unfold hasher_init.
  destruct (key_words key L B) as (E & L8 & W). rewrite E.
  apply (whole_aborts o _ flags L8 W (len memory) _ []); auto.
  1: now apply init_whole.
  all: change (2 ^ 63) with 9223372036854775808 in *; rewrite ?len_nil; lia.
Qed.

Lemma c_aborts : forall o memory key flags us,
  ndebug o = false -> length key = 32%nat -> bytes key -> len memory = 53 * 32 ->
  c_updates_ok us -> Forall (fun u => len (fst u) mod 32768 = 0) us ->
  2 ^ 63 < len (c_data us) < W64 ->
  c_hash o memory key flags us = Panic.
Proof.
  intros o memory key flags us N L B Lm U Ba Li. unfold c_hash, hasher_init.
  destruct (key_words key L B) as (E & L8 & W). rewrite E.
  rewrite (updates_abort o _ flags L8 W (len memory) us _ []); auto.
  1: now apply init_whole.
  all: change (2 ^ 63) with 9223372036854775808 in *; rewrite ?len_nil; lia.
Qed.

Lemma c_writes_outside : forall o memory key flags us,
  length key = 32%nat -> bytes key ->
  RUST_SUBTREE_HASHES <= len memory <= RUST_SUBTREE_HASHES + RUST_PADDING ->
  c_updates_ok us -> Forall (fun u => len (fst u) mod 32768 = 0) us ->
  2 ^ 63 <= len (c_data us) < W64 ->
  c_hash o memory key flags us = Panic.
Proof.
  intros o memory key flags us L B Lm U Ba Li. unfold c_hash, hasher_init.
  destruct (key_words key L B) as (E & L8 & W). rewrite E.
  unfold RUST_SUBTREE_HASHES, RUST_PADDING in Lm.
  rewrite (updates_outside o _ flags L8 W (len memory) us _ []); auto.
  1: now apply init_whole.
  all: change (2 ^ 63) with 9223372036854775808 in *; rewrite ?len_nil; lia.
Qed.

Lemma zeros_ok : forall l, c_updates_ok (map (fun n => (zeros n, zeros 512)) l).
Proof.
  intros l. apply Forall_forall. intros u Hu. apply in_map_iff in Hu. destruct Hu as (n & <- & _).
  cbn [fst snd]. rewrite len_zeros. split; [apply bytes_zeros|reflexivity].
Qed.

Lemma c_every_length_refuted :
  ~ (forall o memory key flags us,
       length key = 32%nat -> bytes key -> len memory = 53 * 32 -> c_updates_ok us ->
       len (c_data us) < W64 -> exists hash, c_hash o memory key flags us = Ok hash).
Proof.
  intros H.
  destruct (H (COpts false false false false false false false) (zeros 1696) (zeros 32) 0
              (map (fun n => (zeros n, zeros 512)) [2 ^ 63 + 2048])) as [hash E].
  - reflexivity.
  - apply bytes_zeros.
  - apply len_zeros.
  - apply zeros_ok.
  - unfold c_data. cbn [map concat fst]. rewrite len_app, len_zeros. reflexivity.
  - revert E. unfold c_hash. cbn [map c_updates].
    rewrite c_aborts_one; [discriminate|reflexivity|reflexivity|apply bytes_zeros
      |apply len_zeros|apply len_zeros|apply bytes_zeros|rewrite len_zeros; split; [easy|reflexivity]].
Qed.

Lemma c_wrapper_refuted :
  ~ (forall o memory key flags us,
       length key = 32%nat -> bytes key -> RUST_SUBTREE_HASHES <= len memory -> c_updates_ok us ->
       Forall (fun u => len (fst u) < 2 ^ 63) us -> len (c_data us) <= 2 ^ 63 ->
       exists hash, c_hash o memory key flags us = Ok hash).
Proof.
  intros H.
  destruct (H (COpts false false false false false true false) (zeros 1671) (zeros 32) 0
              (map (fun n => (zeros n, zeros 512)) [2 ^ 62; 2 ^ 62])) as [hash E].
  - reflexivity.
  - apply bytes_zeros.
  - rewrite len_zeros. easy.
  - apply zeros_ok.
  - cbn [map]. repeat (apply Forall_cons; [cbn [fst]; rewrite len_zeros; reflexivity|]). constructor.
  - unfold c_data. cbn [map concat fst]. rewrite !len_app, !len_zeros. easy.
  - revert E. rewrite c_writes_outside; [discriminate|reflexivity|apply bytes_zeros| |apply zeros_ok| |].
    + rewrite len_zeros. unfold RUST_SUBTREE_HASHES, RUST_PADDING. lia.
    + cbn [map]. repeat (apply Forall_cons; [cbn [fst]; rewrite len_zeros; reflexivity|]). constructor.
    + unfold c_data. cbn [map concat fst]. rewrite !len_app, !len_zeros. split; [easy|reflexivity].
Qed.
