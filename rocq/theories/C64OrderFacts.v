(* Proofs about C64Order.v. *)
From Coq Require Import NArith List Bool Lia.
From Coq Require Import ZifyBool ZifyNat ZifyN.
From Verif Require Import Base BaseFacts Spec SpecFacts Spec64 SimdFacts Compress64Facts ManyFacts WrapFacts
  C64 C64Facts C64Order Samples.
Import ListNotations.
Open Scope N_scope.
#[local] Opaque compress64.

Lemma order64_little : forall inputs blocks key offset deltas flags fs fe out,
  hash_many_neon_on64 false hash2_neon inputs blocks key offset deltas flags fs fe out
  = hash_many_neon inputs blocks key offset deltas flags fs fe out.
Proof. reflexivity. Qed.

Lemma ok_inj64 : forall a b : list N, Ok a = Ok b -> a = b.
Proof. intros a b E. now injection E. Qed.

(* ---- words in reverse ---- *)

Lemma swap64_word : forall w r, swap_words64 (bytes64 w ++ r)
  = rev (bytes64 w) ++ swap_words64 r.
Proof.
  intros w r. unfold swap_words64. destruct r as [|z y].
  - rewrite app_nil_r. reflexivity.
  - rewrite pieces_step; [|lia|rewrite len_app, len_cons; change (len (bytes64 w)) with 8; lia].
    rewrite take_app_eq, drop_app_eq by reflexivity. reflexivity.
Qed.

Lemma swap64_state : forall ws,
  flat_map (word_memory64 true) ws = swap_words64 (bytes_of_words64 ws).
Proof.
  induction ws as [|w ws IH]; [reflexivity|].
  cbn [flat_map]. unfold bytes_of_words64 in *. cbn [flat_map].
  rewrite swap64_word, <- IH. reflexivity.
Qed.

Lemma order64_one : forall big input blocks key off flags fs fe,
  128 * blocks <= len input -> bytes input -> length key = 4%nat ->
  let h := one64 key flags fs fe off (take (128 * blocks) input) in
  hash_one_neon_on64 big input blocks key off flags fs fe
  = Ok (if big then swap_words64 h else h).
Proof.
  intros big input blocks key off flags fs fe L B Lk. cbv zeta.
  pose proof (hash_one64_ok compress_portable bytes_of_words64 c64_compress (fun _ _ => eq_refl)
                input blocks key off flags fs fe L B Lk) as P.
  unfold hash_one_neon_on64.
  destruct (hash_one_loop compress_portable (N.to_nat blocks) key input off (N.lor flags fs) flags fe)
    as [st| |]; cbn [bind] in *; try discriminate P.
  apply ok_inj64 in P. rewrite <- P. destruct big; [now rewrite swap64_state|reflexivity].
Qed.

(* ---- the loop of two inputs at a time ---- *)

Section Loop.
Variables (hashN : list (list N) -> N -> res (list N))
  (rest : list (list N) -> N -> list N -> res (list N))
  (key : list N) (flags fs fe delta : N) (deltas : list N) (cap : N).
Hypotheses (Tab : table 3 delta deltas)
  (HN : forall ins off, len ins = 2 -> Forall (readable cap) ins -> off < W64 ->
     exists h, hashN ins off = Ok h /\ len h = 64).

Lemma loop_pairs : forall n pre lasts fuel off out,
  len pre = 2 * N.of_nat n -> len lasts < 2 -> (length (pre ++ lasts) <= fuel)%nat ->
  Forall (readable cap) pre -> 32 * len (pre ++ lasts) <= len out -> off < W64 ->
  exists hs, len hs = 32 * len pre /\
    many_loop fuel 2 hashN rest (pre ++ lasts) off deltas out
    = (let* tl := rest lasts ((off + len pre * delta) mod W64) (drop (32 * len pre) out) in
       Ok (hs ++ tl)) /\
    ((forall ins off, len ins = 2 -> Forall (readable cap) ins -> off < W64 ->
        hashN ins off = Ok (concat (all64 key flags fs fe off delta (map (take cap) ins)))) ->
     hs = concat (all64 key flags fs fe off delta (map (take cap) pre))).
Proof.
  induction n as [|n IH]; intros pre lasts fuel off out Lp Ll Hf Fp Lo Ho.
  - assert (Z : len pre = 0) by lia. apply len_0_nil in Z. subst pre. exists [].
    split; [reflexivity|]. split; [|reflexivity].
    rewrite len_nil, N.mul_0_l, N.add_0_r, N.mod_small, N.mul_0_r, drop_0 by exact Ho. cbn [app].
    assert (E : many_loop fuel 2 hashN rest lasts off deltas out = rest lasts off out).
    { destruct fuel; cbn [many_loop]; rewrite (proj2 (N.leb_gt _ _)) by lia; reflexivity. }
    rewrite E. destruct (rest lasts off out); reflexivity.
  - assert (Lt : len (take 2 pre) = 2) by (rewrite len_take; lia).
    assert (Ld : len (drop 2 pre) = 2 * N.of_nat n) by (rewrite len_drop; lia).
    rewrite len_app in Lo.
    destruct fuel as [|fuel].
    { exfalso. rewrite app_length in Hf. unfold len in Lp. lia. }
    cbn [many_loop]. rewrite len_app, (proj2 (N.leb_le 2 _)) by lia.
    assert (T2 : take 2 (pre ++ lasts) = take 2 pre).
    { rewrite <- (take_drop _ 2 pre) at 1. rewrite <- app_assoc. now apply take_app_eq. }
    assert (D2 : drop 2 (pre ++ lasts) = drop 2 pre ++ lasts).
    { rewrite <- (take_drop _ 2 pre) at 1. rewrite <- app_assoc. now apply drop_app_eq. }
    rewrite T2, D2.
    destruct (HN (take 2 pre) off Lt (Forall_take _ _ _ _ Fp) Ho) as (h & Eh & Lh).
    rewrite Eh. cbn [bind].
    change 2 with (N.of_nat 2) at 1. rewrite (table_index _ _ _ _ Tab) by lia. cbn [bind].
    change (N.of_nat 2) with 2. unfold OUT_LEN. rewrite slice_from_ok by lia. cbn [bind].
    destruct (IH (drop 2 pre) lasts fuel ((off + (2 * delta) mod W64) mod W64) (drop (2 * 32) out))
      as (hs & L1 & E1 & S1); auto.
    + rewrite app_length in *. unfold len in Ld, Lp. lia.
    + now apply Forall_drop.
    + rewrite len_app, !len_drop. lia.
    + apply mod64.
    + exists (h ++ hs). split; [rewrite len_app; lia|]. split.
      * rewrite E1. rewrite drop_drop.
        replace (32 * len (drop 2 pre) + 2 * 32) with (32 * len pre) by lia.
        replace (((off + (2 * delta) mod W64) mod W64 + len (drop 2 pre) * delta) mod W64)
          with ((off + len pre * delta) mod W64).
        2: { rewrite N.add_mod_idemp_r by discriminate. rewrite N.add_mod_idemp_l by discriminate.
             f_equal. rewrite Ld, Lp. lia. }
        destruct (rest lasts ((off + len pre * delta) mod W64) (drop (32 * len pre) out));
          cbn [bind]; [now rewrite app_assoc|reflexivity|reflexivity].
      * intros HS. rewrite (S1 HS).
        rewrite HS in Eh; [|exact Lt|now apply Forall_take|exact Ho]. apply ok_inj64 in Eh. rewrite <- Eh.
        rewrite <- concat_app. f_equal.
        rewrite N.add_mod_idemp_r by discriminate. rewrite all64_mod.
        rewrite <- (take_drop _ 2 pre) at 3. rewrite map_app, all64_app.
        rewrite len_map, Lt. reflexivity.
Qed.
End Loop.

Definition two_ok (hash2 : hash2_fun) (blocks : N) (key : list N) (deltas : list N) (flags fs fe : N) :=
  forall ins off, len ins = 2 -> Forall (fun i => 128 * blocks <= len i /\ bytes i) ins ->
    off < 2 ^ 64 ->
    exists h, hash2 ins blocks key off deltas flags fs fe = Ok h /\ len h = 64.

Lemma order64_odd : forall big hash2 inputs input blocks key offset delta deltas flags fs fe out,
  two_ok hash2 blocks key deltas flags fs fe ->
  length key = 4%nat -> len inputs mod 2 = 0 ->
  Forall (fun i => 128 * blocks <= len i /\ bytes i) (inputs ++ [input]) ->
  32 * (len inputs + 1) <= len out -> offset < 2 ^ 64 -> firstn 3 deltas = deltas64 3 delta ->
  let h := one64 key flags fs fe ((offset + len inputs * delta) mod 2 ^ 64)
             (take (128 * blocks) input) in
  exists hs, len hs = 32 * len inputs /\
    hash_many_neon_on64 big hash2 (inputs ++ [input]) blocks key offset deltas flags fs fe out
    = Ok (hs ++ (if big then swap_words64 h else h) ++ drop (32 * (len inputs + 1)) out).
Proof.
  intros big hash2 inputs input blocks key off delta deltas flags fs fe out H2 Lk M F Lo Ho T. cbv zeta.
  apply Forall_app in F. destruct F as [Fi F1]. inversion F1 as [|x l [R B] _]; subst. clear F1.
  unfold hash_many_neon_on64.
  destruct (loop_pairs (fun ins off => hash2 ins blocks key off deltas flags fs fe)
     (fun ins off out =>
       single_loop (fun i off => hash_one_neon_on64 big i blocks key off flags fs fe) deltas ins off out)
     key flags fs fe delta deltas (128 * blocks) T H2 (N.to_nat (len inputs / 2)) inputs [input]
     (length (inputs ++ [input])) off out) as (hs & L & E & _); auto.
  - pose proof (N.div_mod (len inputs) 2). lia.
  - reflexivity.
  - rewrite len_app, len_cons, len_nil. lia.
  - exists hs. split; [exact L|]. rewrite E. clear E.
    unfold single_loop. cbn [length many_loop]. change (1 <=? len [input]) with true. cbv iota.
    change (take 1 [input]) with [input]. cbn [index nth_error N.to_nat bind].
    rewrite order64_one by auto. cbn [bind].
    assert (D : index deltas 1 = Ok ((N.of_nat 1 * delta) mod W64)).
    { apply (table_index 3 delta deltas 1); [exact T|lia]. }
    rewrite D. cbn [bind].
    unfold OUT_LEN. rewrite slice_from_ok by (rewrite len_drop; lia). cbn [bind].
    change (drop 1 [input]) with (@nil (list N)). change (1 <=? len (@nil (list N))) with false. cbv iota.
    cbn [bind]. rewrite drop_drop. do 4 f_equal. lia.
Qed.

Lemma order64_even : forall big hash2 inputs blocks key offset delta deltas flags fs fe out,
  (forall ins off, len ins = 2 -> Forall (fun i => 128 * blocks <= len i /\ bytes i) ins ->
     off < 2 ^ 64 ->
     hash2 ins blocks key off deltas flags fs fe
     = Ok (concat (all64 key flags fs fe off delta (map (take (128 * blocks)) ins)))) ->
  length key = 4%nat -> len inputs mod 2 = 0 ->
  Forall (fun i => 128 * blocks <= len i /\ bytes i) inputs ->
  32 * len inputs <= len out -> offset < 2 ^ 64 -> firstn 3 deltas = deltas64 3 delta ->
  hash_many_neon_on64 big hash2 inputs blocks key offset deltas flags fs fe out
  = Ok (concat (all64 key flags fs fe offset delta (map (take (128 * blocks)) inputs))
        ++ drop (32 * len inputs) out).
Proof.
  intros big hash2 inputs blocks key off delta deltas flags fs fe out H2 Lk M F Lo Ho T.
  unfold hash_many_neon_on64.
  destruct (loop_pairs (fun ins off => hash2 ins blocks key off deltas flags fs fe)
     (fun ins off out =>
       single_loop (fun i off => hash_one_neon_on64 big i blocks key off flags fs fe) deltas ins off out)
     key flags fs fe delta deltas (128 * blocks) T) with
     (n := N.to_nat (len inputs / 2)) (pre := inputs) (lasts := @nil (list N))
     (fuel := length inputs) (off := off) (out := out) as (hs & L & E & S); auto.
  - intros ins o Li Fi Hoo. eexists. split; [now apply H2|].
    destruct ins as [|a [|b [|? ?]]]; rewrite ?len_cons, ?len_nil in Li; try lia.
    cbn [map all64 concat]. rewrite !len_app, len_nil.
    assert (G : forall o i, len (one64 key flags fs fe o i) = 32).
    { intros o' i. unfold one64.
      destruct (list4 _ _ (chain64_length (blks64 (N.to_nat (len i / 128)) i) key o' (N.lor flags fs) flags fe Lk))
        as (x0 & x1 & x2 & x3 & ->). reflexivity. }
    rewrite !G. reflexivity.
  - pose proof (N.div_mod (len inputs) 2). lia.
  - reflexivity.
  - rewrite app_nil_r. lia.
  - rewrite app_nil_r. lia.
  - rewrite app_nil_r in E. rewrite E. rewrite (S H2). reflexivity.
Qed.

(* ---- one input whose hash is wrong ---- *)

Lemma dec_ne64 : forall a b : list N, (if list_eq_dec N.eq_dec a b then false else true) = true -> a <> b.
Proof. intros a b. destruct (list_eq_dec N.eq_dec a b) as [E|E]; [discriminate|auto]. Qed.

Lemma differs64 : swap_words64 (one64 (firstn 4 IV64) 0 1 2 0 (take (128 * 1) (sample 128)))
  <> one64 (firstn 4 IV64) 0 1 2 0 (take (128 * 1) (sample 128)).
Proof. apply dec_ne64. vm_compute. reflexivity. Qed.

Lemma order64_single : forall big hash2 input blocks key offset delta deltas flags fs fe out,
  length key = 4%nat -> 128 * blocks <= len input -> bytes input -> len out = 32 ->
  offset < 2 ^ 64 -> firstn 3 deltas = deltas64 3 delta ->
  let h := one64 key flags fs fe offset (take (128 * blocks) input) in
  hash_many_neon_on64 big hash2 [input] blocks key offset deltas flags fs fe out
  = Ok (if big then swap_words64 h else h) /\
  hash_many_portable [input] blocks key offset deltas flags fs fe out = Ok h.
Proof.
  intros big hash2 input blocks key off delta deltas flags fs fe out Lk L B Lo Ho T. cbv zeta.
  set (h := one64 key flags fs fe off (take (128 * blocks) input)).
  assert (F : Forall (fun i => 128 * blocks <= len i /\ bytes i) [input]) by (constructor; auto).
  assert (D : drop 32 out = []).
  { apply len_0_nil. rewrite len_drop. lia. }
  split.
  - assert (E : hash_many_neon_on64 big hash2 [input] blocks key off deltas flags fs fe out
            = hash_many_neon_on64 big (fun _ _ _ _ _ _ _ _ => Ok (zeros 64)) [input] blocks key off
                deltas flags fs fe out) by reflexivity.
    rewrite E. clear E.
    destruct (order64_odd big (fun _ _ _ _ _ _ _ _ => Ok (zeros 64)) [] input blocks key off
      delta deltas flags fs fe out) as (hs & Lh & E); auto.
    + intros ins o _ _ _. eexists. split; reflexivity.
    + rewrite len_nil. lia.
    + rewrite len_nil in *. apply len_0_nil in Lh. subst hs. cbn [app] in E. rewrite E.
      change (32 * (0 + 1)) with 32. rewrite D, app_nil_r.
      rewrite N.mul_0_l, N.add_0_r, N.mod_small by exact Ho. reflexivity.
  - destruct (c64_hash_many_all [input] blocks key off delta deltas flags fs fe out)
      as [P _]; auto.
    + rewrite len_cons, len_nil. lia.
    + rewrite P by (apply (table_less 3); auto). cbn [map all64 concat].
      rewrite N.mod_small by exact Ho. rewrite len_cons, len_nil. change (32 * (0 + 1)) with 32.
      change (32 * (1 + 0)) with 32. rewrite ?D, !app_nil_r. reflexivity.
Qed.

Lemma order64_refuted : ~ (forall big, exists hash2, forall inputs blocks key offset flags fs fe out,
  length key = 4%nat -> Forall (fun i => 128 * blocks <= len i /\ bytes i) inputs ->
  32 * len inputs <= len out -> offset < 2 ^ 64 ->
  hash_many_neon_on64 big hash2 inputs blocks key offset CHUNK_OFFSET_DELTAS flags fs fe out
  = hash_many_portable inputs blocks key offset CHUNK_OFFSET_DELTAS flags fs fe out).
Proof.
  intros A. destruct (A true) as [hash2 H].
  assert (G : 128 * 1 <= len (sample 128)) by (rewrite sample_len; discriminate).
  assert (Ho : 0 < 2 ^ 64) by reflexivity.
  pose proof (sample_bytes 128) as B. pose proof differs64 as D.
  generalize dependent (sample 128). intros input G B D.
  assert (Lk : length (firstn 4 IV64) = 4%nat) by reflexivity.
  generalize dependent (firstn 4 IV64). intros key D Lk.
  destruct (order64_single true hash2 input 1 key 0 4096 CHUNK_OFFSET_DELTAS 0 1 2 (zeros 32))
    as [E1 E2]; auto.
  specialize (H [input] 1 key 0 0 1 2 (zeros 32) Lk).
  rewrite E1, E2 in H. apply D. apply ok_inj64. apply H; auto.
  discriminate.
Qed.
