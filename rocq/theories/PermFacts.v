(* Proofs for Prop_Perm: for a fixed message block the rounds are injective. *)
From Coq Require Import NArith List Bool Lia ZArith.
From Coq Require Import ZifyBool ZifyNat ZifyN.
From Verif Require Import Base BaseFacts Spec CompressFacts SimdFacts SpecFacts Platform Lib SessionSpec Session.
From Verif Require Import ApiFacts OneShotFacts StreamFacts.
Import ListNotations.
Open Scope N_scope.

Lemma add32_inj : forall a a' b, word a -> word a' -> add32 a b = add32 a' b -> a = a'.
Proof.
  unfold word, add32. intros a a' b Ha Hb E.
  rewrite (N.add_mod a), (N.add_mod a' b) in E by discriminate.
  rewrite !(N.mod_small a), !(N.mod_small a') in E by assumption.
  assert (Hc : b mod W32 < W32) by (apply N.mod_upper_bound; discriminate).
  set (c := b mod W32) in *. clearbody c. unfold W32 in *.
  assert (S : forall x, x < 4294967296 -> (x + c) mod 4294967296 = x + c \/
                        (x + c) mod 4294967296 + 4294967296 = x + c).
  { intros x Hx. destruct (N.lt_ge_cases (x + c) 4294967296) as [L|L].
    - left. now apply N.mod_small.
    - right. replace (x + c) with ((x + c - 4294967296) + 1 * 4294967296) at 1 by lia.
      rewrite N.mod_add by discriminate. rewrite N.mod_small; lia. }
  destruct (S a Ha), (S a' Hb); pose proof (N.mod_upper_bound (a + c) 4294967296);
    pose proof (N.mod_upper_bound (a' + c) 4294967296); lia.
Qed.
Lemma xor32_inj : forall a a' b, xor32 a b = xor32 a' b -> a = a'.
Proof.
  unfold xor32. intros a a' b E. apply (f_equal (fun x => N.lxor x b)) in E.
  now rewrite !N.lxor_assoc, N.lxor_nilpotent, !N.lxor_0_r in E.
Qed.
Lemma rotr32_inj : forall n a a', 0 < n < 32 -> word a -> word a' -> rotr32 a n = rotr32 a' n -> a = a'.
Proof.
  unfold word, rotr32. intros n a a' Hn Ha Ha' E.
  destruct (rot_parts a n) as (P1 & P2 & P3); [lia|lia|].
  destruct (rot_parts a' n) as (Q1 & Q2 & Q3); [lia|lia|].
  rewrite P3, Q3, !lor_disjoint in E by assumption.
  rewrite (N.mod_small a), (N.mod_small a') in * by assumption.
  assert (Z : 2 ^ (32 - n) <> 0) by (apply N.pow_nonzero; discriminate).
  assert (Z' : 2 ^ n <> 0) by (apply N.pow_nonzero; discriminate).
  assert (E1 : N.shiftr a n = N.shiftr a' n).
  { apply (f_equal (fun x => x mod 2 ^ (32 - n))) in E. rewrite !N.mod_add in E by assumption.
    rewrite !N.mod_small in E by assumption. exact E. }
  assert (E2 : a mod 2 ^ n = a' mod 2 ^ n).
  { rewrite E1 in E. apply N.add_cancel_l in E. now apply N.mul_cancel_r in E. }
  rewrite (N.div_mod a (2 ^ n)), (N.div_mod a' (2 ^ n)) by assumption.
  rewrite <- P1, <- Q1, E1, E2. reflexivity.
Qed.

Lemma G_words : forall a b c d x y a' b' c' d', G a b c d x y = (a', b', c', d') ->
  word a' /\ word b' /\ word c' /\ word d'.
Proof.
  unfold G. intros a b c d x y a' b' c' d' E. injection E as <- <- <- <-.
  split; [apply add32_word|]. split; [apply rotr32_word|]. split; [apply add32_word|apply rotr32_word].
Qed.

Lemma G_inj : forall x y a b c d a' b' c' d', word a -> word b -> word c -> word d ->
  word a' -> word b' -> word c' -> word d' ->
  G a b c d x y = G a' b' c' d' x y -> a = a' /\ b = b' /\ c = c' /\ d = d'.
Proof.
  intros x y a b c d a' b' c' d' Ha Hb Hc Hd Ha' Hb' Hc' Hd' E. unfold G in E.
  pose proof add32_word as AW. pose proof rotr32_word as RW.
  remember (add32 (add32 a b) x) as a1 eqn:A1. remember (add32 (add32 a' b') x) as a1' eqn:A1'.
  remember (rotr32 (xor32 d a1) 16) as d1 eqn:D1. remember (rotr32 (xor32 d' a1') 16) as d1' eqn:D1'.
  remember (add32 c d1) as c1 eqn:C1. remember (add32 c' d1') as c1' eqn:C1'.
  remember (rotr32 (xor32 b c1) 12) as b1 eqn:B1. remember (rotr32 (xor32 b' c1') 12) as b1' eqn:B1'.
  remember (add32 (add32 a1 b1) y) as a2 eqn:A2. remember (add32 (add32 a1' b1') y) as a2' eqn:A2'.
  remember (rotr32 (xor32 d1 a2) 8) as d2 eqn:D2. remember (rotr32 (xor32 d1' a2') 8) as d2' eqn:D2'.
  remember (add32 c1 d2) as c2 eqn:C2. remember (add32 c1' d2') as c2' eqn:C2'.
  remember (rotr32 (xor32 b1 c2) 7) as b2 eqn:B2. remember (rotr32 (xor32 b1' c2') 7) as b2' eqn:B2'.
  injection E as EA EB EC ED.
  assert (W1 : word a1 /\ word a1') by (subst a1 a1'; auto).
  assert (W2 : word d1 /\ word d1') by (subst d1 d1'; auto).
  assert (W3 : word c1 /\ word c1') by (subst c1 c1'; auto).
  assert (W4 : word b1 /\ word b1') by (subst b1 b1'; auto).
  assert (W5 : word a2 /\ word a2') by (subst a2 a2'; auto).
  assert (W6 : word d2 /\ word d2') by (subst d2 d2'; auto).
  assert (W7 : word c2 /\ word c2') by (subst c2 c2'; auto).
  destruct W1, W2, W3, W4, W5, W6, W7.
  assert (X1 : b1 = b1').
  { rewrite B2, B2', EC in EB. apply rotr32_inj in EB; [now apply xor32_inj in EB|lia| |];
      apply xor32_word; auto; congruence. }
  assert (X2 : c1 = c1').
  { rewrite C2, C2', ED in EC. now apply add32_inj in EC. }
  assert (X3 : d1 = d1').
  { rewrite D2, D2', EA in ED. apply rotr32_inj in ED; [now apply xor32_inj in ED|lia| |];
      apply xor32_word; auto; congruence. }
  assert (X4 : a1 = a1').
  { rewrite A2, A2', X1 in EA. apply add32_inj in EA; auto. apply add32_inj in EA; auto. }
  assert (Y1 : b = b').
  { rewrite B1, B1', X2 in X1. apply rotr32_inj in X1; [now apply xor32_inj in X1|lia| |];
      apply xor32_word; auto; congruence. }
  assert (Y2 : c = c').
  { rewrite C1, C1', X3 in X2. now apply add32_inj in X2. }
  assert (Y3 : d = d').
  { rewrite D1, D1', X4 in X3. apply rotr32_inj in X3; [now apply xor32_inj in X3|lia| |];
      apply xor32_word; auto; congruence. }
  assert (Y4 : a = a').
  { rewrite A1, A1', Y1 in X4. apply add32_inj in X4; auto. apply add32_inj in X4; auto. }
  auto.
Qed.

Lemma round_inj : forall m v w, length m = 16%nat -> length v = 16%nat -> length w = 16%nat ->
  words v -> words w -> spec_round v m = spec_round w m -> v = w.
Proof.
  intros m v w Lm Lv Lw Wv Ww E.
  destruct (list16 m Lm) as (m0 & m1 & m2 & m3 & m4 & m5 & m6 & m7 & m8 & m9 & m10 & m11 & m12 & m13 & m14 & m15 & ->).
  destruct (list16 v Lv) as (v0 & v1 & v2 & v3 & v4 & v5 & v6 & v7 & v8 & v9 & v10 & v11 & v12 & v13 & v14 & v15 & ->).
  destruct (list16 w Lw) as (w0 & w1 & w2 & w3 & w4 & w5 & w6 & w7 & w8 & w9 & w10 & w11 & w12 & w13 & w14 & w15 & ->).
  unfold words in *. unfold spec_round in E.
  repeat match goal with H : Forall word (_ :: _) |- _ => inversion H; clear H; subst end.
  repeat match type of E with
    context [match G ?a ?b ?c ?d ?x ?y with _ => _ end] =>
      let Q := fresh "Q" in let r := fresh "r" in let s := fresh "s" in let t := fresh "t" in let u := fresh "u" in
      destruct (G a b c d x y) as [[[r s] t] u] eqn:Q; pose proof (G_words _ _ _ _ _ _ _ _ _ _ Q) as (? & ? & ? & ?)
    end.
  injection E. intros. subst.
  assert (Inj : forall x y a b c d a' b' c' d' r,
    G a b c d x y = r -> G a' b' c' d' x y = r -> word a -> word b -> word c -> word d ->
    word a' -> word b' -> word c' -> word d' -> a = a' /\ b = b' /\ c = c' /\ d = d').
  { intros xx yy aa bb cc dd aa' bb' cc' dd' rr E1 E2. intros. apply (G_inj xx yy); auto. now rewrite E1, E2. }
  do 8 match goal with
    H1 : G _ _ _ _ ?x ?y = ?r, H2 : G _ _ _ _ ?x ?y = ?r |- _ =>
      let I := fresh in
      pose proof (Inj _ _ _ _ _ _ _ _ _ _ _ H1 H2) as I;
      destruct I as (? & ? & ? & ?); [assumption..|]; subst; clear H2
    end.
  reflexivity.
Qed.

(* ---- rounds ---- *)

Lemma rounds_inj : forall ss m v w, Forall (fun s => length s = 16%nat) ss ->
  length v = 16%nat -> length w = 16%nat -> words v -> words w ->
  fold_left (fun v s => spec_round v (permute s m)) ss v
  = fold_left (fun v s => spec_round v (permute s m)) ss w -> v = w.
Proof.
  intros ss m. induction ss as [|s ss IH]; intros v w Hs Lv Lw Wv Ww E; [exact E|].
  inversion Hs as [|? ? Ls Hss]; subst. cbn [fold_left] in E.
  assert (Lp : length (permute s m) = 16%nat) by now rewrite permute_length.
  apply IH in E; [|assumption|now apply spec_round_length|now apply spec_round_length
                  |now apply spec_round_words|now apply spec_round_words].
  now apply round_inj in E.
Qed.

Lemma xors_inj : forall c a b, length a = length c -> length b = length c -> xors a c = xors b c -> a = b.
Proof.
  unfold xors. induction c as [|x c IH]; intros [|a0 a] [|b0 b] Ha Hb E; try discriminate; [reflexivity|].
  cbn [combine map fst snd] in E. injection E as E0 E1. apply xor32_inj in E0.
  rewrite E0. f_equal. apply IH; [now injection Ha|now injection Hb|exact E1].
Qed.
Lemma xors_length : forall a b, length a = length b -> length (xors a b) = length a.
Proof. intros a b H. unfold xors. rewrite map_length, combine_length. lia. Qed.
Lemma xors_words : forall a b, words a -> words b -> words (xors a b).
Proof.
  unfold xors, words. induction a as [|x a IH]; intros [|y b] Ha Hb; cbn [combine map]; constructor;
    inversion Ha; inversion Hb; subst; cbn [fst snd]; [now apply xor32_word|now apply IH].
Qed.

Lemma app_inj_len : forall (a b a' b' : list N), a ++ b = a' ++ b' -> length a = length a' -> a = a' /\ b = b'.
Proof.
  induction a as [|x a IH]; intros b [|y a'] b' E H; try discriminate; [now split|].
  cbn [app] in E. injection E as -> E. destruct (IH _ _ _ E) as [-> ->]; [now injection H|now split].
Qed.
Lemma off_word_lo : forall o, word (o mod W32).
Proof. intros o. apply N.mod_upper_bound. discriminate. Qed.

(* for one chaining value and one block, the length, the offset and the flags can be told from the output *)
Lemma compress_inj : forall cv block b o f b' o' f',
  length cv = 8%nat -> words cv -> o < W64 -> o' < W64 -> word b -> word f -> word b' -> word f' ->
  blake_compress cv block b o f = blake_compress cv block b' o' f' -> b = b' /\ o = o' /\ f = f'.
Proof.
  intros cv block b o f b' o' f' L W Ho Ho' Wb Wf Wb' Wf' E. unfold blake_compress in E. cbv zeta in E.
  set (m := words_of_bytes block) in *.
  set (v := cv ++ firstn 4 IV ++ [o mod W32; o / W32; b; f]) in *.
  set (v' := cv ++ firstn 4 IV ++ [o' mod W32; o' / W32; b'; f']) in *.
  assert (Lv : length v = 16%nat) by (unfold v; rewrite !app_length, L; reflexivity).
  assert (Lv' : length v' = 16%nat) by (unfold v'; rewrite !app_length, L; reflexivity).
  assert (HW : forall x, x < W64 -> word (x / W32)).
  { intros x Hx. unfold word. apply N.div_lt_upper_bound; [discriminate|exact Hx]. }
  assert (WI : words (firstn 4 IV)) by (repeat constructor).
  assert (Wv : words v).
  { unfold v. apply Forall_app. split; [exact W|]. apply Forall_app. split; [exact WI|].
    repeat (apply Forall_cons; [first [apply off_word_lo|now apply HW|assumption]|]). constructor. }
  assert (Wv' : words v').
  { unfold v'. apply Forall_app. split; [exact W|]. apply Forall_app. split; [exact WI|].
    repeat (apply Forall_cons; [first [apply off_word_lo|now apply HW|assumption]|]). constructor. }
  fold (rounds7 v m) in E. fold (rounds7 v' m) in E.
  pose proof (rounds7_length v m Lv) as R. pose proof (rounds7_length v' m Lv') as R'.
  assert (X : rounds7 v m = rounds7 v' m).
  { apply app_inj_len in E; [|rewrite !xors_length by (rewrite firstn_length, skipn_length; lia);
                             rewrite !firstn_length; lia].
    destruct E as [E1 E2]. apply xors_inj in E2; [|rewrite skipn_length; lia|rewrite skipn_length; lia].
    rewrite E2 in E1. apply xors_inj in E1; [|rewrite firstn_length, skipn_length; lia|rewrite firstn_length, skipn_length; lia].
    rewrite <- (firstn_skipn 8 (rounds7 v m)), <- (firstn_skipn 8 (rounds7 v' m)). now rewrite E1, E2. }
  apply rounds_inj in X; auto; [|repeat constructor].
  unfold v, v' in X. apply app_inv_head in X. apply app_inv_head in X. injection X as X1 X2 X3 X4.
  split; [exact X3|]. split; [|exact X4].
  rewrite (N.div_mod o W32), (N.div_mod o' W32) by discriminate. now rewrite X1, X2.
Qed.

(* ---- root nodes ---- *)

Definition plain (nd : node) : Prop :=
  nd_blen nd <= 64 /\ nd_flags nd < 64 /\ N.testbit (nd_flags nd) 3 = false.

Definition mode_flag (f : N) : Prop := f = 0 \/ f = 16 \/ f = 32.
Lemma mode_flags_flag : forall m, mode_flag (mode_flags m).
Proof. unfold mode_flag. intros [|k|k]; cbn; auto. Qed.

Lemma chunk_blocks_plain : forall bs cv off flags start, mode_flag flags -> start = 0 \/ start = 1 ->
  Forall (fun b => len b <= 64) bs -> plain (chunk_blocks blake_compress cv off flags start bs).
Proof.
  induction bs as [|b bs IH]; intros cv off flags start Hf Hs Hb.
  - cbn. unfold plain. cbn [nd_blen nd_flags]. split; [lia|]. split; [lia|reflexivity].
  - inversion Hb as [|? ? Lb Hb']; subst. destruct bs as [|b' bs].
    + cbn [chunk_blocks]. unfold plain. cbn [nd_blen nd_flags]. split; [exact Lb|].
      destruct Hf as [->|[->| ->]], Hs as [->| ->]; split; reflexivity.
    + change (plain (chunk_blocks blake_compress (firstn 8 (blake_compress cv b 64 off (N.lor flags start)))
        off flags 0 (b' :: bs))).
      apply IH; auto.
Qed.

Lemma subtree_plain : forall key flags, mode_flag flags -> forall k i cs,
  plain (subtree blake_compress key flags k i cs).
Proof.
  intros key flags Hf. induction k as [|k IH]; intros i cs; cbn [subtree].
  - unfold chunk_node. apply chunk_blocks_plain; [exact Hf|now right|]. apply pieces_bounds. lia.
  - destruct (len cs <=? _); [apply IH|]. unfold plain, parent_node. cbn [nd_blen nd_flags].
    split; [lia|]. destruct Hf as [->|[->| ->]]; split; reflexivity.
Qed.
Lemma spec_root_plain : forall m input, plain (spec_root blake_compress m input).
Proof. intros m input. apply subtree_plain, mode_flags_flag. Qed.

Lemma lor_root_inj : forall x y, N.testbit x 3 = false -> N.testbit y 3 = false ->
  N.lor x 8 = N.lor y 8 -> x = y.
Proof.
  intros x y Hx Hy E. apply N.bits_inj. intros n. destruct (N.eq_dec n 3) as [->|D]; [now rewrite Hx, Hy|].
  apply (f_equal (fun v => N.testbit v n)) in E. rewrite !N.lor_spec in E.
  replace (N.testbit 8 n) with false in E; [now rewrite !orb_false_r in E|].
  change 8 with (2 ^ 3). symmetry. apply N.pow2_bits_false. congruence.
Qed.
Lemma lor_root_word : forall x, x < 64 -> word (N.lor x 8).
Proof.
  intros x H. unfold word. change W32 with (2 ^ 32). destruct (N.eq_dec (N.lor x 8) 0) as [E|E]; [rewrite E; reflexivity|].
  apply N.log2_lt_pow2; [lia|]. rewrite N.log2_lor.
  assert (N.log2 x <= 5). { change 5 with (N.log2 63). apply N.log2_le_mono. lia. }
  change (N.log2 8) with 3. lia.
Qed.

Lemma compress_words : forall cv block b o f, length cv = 8%nat -> words cv ->
  words (blake_compress cv block b o f).
Proof.
  intros cv block b o f L W. unfold blake_compress. cbv zeta.
  set (v := cv ++ _). assert (Lv : length v = 16%nat) by (unfold v; rewrite !app_length, L; reflexivity).
  fold (rounds7 v (words_of_bytes block)).
  pose proof (rounds7_words v (words_of_bytes block) Lv) as R. unfold words in *.
  rewrite <- (firstn_skipn 8 (rounds7 v (words_of_bytes block))) in R. apply Forall_app in R. destruct R.
  apply Forall_app. split; now apply xors_words.
Qed.
Lemma bytes_of_words_inj : forall a b, words a -> words b -> bytes_of_words a = bytes_of_words b -> a = b.
Proof. intros a b Wa Wb E. rewrite <- (words_of_bytes_of_words a), <- (words_of_bytes_of_words b), E; auto. Qed.

Lemma root_block_inj : forall nd nd' i j, nd_wf nd -> plain nd -> plain nd' ->
  nd_cv nd' = nd_cv nd -> nd_block nd' = nd_block nd -> i < 2 ^ 58 -> j < 2 ^ 58 ->
  root_block blake_compress nd i = root_block blake_compress nd' j ->
  i = j /\ nd_blen nd = nd_blen nd' /\ nd_flags nd = nd_flags nd'.
Proof.
  intros nd nd' i j [L W _ _ _] (B & Fl & T) (B' & Fl' & T') Ec Eb Hi Hj E. unfold root_block in E.
  change (2 ^ 58) with 288230376151711744 in *.
  rewrite Ec, Eb in E. apply bytes_of_words_inj in E; [|now apply compress_words|now apply compress_words].
  apply compress_inj in E; auto; [|unfold W64; lia|unfold W64; lia|unfold word, W32; lia|now apply lor_root_word
                                  |unfold word, W32; lia|now apply lor_root_word].
  destruct E as (E1 & E2 & E3). split; [lia|]. split; [exact E1|]. now apply lor_root_inj in E3.
Qed.

Lemma blocks_distinct : forall m input i j, mode_ok m -> bytes input -> i < 2 ^ 58 -> j < 2 ^ 58 ->
  spec_block blake_compress m input i = spec_block blake_compress m input j -> i = j.
Proof.
  intros m input i j M B Hi Hj E. destruct (spec_root_wf m input M B) as [Wf _].
  apply root_block_inj in E; auto using spec_root_plain. apply E.
Qed.

Lemma nodup_nth : forall (l : list (list N)),
  (forall a b x, nth_error l a = Some x -> nth_error l b = Some x -> a = b) -> NoDup l.
Proof.
  intros l H. apply NoDup_nth_error. intros i j Hi E.
  destruct (nth_error l i) eqn:Ei; [|apply nth_error_Some in Hi; congruence].
  apply (H i j l0); [exact Ei|now rewrite <- E].
Qed.
Lemma nodup_blocks : forall m input bs n, mode_ok m -> bytes input -> N.of_nat n <= 2 ^ 58 -> length bs = n ->
  (forall k, (k < n)%nat -> nth_error bs k = Some (spec_block blake_compress m input (N.of_nat k))) -> NoDup bs.
Proof.
  intros m input bs n M B Hn Hl H. apply nodup_nth. intros a b x Ea Eb.
  assert (La : (a < n)%nat) by (rewrite <- Hl; apply nth_error_Some; congruence).
  assert (Lb : (b < n)%nat) by (rewrite <- Hl; apply nth_error_Some; congruence).
  rewrite (H a La) in Ea. rewrite (H b Lb) in Eb.
  assert (E : spec_block blake_compress m input (N.of_nat a) = spec_block blake_compress m input (N.of_nat b)) by congruence.
  apply blocks_distinct in E; auto; lia.
Qed.

Theorem oneshot_nodup : forall c p m input n,
  platform_ok c p -> mode_ok m -> bytes input -> len input < WU c -> N.of_nat n < 2 ^ 58 ->
  exists o bs o', oneshot_xof c p m input = Ok o /\ reads c n o = Ok (bs, o') /\ length bs = n /\ NoDup bs.
Proof.
  intros c p m input n P M B L Hn. destruct (xof_stream c p m input n P M B L Hn) as (o & bs & o' & E1 & E2 & E3 & _ & E5 & _).
  exists o, bs, o'. split; [exact E1|]. split; [exact E2|]. split; [exact E3|].
  apply (nodup_blocks m input bs n); auto. lia.
Qed.

Theorem release_period : forall c p m input n,
  platform_ok c p -> mode_ok m -> bytes input -> len input < WU c -> dbg c = false ->
  exists o bs o', oneshot_xof c p m input = Ok o /\ reads c n o = Ok (bs, o') /\ length bs = n /\
    forall k l, (k < n)%nat -> (l < n)%nat ->
      (nth_error bs k = nth_error bs l <-> N.of_nat k mod 2 ^ 58 = N.of_nat l mod 2 ^ 58).
Proof.
  intros c p m input n P M B L D.
  destruct (xof_release_repeats c p m input n P M B L D) as (o & bs & o' & E1 & E2 & E3 & E4).
  exists o, bs, o'. split; [exact E1|]. split; [exact E2|]. split; [exact E3|].
  intros k l Hk Hl. rewrite (E4 k Hk), (E4 l Hl). change MAX_BLOCKS with (2 ^ 58). split.
  - intros E. assert (E' : spec_block blake_compress m input (N.of_nat k mod 2 ^ 58)
                         = spec_block blake_compress m input (N.of_nat l mod 2 ^ 58)) by (injection E as E; exact E).
    apply blocks_distinct in E'; auto; apply N.mod_upper_bound; discriminate.
  - intros ->. reflexivity.
Qed.

Theorem stream_nodup : forall c p m inputs n,
  platform_ok c p -> mode_ok m -> Forall bytes inputs -> len (concat inputs) < 2 ^ 64 -> N.of_nat n < 2 ^ 58 ->
  exists h o bs o', feed c (start p m) inputs = Ok h /\ finalize_xof c h = Ok o /\
    reads c n o = Ok (bs, o') /\ length bs = n /\ NoDup bs.
Proof.
  intros c p m inputs n P M B L Hn.
  destruct (streaming_ok c p m inputs P M B L) as (h & E1 & _ & E2).
  assert (Bc : bytes (concat inputs)) by now apply Forall_concat.
  do 4 eexists. split; [exact E1|]. split; [exact E2|].
  rewrite reads_ok by (auto; now apply spec_root_wf). split; [reflexivity|].
  rewrite map_length, seq_length. split; [reflexivity|].
  apply (nodup_blocks m (concat inputs) _ n); auto; [lia|now rewrite map_length, seq_length|].
  intros k Hk. now apply nth_error_blocks.
Qed.

(* ---- padding and modes ---- *)

Lemma pad64_zeros : forall x k, len x + k <= 64 -> pad64 (x ++ zeros k) = pad64 x.
Proof.
  intros x k H. unfold pad64. rewrite len_app, len_zeros, <- app_assoc. f_equal.
  unfold zeros. rewrite <- repeat_app. f_equal. lia.
Qed.

Lemma chunk_pad : forall x k cv off flags start, 0 < k -> (len x - 1) / 64 = (len x + k - 1) / 64 ->
  let nd := chunk_blocks blake_compress cv off flags start (pieces 64 x) in
  let nd' := chunk_blocks blake_compress cv off flags start (pieces 64 (x ++ zeros k)) in
  nd_cv nd' = nd_cv nd /\ nd_block nd' = nd_block nd /\ nd_blen nd <> nd_blen nd'.
Proof.
  intros x k. induction x as [x IH] using list_len_ind. intros cv off flags start Hk E.
  destruct (N.le_gt_cases (len x) 64) as [H|H].
  - assert (len x + k <= 64) by lia.
    rewrite !pieces_short by (rewrite ?len_app, ?len_zeros; lia). cbn [chunk_blocks nd_cv nd_block nd_blen].
    split; [reflexivity|]. split; [now apply pad64_zeros|]. rewrite len_app, len_zeros. lia.
  - rewrite (pieces_step _ _ x), (pieces_step _ _ (x ++ zeros k)) by (rewrite ?len_app, ?len_zeros; lia).
    rewrite take_app_le, drop_app_le by lia.
    pose proof (pieces_len_1 _ 64 (drop 64 x)) as P1.
    pose proof (pieces_len_1 _ 64 (drop 64 x ++ zeros k)) as P2.
    specialize (IH (drop 64 x)).
    destruct (pieces 64 (drop 64 x)) as [|b1 r1] eqn:E1; [rewrite len_nil in P1; lia|].
    destruct (pieces 64 (drop 64 x ++ zeros k)) as [|b2 r2] eqn:E2; [rewrite len_nil in P2; lia|].
    cbn [chunk_blocks]. apply IH; [rewrite len_drop; lia|exact Hk|rewrite len_drop; lia].
Qed.

Theorem padding_distinct : forall m x k i j, mode_ok m -> bytes x -> 0 < k -> len x + k <= 2048 ->
  (len x - 1) / 64 = (len x + k - 1) / 64 -> i < 2 ^ 58 -> j < 2 ^ 58 ->
  spec_block blake_compress m x i <> spec_block blake_compress m (x ++ zeros k) j.
Proof.
  intros m x k i j M B Hk L Q Hi Hj E. destruct (spec_root_wf m x M B) as [Wf _].
  destruct (chunk_pad x k (mode_key m) (2048 * 0) (mode_flags m) CHUNK_START Hk Q) as (A1 & A2 & A3).
  assert (R1 : spec_root blake_compress m x
    = chunk_blocks blake_compress (mode_key m) (2048 * 0) (mode_flags m) CHUNK_START (pieces 64 x)).
  { unfold spec_root. rewrite root_node_small by lia. reflexivity. }
  assert (R2 : spec_root blake_compress m (x ++ zeros k)
    = chunk_blocks blake_compress (mode_key m) (2048 * 0) (mode_flags m) CHUNK_START (pieces 64 (x ++ zeros k))).
  { unfold spec_root. rewrite root_node_small by (rewrite len_app, len_zeros; lia). reflexivity. }
  apply root_block_inj in E; auto using spec_root_plain.
  - destruct E as (_ & E & _). rewrite R1, R2 in E. now apply A3.
  - now rewrite R1, R2.
  - now rewrite R1, R2.
Qed.

Theorem modes_distinct : forall m m' x i j, mode_ok m -> mode_ok m' -> bytes x -> len x <= 64 ->
  mode_key m = mode_key m' -> mode_flags m <> mode_flags m' -> i < 2 ^ 58 -> j < 2 ^ 58 ->
  spec_block blake_compress m x i <> spec_block blake_compress m' x j.
Proof.
  intros m m' x i j M M' B L K Fl Hi Hj E. destruct (spec_root_wf m x M B) as [Wf _].
  assert (R : forall m, spec_root blake_compress m x
    = Nd (mode_key m) (pad64 x) (len x) 0 (N.lor (N.lor (mode_flags m) CHUNK_START) CHUNK_END)).
  { intros m0. unfold spec_root. rewrite root_node_small by lia. unfold chunk_node.
    rewrite pieces_short by lia. reflexivity. }
  apply root_block_inj in E; auto using spec_root_plain.
  - destruct E as (_ & _ & E). rewrite !R in E. cbn [nd_flags] in E. apply Fl.
    destruct m, m'; cbn in E |- *; (reflexivity || discriminate E).
  - now rewrite !R.
  - now rewrite !R.
Qed.

Theorem padding_api : forall c p m x k o o' b b' r r' n n' bs bs', platform_ok c p -> mode_ok m -> bytes x -> 0 < k ->
  len x + k <= 2048 -> (len x - 1) / 64 = (len x + k - 1) / 64 ->
  N.of_nat n < 2 ^ 58 -> N.of_nat n' < 2 ^ 58 ->
  oneshot_xof c p m x = Ok o -> oneshot_xof c p m (x ++ zeros k) = Ok o' ->
  reads c n o = Ok (bs, r) -> reads c n' o' = Ok (bs', r') -> In b bs -> In b' bs' -> b <> b'.
Proof.
  intros c p m x k o o' b b' r r' n n' bs bs' P M B Hk L Q Hn Hn' O1 O2 R1 R2 I1 I2.
  assert (L1 : len x + k < WU c) by (unfold WU, W64, W32; clear - L; destruct (w64 c); lia).
  assert (Bz : bytes (x ++ zeros k)) by (apply Forall_app; split; [exact B|apply bytes_zeros]).
  rewrite oneshot_xof_ok in O1, O2 by (auto; rewrite ?len_app, ?len_zeros; lia).
  injection O1 as <-. injection O2 as <-.
  rewrite reads_ok in R1, R2 by (auto; now apply spec_root_wf).
  injection R1 as <- <-. injection R2 as <- <-.
  apply in_map_iff in I1, I2. destruct I1 as (i & <- & Hi), I2 as (j & <- & Hj).
  apply in_seq in Hi, Hj. apply (padding_distinct m x k); auto; lia.
Qed.

Theorem modes_api : forall c p m m' x o o' b b' r r' n n' bs bs', platform_ok c p -> mode_ok m -> mode_ok m' -> bytes x ->
  len x <= 64 -> mode_key m = mode_key m' -> mode_flags m <> mode_flags m' ->
  N.of_nat n < 2 ^ 58 -> N.of_nat n' < 2 ^ 58 ->
  oneshot_xof c p m x = Ok o -> oneshot_xof c p m' x = Ok o' ->
  reads c n o = Ok (bs, r) -> reads c n' o' = Ok (bs', r') -> In b bs -> In b' bs' -> b <> b'.
Proof.
  intros c p m m' x o o' b b' r r' n n' bs bs' P M M' B L K Fl Hn Hn' O1 O2 R1 R2 I1 I2.
  assert (L1 : len x < WU c) by (unfold WU, W64, W32; clear - L; destruct (w64 c); lia).
  rewrite oneshot_xof_ok in O1, O2 by auto.
  injection O1 as <-. injection O2 as <-.
  rewrite reads_ok in R1, R2 by (auto; now apply spec_root_wf).
  injection R1 as <- <-. injection R2 as <- <-.
  apply in_map_iff in I1, I2. destruct I1 as (i & <- & Hi), I2 as (j & <- & Hj).
  apply in_seq in Hi, Hj. apply (modes_distinct m m' x); auto; lia.
Qed.

Theorem keyed_derive_api : forall c p key x o o' b b' r r' n n' bs bs', platform_ok c p ->
  bytes key -> len key = 32 -> bytes x -> len x <= 64 -> N.of_nat n < 2 ^ 58 -> N.of_nat n' < 2 ^ 58 ->
  oneshot_xof c p (Keyed key) x = Ok o -> oneshot_xof c p (Deriving key) x = Ok o' ->
  reads c n o = Ok (bs, r) -> reads c n' o' = Ok (bs', r') -> In b bs -> In b' bs' -> b <> b'.
Proof.
  intros c p key x o o' b b' r r' n n' bs bs' P K Lk B L.
  assert (M : mode_ok (Keyed key)) by (split; [unfold len in Lk; lia|exact K]). assert (M' : mode_ok (Deriving key)) by exact M.
  assert (Fl : mode_flags (Keyed key) <> mode_flags (Deriving key)) by discriminate.
  exact (modes_api c p (Keyed key) (Deriving key) x o o' b b' r r' n n' bs bs' P M M' B L eq_refl Fl).
Qed.
