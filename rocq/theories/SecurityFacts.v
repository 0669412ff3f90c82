(* The calls of the compression function: flags, locality, count, and the reduction of
   collisions. *)
From Coq Require Import NArith List Bool Lia ZArith Permutation.
From Coq Require Import ZifyBool ZifyNat ZifyN.
From Verif Require Import Base BaseFacts Spec TreeFacts CompressFacts SpecFacts SplitFacts Calls.
From Verif Require Import Portable Platform Lib Session ApiFacts HashFacts OneShotFacts.
Import ListNotations.
Open Scope N_scope.

Notation F0 := blake_compress.

(* ---- the tree as a relation ---- *)

(* blocks of a chunk: all full but the last *)
Fixpoint blocks_ok (bs : list (list N)) : Prop :=
  match bs with
  | [] => False
  | [b] => len b <= 64
  | b :: rest => len b = 64 /\ blocks_ok rest
  end.

Lemma pieces_blocks_ok : forall l : list N, blocks_ok (pieces 64 l).
Proof.
  apply (list_len_ind _ (fun l => blocks_ok (pieces 64 l))). intros l IH.
  destruct (N.le_gt_cases (len l) 64) as [H|H].
  - rewrite pieces_short by lia. exact H.
  - rewrite pieces_step by lia.
    specialize (IH (drop 64 l)). 
    assert (L : len (take 64 l) = 64) by (rewrite len_take; lia).
    assert (G : blocks_ok (pieces 64 (drop 64 l))).
    { apply IH. pose proof (len_drop _ 64 l). unfold len in *. lia. }
    cbn [blocks_ok]. destruct (pieces 64 (drop 64 l)); [contradiction|]. auto.
Qed.

Section Tree.
Variable F : cfun.

Inductive built (key : list N) (flags : N) : N -> list (list N) -> node -> list node -> Prop :=
| b_chunk : forall i c, 
    built key flags i [c] (chunk_node F key flags i c)
      (chunk_calls F key (2048 * i) flags Spec.CHUNK_START (pieces 64 c))
| b_parent : forall i a b na nb ca cb,
    built key flags i a na ca -> built key flags (i + len a) b nb cb ->
    built key flags i (a ++ b) (parent_node key flags (chain F na) (chain F nb))
      (ca ++ [na] ++ cb ++ [nb]).

Lemma subtree_built : forall key flags k i cs, 1 <= len cs -> len cs <= 2 ^ N.of_nat k ->
  built key flags i cs (subtree F key flags k i cs) (subtree_calls F key flags k i cs).
Proof.
  induction k as [|k IH]; intros i cs H1 H2.
  - cbn in H2. destruct cs as [|c [|d r]]; rewrite ?len_cons, ?len_nil in *; try lia.
    cbn [subtree subtree_calls hd]. apply b_chunk.
  - cbn [subtree subtree_calls]. cbv zeta. rewrite Nat2N.inj_succ, N.pow_succ_r' in H2.
    destruct (N.leb_spec (len cs) (2 ^ N.of_nat k)) as [H|H]; [now apply IH|].
    pose proof (pow2_pos (N.of_nat k)) as Hp.
    rewrite <- (take_drop _ (2 ^ N.of_nat k) cs) at 1.
    apply b_parent.
    + apply IH; rewrite len_take; lia.
    + rewrite len_take, N.min_l by lia. apply IH; rewrite len_drop; lia.
Qed.

Lemma input_built : forall m input,
  built (mode_key m) (mode_flags m) 0 (pieces 2048 input) (spec_root F m input)
    (interior_calls F m input).
Proof.
  intros m input. apply subtree_built.
  - now apply pieces_len_1.
  - rewrite N2Nat.id. pose proof (pieces_len_1 _ 2048 input eq_refl).
    destruct (N.eq_dec (len (pieces 2048 input)) 1) as [E|E]; [rewrite E; reflexivity|].
    apply N.log2_up_spec. lia.
Qed.

(* ---- flags ---- *)

Definition mode_bits (flags : N) : Prop := flags = 0 \/ flags = 16 \/ flags = 32.

Lemma mode_flags_bits : forall m, mode_bits (mode_flags m).
Proof. intros [|k|k]; [left|right; left|right; right]; reflexivity. Qed.

(* calls below the root: the mode bits are those of the mode, ROOT is not set *)
Definition plain (flags : N) (x : node) : Prop :=
  N.land (nd_flags x) 56 = flags.

Lemma chunk_calls_plain : forall bs cv off flags start, mode_bits flags -> start = 0 \/ start = 1 ->
  Forall (plain flags) (chunk_calls F cv off flags start bs).
Proof.
  induction bs as [|b [|b' r] IH]; intros cv off flags start M S; cbn [chunk_calls]; constructor.
  - unfold plain. cbn [nd_flags]. destruct M as [->|[->| ->]], S as [->| ->]; reflexivity.
  - apply IH; auto.
Qed.

Lemma chunk_blocks_plain : forall bs cv off flags start, blocks_ok bs -> mode_bits flags ->
  start = 0 \/ start = 1 -> plain flags (chunk_blocks F cv off flags start bs).
Proof.
  induction bs as [|b [|b' r] IH]; intros cv off flags start B M S; cbn [chunk_blocks].
  - contradiction.
  - unfold plain. cbn [nd_flags]. destruct M as [->|[->| ->]], S as [->| ->]; reflexivity.
  - apply IH; auto. apply B.
Qed.

Lemma parent_plain : forall key flags l r, mode_bits flags -> plain flags (parent_node key flags l r).
Proof. intros key flags l r [->|[->| ->]]; reflexivity. Qed.

Lemma built_plain : forall key flags i cs nd l, mode_bits flags -> built key flags i cs nd l ->
  plain flags nd /\ Forall (plain flags) l.
Proof.
  intros key flags i cs nd l M. induction 1 as [i c|i a b na nb ca cb Ba IHa Bb IHb].
  - split.
    + apply chunk_blocks_plain; auto. apply pieces_blocks_ok.
    + apply chunk_calls_plain; auto.
  - split; [now apply parent_plain|].
    destruct IHa as [A1 A2], IHb as [B1 B2].
    rewrite !Forall_app. repeat split; auto.
Qed.

Lemma interior_plain : forall m input,
  plain (mode_flags m) (spec_root F m input) /\ Forall (plain (mode_flags m)) (interior_calls F m input).
Proof.
  intros m input. eapply built_plain; [apply mode_flags_bits|apply input_built].
Qed.

Lemma land_lor_root : forall x f, N.land x 56 = f -> mode_bits f ->
  N.land (N.lor x 8) 56 = N.lor f 8.
Proof. intros x f H M. rewrite N.land_lor_distr_l, H. reflexivity. Qed.

Lemma root_call_flags : forall m input k,
  N.land (nd_flags (root_call F m input k)) 56 = N.lor (mode_flags m) 8.
Proof.
  intros m input k. cbn [root_call nd_flags]. apply land_lor_root.
  - apply interior_plain.
  - apply mode_flags_bits.
Qed.

(* ---- no collision means equality ---- *)

Hypothesis Fok : cfun_ok F.

Definition apart (A B : list node) : Prop :=
  forall a b, In a A -> In b B -> chain F a = chain F b -> a = b.

Lemma apart_sub : forall A B A' B', apart A B -> incl A' A -> incl B' B -> apart A' B'.
Proof. intros A B A' B' H HA HB a b Ia Ib. apply H; auto. Qed.

Lemma lor_end : forall f s f' s', mode_bits f -> mode_bits f' -> s = 0 \/ s = 1 -> s' = 0 \/ s' = 1 ->
  N.lor (N.lor f s) 2 = N.lor (N.lor f' s') 2 -> f = f' /\ s = s'.
Proof.
  intros f s f' s' [->|[->| ->]] [->|[->| ->]] [->| ->] [->| ->]; cbn; intros E;
    try discriminate; auto.
Qed.
Lemma lor_start : forall f s f' s', mode_bits f -> mode_bits f' -> s = 0 \/ s = 1 -> s' = 0 \/ s' = 1 ->
  N.lor f s = N.lor f' s' -> f = f' /\ s = s'.
Proof.
  intros f s f' s' [->|[->| ->]] [->|[->| ->]] [->| ->] [->| ->]; cbn; intros E;
    try discriminate; auto.
Qed.

Lemma pad64_inj : forall a b, pad64 a = pad64 b -> len a = len b -> a = b.
Proof.
  intros a b H L. unfold pad64 in H. rewrite L in H. now apply app_inv_tail in H.
Qed.

(* two chains of blocks of the same number *)
Lemma blocks_equal : forall bs bs' cv cv' off off' f f' s s',
  length bs = length bs' -> blocks_ok bs -> blocks_ok bs' ->
  mode_bits f -> mode_bits f' -> s = 0 \/ s = 1 -> s' = 0 \/ s' = 1 ->
  apart (chunk_calls F cv off f s bs) (chunk_calls F cv' off' f' s' bs') ->
  chunk_blocks F cv off f s bs = chunk_blocks F cv' off' f' s' bs' ->
  bs = bs' /\ cv = cv' /\ off = off' /\ f = f' /\ s = s'.
Proof.
  induction bs as [|b r IH]; intros [|b' r'] cv cv' off off' f f' s s' L B B' M M' S S' A E;
    try contradiction; try discriminate.
  destruct r as [|c r], r' as [|c' r']; try discriminate.
  - cbn [chunk_blocks] in E. injection E as E1 E2 E3 E4 E5.
    pose proof (pad64_inj _ _ E2 E3) as ->.
    destruct (lor_end f s f' s' M M' S S' E5) as [-> ->]. auto.
  - cbn [chunk_blocks] in E. fold (chunk_blocks F) in E.
    set (x := Nd cv b 64 off (N.lor f s)). set (x' := Nd cv' b' 64 off' (N.lor f' s')).
    destruct (IH (c' :: r') (firstn 8 (F cv b 64 off (N.lor f s))) (firstn 8 (F cv' b' 64 off' (N.lor f' s')))
      off off' f f' 0 0) as (Er & Ecv & Eo & Ef & _); auto.
    { apply B. }
    { apply B'. }
    { intros a a' Ia Ia'. apply A; cbn [chunk_calls]; now right. }
    assert (X : x = x').
    { apply A; [now left|now left|]. unfold chain, x, x'. cbn [nd_cv nd_block nd_blen nd_off nd_flags].
      now rewrite Ecv. }
    unfold x, x' in X. injection X as X1 X2 X3 X4.
    destruct (lor_start f s f' s' M M' S S' X4) as [-> ->]. subst. now rewrite Er.
Qed.

(* dropping the first blocks *)
Lemma blocks_suffix : forall pre suf cv off f s, pre <> [] -> suf <> [] -> 
  exists cv', chunk_blocks F cv off f s (pre ++ suf) = chunk_blocks F cv' off f 0 suf /\
    incl (chunk_calls F cv' off f 0 suf) (chunk_calls F cv off f s (pre ++ suf)).
Proof.
  induction pre as [|b pre IH]; intros suf cv off f s N1 N2; [contradiction|].
  destruct pre as [|b2 pre].
  - cbn [app]. destruct suf as [|c suf]; [contradiction|].
    exists (firstn 8 (F cv b 64 off (N.lor f s))). split; [reflexivity|].
    intros x Hx. right. exact Hx.
  - destruct (IH suf (firstn 8 (F cv b 64 off (N.lor f s))) off f 0) as (cv' & E & I); auto; [discriminate|].
    exists cv'. split; [exact E|]. intros x Hx. right. now apply I.
Qed.

Lemma blocks_ok_suffix : forall pre suf, suf <> [] -> blocks_ok (pre ++ suf) -> blocks_ok suf.
Proof.
  induction pre as [|b pre IH]; intros suf N B; [exact B|]. apply IH; auto.
  cbn [app blocks_ok] in B. destruct (pre ++ suf) eqn:E; [|apply B].
  apply app_eq_nil in E. destruct E as [_ ->]. contradiction.
Qed.

(* a chain of blocks that starts with CHUNK_START is not the end of a longer one *)
Lemma blocks_shorter : forall bs bs' cv cv' off off' f f' s',
  (length bs < length bs')%nat -> blocks_ok bs -> blocks_ok bs' -> mode_bits f -> mode_bits f' ->
  s' = 0 \/ s' = 1 ->
  apart (chunk_calls F cv off f 1 bs) (chunk_calls F cv' off' f' s' bs') ->
  chunk_blocks F cv off f 1 bs <> chunk_blocks F cv' off' f' s' bs'.
Proof.
  intros bs bs' cv cv' off off' f f' s' L B B' M M' S' A E.
  assert (Nb : bs <> []) by (intros ->; contradiction).
  assert (Lb : (0 < length bs)%nat) by (destruct bs; [contradiction|cbn; lia]).
  set (k := (length bs' - length bs)%nat).
  assert (Es : bs' = firstn k bs' ++ skipn k bs') by (symmetry; apply firstn_skipn).
  assert (L1 : length (firstn k bs') = k) by (rewrite firstn_length; lia).
  assert (L2 : length (skipn k bs') = length bs) by (rewrite skipn_length; lia).
  destruct (blocks_suffix (firstn k bs') (skipn k bs') cv' off' f' s') as (cv2 & E2 & I2).
  { intros Z. rewrite Z in L1. cbn in L1. lia. }
  { intros Z. rewrite Z in L2. cbn in L2. lia. }
  rewrite <- Es in E2, I2. rewrite E2 in E.
  destruct (blocks_equal bs (skipn k bs') cv cv2 off off' f f' 1 0) as (_ & _ & _ & _ & Z); auto.
  - apply (blocks_ok_suffix (firstn k bs')); [intros Z; rewrite Z in L2; cbn in L2; lia|].
    now rewrite <- Es.
  - eapply apart_sub; [exact A|apply incl_refl|exact I2].
  - discriminate.
Qed.

Lemma apart_sym : forall A B, apart A B -> apart B A.
Proof. intros A B H a b Ia Ib E. symmetry. apply H; auto. Qed.

Lemma chunk_equal : forall key key' f f' i i' c c', mode_bits f -> mode_bits f' ->
  apart (chunk_calls F key (2048 * i) f Spec.CHUNK_START (pieces 64 c))
        (chunk_calls F key' (2048 * i') f' Spec.CHUNK_START (pieces 64 c')) ->
  chunk_node F key f i c = chunk_node F key' f' i' c' ->
  c = c' /\ key = key' /\ i = i' /\ f = f'.
Proof.
  intros key key' f f' i i' c c' M M' A E. unfold chunk_node in E.
  change Spec.CHUNK_START with 1 in *.
  pose proof (pieces_blocks_ok c) as B. pose proof (pieces_blocks_ok c') as B'.
  destruct (Nat.lt_trichotomy (length (pieces 64 c)) (length (pieces 64 c'))) as [L|[L|L]].
  - exfalso. eapply blocks_shorter; [exact L|exact B|exact B'|exact M|exact M'| |exact A|exact E]. auto.
  - destruct (blocks_equal _ _ _ _ _ _ _ _ _ _ L B B' M M' (or_intror eq_refl) (or_intror eq_refl) A E)
      as (E1 & E2 & E3 & E4 & _).
    apply (f_equal (@concat N)) in E1. rewrite !pieces_concat in E1 by reflexivity.
    repeat split; auto. lia.
  - exfalso. eapply blocks_shorter; [exact L|exact B'|exact B|exact M'|exact M| |apply apart_sym, A|symmetry; exact E].
    auto.
Qed.

Lemma chunk_parent_flag : forall bs cv off f s, blocks_ok bs -> mode_bits f -> s = 0 \/ s = 1 ->
  N.land (nd_flags (chunk_blocks F cv off f s bs)) 4 = 0.
Proof.
  induction bs as [|b [|b' r] IH]; intros cv off f s B M S; cbn [chunk_blocks].
  - contradiction.
  - cbn [nd_flags]. destruct M as [->|[->| ->]], S as [->| ->]; reflexivity.
  - apply IH; auto. apply B.
Qed.

Lemma len_chain : forall nd, length (nd_cv nd) = 8%nat -> len (chain F nd) = 32.
Proof.
  intros nd H. unfold chain. rewrite len_bytes_of_words. unfold len.
  rewrite firstn_length, Fok by exact H. reflexivity.
Qed.

Lemma chunk_blocks_cv : forall bs cv off f s, length cv = 8%nat ->
  length (nd_cv (chunk_blocks F cv off f s bs)) = 8%nat.
Proof.
  induction bs as [|b [|b' r] IH]; intros cv off f s L; cbn [chunk_blocks]; auto.
  apply IH. rewrite firstn_length, Fok by exact L. reflexivity.
Qed.

Lemma built_cv : forall key f i cs nd l, length key = 8%nat -> built key f i cs nd l ->
  length (nd_cv nd) = 8%nat.
Proof.
  intros key f i cs nd l L H. destruct H; [now apply chunk_blocks_cv|exact L].
Qed.

Lemma built_equal : forall key f i cs nd l, mode_bits f -> length key = 8%nat ->
  built key f i cs nd l ->
  forall key' f' i' cs' nd' l', mode_bits f' -> length key' = 8%nat -> built key' f' i' cs' nd' l' ->
  apart l l' -> nd = nd' -> cs = cs' /\ key = key' /\ f = f'.
Proof.
  intros key f i cs nd l M K H.
  induction H as [i c|i a b na nb ca cb Ba IHa Bb IHb]; intros key' f' i' cs' nd' l' M' K' H' A E.
  - destruct H' as [i' c'|i' a' b' na' nb' ca' cb' Ba' Bb'].
    + destruct (chunk_equal _ _ _ _ _ _ _ _ M M' A E) as (-> & -> & _ & ->). auto.
    + exfalso. assert (Z : N.land (nd_flags (chunk_node F key f i c)) 4 = 0).
      { apply chunk_parent_flag; auto. apply pieces_blocks_ok. }
      rewrite E in Z. cbn [parent_node nd_flags] in Z. destruct M' as [->|[->| ->]]; discriminate Z.
  - destruct H' as [i' c'|i' a' b' na' nb' ca' cb' Ba' Bb'].
    + exfalso. assert (Z : N.land (nd_flags (chunk_node F key' f' i' c')) 4 = 0).
      { apply chunk_parent_flag; auto. apply pieces_blocks_ok. }
      rewrite <- E in Z. cbn [parent_node nd_flags] in Z. destruct M as [->|[->| ->]]; discriminate Z.
    + unfold parent_node in E. injection E as E1 E2 E3.
      pose proof (len_chain _ (built_cv _ _ _ _ _ _ K Ba)) as La.
      pose proof (len_chain _ (built_cv _ _ _ _ _ _ K Bb)) as Lb.
      pose proof (len_chain _ (built_cv _ _ _ _ _ _ K' Ba')) as La'.
      pose proof (len_chain _ (built_cv _ _ _ _ _ _ K' Bb')) as Lb'.
      assert (Ea : chain F na = chain F na').
      { apply (f_equal (take 32)) in E2. now rewrite !take_app_eq in E2 by assumption. }
      assert (Eb : chain F nb = chain F nb').
      { apply (f_equal (drop 32)) in E2. now rewrite !drop_app_eq in E2 by assumption. }
      assert (Na : na = na').
      { apply A; auto; apply in_or_app; right; now left. }
      assert (Nb : nb = nb').
      { apply A; auto; do 3 (apply in_or_app; right); now left. }
      destruct (IHa _ _ _ _ _ _ M' K' Ba') as (-> & -> & ->); auto.
      { eapply apart_sub; [exact A| |]; intros x Hx; apply in_or_app; now left. }
      destruct (IHb _ _ _ _ _ _ M' K' Bb') as (-> & _ & _); auto.
      { eapply apart_sub; [exact A| |]; intros x Hx; do 2 (apply in_or_app; right);
          apply in_or_app; now left. }
Qed.

(* ---- the root ---- *)

Lemma root_off : forall m input, nd_off (spec_root F m input) = 0.
Proof.
  intros m input. pose proof (input_built m input) as H.
  remember 0 as i eqn:Ei in H. destruct H as [i c|]; [|reflexivity].
  subst i. unfold chunk_node. generalize Spec.CHUNK_START (mode_key m).
  pose proof (pieces_blocks_ok c) as B. revert B. generalize (pieces 64 c).
  induction l as [|b [|b' r] IH]; intros B s k; cbn [chunk_blocks]; [contradiction|reflexivity|].
  apply IH. apply B.
Qed.

Lemma lor8_inj : forall a b f g, N.land a 56 = f -> N.land b 56 = g -> mode_bits f -> mode_bits g ->
  N.lor a 8 = N.lor b 8 -> a = b.
Proof.
  intros a b f g Ha Hb Mf Mg E. apply N.bits_inj. intros i.
  destruct (N.eq_dec i 3) as [->|Ni].
  - assert (X : forall x h, N.land x 56 = h -> mode_bits h -> N.testbit x 3 = false).
    { intros x h Hx Mh. apply (f_equal (fun y => N.testbit y 3)) in Hx.
      rewrite N.land_spec in Hx. change (N.testbit 56 3) with true in Hx. rewrite andb_true_r in Hx.
      rewrite Hx. destruct Mh as [->|[->| ->]]; reflexivity. }
    now rewrite (X a f), (X b g).
  - apply (f_equal (fun y => N.testbit y i)) in E. rewrite !N.lor_spec in E.
    assert (Z : N.testbit 8 i = false).
    { change 8 with (2 ^ 3). apply N.pow2_bits_false. lia. }
    now rewrite Z, !orb_false_r in E.
Qed.

Lemma call_result_chain : forall x, call_result F x = chain F x.
Proof. reflexivity. Qed.

Lemma hash_is_root_result : forall m input,
  spec_hash F m input = call_result F (root_call F m input 0).
Proof.
  intros m input. unfold spec_hash, spec_block, root_block, call_result, root_call.
  cbn [nd_cv nd_block nd_blen nd_off nd_flags]. change 32 with (4 * 8) at 1.
  rewrite take_bytes_of_words. reflexivity.
Qed.

Lemma same_hash : forall m m' x y, mode_ok m -> mode_ok m' ->
  apart (calls F m x) (calls F m' y) ->
  spec_hash F m x = spec_hash F m' y -> m = m' /\ x = y.
Proof.
  intros m m' x y Mo Mo' A E. rewrite !hash_is_root_result in E.
  assert (R : root_call F m x 0 = root_call F m' y 0).
  { apply A; auto; apply in_or_app; right; now left. }
  unfold root_call in R. injection R as R1 R2 R3 R4.
  pose proof (mode_flags_bits m) as M. pose proof (mode_flags_bits m') as M'.
  apply (lor8_inj _ _ (mode_flags m) (mode_flags m')) in R4; auto; try apply interior_plain.
  assert (Nd_eq : spec_root F m x = spec_root F m' y).
  { pose proof (root_off m x) as O1. pose proof (root_off m' y) as O2.
    destruct (spec_root F m x) as [a1 a2 a3 a4 a5], (spec_root F m' y) as [b1 b2 b3 b4 b5]. cbn [nd_cv nd_block nd_blen nd_off nd_flags] in *.
    congruence. }
  destruct (built_equal _ _ _ _ _ _ M (proj1 (mode_key_ok m Mo)) (input_built m x)
    _ _ _ _ _ _ M' (proj1 (mode_key_ok m' Mo')) (input_built m' y)) as (Ec & Ek & Ef); auto.
  { eapply apart_sub; [exact A| |]; intros z Hz; apply in_or_app; now left. }
  apply (f_equal (@concat N)) in Ec. rewrite !pieces_concat in Ec by reflexivity.
  split; auto.
  destruct m as [|k|k], m' as [|k'|k']; try discriminate Ef; auto;
    cbn [mode_key mode_ok] in *; f_equal; destruct Mo as [L B], Mo' as [L' B'].
  all: apply (f_equal bytes_of_words) in Ek;
    rewrite !bytes_of_words_of_bytes in Ek by (auto; unfold len; rewrite ?L, ?L'; reflexivity);
    exact Ek.
Qed.

Lemma node_dec : forall a b : node, {a = b} + {a <> b}.
Proof.
  repeat decide equality.
Qed.

Lemma collision_or_apart : forall A B, collision F A B \/ apart A B.
Proof.
  intros A B.
  assert (One : forall a, (exists b, In b B /\ a <> b /\ chain F a = chain F b) \/
    (forall b, In b B -> chain F a = chain F b -> a = b)).
  { intros a. induction B as [|b B IH].
    - right. intros b [].
    - destruct IH as [(b' & I & N & E)|H].
      + left. exists b'. auto using in_cons.
      + destruct (list_eq_dec N.eq_dec (chain F a) (chain F b)) as [E|E].
        * destruct (node_dec a b) as [->|N].
          { right. intros b' [<-|I] E'; auto. }
          { left. exists b. auto using in_eq. }
        * right. intros b' [<-|I] E'; [contradiction|auto]. }
  induction A as [|a A IH].
  - right. intros a b [].
  - destruct IH as [(a' & b & Ia & Ib & N & E)|H].
    + left. exists a', b. auto using in_cons.
    + destruct (One a) as [(b & Ib & N & E)|G].
      * left. exists a, b. auto using in_eq.
      * right. intros a' b [<-|Ia] Ib E; auto.
Qed.

Lemma collision_reduction : forall m m' x y, mode_ok m -> mode_ok m' ->
  spec_hash F m x = spec_hash F m' y ->
  (m = m' /\ x = y) \/ collision F (calls F m x) (calls F m' y).
Proof.
  intros m m' x y Mo Mo' E. destruct (collision_or_apart (calls F m x) (calls F m' y)) as [C|A].
  - now right.
  - left. now apply same_hash.
Qed.

End Tree.

(* ---- locality ---- *)

Definition agree (F G : cfun) (x : node) : Prop :=
  F (nd_cv x) (nd_block x) (nd_blen x) (nd_off x) (nd_flags x)
  = G (nd_cv x) (nd_block x) (nd_blen x) (nd_off x) (nd_flags x).

Lemma chunk_local : forall F G bs cv off f s, Forall (agree F G) (chunk_calls F cv off f s bs) ->
  chunk_blocks F cv off f s bs = chunk_blocks G cv off f s bs /\
  chunk_calls F cv off f s bs = chunk_calls G cv off f s bs.
Proof.
  intros F G. induction bs as [|b [|b' r] IH]; intros cv off f s H; auto.
  cbn [chunk_calls] in H. inversion H as [|x l Hx Hl]; subst.
  unfold agree in Hx. cbn [nd_cv nd_block nd_blen nd_off nd_flags] in Hx.
  destruct (IH _ _ _ _ Hl) as [E1 E2].
  cbn [chunk_blocks chunk_calls]. rewrite <- Hx. split; [exact E1|]. f_equal. exact E2.
Qed.

Lemma subtree_local : forall F G key f k i cs, Forall (agree F G) (subtree_calls F key f k i cs) ->
  subtree F key f k i cs = subtree G key f k i cs /\
  subtree_calls F key f k i cs = subtree_calls G key f k i cs.
Proof.
  intros F G key f. induction k as [|k IH]; intros i cs H; cbn [subtree subtree_calls] in *.
  - now apply chunk_local.
  - cbv zeta in *. destruct (len cs <=? 2 ^ N.of_nat k); [now apply IH|].
    rewrite !Forall_app in H. destruct H as (H1 & H2 & H3 & H4).
    destruct (IH _ _ H1) as [E1 E2]. destruct (IH _ _ H3) as [E3 E4].
    rewrite <- E1, <- E2, <- E3, <- E4.
    inversion H2 as [|x l Hx _]; subst. inversion H4 as [|y l' Hy _]; subst.
    split; [|reflexivity]. unfold chain. unfold agree in Hx, Hy. now rewrite Hx, Hy.
Qed.

Lemma calls_local : forall F G m input, Forall (agree F G) (calls F m input) ->
  spec_hash F m input = spec_hash G m input /\ calls F m input = calls G m input.
Proof.
  intros F G m input H. unfold calls in H. rewrite Forall_app in H. destruct H as [H1 H2].
  destruct (subtree_local _ _ _ _ _ _ _ H1) as [E1 E2].
  assert (Er : root_call F m input 0 = root_call G m input 0).
  { unfold root_call, spec_root, root_node. cbv zeta. rewrite E1. reflexivity. }
  split.
  - rewrite !hash_is_root_result. rewrite <- Er. unfold call_result.
    inversion H2 as [|x l Hx _]; subst. unfold agree in Hx. now rewrite Hx.
  - unfold calls. rewrite Er. f_equal. exact E2.
Qed.

(* ---- the number of calls ---- *)

Lemma chunk_calls_len : forall F bs cv off f s, bs <> [] ->
  len (chunk_calls F cv off f s bs) + 1 = len bs.
Proof.
  intros F. induction bs as [|b [|b' r] IH]; intros cv off f s H; [contradiction|reflexivity|].
  cbn [chunk_calls]. rewrite !len_cons. fold (chunk_calls F).
  assert (N1 : b' :: r <> []) by discriminate.
  specialize (IH (firstn 8 (F cv b 64 off (N.lor f s))) off f 0 N1). rewrite len_cons in IH.
  cbn [chunk_calls] in IH |- *. lia.
Qed.

Fixpoint total_blocks (cs : list (list N)) : N :=
  match cs with [] => 0 | c :: r => len (pieces 64 c) + total_blocks r end.

Lemma total_blocks_app : forall a b, total_blocks (a ++ b) = total_blocks a + total_blocks b.
Proof. induction a as [|c a IH]; intros b; cbn [total_blocks app]; [reflexivity|]. rewrite IH. lia. Qed.

Lemma built_len : forall F key f i cs nd l, built F key f i cs nd l ->
  len l + 2 = total_blocks cs + len cs /\ 1 <= len cs.
Proof.
  induction 1 as [i c|i a b na nb ca cb Ba IHa Bb IHb].
  - cbn [total_blocks]. pose proof (chunk_calls_len F (pieces 64 c) key (2048 * i) f Spec.CHUNK_START).
    pose proof (pieces_len_1 _ 64 c eq_refl) as P1.
    assert (pieces 64 c <> []) by (intros Z; rewrite Z in P1; cbn in P1; lia).
    rewrite len_cons, len_nil. lia.
  - rewrite !len_app, total_blocks_app. change (len [na]) with 1. change (len [nb]) with 1. lia.
Qed.

Lemma blocks_of_input : forall input : list N,
  total_blocks (pieces 2048 input) = N.max 1 ((len input + 63) / 64).
Proof.
  apply (list_len_ind _ (fun input => total_blocks (pieces 2048 input) = N.max 1 ((len input + 63) / 64))).
  intros l IH.
  destruct (N.le_gt_cases (len l) 2048) as [H|H].
  - rewrite pieces_short by lia. cbn [total_blocks]. rewrite N.add_0_r.
    destruct (N.eq_dec (len l) 0) as [Z|Z].
    + apply len_0_nil in Z. subst. reflexivity.
    + rewrite pieces_len by lia. lia.
  - rewrite pieces_step by lia. cbn [total_blocks].
    assert (L : len (take 2048 l) = 2048) by (rewrite len_take; lia).
    rewrite IH by (pose proof (len_drop _ 2048 l); unfold len in *; lia).
    rewrite pieces_len by lia. rewrite L, len_drop. change ((2048 + (64 - 1)) / 64) with 32. lia.
Qed.

Lemma calls_len : forall F m input,
  len (calls F m input)
  = N.max 1 ((len input + 63) / 64) + (N.max 1 ((len input + 2047) / 2048) - 1).
Proof.
  intros F m input. unfold calls. rewrite len_app. change (len [root_call F m input 0]) with 1.
  destruct (built_len _ _ _ _ _ _ _ (input_built F m input)) as [E H1].
  rewrite blocks_of_input in E.
  assert (P : len (pieces 2048 input) = N.max 1 ((len input + 2047) / 2048)).
  { destruct (N.eq_dec (len input) 0) as [Z|Z].
    - apply len_0_nil in Z. subst. reflexivity.
    - rewrite pieces_len by lia. lia. }
  lia.
Qed.

(* ---- statements of Prop_Security ---- *)

Lemma xof_calls_in : forall F m input n x, In x (xof_calls F m input n) ->
  In x (interior_calls F m input) \/ exists k, x = root_call F m input k.
Proof.
  intros F m input n x H. apply in_app_or in H. destruct H as [H|H]; [now left|right].
  apply in_map_iff in H. destruct H as (k & <- & _). eauto.
Qed.

Lemma interior_flags : forall F m input x, In x (interior_calls F m input) ->
  N.land (nd_flags x) 56 = mode_flags m.
Proof.
  intros F m input x H. destruct (interior_plain F m input) as [_ G].
  rewrite Forall_forall in G. now apply G.
Qed.

Lemma land_56_48 : forall x, N.land x 48 = N.land (N.land x 56) 48.
Proof. intros x. rewrite <- N.land_assoc. reflexivity. Qed.
Lemma land_56_8 : forall x, N.land x 8 = N.land (N.land x 56) 8.
Proof. intros x. rewrite <- N.land_assoc. reflexivity. Qed.

Lemma call_mode : forall F m input n x, In x (xof_calls F m input n) ->
  N.land (nd_flags x) (N.lor Spec.KEYED_HASH Spec.DERIVE_KEY) = mode_flags m.
Proof.
  intros F m input n x H. change (N.lor Spec.KEYED_HASH Spec.DERIVE_KEY) with 48.
  rewrite land_56_48. apply xof_calls_in in H. destruct H as [H|(k & ->)].
  - rewrite (interior_flags _ _ _ _ H). destruct m; reflexivity.
  - rewrite root_call_flags. destruct m; reflexivity.
Qed.

Lemma modes_disjoint : forall F G m m' x y n n' a, mode_flags m <> mode_flags m' ->
  In a (xof_calls F m x n) -> ~ In a (xof_calls G m' y n').
Proof.
  intros F G m m' x y n n' a D I I'. apply call_mode in I. apply call_mode in I'. congruence.
Qed.

Lemma root_only : forall F m input,
  (forall x, In x (interior_calls F m input) -> N.land (nd_flags x) Spec.ROOT = 0) /\
  (forall k, N.land (nd_flags (root_call F m input k)) Spec.ROOT = Spec.ROOT).
Proof.
  intros F m input. change Spec.ROOT with 8. split.
  - intros x H. rewrite land_56_8, (interior_flags _ _ _ _ H). destruct m; reflexivity.
  - intros k. rewrite land_56_8, root_call_flags. destruct m; reflexivity.
Qed.

Lemma interior_not_root : forall F m m' x y a k, In a (interior_calls F m x) ->
  a <> root_call F m' y k.
Proof.
  intros F m m' x y a k H E. destruct (root_only F m x) as [R1 _]. destruct (root_only F m' y) as [_ R2].
  apply R1 in H. subst a. rewrite R2 in H. discriminate.
Qed.

Lemma interior_hash : forall F m m' x y a, In a (interior_calls F m x) ->
  call_result F a = spec_hash F m' y -> collision F (calls F m x) (calls F m' y).
Proof.
  intros F m m' x y a H E. exists a, (root_call F m' y 0).
  split; [apply in_or_app; now left|]. split; [apply in_or_app; right; now left|].
  split; [now apply (interior_not_root F m m' x)|]. now rewrite <- hash_is_root_result.
Qed.

Lemma blake_ok : cfun_ok blake_compress.
Proof.
  intros cv block blen off flags H. rewrite blake_unfold. cbv zeta.
  pose proof (rounds7_length _ (words_of_bytes block) (init_state_length cv blen off flags H)) as L.
  unfold xors. rewrite app_length, !map_length, !combine_length, firstn_length, skipn_length. lia.
Qed.

Lemma code_collision : forall c c' p p' m m' x y, platform_ok c p -> platform_ok c' p' ->
  mode_ok m -> mode_ok m' -> bytes x -> bytes y -> len x < WU c -> len y < WU c' ->
  oneshot c p m x = oneshot c' p' m' y ->
  (m = m' /\ x = y) \/ collision F0 (calls F0 m x) (calls F0 m' y).
Proof.
  intros c c' p p' m m' x y P P' M M' B B' L L' E.
  rewrite !oneshot_ok in E by auto. injection E as E.
  apply collision_reduction; auto. apply blake_ok.
Qed.

Lemma code_collision_same : forall c p m x y, platform_ok c p -> mode_ok m -> bytes x -> bytes y ->
  len x < WU c -> len y < WU c -> x <> y -> oneshot c p m x = oneshot c p m y ->
  collision F0 (calls F0 m x) (calls F0 m y).
Proof.
  intros c p m x y P M B B' L L' N E.
  destruct (code_collision c c p p m m x y P P M M B B' L L' E) as [[_ Z]|C]; [contradiction|exact C].
Qed.
