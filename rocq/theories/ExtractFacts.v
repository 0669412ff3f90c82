(* Reading an input off its hash. *)
From Coq Require Import NArith List Bool Lia ZArith Permutation.
From Coq Require Import ZifyBool ZifyNat ZifyN.
From Verif Require Import Base BaseFacts Spec SpecFacts SessionSpec Calls Extract.
From Verif Require Import Portable Platform Lib Session ApiFacts HashFacts OneShotFacts SecurityFacts.
From Verif Require Import LibCalls WeightFacts CallFacts.
Import ListNotations.
Open Scope N_scope.

Lemma same_true : forall a b, same a b = true <-> a = b.
Proof. intros a b. unfold same. destruct (list_eq_dec N.eq_dec a b); split; intros; congruence. Qed.

Lemma node_eqb_true : forall a b, node_eqb a b = true <-> a = b.
Proof.
  intros [a1 a2 a3 a4 a5] [b1 b2 b3 b4 b5]. unfold node_eqb. cbn [nd_cv nd_block nd_blen nd_off nd_flags].
  rewrite !andb_true_iff, !same_true, !N.eqb_eq. split.
  - intros ((((-> & ->) & ->) & ->) & ->). reflexivity.
  - intros E. injection E as -> -> -> -> ->. auto.
Qed.

(* no collision when the first bytes of the results differ *)
Lemma distinct_results : forall F A, NoDup (map (fun x => hd 0 (call_result F x)) A) ->
  ~ collision F A A.
Proof.
  intros F A N (a & b & Ia & Ib & D & R). apply D. clear D.
  induction A as [|x A IH]; [contradiction|]. cbn [map] in N. inversion N as [|y l N1 N2]; subst.
  assert (M : forall z, In z A -> hd 0 (call_result F z) <> hd 0 (call_result F x)).
  { intros z Iz E. apply N1. rewrite <- E. apply in_map_iff. eauto. }
  destruct Ia as [<-|Ia], Ib as [<-|Ib]; auto.
  - exfalso. apply (M b Ib). now rewrite R.
  - exfalso. apply (M a Ia). now rewrite R.
Qed.

Section Facts.
Variable F : cfun.

Lemma lookup_some : forall A h x, lookup (queries F A) h = Some x -> In x A /\ call_result F x = h.
Proof.
  intros A h x E. unfold lookup in E.
  destruct (find _ (queries F A)) as [[y r]|] eqn:G; [|discriminate E].
  cbn [option_map fst] in E. injection E as <-. apply find_some in G. destruct G as [I R].
  apply same_true in R. cbn [snd] in R. unfold queries in I. apply in_map_iff in I.
  destruct I as (z & E & I). injection E as -> <-. auto.
Qed.

Lemma lookup_call : forall A x, ~ collision F A A -> In x A ->
  lookup (queries F A) (call_result F x) = Some x.
Proof.
  intros A x NC I. destruct (lookup (queries F A) (call_result F x)) as [y|] eqn:E.
  - apply lookup_some in E. destruct E as [Iy Ry].
    destruct (node_dec y x) as [->|D]; [reflexivity|]. exfalso. apply NC. exists y, x. auto.
  - exfalso. unfold lookup in E. destruct (find _ (queries F A)) eqn:G; [discriminate E|].
    assert (J : In (x, F (nd_cv x) (nd_block x) (nd_blen x) (nd_off x) (nd_flags x)) (queries F A))
      by (apply in_map_iff; eauto).
    apply (find_none _ _ G) in J. cbn [snd] in J.
    assert (T : same (call_result F x) (call_result F x) = true) by now apply same_true.
    unfold call_result in T at 1. congruence.
Qed.

(* ---- the input below a call ---- *)

Section Table.
Variable A : list node.
Hypothesis NC : ~ collision F A A.
Hypothesis Fok : cfun_ok F.
Notation t := (queries F A).

(* beneath looks at the bits PARENT and CHUNK_START of the flags only *)
Lemma beneath_flags : forall fuel cv block blen off flags off' flags',
  N.testbit flags 0 = N.testbit flags' 0 -> N.testbit flags 2 = N.testbit flags' 2 ->
  beneath t fuel (Nd cv block blen off flags) = beneath t fuel (Nd cv block blen off' flags').
Proof.
  intros [|fuel] cv block blen off flags off' flags' E0 E2; [reflexivity|].
  cbn [beneath nd_flags nd_cv nd_block nd_blen]. now rewrite E0, E2.
Qed.

Lemma take_pad : forall b, take (len b) (pad64 b) = b.
Proof. intros b. unfold pad64. rewrite take_app_le by lia. apply take_all. lia. Qed.

(* What precedes a block: nothing, or a call that gave its chaining value. *)
Definition before (key cv : list N) (start : N) (acc : list N) (n : nat) : Prop :=
  (start = 1 /\ acc = [] /\ cv = key) \/
  (start = 0 /\ exists x, In x A /\ bytes_of_words cv = call_result F x /\
     forall fuel, (n <= fuel)%nat -> beneath t fuel x = Some (key, acc)).

Lemma beneath_block : forall key cv start acc n fuel block blen off flags, mode_bits flags ->
  before key cv start acc n -> (n <= fuel)%nat ->
  forall e, e = 0 \/ e = 2 ->
  beneath t (S fuel) (Nd cv block blen off (N.lor (N.lor flags start) e))
  = Some (key, acc ++ take blen block).
Proof.
  intros key cv start acc n fuel block blen off flags M B L e E.
  cbn [beneath nd_flags nd_cv nd_block nd_blen].
  assert (T2 : N.testbit (N.lor (N.lor flags start) e) 2 = false /\
               N.testbit (N.lor (N.lor flags start) e) 0 = (start =? 1)).
  { destruct B as [(-> & _)|(-> & _)], M as [->|[->| ->]], E as [->| ->]; auto. }
  destruct T2 as [-> ->].
  destruct B as [(-> & -> & ->)|(-> & x & I & R & H)].
  - reflexivity.
  - cbn [N.eqb]. rewrite R, lookup_call by auto. now rewrite H.
Qed.

Lemma beneath_blocks : forall bs key cv off flags start acc n, mode_bits flags -> blocks_ok bs ->
  before key cv start acc n -> incl (chunk_calls F cv off flags start bs) A ->
  forall fuel, (length bs + n <= fuel)%nat ->
  beneath t fuel (chunk_blocks F cv off flags start bs) = Some (key, acc ++ concat bs).
Proof.
  induction bs as [|b [|b' r] IH]; intros key cv off flags start acc n M B Be I fuel L.
  - contradiction.
  - destruct fuel as [|fuel]; [cbn in L; lia|]. cbn [chunk_blocks].
    rewrite (beneath_block key cv start acc n) by (auto; cbn in L; lia).
    rewrite take_pad. cbn [concat]. now rewrite app_nil_r.
  - destruct B as [B1 B2]. cbn [chunk_blocks].
    cbn [chunk_calls] in I.
    set (x := Nd cv b 64 off (N.lor flags start)) in *.
    assert (Ix : In x A) by (apply I; now left).
    assert (Be' : before key (firstn 8 (F cv b 64 off (N.lor flags start))) 0 (acc ++ b) (S n)).
    { right. split; [reflexivity|]. exists x. split; [exact Ix|]. split; [reflexivity|].
      intros [|f] Lf; [lia|]. unfold x. rewrite <- (N.lor_0_r (N.lor flags start)).
      rewrite (beneath_block key cv start acc n) by (auto; lia).
      now rewrite take_all by lia. }
    rewrite (IH key (firstn 8 (F cv b 64 off (N.lor flags start))) off flags 0 (acc ++ b) (S n)); auto.
    + cbn [concat]. now rewrite !app_assoc.
    + intros y Hy. apply I. now right.
    + cbn [length] in *. lia.
Qed.

Lemma blocks_number : forall c : list N, len c <= 2048 -> (length (pieces 64 c) <= 32)%nat.
Proof.
  intros c L. destruct (N.le_gt_cases 1 (len c)) as [H|H].
  - pose proof (pieces_len _ 64 c eq_refl H) as E. unfold len in E at 1.
    assert ((len c + (64 - 1)) / 64 < 33) by (apply N.div_lt_upper_bound; lia). lia.
  - rewrite pieces_short by lia. cbn. lia.
Qed.

Lemma beneath_built : forall key flags i cs nd l, mode_bits flags -> length key = 8%nat ->
  built F key flags i cs nd l -> Forall (fun c => len c <= 2048) cs -> incl l A ->
  forall fuel, (31 + length cs <= fuel)%nat -> beneath t fuel nd = Some (key, concat cs).
Proof.
  intros key flags i cs nd l M Lk. induction 1 as [i c|i a b na nb ca cb Ba IHa Bb IHb];
    intros Fc I fuel L.
  - unfold chunk_node. pose proof (Forall_inv Fc) as Lc. cbn beta in Lc.
    pose proof (blocks_number c Lc) as Nb.
    rewrite (beneath_blocks (pieces 64 c) key key (2048 * i) flags Spec.CHUNK_START [] 0); auto.
    + cbn [concat app]. now rewrite pieces_concat, app_nil_r by lia.
    + apply pieces_blocks_ok.
    + left. auto.
    + cbn [length] in L. lia.
  - apply Forall_app in Fc. destruct Fc as [Fa Fb].
    destruct fuel as [|fuel]; [lia|]. unfold parent_node.
    cbn [beneath nd_flags nd_cv nd_block nd_blen].
    replace (N.testbit (N.lor flags Spec.PARENT) 2) with true
      by (destruct M as [->|[->| ->]]; reflexivity).
    assert (L32 : len (chain F na) = 32)
      by (apply len_chain; auto; eapply built_cv; eauto).
    rewrite take_app_le, take_all by lia. rewrite drop_app_le, (drop_all _ 32 (chain F na)) by lia.
    cbn [app].
    assert (Ia : In na A) by (apply I; rewrite !in_app_iff; cbn [In]; auto).
    assert (Ib : In nb A) by (apply I; rewrite !in_app_iff; cbn [In]; auto).
    rewrite <- !call_result_chain, !lookup_call by auto.
    assert (length a <> 0%nat /\ length b <> 0%nat).
    { assert (P : forall i cs nd l, built F key flags i cs nd l -> length cs <> 0%nat).
      { induction 1; [discriminate|]. rewrite app_length. lia. }
      split; eapply P; eauto. }
    rewrite app_length in L.
    rewrite IHa, IHb; auto; try lia.
    + now rewrite concat_app.
    + intros x Hx. apply I. rewrite !in_app_iff. auto.
    + intros x Hx. apply I. apply in_or_app. now left.
Qed.

(* every chunk has a call with its offset *)
Lemma built_offsets : forall key flags i cs nd l, built F key flags i cs nd l ->
  forall j, j < len cs -> exists x, (In x l \/ (len cs = 1 /\ x = nd)) /\ nd_off x = 2048 * (i + j).
Proof.
  assert (C : forall bs cv off flags start, blocks_ok bs ->
            nd_off (chunk_blocks F cv off flags start bs) = off).
  { induction bs as [|b [|b' r] IH]; intros cv off flags start B; [contradiction|reflexivity|].
    cbn [chunk_blocks]. apply IH. apply B. }
  assert (P : forall key flags i cs nd l, built F key flags i cs nd l -> 1 <= len cs).
  { induction 1; autorewrite with len; [cbn; lia|]. lia. }
  intros key flags i cs nd l. induction 1 as [i c|i a b na nb ca cb Ba IHa Bb IHb]; intros j L.
  - exists (chunk_node F key flags i c). rewrite len_cons, len_nil in *. split; [right; auto|].
    unfold chunk_node. rewrite C by apply pieces_blocks_ok. f_equal. lia.
  - pose proof (P _ _ _ _ _ _ Ba). pose proof (P _ _ _ _ _ _ Bb). rewrite len_app in *.
    destruct (N.lt_ge_cases j (len a)) as [H1|H1].
    + destruct (IHa j H1) as (x & D & E). exists x. split; [|exact E]. left.
      rewrite !in_app_iff. cbn [In]. destruct D as [D|[_ ->]]; auto.
    + destruct (IHb (j - len a) ltac:(lia)) as (x & D & E). exists x. split; [|rewrite E; f_equal; lia].
      left. rewrite !in_app_iff. cbn [In]. destruct D as [D|[_ ->]]; auto.
Qed.

Lemma chunks_number : forall m input, incl (calls F m input) A ->
  (length (pieces 2048 input) <= length A)%nat.
Proof.
  intros m input I. set (cs := pieces 2048 input).
  assert (H : incl (map (fun j => 2048 * N.of_nat j) (seq 0 (length cs))) (map nd_off A)).
  { intros o Ho. apply in_map_iff in Ho. destruct Ho as (j & <- & Hj). apply in_seq in Hj.
    destruct (built_offsets _ _ _ _ _ _ (input_built F m input) (N.of_nat j)) as (x & D & E).
    { fold cs. unfold len. lia. }
    apply in_map_iff. destruct D as [D|[L ->]].
    - exists x. split; [exact E|]. apply I. apply in_or_app. now left.
    - exists (root_call F m input 0). split; [|apply I; apply in_or_app; right; now left].
      fold cs in L. unfold len in L. cbn [root_call nd_off]. lia. }
  apply NoDup_incl_length in H.
  - now rewrite !map_length, seq_length in H.
  - apply FinFun.Injective_map_NoDup; [|apply seq_NoDup]. intros a b E. lia.
Qed.

Lemma beneath_root : forall m input k, incl (calls F m input) A -> mode_ok m ->
  beneath t (32 + length A) (root_call F m input k) = Some (mode_key m, input).
Proof.
  intros m input k I M. pose proof (chunks_number m input I) as L.
  unfold root_call. rewrite (beneath_flags _ _ _ _ _ _ 0 (nd_flags (spec_root F m input)))
    by (rewrite N.lor_spec; cbn; apply orb_false_r).
  rewrite <- (root_off F m input).
  replace (Nd _ _ _ _ _) with (spec_root F m input) by now destruct (spec_root F m input).
  rewrite (beneath_built (mode_key m) (mode_flags m) 0 (pieces 2048 input) _ (interior_calls F m input)).
  - now rewrite pieces_concat.
  - apply mode_flags_bits.
  - now apply mode_key_ok.
  - apply input_built.
  - now apply pieces_bounds.
  - intros x Hx. apply I. apply in_or_app. now left.
  - lia.
Qed.

End Table.

Lemma mode_of_root : forall m input k, mode_ok m ->
  mode_of (nd_flags (root_call F m input k)) (mode_key m) = m.
Proof.
  intros m input k M. pose proof (root_call_flags F m input k) as E.
  assert (B : forall b, b = 4 \/ b = 5 -> N.testbit (nd_flags (root_call F m input k)) b
              = N.testbit (N.lor (mode_flags m) 8) b).
  { intros b Hb. rewrite <- E, N.land_spec. destruct Hb as [->| ->]; cbn; symmetry; apply andb_true_r. }
  unfold mode_of. rewrite !B by auto.
  destruct m as [|key|key]; cbn; [reflexivity| |]; destruct M as [L Bk]; f_equal;
    apply bytes_of_words_of_bytes; auto; unfold len; rewrite L; reflexivity.
Qed.

Lemma in_table : forall A x, existsb (fun e => node_eqb (fst e) x) (queries F A) = true <-> In x A.
Proof.
  intros A x. rewrite existsb_exists. split.
  - intros ([y r] & I & E). cbn [fst] in E. apply node_eqb_true in E. subst y.
    apply in_map_iff in I. destruct I as (z & E & I). injection E as -> _. exact I.
  - intros I. eexists. split; [apply in_map_iff; exists x; split; [reflexivity|exact I]|].
    now apply node_eqb_true.
Qed.

Lemma table_agree : forall A x, In x A -> agree (table_fun (queries F A)) F x.
Proof.
  intros A x I. unfold agree, table_fun.
  replace (Nd _ _ _ _ _) with x by now destruct x.
  destruct (find _ (queries F A)) as [[y r]|] eqn:G.
  - apply find_some in G. destruct G as [G E]. cbn [fst] in E. apply node_eqb_true in E. subst y.
    apply in_map_iff in G. destruct G as (z & E & _). injection E as -> <-. reflexivity.
  - exfalso. apply in_table in I. apply existsb_exists in I. destruct I as (e & I & E).
    pose proof (find_none _ _ G e I) as Z. cbn beta in Z. congruence.
Qed.

Lemma mode_okb_iff : forall m, mode_okb m = true <-> mode_ok m.
Proof.
  intros m. split; [apply mode_okb_ok|]. destruct m as [|key|key]; [reflexivity| |];
    intros [L B]; cbn; apply andb_true_iff; (split; [apply N.eqb_eq; unfold len; now rewrite L|]);
    apply forallb_forall; intros x Hx; apply N.ltb_lt; unfold bytes in B;
    rewrite Forall_forall in B; now apply B.
Qed.

Lemma contains_iff : forall A m input h, contains (queries F A) m input h = true <->
  mode_ok m /\ incl (calls F m input) A /\ spec_hash F m input = h.
Proof.
  intros A m input h. unfold contains. rewrite !andb_true_iff, mode_okb_iff, same_true, forallb_forall.
  split.
  - intros [[M I] E]. split; [exact M|].
    destruct (calls_local (table_fun (queries F A)) F m input) as [H1 H2].
    { apply Forall_forall. intros x Hx. apply table_agree. apply in_table. now apply I. }
    rewrite <- H1, <- H2. split; [|exact E]. intros x Hx. apply in_table. now apply I.
  - intros (M & I & E).
    destruct (calls_local F (table_fun (queries F A)) m input) as [H1 H2].
    { apply Forall_forall. intros x Hx. symmetry. now apply table_agree, I. }
    rewrite <- H1, <- H2. repeat split; auto. intros x Hx. apply in_table. now apply I.
Qed.

Lemma extract_sound : forall A h m input, extract (queries F A) h = Some (m, input) ->
  mode_ok m /\ incl (calls F m input) A /\ spec_hash F m input = h.
Proof.
  intros A h m input E. unfold extract in E.
  destruct (lookup _ h) as [root|]; [|discriminate E].
  destruct (beneath _ _ root) as [[key d]|]; [|discriminate E]. cbv zeta in E.
  destruct (contains _ _ d h) eqn:C; [|discriminate E]. injection E as <- <-.
  now apply contains_iff.
Qed.

Lemma extract_complete : forall A m input, cfun_ok F -> mode_ok m -> incl (calls F m input) A ->
  ~ collision F A A -> extract (queries F A) (spec_hash F m input) = Some (m, input).
Proof.
  intros A m input Fok M I NC. unfold extract. rewrite hash_is_root_result at 1.
  rewrite lookup_call by (auto; apply I; apply in_or_app; right; now left).
  replace (length (queries F A)) with (length A) by (unfold queries; now rewrite map_length).
  rewrite beneath_root by auto. cbv zeta. rewrite mode_of_root by auto.
  assert (C : contains (queries F A) m input (spec_hash F m input) = true) by now apply contains_iff.
  now rewrite C.
Qed.

(* so nothing is found only if there is nothing to find *)
Lemma extract_none : forall A h, cfun_ok F -> ~ collision F A A -> extract (queries F A) h = None ->
  forall m input, mode_ok m -> spec_hash F m input = h -> ~ incl (calls F m input) A.
Proof.
  intros A h Fok NC E m input M H I. subst h. rewrite extract_complete in E by auto. discriminate E.
Qed.

End Facts.

(* ---- the code ---- *)

Lemma extract_program : forall c p m g A h, platform_ok c p -> mode_ok m -> fits c g ->
  snd (t_hash c p m g []) = Ok h -> incl (fst (t_hash c p m g [])) A ->
  ~ collision blake_compress A A ->
  extract (queries blake_compress A) h = Some (m, data g).
Proof.
  intros c p m g A h P M Fi R I NC.
  destruct (hash_program_ok c p m g P M Fi) as (l & E & _). rewrite E in R. cbn [snd] in R.
  injection R as <-. apply extract_complete; auto using blake_ok.
  intros x Hx. apply I.
  destruct (program_calls c p m g 0 P M Fi ltac:(reflexivity)) as [Pe _].
  apply Permutation_in with (1 := Permutation_sym Pe). exact Hx.
Qed.

Lemma extract_input : forall c p A h m input, platform_ok c p -> bytes input -> len input < WU c ->
  extract (queries blake_compress A) h = Some (m, input) -> oneshot c p m input = Ok h.
Proof.
  intros c p A h m input P B L E. apply extract_sound in E. destruct E as (M & _ & <-).
  now apply oneshot_ok.
Qed.
