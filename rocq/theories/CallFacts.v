(* The calls made by the code are those of the specification: from the weights of
   WeightFacts.v and StreamWeights.v to permutations. *)
From Coq Require Import NArith List Bool Lia ZArith Permutation.
From Coq Require Import ZifyBool ZifyNat ZifyN.
From Verif Require Import Base BaseFacts Spec TreeFacts CompressFacts ManyFacts SpecFacts.
From Verif Require Import Portable Platform Lib ChunkFacts LibFacts HasherFacts SessionSpec Session ApiFacts.
From Verif Require Import Calls SecurityFacts LibCalls TraceFacts WeightFacts StreamWeights.
Import ListNotations.
Open Scope N_scope.

(* ---- lists of equal weights ---- *)

Definition indicator (x y : node) : N := if node_dec x y then 1 else 0.

Lemma weight_count : forall x l, W (indicator x) l = N.of_nat (count_occ node_dec l x).
Proof.
  intros x l. induction l as [|y l IH]; [reflexivity|].
  rewrite W_cons, IH. cbn [count_occ]. unfold indicator at 1.
  destruct (node_dec x y) as [E|E], (node_dec y x) as [E'|E']; try congruence; lia.
Qed.

Lemma weights_permutation : forall l1 l2, (forall w, W w l1 = W w l2) -> Permutation l1 l2.
Proof.
  intros l1 l2 H. apply (Permutation_count_occ node_dec). intros x.
  specialize (H (indicator x)). rewrite !weight_count in H. lia.
Qed.

(* ---- outputs ---- *)

Lemma t_to_hash_root : forall p m input s, mode_ok m -> bytes input ->
  t_to_hash (out_of p (spec_root F m input) Root) s
  = (s ++ [root_call F m input 0], Ok (spec_hash F m input)).
Proof.
  intros p m input s M B. destruct (spec_root_wf m input M B) as [Wf Z].
  rewrite out_at_0 by auto.
  rewrite (run_pair _ _ _ s (ret_to_hash (out_at p (spec_root F m input) 0))).
  rewrite to_hash_at by (auto; reflexivity). reflexivity.
Qed.

Lemma t_reads_root : forall c p m input n k s, mode_ok m -> bytes input ->
  k + N.of_nat n < MAX_BLOCKS ->
  t_reads c n (out_at p (spec_root F m input) k) s
  = (s ++ map (fun i => root_call F m input (k + N.of_nat i)) (seq 0 n),
     Ok (map (fun i => spec_block F m input (k + N.of_nat i)) (seq 0 n),
         out_at p (spec_root F m input) (k + N.of_nat n))).
Proof.
  intros c p m input n k s M B H. destruct (spec_root_wf m input M B) as [Wf Z].
  rewrite (run_pair _ _ _ s (ret_reads c n (out_at p (spec_root F m input) k))).
  rewrite reads_ok by auto. f_equal.
  revert k s H. induction n as [|n IH]; intros k s H.
  - cbn [t_reads seq map]. now rewrite app_nil_r.
  - cbn [t_reads].
    erewrite tbind_eq.
    2: { rewrite (run_pair _ _ _ s (ret_read c (out_at p (spec_root F m input) k))).
         rewrite read_ok by (auto; lia). reflexivity. }
    cbv beta iota.
    erewrite tbind_eq.
    2: { match goal with |- t_reads _ _ _ ?l = _ =>
           rewrite (run_pair _ _ _ l (ret_reads c n (out_at p (spec_root F m input) (k + 1)))) end.
         rewrite reads_ok by (auto; lia). reflexivity. }
    cbv beta iota. cbn [lift fst]. rewrite IH by lia.
    assert (Er : fst (t_read c (out_at p (spec_root F m input) k) s) = s ++ [root_call F m input k]).
    { unfold t_read. erewrite tbind_eq by reflexivity. cbv beta.
      rewrite fst_tbind_lift by reflexivity. reflexivity. }
    rewrite Er.
    rewrite <- app_assoc. f_equal. cbn [seq map app].
    f_equal; [f_equal; lia|]. rewrite <- seq_shift, map_map. apply map_ext. intros i. f_equal. lia.
Qed.

(* ---- one-shot ---- *)

Lemma oneshot_xof_run : forall c p m input s,
  platform_ok c p -> mode_ok m -> bytes input -> len input < WU c ->
  exists l, t_oneshot_xof c p m input s = (l, Ok (out_of p (spec_root F m input) Root)) /\
    forall w, W w l = W w s + W w (interior_calls F m input).
Proof.
  intros c p m input s P M B L. destruct (mode_key_ok m M) as [Lk Wk].
  exists (fst (t_oneshot_xof c p m input s)).
  assert (E : forall w, exists s', t_oneshot_xof c p m input s
    = (s', Ok (out_of p (root_node F (mode_key m) (mode_flags m) input) Root)) /\
      W w s' = W w s + below w (mode_key m) (mode_flags m) input).
  { intros w. destruct (t_hash_internal_ok w c p (mode_key m) (mode_flags m) P Lk Wk input s B L)
      as (s' & E & Hw). exists s'. split; [|exact Hw]. destruct m; exact E. }
  split.
  - destruct (E (fun _ => 0)) as (s' & E' & _). rewrite E'. reflexivity.
  - intros w. destruct (E w) as (s' & E' & Hw). rewrite E'. exact Hw.
Qed.

Lemma oneshot_calls_ok : forall c p m input,
  platform_ok c p -> mode_ok m -> bytes input -> len input < WU c ->
  exists l, t_oneshot c p m input []
    = (l ++ [root_call F m input 0], Ok (spec_hash F m input)) /\
    Permutation l (interior_calls F m input).
Proof.
  intros c p m input P M B L.
  destruct (oneshot_xof_run c p m input [] P M B L) as (l & E & Hw).
  exists l. split.
  - unfold t_oneshot. erewrite tbind_eq by exact E. now apply t_to_hash_root.
  - apply weights_permutation. exact Hw.
Qed.

Lemma oneshot_xof_calls_ok : forall c p m input n,
  platform_ok c p -> mode_ok m -> bytes input -> len input < WU c -> N.of_nat n < MAX_BLOCKS ->
  exists l o, (let! o := t_oneshot_xof c p m input in t_reads c n o) []
    = (l ++ map (fun i => root_call F m input (N.of_nat i)) (seq 0 n),
       Ok (map (fun i => spec_block F m input (N.of_nat i)) (seq 0 n), o)) /\
    Permutation l (interior_calls F m input).
Proof.
  intros c p m input n P M B L Hn.
  destruct (oneshot_xof_run c p m input [] P M B L) as (l & E & Hw).
  exists l. eexists. split.
  - erewrite tbind_eq by exact E. cbv beta. rewrite out_at_0 by now apply spec_root_wf.
    rewrite t_reads_root by auto. reflexivity.
  - apply weights_permutation. exact Hw.
Qed.

(* ---- streaming ---- *)

Lemma stream_run : forall c p m inputs s,
  platform_ok c p -> mode_ok m -> Forall bytes inputs -> len (concat inputs) < W64 ->
  exists l, t_stream_xof c p m inputs s
    = (l, Ok (out_of p (spec_root F m (concat inputs)) Root)) /\
    forall w, W w l = W w s + W w (interior_calls F m (concat inputs)).
Proof.
  intros c p m inputs s P M B L. destruct (mode_key_ok m M) as [Lk Wk].
  exists (fst (t_stream_xof c p m inputs s)).
  assert (E : forall w, exists s', t_stream_xof c p m inputs s
    = (s', Ok (out_of p (root_node F (mode_key m) (mode_flags m) (concat inputs)) Root)) /\
      W w s' = W w s + below w (mode_key m) (mode_flags m) (concat inputs)).
  { intros w. unfold t_stream_xof.
    assert (H0 : StreamWeights.holds w p (mode_key m) (mode_flags m) (start p m) [] 0)
      by (destruct m; now apply StreamWeights.new_holds).
    destruct (t_feed_ok w c p _ _ P Lk Wk inputs (start p m) [] 0 s H0 B)
      as (h & n & s1 & E1 & H1 & W1); [rewrite len_nil; lia|].
    cbn [app] in H1. erewrite tbind_eq by exact E1. cbv beta.
    destruct (t_finalize_xof_ok w c p _ _ Lk Wk h (concat inputs) n s1 H1 L) as (s2 & E2 & W2).
    exists s2. split; [exact E2|]. lia. }
  split.
  - destruct (E (fun _ => 0)) as (s' & E' & _). rewrite E'. reflexivity.
  - intros w. destruct (E w) as (s' & E' & Hw). rewrite E'. exact Hw.
Qed.

Lemma tbind_assoc : forall A B C (m : tr A) (f : A -> tr B) (g : B -> tr C) s,
  tbind (tbind m f) g s = tbind m (fun x => tbind (f x) g) s.
Proof. intros A B C m f g s. unfold tbind. destruct (m s) as [s1 [v| |]]; reflexivity. Qed.

Lemma stream_eq : forall c p m inputs s,
  t_stream c p m inputs s = (let! o := t_stream_xof c p m inputs in t_to_hash o) s.
Proof. intros c p m inputs s. unfold t_stream, t_stream_xof. rewrite tbind_assoc. reflexivity. Qed.

Lemma stream_calls_ok : forall c p m inputs,
  platform_ok c p -> mode_ok m -> Forall bytes inputs -> len (concat inputs) < W64 ->
  exists l, t_stream c p m inputs []
    = (l ++ [root_call F m (concat inputs) 0], Ok (spec_hash F m (concat inputs))) /\
    Permutation l (interior_calls F m (concat inputs)).
Proof.
  intros c p m inputs P M B L.
  destruct (stream_run c p m inputs [] P M B L) as (l & E & Hw).
  exists l. split.
  - rewrite stream_eq. erewrite tbind_eq by exact E. apply t_to_hash_root; auto. now apply bytes_concat.
  - apply weights_permutation. exact Hw.
Qed.

Lemma stream_xof_calls_ok : forall c p m inputs n,
  platform_ok c p -> mode_ok m -> Forall bytes inputs -> len (concat inputs) < W64 ->
  N.of_nat n < MAX_BLOCKS ->
  exists l o, (let! o := t_stream_xof c p m inputs in t_reads c n o) []
    = (l ++ map (fun i => root_call F m (concat inputs) (N.of_nat i)) (seq 0 n),
       Ok (map (fun i => spec_block F m (concat inputs) (N.of_nat i)) (seq 0 n), o)) /\
    Permutation l (interior_calls F m (concat inputs)).
Proof.
  intros c p m inputs n P M B L Hn.
  assert (Bc : bytes (concat inputs)) by now apply bytes_concat.
  destruct (stream_run c p m inputs [] P M B L) as (l & E & Hw).
  exists l. eexists. split.
  - erewrite tbind_eq by exact E. cbv beta. rewrite out_at_0 by now apply spec_root_wf.
    rewrite t_reads_root by auto. reflexivity.
  - apply weights_permutation. exact Hw.
Qed.

(* ---- programs ---- *)

Lemma bytes_of_concat : forall xs : list (list N), bytes (concat xs) -> Forall bytes xs.
Proof.
  induction xs as [|x xs IH]; intros H; constructor; cbn [concat] in H; apply bytes_app in H; tauto.
Qed.

Lemma hash_program_ok : forall c p m g, platform_ok c p -> mode_ok m -> fits c g ->
  exists l, t_hash c p m g []
    = (l ++ [root_call F m (data g) 0], Ok (spec_hash F m (data g))) /\
    Permutation l (interior_calls F m (data g)).
Proof.
  intros c p m [x|xs] P M [B L]; cbn [t_hash data] in *.
  - now apply oneshot_calls_ok.
  - apply stream_calls_ok; auto. now apply bytes_of_concat.
Qed.

Lemma xof_program_ok : forall c p m g n, platform_ok c p -> mode_ok m -> fits c g ->
  N.of_nat n < MAX_BLOCKS ->
  exists l o, t_xof c p m g n []
    = (l ++ map (fun i => root_call F m (data g) (N.of_nat i)) (seq 0 n),
       Ok (map (fun i => spec_block F m (data g) (N.of_nat i)) (seq 0 n), o)) /\
    Permutation l (interior_calls F m (data g)).
Proof.
  intros c p m [x|xs] n P M [B L] Hn; unfold t_xof; cbn [t_root data] in *.
  - now apply oneshot_xof_calls_ok.
  - apply stream_xof_calls_ok; auto. now apply bytes_of_concat.
Qed.

Lemma erased : forall c p m s,
  (forall input, snd (t_hash c p m (OneShot input) s) = oneshot c p m input) /\
  (forall inputs, snd (t_hash c p m (Streaming inputs) s)
     = (let* h := feed c (start p m) inputs in finalize c h)) /\
  (forall input n, snd (t_xof c p m (OneShot input) n s)
     = (let* o := oneshot_xof c p m input in reads c n o)) /\
  (forall inputs n, snd (t_xof c p m (Streaming inputs) n s)
     = (let* h := feed c (start p m) inputs in let* o := finalize_xof c h in reads c n o)).
Proof.
  intros c p m s. split; [|split; [|split]].
  - intros input. apply ret_oneshot.
  - intros inputs. cbn [t_hash]. unfold t_stream. revert s. apply ret_bind; [apply ret_feed|].
    intros h. apply ret_finalize.
  - intros input n. unfold t_xof. cbn [t_root]. revert s. apply ret_bind; [apply ret_oneshot_xof|].
    intros o. apply ret_reads.
  - intros inputs n. unfold t_xof, t_stream_xof. cbn [t_root]. revert s.
    assert (R : returns (let! o := t_stream_xof c p m inputs in t_reads c n o)
      (let* o := (let* h := feed c (start p m) inputs in finalize_xof c h) in reads c n o)).
    { apply ret_bind; [|intros o; apply ret_reads].
      apply ret_bind; [apply ret_feed|]. intros h. apply ret_finalize_xof. }
    intros s. unfold t_stream_xof in R. rewrite R.
    destruct (feed c (start p m) inputs) as [h| |]; reflexivity.
Qed.

Lemma program_calls : forall c p m g n, platform_ok c p -> mode_ok m -> fits c g ->
  N.of_nat n < MAX_BLOCKS ->
  Permutation (fst (t_hash c p m g [])) (calls F m (data g)) /\
  Permutation (fst (t_xof c p m g n [])) (xof_calls F m (data g) n).
Proof.
  intros c p m g n P M Fi Hn.
  destruct (hash_program_ok c p m g P M Fi) as (l & E & Pe).
  destruct (xof_program_ok c p m g n P M Fi Hn) as (l' & o & E' & Pe').
  rewrite E, E'. cbn [fst]. split; now apply Permutation_app_tail.
Qed.

Lemma perm_len : forall A (a b : list A), Permutation a b -> len a = len b.
Proof. intros A a b H. unfold len. now rewrite (Permutation_length H). Qed.

Lemma program_count : forall c p m g n, platform_ok c p -> mode_ok m -> fits c g ->
  N.of_nat n < MAX_BLOCKS ->
  len (fst (t_hash c p m g []))
  = N.max 1 ((len (data g) + 63) / 64) + (N.max 1 ((len (data g) + 2047) / 2048) - 1) /\
  len (fst (t_xof c p m g n [])) + 1 = len (fst (t_hash c p m g [])) + N.of_nat n.
Proof.
  intros c p m g n P M Fi Hn. destruct (program_calls c p m g n P M Fi Hn) as [P1 P2].
  rewrite (perm_len _ _ _ P1), (perm_len _ _ _ P2). split; [apply calls_len|].
  unfold calls, xof_calls. rewrite !len_app. unfold len at 2 4. rewrite map_length, seq_length. cbn [length]. lia.
Qed.

Lemma hash_in_xof : forall m input x, In x (calls F m input) -> In x (xof_calls F m input 1).
Proof. intros m input x H. exact H. Qed.

Lemma program_mode : forall c p m g n, platform_ok c p -> mode_ok m -> fits c g ->
  N.of_nat n < MAX_BLOCKS ->
  forall x, In x (fst (t_hash c p m g [])) \/ In x (fst (t_xof c p m g n [])) ->
  N.land (nd_flags x) (N.lor Spec.KEYED_HASH Spec.DERIVE_KEY) = mode_flags m.
Proof.
  intros c p m g n P M Fi Hn x H. destruct (program_calls c p m g n P M Fi Hn) as [P1 P2].
  destruct H as [H|H].
  - apply (Permutation_in _ P1) in H. now apply (call_mode F m (data g) 1).
  - apply (Permutation_in _ P2) in H. now apply (call_mode F m (data g) n).
Qed.

Lemma programs_disjoint : forall c p m g n c' p' m' g' n',
  platform_ok c p -> mode_ok m -> fits c g -> N.of_nat n < MAX_BLOCKS ->
  platform_ok c' p' -> mode_ok m' -> fits c' g' -> N.of_nat n' < MAX_BLOCKS ->
  mode_flags m <> mode_flags m' ->
  forall x, In x (fst (t_hash c p m g [])) \/ In x (fst (t_xof c p m g n [])) ->
            In x (fst (t_hash c' p' m' g' [])) \/ In x (fst (t_xof c' p' m' g' n' [])) -> False.
Proof.
  intros c p m g n c' p' m' g' n' P M Fi Hn P' M' Fi' Hn' D x H H'.
  apply D. rewrite <- (program_mode c p m g n P M Fi Hn x H). 
  now apply (program_mode c' p' m' g' n' P' M' Fi' Hn' x).
Qed.

Lemma program_root : forall c p m g n, platform_ok c p -> mode_ok m -> fits c g ->
  N.of_nat n < MAX_BLOCKS ->
  exists l outs, fst (t_xof c p m g n []) = l ++ outs /\
    (forall x, In x l -> N.land (nd_flags x) Spec.ROOT = 0) /\
    Forall (fun x => N.land (nd_flags x) Spec.ROOT = Spec.ROOT) outs /\
    map nd_off outs = map (fun i => 64 * N.of_nat i) (seq 0 n) /\
    exists last, fst (t_hash c p m g []) = l ++ [last] /\
      N.land (nd_flags last) Spec.ROOT = Spec.ROOT /\ nd_off last = 0.
Proof.
  intros c p m g n P M Fi Hn. destruct (root_only F m (data g)) as [R1 R2].
  destruct (xof_program_ok c p m g n P M Fi Hn) as (l & o & E & Pe).
  assert (EH : fst (t_hash c p m g []) = l ++ [root_call F m (data g) 0]).
  { assert (Eo : exists nd, t_root c p m g [] = (l, Ok (out_of p nd Root)) /\ nd = spec_root F m (data g)).
    { unfold t_xof in E. assert (Hr : exists l0, t_root c p m g [] = (l0, Ok (out_of p (spec_root F m (data g)) Root))).
      { destruct Fi as [B L]. destruct g as [x|xs]; cbn [t_root data] in *.
        - destruct (oneshot_xof_run c p m x [] P M B L) as (l0 & E0 & _). now exists l0.
        - destruct (stream_run c p m xs [] P M (bytes_of_concat _ B) L) as (l0 & E0 & _). now exists l0. }
      destruct Hr as (l0 & E0). exists (spec_root F m (data g)). split; [|reflexivity]. rewrite E0.
      erewrite tbind_eq in E by exact E0. rewrite out_at_0 in E by (now apply spec_root_wf; [|apply Fi]).
      rewrite t_reads_root in E by (auto; apply Fi).
      apply (f_equal fst) in E. cbn [fst] in E.
      rewrite (map_ext _ (fun i => root_call F m (data g) (N.of_nat i))) in E by reflexivity.
      apply app_inv_tail in E. now subst l0. }
    destruct Eo as (nd & E0 & ->).
    assert (Et : t_hash c p m g [] = (let! o := t_root c p m g in t_to_hash o) []).
    { destruct g; [reflexivity|apply stream_eq]. }
    rewrite Et. erewrite tbind_eq by exact E0. rewrite t_to_hash_root by (auto; apply Fi). reflexivity. }
  exists l, (map (fun i => root_call F m (data g) (N.of_nat i)) (seq 0 n)).
  rewrite E. split; [reflexivity|]. split; [|split; [|split]].
  - intros x Hx. apply R1. now apply (Permutation_in _ Pe).
  - apply Forall_forall. intros x Hx. apply in_map_iff in Hx. destruct Hx as (i & <- & _). apply R2.
  - rewrite map_map. reflexivity.
  - exists (root_call F m (data g) 0). split; [exact EH|]. split; [apply R2|reflexivity].
Qed.
