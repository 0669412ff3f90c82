(* Facts about the functions of Steps.v. *)
From Coq Require Import NArith List Bool Lia.
From Coq Require Import ZifyBool ZifyNat ZifyN.
From Verif Require Import Base BaseFacts Spec LibCalls Platform Session CImpl CCalls CSpec.
From Verif Require Import Portable CSimd Steps StepsSpec SecretSpec SecretFacts CSecretFacts CallFacts.
Import ListNotations.
Open Scope N_scope.

Lemma snd_seqs {A B : Type} : forall (m : steps A) (k : A -> steps B),
  snd (seqs m k) = snd (k (snd m)).
Proof. intros [l x] k. unfold seqs. cbn [snd]. now destruct (k x). Qed.

(* ---- the steps do not depend on the values --------------------------------- *)
Definition alike {A B : Type} (m : steps A) (m' : steps B) : Prop := fst m = fst m'.

Lemma alike_seqs {A A' B B' : Type} : forall (m : steps A) (m' : steps A') (k : A -> steps B)
  (k' : A' -> steps B'),
  alike m m' -> (forall x x', alike (k x) (k' x')) -> alike (seqs m k) (seqs m' k').
Proof.
  intros [l x] [l' x'] k k' H HK. unfold alike in *. cbn [fst] in H. subst l'.
  specialize (HK x x'). unfold seqs. destruct (k x), (k' x'). cbn [fst] in *. now rewrite HK.
Qed.
Lemma alike_ret {A B : Type} : forall (x : A) (y : B), alike (ret x) (ret y).
Proof. reflexivity. Qed.
Lemma alike_rd : forall p l l' i, alike (rd p l i) (rd p l' i).
Proof. reflexivity. Qed.
Lemma alike_wr : forall p l l' i v v', alike (wr p l i v) (wr p l' i v').
Proof. reflexivity. Qed.
Lemma alike_g : forall st st' a b c d x x' y y',
  alike (s_g st a b c d x y) (s_g st' a b c d x' y').
Proof. reflexivity. Qed.
Lemma alike_msg : forall m m' r i, alike (s_msg_at m r i) (s_msg_at m' r i).
Proof. reflexivity. Qed.
Lemma alike_mix : forall st st' m m' r a b c d i j,
  alike (s_mix st m r a b c d i j) (s_mix st' m' r a b c d i j).
Proof. intros. unfold s_mix. do 2 (apply alike_seqs; [apply alike_msg|intros]). apply alike_g. Qed.
Lemma alike_round : forall st st' m m' r, alike (s_round st m r) (s_round st' m' r).
Proof. intros. unfold s_round. do 7 (apply alike_seqs; [apply alike_mix|intros]). apply alike_mix. Qed.
Lemma alike_map : forall f f' is, (forall i, alike (f i) (f' i)) -> alike (s_map f is) (s_map f' is).
Proof.
  intros f f' is H. induction is as [|i is IH]; [reflexivity|]. cbn [s_map].
  apply alike_seqs; [apply H|intros]. apply alike_seqs; [exact IH|intros]. reflexivity.
Qed.
Lemma alike_inner : forall cv cv' b b' n n' o o' f f',
  alike (s_compress_inner cv b n o f) (s_compress_inner cv' b' n' o' f').
Proof.
  intros. unfold s_compress_inner, s_words_from_block.
  apply alike_seqs; [apply alike_map; reflexivity|intros].
  do 2 (apply alike_seqs; [apply alike_map; intros; apply alike_rd|intros]).
  do 3 (apply alike_seqs; [reflexivity|intros]).
  do 6 (apply alike_seqs; [apply alike_round|intros]). apply alike_round.
Qed.
Lemma alike_fold_cv : forall is st st' cv cv', alike (s_fold_cv st cv is) (s_fold_cv st' cv' is).
Proof.
  induction is as [|i is IH]; intros; [reflexivity|]. cbn [s_fold_cv].
  repeat (apply alike_seqs; [reflexivity|intros]). apply IH.
Qed.
Lemma alike_fold_low : forall is st st' o o', alike (s_fold_low st o is) (s_fold_low st' o' is).
Proof.
  induction is as [|i is IH]; intros; [reflexivity|]. cbn [s_fold_low].
  repeat (apply alike_seqs; [reflexivity|intros]). apply IH.
Qed.
Lemma alike_fold_high : forall is st st' cv cv' o o',
  alike (s_fold_high st cv o is) (s_fold_high st' cv' o' is).
Proof.
  induction is as [|i is IH]; intros; [reflexivity|]. cbn [s_fold_high].
  repeat (apply alike_seqs; [reflexivity|intros]). apply IH.
Qed.
Lemma steps_compress : forall cv cv' b b' n n' o o' f f',
  fst (s_compress cv b n o f) = fst (s_compress cv' b' n' o' f').
Proof. intros. apply alike_seqs; [apply alike_inner|intros; apply alike_fold_cv]. Qed.
Lemma steps_compress_xof : forall cv cv' b b' n n' o o' f f',
  fst (s_compress_xof cv b n o f) = fst (s_compress_xof cv' b' n' o' f').
Proof.
  intros. apply alike_seqs; [apply alike_inner|intros].
  apply alike_seqs; [apply alike_fold_low|intros; apply alike_fold_high].
Qed.

Lemma alike_c_mix : forall st st' m m' r a b c d i j,
  alike (sc_mix st m r a b c d i j) (sc_mix st' m' r a b c d i j).
Proof. intros. unfold sc_mix. do 2 (apply alike_seqs; [reflexivity|intros]). reflexivity. Qed.
Lemma alike_c_round : forall st st' m m' r, alike (sc_round st m r) (sc_round st' m' r).
Proof. intros. unfold sc_round. do 7 (apply alike_seqs; [apply alike_c_mix|intros]). apply alike_c_mix. Qed.
Lemma steps_c_compress : forall cv cv' b b' n n' o o' f f',
  fst (sc_compress_portable cv b n o f) = fst (sc_compress_portable cv' b' n' o' f').
Proof.
  intros. unfold sc_compress_portable.
  apply alike_seqs; [apply alike_map; reflexivity|intros].
  do 2 (apply alike_seqs; [apply alike_map; intros; apply alike_rd|intros]).
  do 3 (apply alike_seqs; [reflexivity|intros]).
  do 7 (apply alike_seqs; [apply alike_c_round|intros]). apply alike_fold_cv.
Qed.

(* ---- the values are those of the code ---------------------------------------- *)
Lemma value_map : forall f g is, (forall i, In i is -> snd (f i) = g i) ->
  snd (s_map f is) = map g is.
Proof.
  intros f g is H. induction is as [|i is IH]; [reflexivity|]. cbn [s_map map].
  rewrite !snd_seqs. cbn [ret snd]. rewrite IH; [|intros; apply H; now right].
  f_equal. apply H. now left.
Qed.
Lemma value_mix : forall st m r a b c d i j,
  snd (s_mix st m r a b c d i j) = g st a b c d (msg_at m r i) (msg_at m r j).
Proof. reflexivity. Qed.
Lemma value_round : forall st m r, snd (s_round st m r) = round st m r.
Proof. intros. unfold s_round. do 7 rewrite snd_seqs, value_mix. rewrite value_mix.
  unfold round. cbv zeta. reflexivity. Qed.
Lemma value_words : forall block, length block = 64%nat ->
  snd (s_words_from_block block) = words_from_block block.
Proof.
  intros block H. unfold s_words_from_block.
  rewrite (value_map _ (fun i => word32 (get block (4 * i)) (get block (4 * i + 1))
    (get block (4 * i + 2)) (get block (4 * i + 3)))); [|reflexivity].
  do 64 (destruct block as [|? block]; [discriminate H|]).
  destruct block; [|discriminate H]. reflexivity.
Qed.
Lemma value_inner : forall cv block n o f, length block = 64%nat ->
  snd (s_compress_inner cv block n o f) = compress_inner cv block n o f.
Proof.
  intros cv block n o f H. unfold s_compress_inner, compress_inner.
  rewrite snd_seqs, value_words by exact H.
  do 2 (rewrite snd_seqs, (value_map (rd _ _) (get _)) by reflexivity).
  rewrite snd_seqs. cbn [ret snd].
  rewrite snd_seqs. cbn [ret snd].
  rewrite snd_seqs. cbn [ret snd].
  do 6 rewrite snd_seqs, value_round. rewrite value_round.
  cbn [map seq app]. cbv zeta. reflexivity.
Qed.
Lemma value_fold_cv : forall st cv, length cv = 8%nat ->
  snd (s_fold_cv st cv (seq 0 8)) = map (fun i => xor32 (get st i) (get st (i + 8))) (seq 0 8).
Proof.
  intros st cv H. do 8 (destruct cv as [|? cv]; [discriminate H|]).
  destruct cv; [|discriminate H]. reflexivity.
Qed.
Lemma value_compress : forall cv block n o f, length cv = 8%nat -> length block = 64%nat ->
  snd (s_compress cv block n o f) = compress cv block n o f.
Proof.
  intros cv block n o f HC HB. unfold s_compress, compress.
  now rewrite snd_seqs, value_inner, value_fold_cv.
Qed.
Lemma value_low_high : forall st cv,
  snd (do out <- s_fold_low st (repeat 0 64) (seq 0 8);; s_fold_high st cv out (seq 8 8)) =
  flat_map (fun i => bytes32 (xor32 (get st i) (get st (i + 8)))) (seq 0 8)
  ++ flat_map (fun i => bytes32 (xor32 (get st i) (get cv (i - 8)))) (seq 8 8).
Proof. reflexivity. Qed.
Lemma value_compress_xof : forall cv block n o f, length block = 64%nat ->
  snd (s_compress_xof cv block n o f) = compress_xof cv block n o f.
Proof.
  intros cv block n o f HB. unfold s_compress_xof, compress_xof.
  rewrite snd_seqs, value_inner by exact HB. apply value_low_high.
Qed.

Lemma value_add_add : forall st a b x,
  snd (s_add_add st a b x) = set_nth st a (add32 (add32 (get st a) (get st b)) x).
Proof. reflexivity. Qed.
Lemma value_add : forall st c d, snd (s_add st c d) = set_nth st c (add32 (get st c) (get st d)).
Proof. reflexivity. Qed.
Lemma value_c_xor_rot : forall st d a n,
  snd (sc_xor_rot st d a n) = set_nth st d (c_rotr32 (N.lxor (get st d) (get st a)) n).
Proof. reflexivity. Qed.
Lemma value_c_g : forall st a b c d x y, snd (sc_g st a b c d x y) = c_g st a b c d x y.
Proof.
  intros. unfold sc_g, c_g. rewrite snd_seqs, value_add_add. set (s1 := set_nth st a _).
  rewrite snd_seqs, value_c_xor_rot. set (s2 := set_nth s1 d _).
  rewrite snd_seqs, value_add. set (s3 := set_nth s2 c _).
  rewrite snd_seqs, value_c_xor_rot. set (s4 := set_nth s3 b _).
  rewrite snd_seqs, value_add_add. set (s5 := set_nth s4 a _).
  rewrite snd_seqs, value_c_xor_rot. set (s6 := set_nth s5 d _).
  rewrite snd_seqs, value_add. set (s7 := set_nth s6 c _).
  apply value_c_xor_rot.
Qed.
Lemma value_c_mix : forall st m r a b c d i j,
  snd (sc_mix st m r a b c d i j) = c_g st a b c d (get m (c_sched r i)) (get m (c_sched r j)).
Proof. intros. unfold sc_mix. rewrite snd_seqs. rewrite snd_seqs. apply value_c_g. Qed.
Lemma value_c_round : forall st m r, snd (sc_round st m r) = c_round st m r.
Proof. intros. unfold sc_round. do 7 rewrite snd_seqs, value_c_mix. rewrite value_c_mix.
  unfold c_round. cbv zeta. reflexivity. Qed.
Lemma get_skipn : forall l i j, get (skipn i l) j = get l (i + j).
Proof.
  unfold get. intros l i. revert l. induction i; intros l j; [reflexivity|].
  destruct l; [now destruct j|]. cbn [skipn]. rewrite IHi. reflexivity.
Qed.
Lemma value_load32 : forall block i, snd (sc_load32 block i) = load32 (skipn (4 * i) block).
Proof.
  intros. unfold load32. rewrite !get_skipn, PeanoNat.Nat.add_0_r. reflexivity.
Qed.
Lemma value_c_compress : forall cv block n o f, length cv = 8%nat ->
  snd (sc_compress_portable cv block n o f) = compress_portable cv block n o f.
Proof.
  intros cv block n o f H. unfold sc_compress_portable, compress_portable.
  rewrite snd_seqs, (value_map _ (fun i => load32 (skipn (4 * i) block)))
    by (intros; apply value_load32).
  fold (load_words 16 block).
  do 2 (rewrite snd_seqs, (value_map (rd _ _) (get _)) by reflexivity).
  rewrite snd_seqs. cbn [ret snd].
  rewrite snd_seqs. cbn [ret snd].
  rewrite snd_seqs. cbn [ret snd].
  do 7 rewrite snd_seqs, value_c_round. rewrite value_fold_cv by exact H.
  cbv zeta. cbn [map seq app Nat.add]. reflexivity.
Qed.

(* ---- whole runs ----------------------------------------------------------------- *)
Lemma flat_same {A B C : Type} : forall (f : A -> list C) (k : A -> B) l l',
  (forall x y, k x = k y -> f x = f y) -> map k l = map k l' -> flat_map f l = flat_map f l'.
Proof.
  intros f k l. induction l as [|x l IH]; intros [|y l'] H HM; try discriminate; [reflexivity|].
  cbn [map] in HM. injection HM as H1 H2. cbn [flat_map].
  now rewrite (H x y H1), (IH l' H H2).
Qed.
Lemma xof_call_same : forall x y, public x = public y -> xof_call_steps x = xof_call_steps y.
Proof.
  intros x y H. unfold public in H. unfold xof_call_steps, call_steps.
  injection H as _ _ _ _ HF. rewrite HF.
  destruct (N.testbit (nd_flags y) 3); [apply steps_compress_xof|apply steps_compress].
Qed.
Lemma observed_calls {A B : Type} : forall (r : list node * res A) (r' : list node * res B),
  map public (fst r) = map public (fst r') ->
  run_steps (fst r) = run_steps (fst r') /\ c_run_steps (fst r) = c_run_steps (fst r') /\
  xof_run_steps (fst r) = xof_run_steps (fst r').
Proof.
  intros r r' H. split; [|split].
  - apply (flat_same _ public); [|exact H]. intros. apply steps_compress.
  - apply (flat_same _ public); [|exact H]. intros. apply steps_c_compress.
  - apply (flat_same _ public); [|exact H]. apply xof_call_same.
Qed.
Lemma observed_public {A B : Type} : forall (r : list node * res A) (r' : list node * res B),
  observed r = observed r' -> map public (fst r) = map public (fst r').
Proof. intros r r' H. unfold observed in H. now injection H. Qed.

Lemma program_steps : forall c m m' g g' n,
  mode_ok m -> mode_ok m' -> same_kind m m' ->
  bytes (data g) -> bytes (data g') -> same_lengths g g' ->
  run_steps (fst (t_hash c PPortable m g [])) = run_steps (fst (t_hash c PPortable m' g' [])) /\
  xof_run_steps (fst (t_xof c PPortable m g n [])) =
    xof_run_steps (fst (t_xof c PPortable m' g' n [])).
Proof.
  intros c m m' g g' n H1 H2 H3 H4 H5 H6.
  destruct (program_observed c PPortable m m' g g' n H1 H2 H3 H4 H5 H6) as [HH HX].
  split.
  - apply observed_calls. apply observed_public. exact HH.
  - refine (proj2 (proj2 (observed_calls _ _ _))). apply observed_public. exact HX.
Qed.
Lemma c_program_steps : forall o memory memory' key key' flags us us',
  length key = 32%nat -> bytes key -> length key' = 32%nat -> bytes key' ->
  len memory = len memory' -> bytes memory -> bytes memory' ->
  c_updates_ok us -> c_updates_ok us' ->
  Forall (fun u => bytes (snd u)) us -> Forall (fun u => bytes (snd u)) us' ->
  map (fun u => len (fst u)) us = map (fun u => len (fst u)) us' ->
  c_run_steps (fst (n_hash o memory key flags us [])) =
    c_run_steps (fst (n_hash o memory' key' flags us' [])).
Proof.
  intros o memory memory' key key' flags us us' H1 H2 H3 H4 H5 H6 H7 H8 H9 H10 H11 H12.
  refine (proj1 (proj2 (observed_calls _ _ _))). apply observed_public. now apply c_observed.
Qed.

Lemma count_app : forall f l l', count f (l ++ l') = count f l + count f l'.
Proof. intros. unfold count, len. rewrite filter_app, app_length. lia. Qed.
Lemma count_compress : forall cv b n o f,
  count arithmetic (fst (s_compress cv b n o f)) = 792.
Proof. intros. rewrite (steps_compress cv [] b [] n 0 o 0 f 0). vm_compute. reflexivity. Qed.
Lemma work_of_a_call : forall cv block block_len offset flags,
  count arithmetic (fst (s_compress cv block block_len offset flags)) = 792 /\
  count arithmetic (fst (s_compress_xof cv block block_len offset flags)) = 800 /\
  block_reads (fst (s_compress cv block block_len offset flags)) = seq 0 64 /\
  block_reads (fst (s_compress_xof cv block block_len offset flags)) = seq 0 64 /\
  block_reads (fst (sc_compress_portable cv block block_len offset flags)) = seq 0 64.
Proof.
  intros cv b n o f. split; [apply count_compress|].
  rewrite (steps_compress cv [] b [] n 0 o 0 f 0), (steps_compress_xof cv [] b [] n 0 o 0 f 0),
    (steps_c_compress cv [] b [] n 0 o 0 f 0).
  vm_compute. repeat split.
Qed.
Lemma count_run : forall calls, count arithmetic (run_steps calls) = 792 * len calls.
Proof.
  induction calls as [|x l IH]; [reflexivity|]. unfold run_steps in *. cbn [flat_map].
  rewrite count_app, IH. unfold call_steps. rewrite count_compress.
  unfold len. cbn [length]. lia.
Qed.

Lemma work_of_a_hash : forall c m g, mode_ok m -> fits c g ->
  count arithmetic (run_steps (fst (t_hash c PPortable m g []))) =
  792 * (N.max 1 ((len (data g) + 63) / 64) + (N.max 1 ((len (data g) + 2047) / 2048) - 1)).
Proof.
  intros c m g HM HG. rewrite count_run.
  destruct (program_count c PPortable m g 0 I HM HG) as [H _]; [reflexivity|]. now rewrite H.
Qed.

Lemma steps_value : forall cv block block_len offset flags,
  length cv = 8%nat -> length block = 64%nat ->
  snd (s_compress cv block block_len offset flags) =
    Portable.compress cv block block_len offset flags /\
  snd (s_compress_xof cv block block_len offset flags) =
    Portable.compress_xof cv block block_len offset flags /\
  snd (sc_compress_portable cv block block_len offset flags) =
    compress_portable cv block block_len offset flags.
Proof.
  intros. split; [now apply value_compress|]. split; [now apply value_compress_xof|].
  now apply value_c_compress.
Qed.
Lemma steps_same : forall cv cv' block block' block_len block_len' offset offset' flags flags',
  fst (s_compress cv block block_len offset flags) =
    fst (s_compress cv' block' block_len' offset' flags') /\
  fst (s_compress_xof cv block block_len offset flags) =
    fst (s_compress_xof cv' block' block_len' offset' flags') /\
  fst (sc_compress_portable cv block block_len offset flags) =
    fst (sc_compress_portable cv' block' block_len' offset' flags').
Proof.
  intros. split; [apply steps_compress|]. split; [apply steps_compress_xof|apply steps_c_compress].
Qed.
