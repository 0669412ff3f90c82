(* The C hasher stays inside its arrays, and changes only the bytes it stores to. *)
From Coq Require Import NArith List Bool Lia ZArith.
From Coq Require Import ZifyBool ZifyNat ZifyN.
From Verif Require Import Base BaseFacts CSimd CImpl.
From Verif Require Import VOps VStepsFacts VMemSpec VMemFacts CVSteps CVStepsFacts CVMemSpec CVMemFacts.
From Verif Require Import CHSteps CHStepsSpec CHMemFacts CHMemSpec.
From Verif Require Import SessionSpec CSessionSpec CSession CSafeFacts.
Import ListNotations.
Open Scope N_scope.

(* ---- bytes that are not stored to ---- *)

Definition kept (at_ : N -> vstep -> bool) (l : list vstep) (a b : list N) : Prop :=
  len b = len a /\
  forall i, existsb (at_ i) l = false -> nth_error b (N.to_nat i) = nth_error a (N.to_nat i).
Lemma kept_app : forall t l l' a b c, kept t l a b -> kept t l' b c -> kept t (l ++ l') a c.
Proof.
  intros * [L H] [L' H']. split; [lia|]. intros i E. rewrite existsb_app in E.
  apply orb_false_iff in E. destruct E as [E E']. rewrite H' by exact E'. now apply H.
Qed.
Lemma kept_same : forall t l a, kept t l a a.
Proof. intros. now split. Qed.

Lemma copy_kept : forall a off src b, copy_at a off src = Ok b ->
  off + len src <= len a /\ len b = len a /\
  forall i, (off <=? i) && (i <? off + len src) = false ->
    nth_error b (N.to_nat i) = nth_error a (N.to_nat i).
Proof.
  intros * E. unfold copy_at in E. destruct (N.leb_spec (off + len src) (len a)) as [G|]; [|discriminate E].
  assert (E' : b = take off a ++ src ++ drop (off + len src) a) by congruence. subst b. clear E.
  split; [exact G|]. split. { rewrite !len_app, len_take, len_drop. lia. }
  intros i Hi.
  assert (T : length (take off a) = N.to_nat off).
  { unfold take. rewrite firstn_length. unfold len in G. lia. }
  destruct (N.leb_spec off i) as [A|A].
  - destruct (N.ltb_spec i (off + len src)) as [B|B]; [discriminate Hi|].
    rewrite nth_error_app2 by lia. rewrite nth_error_app2 by (unfold len in *; lia).
    assert (E : nth_error a (N.to_nat i)
      = nth_error (take (off + len src) a ++ drop (off + len src) a) (N.to_nat i)) by now rewrite take_drop.
    assert (T2 : length (take (off + len src) a) = N.to_nat (off + len src)).
    { unfold take. rewrite firstn_length. unfold len in *. lia. }
    rewrite E, (nth_error_app2 (take (off + len src) a)) by lia. f_equal. rewrite T, T2. unfold len in *. lia.
  - assert (E : nth_error a (N.to_nat i) = nth_error (take off a ++ drop off a) (N.to_nat i))
      by now rewrite take_drop.
    rewrite E. rewrite !nth_error_app1 by lia. reflexivity.
Qed.
Lemma buf_kept : forall a off src b, copy_at a off src = Ok b ->
  kept to_buf [Store PBuf off (len src)] a b.
Proof.
  intros * E. destruct (copy_kept _ _ _ _ E) as (_ & L & H). split; [exact L|]. intros i Hi. apply H.
  cbn [existsb to_buf] in Hi. now rewrite orb_false_r in Hi.
Qed.
Lemma stack_kept : forall a off src b, copy_at a off src = Ok b ->
  kept to_stack [Store PStack off (len src)] a b.
Proof.
  intros * E. destruct (copy_kept _ _ _ _ E) as (_ & L & H). split; [exact L|]. intros i Hi. apply H.
  cbn [existsb to_stack] in Hi. now rewrite orb_false_r in Hi.
Qed.
(* the whole buffer is cleared *)
Lemma buf_cleared : forall a, len a = 64 -> kept to_buf [Store PBuf 0 C_BLOCK_LEN] a (zeros C_BLOCK_LEN).
Proof.
  intros a L. split; [rewrite len_zeros; now rewrite L|]. intros i Hi. cbn [existsb to_buf] in Hi.
  rewrite orb_false_r in Hi. change C_BLOCK_LEN with 64 in *.
  assert (64 <= i) by lia.
  rewrite !(proj2 (nth_error_None _ _)); [reflexivity| |]; pose proof (len_zeros 64); unfold len in *; lia.
Qed.

Section Bounds.
Variable nin : N.   (* the length of the input *)

Definition fine (l : list vstep) : Prop := forallb (hasher_inside nin) l = true.
Lemma fine_app : forall l l', fine l -> fine l' -> fine (l ++ l').
Proof. unfold fine. intros l l' A B. now rewrite forallb_app, A, B. Qed.

(* a part that stays in its arrays and stores nothing to the buffer or the stack *)
Definition still (l : list vstep) : Prop :=
  fine l /\ forallb (fun s => match s with Store PBuf _ _ | Store PStack _ _ => false | _ => true end) l = true.
Lemma still_app : forall l l', still l -> still l' -> still (l ++ l').
Proof.
  intros l l' [A B] [A' B']. split; [now apply fine_app|]. now rewrite forallb_app, B, B'.
Qed.

(* what a part does to the chunk state and to the stack *)
Definition moves (l : list vstep) (s s' : c_chunk) (st st' : list N) : Prop :=
  fine l /\ kept to_buf l (k_buf s) (k_buf s') /\ kept to_stack l st st'.
Lemma moves_app : forall l l' s s' s'' a b c, moves l s s' a b -> moves l' s' s'' b c ->
  moves (l ++ l') s s'' a c.
Proof.
  intros * (A & B & C) (A' & B' & C'). split; [now apply fine_app|].
  split; eapply kept_app; eassumption.
Qed.
Lemma moves_still : forall l s s' a, still l -> k_buf s' = k_buf s -> moves l s s' a a.
Proof.
  intros * [F _] E. rewrite <- (app_nil_r l). split; [now rewrite app_nil_r|].
  rewrite E. split; apply kept_same.
Qed.
Lemma moves_nil : forall s s' a, k_buf s' = k_buf s -> moves [] s s' a a.
Proof. intros * E. apply moves_still; [split; reflexivity|exact E]. Qed.

Lemma small_inside : forall s, c_inside 0 0 0 0 s = true -> hasher_inside nin s = true.
Proof.
  intros s H. unfold hasher_inside, c_inside, inside in *.
  destruct s as [[]|[]|[]|[]| |[]| | |]; cbn in *; try exact H; try discriminate H; try lia.
Qed.
Lemma small_no_store : forall nd n cap out s, c_inside nd n cap out s = true ->
  match s with Store PBuf _ _ | Store PStack _ _ => false | _ => true end = true.
Proof. intros * H. destruct s as [| |[]| | | | | |]; try reflexivity; discriminate H. Qed.

Lemma comp_still : forall o a x bl off fl, logs (cv_compress o a x bl off fl) (fun l _ => still l).
Proof.
  intros * y _. pose proof (c_compress_inside o a x bl off fl) as H. rewrite forallb_forall in H.
  split; apply forallb_forall; intros s Hs; specialize (H s Hs).
  - now apply small_inside.
  - eapply small_no_store; exact H.
Qed.
Lemma still_one : forall s, hasher_inside nin s = true ->
  match s with Store PBuf _ _ | Store PStack _ _ => false | _ => true end = true -> still [s].
Proof. intros s A B. split; [unfold fine|]; cbn [forallb]; now rewrite ?A, ?B. Qed.
Lemma fine_one : forall s, hasher_inside nin s = true -> fine [s].
Proof. intros s A. unfold fine. cbn [forallb]. now rewrite A. Qed.

Lemma write_len : forall st, len (write_state_bytes st) = 32.
Proof. reflexivity. Qed.

Lemma w_fin_still : forall o s r,
  logs (w_chunk_state_finalize o s r) (fun l h => still l /\ len h = 32).
Proof.
  intros. unfold w_chunk_state_finalize. cbv zeta. apply logs_bind, logs_pure. intros _ _.
  apply logs_bind. eapply logs_impl; [apply comp_still|]. intros l st S. apply logs_lift.
  intros h E. assert (h = write_state_bytes st) as -> by congruence. split; [|apply write_len].
  rewrite app_nil_r. apply still_app; [now apply still_one|exact S].
Qed.
Lemma w_parent_still : forall o p x k r f, still [p] ->
  logs (w_hash_one_parent o p x k r f) (fun l h => still l /\ len h = 32).
Proof.
  intros * P. unfold w_hash_one_parent. cbv zeta. apply logs_bind, logs_pure. intros _ _.
  apply logs_bind. eapply logs_impl; [apply comp_still|]. intros l st S. apply logs_lift.
  intros h E. assert (h = write_state_bytes st) as -> by congruence. split; [|apply write_len].
  rewrite app_nil_r. now apply still_app.
Qed.

Lemma slice_len : forall (l : list N) off n x, slice l off n = Ok x -> off + n <= len l /\ len x = n.
Proof.
  intros * E. unfold slice in E. destruct (N.leb_spec (off + n) (len l)); [|discriminate E].
  assert (x = take n (drop off l)) as -> by congruence. rewrite len_take, len_drop. lia.
Qed.

(* ---- the chunk state ---- *)

Lemma w_fill_moves : forall o e s x st, len x <= e -> e <= nin -> len (k_buf s) = 64 ->
  logs (w_fill_buf o e s x) (fun l r => moves l s (fst r) st st).
Proof.
  intros * L Le Lb. unfold w_fill_buf. cbv zeta.
  generalize (if len x <? sub_size o C_BLOCK_LEN (k_buf_len s) then len x else sub_size o C_BLOCK_LEN (k_buf_len s)).
  intros n. apply logs_bind, logs_pure. intros src Es. apply logs_bind, logs_pure. intros buf Eb.
  destruct (slice_len _ _ _ _ Es) as [Ln Ls].
  apply logs_lift. intros r Er.
  assert (k_buf (fst r) = buf) as E by (destruct r; injection Er as <- <-; reflexivity). clear Er.
  rewrite app_nil_r. eapply moves_app with (s' := s) (b := st).
  - apply moves_still; [|reflexivity]. apply still_one; [|reflexivity]. cbn [hasher_inside]. lia.
  - pose proof (copy_kept _ _ _ _ Eb) as (Lc & _). rewrite Ls in Lc. rewrite <- Ls.
    split; [apply fine_one; cbn [hasher_inside]; lia|]. rewrite E.
    split; [now apply buf_kept|apply kept_same].
Qed.
Lemma w_block_moves : forall o s p b st, still [p] ->
  logs (w_chunk_state_block o s p b) (fun l t => moves l s t st st).
Proof.
  intros * P. unfold w_chunk_state_block. apply logs_bind, logs_pure. intros _ _. apply logs_bind.
  eapply logs_impl; [apply comp_still|]. intros l y Sl. apply logs_lift. intros t E.
  rewrite app_nil_r. apply moves_still; [now apply still_app|].
  assert (T : forall u, Ok u = Ok t -> k_buf t = k_buf u) by (intros u Q; congruence).
  rewrite (T _ E). reflexivity.
Qed.
Lemma moves_len : forall l s s' a b, moves l s s' a b -> len (k_buf s') = len (k_buf s) /\ len b = len a.
Proof. intros * (_ & [A _] & [B _]). now split. Qed.
Lemma w_loop_moves : forall o e fuel s x st, len x <= e -> e <= nin ->
  logs (w_chunk_state_loop o e fuel s x) (fun l r => moves l s (fst r) st st /\ len (snd r) <= len x).
Proof.
  intros o e. induction fuel as [|fuel IH]; intros s x st L Le; cbn [w_chunk_state_loop];
    destruct (N.ltb_spec C_BLOCK_LEN (len x)) as [G|G]; change C_BLOCK_LEN with 64 in *.
  - apply logs_lift. discriminate.
  - apply logs_lift. intros r [= <-]. cbn [fst snd]. split; [now apply moves_nil|lia].
  - apply logs_bind, logs_lift. intros b _. cbn [app]. apply logs_bind.
    eapply logs_impl; [apply (w_block_moves _ _ _ _ st); apply still_one; [cbn [hasher_inside]; lia|reflexivity]|].
    intros l t M. eapply logs_impl; [apply (IH _ _ st); rewrite ?len_drop; lia|].
    intros l' r [M' Lr]. rewrite len_drop in Lr. split; [|lia]. eapply moves_app; [exact M|exact M'].
  - apply logs_lift. intros r [= <-]. cbn [fst snd]. split; [now apply moves_nil|lia].
Qed.
Lemma w_fill_len : forall o e s x, logs (w_fill_buf o e s x) (fun _ r => len (snd r) <= len x).
Proof.
  intros. unfold w_fill_buf. cbv zeta. apply logs_bind, logs_pure. intros src _.
  apply logs_bind, logs_pure. intros b _. apply logs_lift. intros r [= <-]. cbn [snd]. rewrite len_drop. lia.
Qed.
Lemma logs_and : forall A (m : vs A) Q R, logs m Q -> logs m R -> logs m (fun l x => Q l x /\ R l x).
Proof. intros * H K x E. split; auto. Qed.

Lemma w_chunk_update_moves : forall o e s x st, len x <= e -> e <= nin -> len (k_buf s) = 64 ->
  logs (w_chunk_state_update o e s x) (fun l s' => moves l s s' st st).
Proof.
  intros * L Le Lb. unfold w_chunk_state_update. apply logs_bind.
  eapply logs_impl with (Q := fun l r => moves l s (fst r) st st /\ len (snd r) <= len x).
  - destruct (0 <? k_buf_len s).
    + apply logs_bind. eapply logs_impl.
      { apply logs_and; [apply (w_fill_moves o e s x st); assumption|apply w_fill_len]. }
      intros l [t y] [M Ly]. cbn [fst snd] in *. destruct (0 <? len y).
      * apply logs_bind. eapply logs_impl; [apply (w_block_moves _ _ _ _ st); now apply still_one|].
        intros l' t' M'. apply logs_bind, logs_pure. intros _ _. apply logs_lift. intros r Er.
        assert (E : k_buf (fst r) = zeros C_BLOCK_LEN /\ snd r = y)
          by (destruct r; injection Er as <- <-; split; reflexivity).
        destruct E as [E ->]. split; [|exact Ly].
        eapply moves_app; [exact M|]. eapply moves_app; [exact M'|]. rewrite app_nil_r.
        split; [now apply fine_one|]. rewrite E. split; [|apply kept_same].
        apply buf_cleared. apply moves_len in M. apply moves_len in M'. lia.
      * apply logs_lift. intros r [= <-]. cbn [fst snd]. rewrite app_nil_r. now split.
    + apply logs_lift. intros r [= <-]. cbn [fst snd]. split; [now apply moves_nil|lia].
  - intros l [t y] [M Ly]. cbn [fst snd] in *. apply logs_bind.
    eapply logs_impl; [apply (w_loop_moves o e _ t y st); lia|]. intros l' [u z] [M' Lz]. cbn [fst snd] in *.
    apply logs_bind. eapply logs_impl.
    { apply (w_fill_moves o e u z st); [lia|exact Le|]. apply moves_len in M. apply moves_len in M'. lia. }
    intros l'' [v w] M''. cbn [fst snd] in *. apply logs_lift. intros r [= <-]. rewrite app_nil_r.
    eapply moves_app; [exact M|]. eapply moves_app; [exact M'|exact M''].
Qed.

(* ---- the stack ---- *)

Definition hmoves (l : list vstep) (h h' : c_hasher) : Prop :=
  moves l (c_chunk_of h) (c_chunk_of h') (c_stack h) (c_stack h').
Definition whole (h : c_hasher) : Prop := len (k_buf (c_chunk_of h)) = 64 /\ len (c_stack h) = 53 * 32.
Lemma hmoves_app : forall l l' a b c, hmoves l a b -> hmoves l' b c -> hmoves (l ++ l') a c.
Proof. intros * H H'. eapply moves_app; eassumption. Qed.
Lemma hmoves_whole : forall l h h', hmoves l h h' -> whole h -> whole h'.
Proof. intros * M [A B]. apply moves_len in M. split; lia. Qed.
Lemma hmoves_refl : forall h, hmoves [] h h.
Proof. intros. now apply moves_nil. Qed.

Lemma w_merge_parent_moves : forall o h, whole h -> logs (w_merge_parent o h) (fun l h' => hmoves l h h').
Proof.
  intros o h [Wb Ws]. unfold w_merge_parent. cbv zeta.
  generalize ((sub_size o (c_stack_len h) 2 * C_OUT_LEN) mod WS o). intros p.
  apply logs_bind, logs_lift. intros b Eb. destruct (slice_len _ _ _ _ Eb) as [Lp _]. cbn [app].
  change C_BLOCK_LEN with 64 in Lp.
  apply logs_bind. eapply logs_impl.
  { apply w_parent_still. apply still_one; [cbn [hasher_inside]; lia|reflexivity]. }
  intros l out [Sl Lo]. apply logs_bind, logs_pure. intros stack Es. apply logs_lift. intros h' [= <-].
  rewrite app_nil_r. unfold hmoves. cbn [c_chunk_of c_stack].
  eapply moves_app; [now apply (moves_still _ _ (c_chunk_of h))|].
  change C_OUT_LEN with 32. rewrite <- Lo.
  pose proof (copy_kept _ _ _ _ Es) as (Lc & _).
  split; [apply fine_one; cbn [hasher_inside]; lia|]. split; [apply kept_same|now apply stack_kept].
Qed.
Lemma w_merge_moves : forall o fuel h n, whole h -> logs (w_merge_loop o fuel h n) (fun l h' => hmoves l h h').
Proof.
  intros o. induction fuel as [|fuel IH]; intros h n W; cbn [w_merge_loop];
    apply logs_bind, logs_lift; intros [] _; cbn [app].
  - apply logs_lift. discriminate.
  - apply logs_lift. intros r [= <-]. apply hmoves_refl.
  - apply logs_bind. eapply logs_impl; [now apply w_merge_parent_moves|]. intros l h1 M.
    eapply logs_impl; [apply IH; eapply hmoves_whole; [exact M|exact W]|]. intros l' h2 M'.
    eapply hmoves_app; [exact M|exact M'].
  - apply logs_lift. intros r [= <-]. apply hmoves_refl.
Qed.
Lemma w_push_moves : forall o h x off, whole h -> len x = 32 ->
  logs (w_push_chunk_hash o h x off) (fun l h' => hmoves l h h').
Proof.
  intros * W Lx. unfold w_push_chunk_hash.
  apply logs_bind, logs_lift. intros _ _. cbn [app].
  apply logs_bind. eapply logs_impl; [now apply w_merge_moves|]. intros l h1 M.
  apply logs_bind, logs_pure. intros stack Es. apply logs_lift. intros h' [= <-]. rewrite app_nil_r.
  eapply hmoves_app; [exact M|]. pose proof (hmoves_whole _ _ _ M W) as [Wb Ws].
  unfold hmoves. cbn [c_chunk_of c_stack]. change C_OUT_LEN with 32 in *.
  pose proof (copy_kept _ _ _ _ Es) as (Lc & _). rewrite Lx in Lc.
  split; [apply fine_one; cbn [hasher_inside]; lia|]. split; [apply kept_same|].
  rewrite <- Lx at 2. now apply stack_kept.
Qed.
Lemma w_push_chunks_moves : forall o n i h out, whole h -> i + N.of_nat n <= 16 ->
  logs (w_push_chunks o n i h out) (fun l h' => hmoves l h h').
Proof.
  intros o. induction n as [|n IH]; intros i h out W Li; cbn [w_push_chunks].
  - apply logs_lift. intros r [= <-]. apply hmoves_refl.
  - apply logs_bind, logs_pure. intros x Ex. destruct (slice_len _ _ _ _ Ex) as [_ Lx].
    apply logs_bind. eapply logs_impl; [now apply w_push_moves|]. intros l h1 M. cbv zeta.
    pose proof (hmoves_whole _ _ _ M W) as W1.
    eapply logs_impl; [apply IH; [exact W1|lia]|]. intros l' h2 M'.
    assert (M2 : hmoves (l ++ l') h h2).
    { eapply moves_app; [exact M|exact M']. }
    refine (hmoves_app [_] _ h h h2 _ M2). unfold hmoves. apply moves_still; [|reflexivity].
    apply still_one; [|reflexivity]. cbn [hasher_inside]. change C_OUT_LEN with 32. lia.
Qed.

(* ---- an update ---- *)

Lemma gather_room : forall room x, (length (fst (gather_chunks room x)) <= room)%nat.
Proof.
  induction room as [|room IH]; intros x; cbn [gather_chunks]; destruct (_ <=? _); cbn [fst length]; try lia.
  specialize (IH (drop C_CHUNK_LEN x)). destruct (gather_chunks room _). cbn [fst length] in *. lia.
Qed.
Lemma deltas_17 : forall o, (deltas_needed o <= 17)%nat.
Proof.
  intros o. unfold deltas_needed.
  destruct (use_avx512 o), (use_avx2 o), (use_sse41 o), (use_neon o); lia.
Qed.
Lemma relocate_inside : forall nd n p s, (nd <= 17)%nat -> (n <= 16)%nat -> p + 2048 * N.of_nat n <= nin ->
  c_inside nd n 2048 (32 * N.of_nat n) s = true ->
  hasher_inside nin (relocate p s) = true /\
  match relocate p s with Store PBuf _ _ | Store PStack _ _ => false | _ => true end = true.
Proof.
  intros nd n p s Hd Hn Hp H. unfold c_inside, inside in H.
  destruct s as [q|[| | |k| | | | | | |] off b|[| | |k| | | | | | |] off b|[| | |k| | | | | | |] i|r i
    |[| | |k| | | | | | |] off|o1|o2|m];
    cbn [relocate hasher_inside c_inside inside]; try discriminate H;
    (split; [|reflexivity]); try exact H; change C_CHUNK_LEN with 2048; try lia.
Qed.
Lemma w_many_still : forall o p xs key off d fl fs fe out, (length xs <= 16)%nat ->
  p + 2048 * len xs <= nin ->
  logs (relocated p (cv_hash_many o 0 xs (C_CHUNK_LEN / C_BLOCK_LEN) key off d fl fs fe out))
       (fun l _ => still l).
Proof.
  intros * Lx Lp y _. pose proof (c_many_inside o xs (C_CHUNK_LEN / C_BLOCK_LEN) key off d fl fs fe out) as H.
  change (64 * (C_CHUNK_LEN / C_BLOCK_LEN)) with 2048 in H. rewrite forallb_forall in H.
  unfold relocated. cbn [fst]. pose proof (deltas_17 o).
  split; apply forallb_forall; intros s Hs; apply in_map_iff in Hs; destruct Hs as (t & <- & Ht);
    specialize (H _ Ht); unfold len in *;
    destruct (relocate_inside _ _ p t (deltas_17 o) Lx Lp H) as [A B]; [exact A|exact B].
Qed.
Lemma w_chunks_moves : forall o e fuel h x out, whole h -> len x <= e -> e <= nin ->
  logs (w_chunks_loop o e fuel h x out) (fun l r => hmoves l h (fst r) /\ len (snd r) <= len x).
Proof.
  intros o e. induction fuel as [|fuel IH]; intros h x out W L Le; cbn [w_chunks_loop]; destruct (_ <=? _).
  - apply logs_lift. discriminate.
  - apply logs_lift. intros r [= <-]. cbn [fst snd]. split; [apply hmoves_refl|lia].
  - pose proof (gather_len (N.to_nat C_MAX_SIMD_DEGREE) x) as G.
    pose proof (gather_room (N.to_nat C_MAX_SIMD_DEGREE) x) as R.
    destruct (gather_chunks (N.to_nat C_MAX_SIMD_DEGREE) x) as [cs r]. cbn [fst snd] in G, R. cbv zeta.
    change (N.to_nat C_MAX_SIMD_DEGREE) with 16%nat in R.
    apply logs_bind. eapply logs_impl; [apply w_many_still; [exact R|lia]|]. intros l out' Sl.
    apply logs_bind. eapply logs_impl; [apply w_push_chunks_moves; [exact W|lia]|]. intros l' h' M.
    eapply logs_impl; [apply IH; [eapply hmoves_whole; [exact M|exact W]|lia|exact Le]|]. intros l'' q [M' A].
    split; [|lia]. eapply hmoves_app; [|eapply hmoves_app; [exact M|exact M']].
    now apply moves_still.
  - apply logs_lift. intros r [= <-]. cbn [fst snd]. split; [apply hmoves_refl|lia].
Qed.
Lemma chunk_hmoves : forall l h s, moves l (c_chunk_of h) s (c_stack h) (c_stack h) ->
  hmoves l h (CHasher s (c_stack_len h) (c_stack h)).
Proof. intros * M. exact M. Qed.
Lemma w_rest_moves : forall o e j h x, whole h -> len x <= e -> e <= nin ->
  logs (w_update_rest o e j h x) (fun l h' => hmoves l h h').
Proof.
  intros * W L Le. unfold w_update_rest. apply logs_bind. eapply logs_impl; [now apply w_chunks_moves|].
  intros l [g y] [M A]. cbn [fst snd] in *. pose proof (hmoves_whole _ _ _ M W) as W1.
  destruct (0 <? len y).
  - apply logs_bind. eapply logs_impl; [apply w_merge_moves; exact W1|]. intros l' k M'.
    pose proof (hmoves_whole _ _ _ M' W1) as W2.
    apply logs_bind. eapply logs_impl; [apply (w_chunk_update_moves o e _ y (c_stack k)); [lia|exact Le|apply W2]|].
    intros l'' s M''. apply logs_lift. intros h' [= <-]. rewrite app_nil_r.
    eapply hmoves_app; [exact M|]. eapply hmoves_app; [exact M'|]. now apply chunk_hmoves.
  - apply logs_lift. intros h' [= <-]. now rewrite app_nil_r.
Qed.
Lemma w_update_moves : forall o j h x, whole h -> len x <= nin ->
  logs (w_hasher_update o j h x) (fun l h' => hmoves l h h').
Proof.
  intros * W L. unfold w_hasher_update. cbv zeta. destruct (_ || _).
  - generalize (if len x <? sub_size o C_CHUNK_LEN (chunk_state_len (c_chunk_of h)) then len x
                else sub_size o C_CHUNK_LEN (chunk_state_len (c_chunk_of h))). intros n.
    apply logs_bind, logs_lift. intros src Es. destruct (slice_len _ _ _ _ Es) as [Ln Ls]. cbn [app].
    apply logs_bind.
    eapply logs_impl; [apply (w_chunk_update_moves o n _ src (c_stack h)); [lia|lia|apply W]|]. intros l s M.
    apply chunk_hmoves in M. pose proof (hmoves_whole _ _ _ M W) as W1.
    destruct (0 <? len (drop n x)).
    + apply logs_bind. eapply logs_impl; [apply w_fin_still|]. intros l1 out [S1 Lo].
      apply logs_bind. eapply logs_impl; [apply w_push_moves; [exact W1|exact Lo]|]. intros l2 g M2.
      pose proof (hmoves_whole _ _ _ M2 W1) as W2.
      apply logs_bind, logs_pure. intros _ _.
      set (g' := CHasher _ _ _).
      assert (M3 : hmoves [Store PBuf 0 C_BLOCK_LEN] g g').
      { split; [now apply fine_one|]. split; [|apply kept_same]. apply buf_cleared. apply W2. }
      pose proof (hmoves_whole _ _ _ M3 W2) as W3.
      eapply logs_impl; [apply w_rest_moves; [exact W3|rewrite len_drop; lia|exact L]|]. intros l3 y M4.
      eapply hmoves_app; [exact M|]. eapply hmoves_app; [|eapply hmoves_app; [exact M2|eapply hmoves_app; [exact M3|exact M4]]].
      now apply moves_still.
    + apply logs_lift. intros h' [= <-]. now rewrite app_nil_r.
  - apply w_rest_moves; [exact W|lia|exact L].
Qed.

(* ---- finalize ---- *)

Lemma w_up_still : forall o fuel h w i, whole h -> logs (w_finalize_up o fuel h w i) (fun l _ => still l).
Proof.
  intros o. induction fuel as [|fuel IH]; intros h w i W; cbn [w_finalize_up]; cbv zeta;
    apply logs_bind, logs_pure; intros x Ex; destruct (slice_len _ _ _ _ Ex) as [Lx _];
    destruct W as [Wb Ws]; change C_OUT_LEN with 32 in *;
    (apply logs_bind; eapply logs_impl; [apply w_parent_still; now apply still_one|]); intros l y [Sl _];
    (assert (S1 : still [Load PStack i 32]) by (apply still_one; [cbn [hasher_inside]; lia|reflexivity]));
    destruct (i =? 0).
  - apply logs_lift. intros r _. rewrite app_nil_r. now apply still_app.
  - apply logs_lift. discriminate.
  - apply logs_lift. intros r _. rewrite app_nil_r. now apply still_app.
  - eapply logs_impl; [apply IH; now split|]. intros l' r Sl'.
    apply still_app; [exact S1|]. now apply still_app.
Qed.
Lemma w_finalize_still : forall o h, whole h -> logs (w_hasher_finalize o h) (fun l _ => still l).
Proof.
  intros o h W. unfold w_hasher_finalize. destruct (_ =? 0).
  - eapply logs_impl; [apply w_fin_still|]. now intros l x [S _].
  - apply logs_bind. eapply logs_impl with (Q := fun l _ => still l).
    + destruct (0 <? _).
      * apply logs_bind. eapply logs_impl; [apply w_fin_still|]. intros l x [S _]. apply logs_lift.
        intros r _. now rewrite app_nil_r.
      * cbv zeta. apply logs_bind, logs_pure. intros x Ex. destruct (slice_len _ _ _ _ Ex) as [Lx _].
        apply logs_lift. intros r _. rewrite app_nil_r. apply still_one; [|reflexivity].
        destruct W as [_ Ws]. change C_OUT_LEN with 32 in *. cbn [hasher_inside]. lia.
    + intros l [x i] S. eapply logs_impl; [now apply w_up_still|]. intros l' r S'. now apply still_app.
Qed.
End Bounds.

Lemma still_stores : forall nin l, still nin l ->
  forall i, existsb (to_buf i) l = false /\ existsb (to_stack i) l = false.
Proof.
  intros nin l [_ H] i. induction l as [|s l IH]; [now split|]. cbn [forallb] in H.
  apply andb_true_iff in H. destruct H as [A B]. destruct (IH B) as [C D]. cbn [existsb]. rewrite C, D.
  destruct s as [| |[]| | | | | |]; cbn in *; try discriminate A; now split.
Qed.
Lemma hasher_bounds : forall o junk h input,
  len (k_buf (c_chunk_of h)) = 64 -> len (c_stack h) = 53 * 32 ->
  (forall h', snd (w_hasher_update o junk h input) = Ok h' ->
     forallb (hasher_inside (len input)) (fst (w_hasher_update o junk h input)) = true) /\
  (forall hash, snd (w_hasher_finalize o h) = Ok hash ->
     forallb (hasher_inside 0) (fst (w_hasher_finalize o h)) = true).
Proof.
  intros o junk h input Lb Ls. assert (W : whole h) by (split; assumption). split.
  - intros h' E. exact (proj1 (w_update_moves (len input) o junk h input W (N.le_refl _) _ E)).
  - intros x E. exact (proj1 (w_finalize_still 0 o h W _ E)).
Qed.
Lemma finalize_stores : forall o h hash,
  len (k_buf (c_chunk_of h)) = 64 -> len (c_stack h) = 53 * 32 ->
  snd (w_hasher_finalize o h) = Ok hash ->
  forall i, existsb (to_buf i) (fst (w_hasher_finalize o h)) = false /\
            existsb (to_stack i) (fst (w_hasher_finalize o h)) = false.
Proof.
  intros o h x Lb Ls E. apply (still_stores 0). apply (w_finalize_still 0 o h) with (x := x).
  - now split.
  - exact E.
Qed.
Lemma hasher_stores : forall o junk h input h',
  len (k_buf (c_chunk_of h)) = 64 -> len (c_stack h) = 53 * 32 ->
  snd (w_hasher_update o junk h input) = Ok h' ->
  let steps := fst (w_hasher_update o junk h input) in
  (len (k_buf (c_chunk_of h')) = 64 /\ len (c_stack h') = 53 * 32) /\
  (forall i, existsb (to_buf i) steps = false ->
     nth_error (k_buf (c_chunk_of h')) (N.to_nat i) = nth_error (k_buf (c_chunk_of h)) (N.to_nat i)) /\
  (forall i, existsb (to_stack i) steps = false ->
     nth_error (c_stack h') (N.to_nat i) = nth_error (c_stack h) (N.to_nat i)).
Proof.
  intros o junk h input h' Lb Ls E. cbv zeta. assert (W : whole h) by (split; assumption).
  destruct (w_update_moves (len input) o junk h input W (N.le_refl _) _ E) as (_ & [A A'] & [B B']).
  split; [split; lia|]. split; assumption.
Qed.

(* ---- programs ---- *)

Lemma w_step_moves : forall o n w x, Forall whole w -> fits n x ->
  logs (w_step o w x) (fun l r => fine n l /\ Forall whole (fst r)).
Proof.
  intros o n w x W F.
  assert (G : forall i l h, vlift (match nth_error w i with Some h => Ok h | None => Panic end) = (l, Ok h) ->
    l = [] /\ whole h).
  { intros i l h E. unfold vlift in E. destruct (nth_error w i) as [g|] eqn:Eg; [|discriminate E].
    assert (g = h) as <- by congruence. split; [congruence|].
    rewrite Forall_forall in W. apply W. eapply nth_error_In; exact Eg. }
  assert (N : forall i, logs (vlift (match nth_error w i with Some h => Ok h | None => Panic end))
                (fun l h => l = [] /\ whole h)).
  { intros i h E. apply (G i). unfold vlift in *. cbn [fst snd] in *. now rewrite E. }
  assert (Z : forall j k f, len j = 53 * 32 -> whole (hasher_init j k f)).
  { intros j k f L. split; [reflexivity|exact L]. }
  destruct x as [memory key flags|i key flags|i|i j|i input junk|i]; cbn [w_step]; cbv zeta; cbn [fits] in F.
  - apply logs_lift. intros r [= <-]. split; [reflexivity|]. cbn [fst]. apply Forall_app.
    split; [exact W|]. constructor; [now apply Z|constructor].
  - apply logs_bind. eapply logs_impl; [apply N|]. intros l h [-> Wh]. apply logs_lift. intros r [= <-].
    split; [reflexivity|]. cbn [fst]. apply Forall_replace; [exact W|]. apply Z, Wh.
  - apply logs_bind. eapply logs_impl; [apply N|]. intros l h [-> Wh]. apply logs_lift. intros r [= <-].
    split; [reflexivity|]. cbn [fst]. apply Forall_app. split; [exact W|]. constructor; [exact Wh|constructor].
  - apply logs_bind. eapply logs_impl; [apply N|]. intros l h [-> _].
    apply logs_bind. eapply logs_impl; [apply N|]. intros l h' [-> Wh]. apply logs_lift. intros r [= <-].
    split; [reflexivity|]. cbn [fst]. now apply Forall_replace.
  - apply logs_bind. eapply logs_impl; [apply N|]. intros l h [-> Wh].
    apply logs_bind. eapply logs_impl; [apply (w_update_moves n); [exact Wh|exact F]|]. intros l h' M.
    apply logs_lift. intros r [= <-]. cbn [fst app]. rewrite app_nil_r. split; [apply M|].
    apply Forall_replace; [exact W|]. eapply hmoves_whole; [exact M|exact Wh].
  - apply logs_bind. eapply logs_impl; [apply N|]. intros l h [-> Wh].
    apply logs_bind. eapply logs_impl; [apply (w_finalize_still n); exact Wh|]. intros l x S.
    apply logs_lift. intros r [= <-]. cbn [fst app]. rewrite app_nil_r. split; [apply S|exact W].
Qed.
Lemma w_run_moves : forall o n xs w, Forall whole w -> Forall (fits n) xs ->
  logs (w_run o w xs) (fun l r => fine n l /\ Forall whole (fst r)).
Proof.
  intros o n. induction xs as [|x xs IH]; intros w W F; cbn [w_run].
  - apply logs_lift. intros r [= <-]. split; [reflexivity|exact W].
  - inversion F as [|? ? Fx Fr]; subst. apply logs_bind.
    eapply logs_impl; [apply (w_step_moves o n); [exact W|exact Fx]|]. intros l [w1 s] [A W1]. cbn [fst] in *.
    apply logs_bind. eapply logs_impl; [apply IH; [exact W1|exact Fr]|]. intros l' [w2 s'] [B W2]. cbn [fst] in *.
    apply logs_lift. intros r [= <-]. cbn [fst]. rewrite app_nil_r. split; [now apply fine_app|exact W2].
Qed.
Lemma programs_bounds : forall o n xs hashers hashes, Forall (fits n) xs ->
  snd (w_run o [] xs) = Ok (hashers, hashes) ->
  forallb (hasher_inside n) (fst (w_run o [] xs)) = true /\
  Forall (fun h => len (k_buf (c_chunk_of h)) = 64 /\ len (c_stack h) = 53 * 32) hashers.
Proof.
  intros o n xs hs out F E. exact (w_run_moves o n xs [] (Forall_nil _) F _ E).
Qed.
