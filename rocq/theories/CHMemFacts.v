(* An update of the C hasher reads every byte of its input once, and hasher_finalize reads no
   input. *)
From Coq Require Import NArith List Bool Lia ZArith.
From Coq Require Import ZifyBool ZifyNat ZifyN.
From Verif Require Import Base BaseFacts CSimd CImpl.
From Verif Require Import VOps VStepsFacts VMemSpec VMemFacts CVSteps CVStepsFacts CVMemFacts.
From Verif Require Import CHSteps CHStepsSpec.
Import ListNotations.
Open Scope N_scope.

Lemma times_app : forall i a b, times_read i (a ++ b) = times_read i a + times_read i b.
Proof. intros. unfold times_read. rewrite filter_app. apply len_app. Qed.
Lemma quiet_times : forall i l, quiet l -> times_read i l = 0.
Proof.
  intros i. induction l as [|s l IH]; intros H; [reflexivity|]. unfold quiet in H. cbn [forallb] in H.
  apply andb_true_iff in H. destruct H as [H H']. unfold times_read. cbn [filter].
  destruct s as [s|[]| | | |[]| | |]; try discriminate H; now apply IH.
Qed.

(* the bytes [a, b) once each, and no others *)
Definition once (a b : N) (l : list vstep) : Prop :=
  a <= b /\ forall i, times_read i l = if (a <=? i) && (i <? b) then 1 else 0.
Lemma once_app : forall a b c l l', once a b l -> once b c l' -> once a c (l ++ l').
Proof.
  intros * [A H] [B H']. split; [lia|]. intros i. rewrite times_app, H, H'.
  destruct (N.leb_spec a i), (N.ltb_spec i b), (N.leb_spec b i), (N.ltb_spec i c); cbn [andb]; lia.
Qed.
Lemma once_quiet : forall a l, quiet l -> once a a l.
Proof.
  intros * H. split; [lia|]. intros i. rewrite quiet_times by exact H.
  destruct (N.leb_spec a i), (N.ltb_spec i a); cbn [andb]; lia.
Qed.
Lemma once_r : forall a b l l', once a b l -> quiet l' -> once a b (l ++ l').
Proof. intros * H Q. eapply once_app; [exact H|now apply once_quiet]. Qed.
Lemma once_l : forall a b l l', quiet l -> once a b l' -> once a b (l ++ l').
Proof. intros * Q H. eapply once_app; [|exact H]. now apply once_quiet. Qed.

(* ---- quiet parts ---- *)

Lemma w_compress_quiet : forall o a x bl off fl, quiet (fst (cv_compress o a x bl off fl)).
Proof.
  intros o. unfold cv_compress. destruct (use_avx512 o); [|destruct (use_sse41 o)].
  - exact c_avx512_quiet.
  - exact c_sse41_quiet.
  - exact c_portable_quiet.
Qed.
Lemma w_comp_logs : forall o a x bl off fl, quiet_logs (cv_compress o a x bl off fl).
Proof. intros * y _. apply w_compress_quiet. Qed.
Lemma lift_quiet : forall A (r : res A), quiet_logs (vlift r).
Proof. intros. now apply quiet_logs_pure. Qed.

Lemma w_fin_quiet : forall o s r, quiet_logs (w_chunk_state_finalize o s r).
Proof.
  intros. unfold w_chunk_state_finalize. cbv zeta.
  apply quiet_logs_bind; [now apply quiet_logs_pure|]. intros _.
  apply quiet_logs_bind; [apply w_comp_logs|]. intros. apply lift_quiet.
Qed.
Lemma w_parent_quiet : forall o p x k r f, quiet [p] -> quiet_logs (w_hash_one_parent o p x k r f).
Proof.
  intros. unfold w_hash_one_parent. cbv zeta.
  apply quiet_logs_bind; [now apply quiet_logs_pure|]. intros _.
  apply quiet_logs_bind; [apply w_comp_logs|]. intros. apply lift_quiet.
Qed.
Lemma w_merge_quiet : forall o fuel h n, quiet_logs (w_merge_loop o fuel h n).
Proof.
  intros o. induction fuel as [|fuel IH]; intros; cbn [w_merge_loop];
    (apply quiet_logs_bind; [apply lift_quiet|]); intros []; try apply lift_quiet.
  apply quiet_logs_bind; [|intros; apply IH]. unfold w_merge_parent. cbv zeta.
  apply quiet_logs_bind; [apply lift_quiet|]. intros.
  apply quiet_logs_bind; [now apply w_parent_quiet|]. intros.
  apply quiet_logs_bind; [now apply quiet_logs_pure|]. intros. apply lift_quiet.
Qed.
Lemma w_push_quiet : forall o h x off, quiet_logs (w_push_chunk_hash o h x off).
Proof.
  intros. unfold w_push_chunk_hash.
  apply quiet_logs_bind; [apply lift_quiet|]. intros.
  apply quiet_logs_bind; [apply w_merge_quiet|]. intros.
  apply quiet_logs_bind; [now apply quiet_logs_pure|]. intros. apply lift_quiet.
Qed.
Lemma w_push_chunks_quiet : forall o n i h out, quiet_logs (w_push_chunks o n i h out).
Proof.
  intros o. induction n as [|n IH]; intros; cbn [w_push_chunks]; [apply lift_quiet|].
  apply quiet_logs_bind; [now apply quiet_logs_pure|]. intros.
  apply quiet_logs_bind; [apply w_push_quiet|]. intros. apply IH.
Qed.
Lemma w_up_quiet : forall o fuel h w i, quiet_logs (w_finalize_up o fuel h w i).
Proof.
  intros o. induction fuel as [|fuel IH]; intros; cbn [w_finalize_up]; cbv zeta;
    (apply quiet_logs_bind; [now apply quiet_logs_pure|]); intros;
    (apply quiet_logs_bind; [now apply w_parent_quiet|]); intros;
    (destruct (i =? 0); [apply lift_quiet|]).
  - apply lift_quiet.
  - apply IH.
Qed.
Lemma w_finalize_quiet : forall o h, quiet_logs (w_hasher_finalize o h).
Proof.
  intros. unfold w_hasher_finalize. destruct (_ =? 0); [apply w_fin_quiet|].
  apply quiet_logs_bind; [|intros []; apply w_up_quiet]. destruct (0 <? _).
  - apply quiet_logs_bind; [apply w_fin_quiet|]. intros. apply lift_quiet.
  - cbv zeta. apply quiet_logs_bind; [now apply quiet_logs_pure|]. intros. apply lift_quiet.
Qed.

(* ---- hash_many ---- *)

Definition in_piece (j : N) (x : N * N) : bool := (fst x <=? j) && (j <? fst x + snd x).
Definition covers (j : N) (ps : list (N * N)) : N := len (filter (in_piece j) ps).
Lemma tiles_le : forall ps a b, tiles a ps b -> a <= b.
Proof.
  induction ps as [|[off n] ps IH]; intros a b; cbn [tiles]; [lia|]. intros [_ H]. apply IH in H. lia.
Qed.
Lemma tiles_covers : forall ps a b j, tiles a ps b -> covers j ps = if (a <=? j) && (j <? b) then 1 else 0.
Proof.
  induction ps as [|[off n] ps IH]; intros a b j; cbn [tiles].
  - intros <-. destruct (N.leb_spec a j), (N.ltb_spec j a); cbn [andb covers filter]; try reflexivity; lia.
  - intros [-> H]. pose proof (tiles_le _ _ _ H). specialize (IH _ _ j H). unfold covers in *.
    cbn [filter]. unfold in_piece at 1. cbn [fst snd].
    destruct (N.leb_spec a j), (N.ltb_spec j (a + n)); cbn [andb]; rewrite ?len_cons, IH;
      destruct (N.leb_spec (a + n) j), (N.ltb_spec j b); cbn [andb]; lia.
Qed.
Lemma tiles_bound : forall ps a b x, tiles a ps b -> In x ps -> fst x + snd x <= b.
Proof.
  induction ps as [|[off n] ps IH]; intros a b x; cbn [tiles]; [intros _ []|].
  intros [-> H] [<-|K]; [exact (tiles_le _ _ _ H)|eauto].
Qed.

Lemma in_relocated : forall p i k off n, off + n <= 2048 ->
  (p + 2048 * N.of_nat k + off <=? i) && (i <? p + 2048 * N.of_nat k + off + n)
  = (p <=? i) && Nat.eqb k (N.to_nat ((i - p) / 2048)) && in_piece ((i - p) mod 2048) (off, n).
Proof.
  intros. unfold in_piece. cbn [fst snd].
  pose proof (N.div_mod (i - p) 2048 ltac:(discriminate)) as D.
  pose proof (N.mod_lt (i - p) 2048 ltac:(discriminate)) as M.
  revert D M. generalize ((i - p) / 2048) as q, ((i - p) mod 2048) as r. intros q r D M.
  destruct (N.leb_spec p i) as [G|G]; cbn [andb].
  - destruct (Nat.eqb_spec k (N.to_nat q)) as [->|F]; cbn [andb].
    + rewrite N2Nat.id. destruct (N.leb_spec off r), (N.ltb_spec r (off + n)); cbn [andb]; lia.
    + assert (N.of_nat k < q \/ q < N.of_nat k) by lia. lia.
  - lia.
Qed.
Lemma pieces_cons : forall k s l, pieces_read k (s :: l) = read_of k s ++ pieces_read k l.
Proof. reflexivity. Qed.
Lemma times_relocated : forall p i l,
  (forall k x, In x (pieces_read k l) -> fst x + snd x <= 2048) ->
  times_read i (map (relocate p) l)
  = if p <=? i then covers ((i - p) mod 2048) (pieces_read (N.to_nat ((i - p) / 2048)) l) else 0.
Proof.
  intros p i. induction l as [|s l IH]; intros H.
  - cbn. now destruct (p <=? i).
  - assert (Hl : forall k x, In x (pieces_read k l) -> fst x + snd x <= 2048).
    { intros k x Hx. apply (H k). rewrite pieces_cons. apply in_or_app. now right. }
    specialize (IH Hl). cbn [map]. rewrite pieces_cons.
    change (relocate p s :: map (relocate p) l) with ([relocate p s] ++ map (relocate p) l).
    rewrite times_app, IH. unfold covers. rewrite filter_app, len_app.
    enough (E : times_read i [relocate p s]
      = if p <=? i then len (filter (in_piece ((i - p) mod 2048)) (read_of (N.to_nat ((i - p) / 2048)) s)) else 0)
      by (rewrite E; destruct (p <=? i); lia).
    assert (Z : forall t, reads_at i t = false -> times_read i [t] = 0)
      by (intros t E; unfold times_read; cbn [filter]; now rewrite E).
    assert (Q : forall t, relocate p t = t -> reads_at i t = false -> (forall k, read_of k t = []) ->
      times_read i [relocate p t]
      = if p <=? i then len (filter (in_piece ((i - p) mod 2048)) (read_of (N.to_nat ((i - p) / 2048)) t)) else 0).
    { intros t -> E R. rewrite R, Z by exact E. now destruct (p <=? i). }
    destruct s as [s|[| | |k| | | | | | |] off n| | | |[| | |k| | | | | | |] off| | |]; try (apply Q; reflexivity).
    + assert (B : off + n <= 2048).
      { apply (H k (off, n)). rewrite pieces_cons. cbn [read_of]. rewrite Nat.eqb_refl. now left. }
      pose proof (in_relocated p i k off n B) as E. unfold times_read. cbn [relocate filter reads_at read_of].
      change C_CHUNK_LEN with 2048. rewrite E.
      destruct (p <=? i); cbn [andb]; [|reflexivity]. destruct (Nat.eqb k _); cbn [andb filter]; [|reflexivity].
      now destruct (in_piece _ _).
    + assert (B : off + 64 <= 2048).
      { apply (H k (off, 64)). rewrite pieces_cons. cbn [read_of]. rewrite Nat.eqb_refl. now left. }
      pose proof (in_relocated p i k off 64 B) as E. unfold times_read. cbn [relocate filter reads_at read_of].
      change C_CHUNK_LEN with 2048. rewrite E.
      destruct (p <=? i); cbn [andb]; [|reflexivity]. destruct (Nat.eqb k _); cbn [andb filter]; [|reflexivity].
      now destruct (in_piece _ _).
Qed.
Lemma relocated_once : forall A p (n : list A) l,
  (forall k, (k < length n)%nat -> tiles 0 (pieces_read k l) 2048) ->
  (forall k, (length n <= k)%nat -> pieces_read k l = []) ->
  once p (p + 2048 * len n) (map (relocate p) l).
Proof.
  intros T p xs l A B.
  split; [lia|]. intros i. rewrite times_relocated.
  - destruct (N.leb_spec p i) as [G|G]; cbn [andb]; [|reflexivity].
    destruct (Nat.lt_ge_cases (N.to_nat ((i - p) / 2048)) (length xs)) as [K|K].
    + rewrite (tiles_covers _ _ _ _ (A _ K)). pose proof (N.mod_lt (i - p) 2048 ltac:(discriminate)).
      assert (i < p + 2048 * len xs). { pose proof (N.div_mod (i - p) 2048 ltac:(discriminate)). unfold len. lia. }
      destruct (N.leb_spec 0 ((i - p) mod 2048)), (N.ltb_spec ((i - p) mod 2048) 2048),
        (N.ltb_spec i (p + 2048 * len xs)); cbn [andb]; lia.
    + rewrite (B _ K). pose proof (N.div_mod (i - p) 2048 ltac:(discriminate)).
      destruct (N.ltb_spec i (p + 2048 * len xs)); [|reflexivity]. unfold len in *. lia.
  - intros k x Hx. destruct (Nat.lt_ge_cases k (length xs)) as [K|K].
    + exact (tiles_bound _ _ _ _ (A _ K) Hx).
    + rewrite (B _ K) in Hx. destruct Hx.
Qed.
Lemma w_many_once : forall o p xs key off d fl fs fe out,
  logs (relocated p (cv_hash_many o 0 xs (C_CHUNK_LEN / C_BLOCK_LEN) key off d fl fs fe out))
       (fun l _ => once p (p + 2048 * len xs) l).
Proof.
  intros * r E. cbn [relocated fst snd] in *. destruct (c_many_memory _ _ _ _ _ _ _ _ _ _ _ E) as (A & B & _).
  change (64 * (C_CHUNK_LEN / C_BLOCK_LEN)) with 2048 in A. cbn [relocated fst]. now apply relocated_once.
Qed.

(* ---- an update ---- *)

Lemma w_fill_once : forall o e s x, len x <= e ->
  logs (w_fill_buf o e s x)
       (fun l r => once (e - len x) (e - len (snd r)) l /\ len (snd r) <= len x /\
          (k_buf_len s = 0 -> len x <= 64 -> snd r = []) /\ (x = [] -> snd r = [])).
Proof.
  intros * L. unfold w_fill_buf. cbv zeta.
  assert (F : forall m, m = (if len x <? sub_size o C_BLOCK_LEN (k_buf_len s) then len x
     else sub_size o C_BLOCK_LEN (k_buf_len s)) -> k_buf_len s = 0 -> len x <= 64 -> len x <= m).
  { intros m -> E Lx. rewrite E. unfold sub_size.
    replace ((C_BLOCK_LEN + (WS o - 0)) mod WS o) with 64 by (unfold WS; destruct (size32 o); reflexivity).
    destruct (N.ltb_spec (len x) 64); lia. }
  specialize (F _ eq_refl). revert F.
  generalize (if len x <? sub_size o C_BLOCK_LEN (k_buf_len s) then len x else sub_size o C_BLOCK_LEN (k_buf_len s)).
  intros n F. apply logs_bind, logs_pure. intros src Es. apply logs_bind, logs_pure. intros buf _.
  apply logs_lift. intros r [= <-]. cbn [snd].
  assert (Ln : n <= len x). { unfold slice in Es. destruct (N.leb_spec (0 + n) (len x)); [lia|discriminate Es]. }
  rewrite !len_drop. split; [|split; [lia|split]].
  - split; [lia|]. intros i. unfold times_read. cbn [filter reads_at app].
    replace (e - len x + n) with (e - (len x - n)) by lia.
    destruct (_ && _); reflexivity.
  - intros E Lx. specialize (F E Lx). apply len_0_nil. rewrite len_drop. lia.
  - intros ->. apply len_0_nil. rewrite len_drop. unfold len; cbn. lia.
Qed.
Lemma w_block_logs : forall o s p b (Q : list vstep -> c_chunk -> Prop), (forall l t, k_buf_len t = k_buf_len s -> quiet l -> Q (p :: l) t) ->
  logs (w_chunk_state_block o s p b) Q.
Proof.
  intros * H. unfold w_chunk_state_block. apply logs_bind, logs_pure. intros _ _. apply logs_bind.
  eapply logs_impl; [apply w_comp_logs|]. intros l st Ql. apply logs_lift. intros t [= <-].
  rewrite app_nil_r. apply H; [reflexivity|exact Ql].
Qed.
Lemma w_loop_once : forall o e fuel s x, len x <= e ->
  logs (w_chunk_state_loop o e fuel s x)
       (fun l r => once (e - len x) (e - len (snd r)) l /\
          (len (snd r) <= len x /\ len (snd r) <= 64 /\ k_buf_len (fst r) = k_buf_len s /\ (x = [] -> snd r = []))).
Proof.
  intros o e. induction fuel as [|fuel IH]; intros s x L; cbn [w_chunk_state_loop];
    destruct (N.ltb_spec C_BLOCK_LEN (len x)) as [G|G]; change C_BLOCK_LEN with 64 in *.
  - apply logs_lift. discriminate.
  - apply logs_lift. intros r [= <-]. cbn [fst snd]. split; [now apply once_quiet|]. repeat split; auto; lia.
  - apply logs_bind, logs_lift. intros b _. cbn [app]. apply logs_bind.
    apply w_block_logs. intros l t Et Ql. assert (Ld : len (drop 64 x) = len x - 64) by apply len_drop.
    eapply logs_impl; [apply IH; lia|]. intros l' r (R & A & B & C & D). split; [|repeat split; try lia].
    + eapply once_app; [|exact R]. change (Call (PInput 0) (e - len x) :: l) with ([Call (PInput 0) (e - len x)] ++ l).
      apply once_r; [|exact Ql]. split; [lia|]. intros i. unfold times_read. cbn [filter reads_at].
      replace (e - len x + 64) with (e - len (drop 64 x)) by lia. destruct (_ && _); reflexivity.
    + intros ->. unfold len in G. cbn in G. lia.
  - apply logs_lift. intros r [= <-]. cbn [fst snd]. split; [now apply once_quiet|]. repeat split; auto; lia.
Qed.
Lemma w_chunk_update_once : forall o e s x, len x <= e ->
  logs (w_chunk_state_update o e s x) (fun l _ => once (e - len x) e l).
Proof.
  intros * L. unfold w_chunk_state_update. apply logs_bind.
  eapply logs_impl with (Q := fun l r => once (e - len x) (e - len (snd r)) l /\ len (snd r) <= len x /\
    (k_buf_len (fst r) = 0 \/ snd r = [])).
  - destruct (N.ltb_spec 0 (k_buf_len s)) as [G|G].
    + apply logs_bind. eapply logs_impl; [now apply w_fill_once|].
      intros l [t y] (R & A & _ & _). cbn [fst snd] in *. destruct (N.ltb_spec 0 (len y)) as [G'|G'].
      * apply logs_bind. apply w_block_logs. intros l' t' _ Ql'.
        apply logs_bind, logs_pure. intros _ _. apply logs_lift. intros r [= <-]. cbn [fst snd k_buf_len].
        split; [|split; [exact A|now left]].
        apply once_r; [exact R|]. change (Call PBuf 0 :: l') with ([Call PBuf 0] ++ l').
        apply quiet_app; [|reflexivity]. apply quiet_app; [reflexivity|exact Ql'].
      * apply logs_lift. intros r [= <-]. cbn [fst snd]. rewrite app_nil_r. split; [exact R|].
        split; [exact A|]. right. apply len_0_nil. lia.
    + apply logs_lift. intros r [= <-]. cbn [fst snd]. split; [now apply once_quiet|]. split; [lia|]. left. lia.
  - intros l [t y] (R & A & B). cbn [fst snd] in *. apply logs_bind.
    eapply logs_impl; [apply w_loop_once; lia|]. intros l' [u z] (R' & A' & Z & C & D). cbn [fst snd] in *.
    apply logs_bind. eapply logs_impl; [apply w_fill_once; lia|].
    intros l'' [v w] (R'' & A'' & F & F'). cbn [fst snd] in *. apply logs_lift. intros r _.
    assert (W : w = []). { destruct B as [B|B]; [apply F; [congruence|exact Z]|auto]. }
    subst w. change (len (@nil N)) with 0 in R''. rewrite N.sub_0_r in R''.
    eapply once_app; [exact R|]. eapply once_app; [exact R'|]. rewrite app_nil_r. exact R''.
Qed.
Lemma gather_len : forall room x,
  len (snd (gather_chunks room x)) + 2048 * len (fst (gather_chunks room x)) = len x.
Proof.
  induction room as [|room IH]; intros x; cbn [gather_chunks]; change C_CHUNK_LEN with 2048;
    destruct (N.leb_spec 2048 (len x)) as [G|G]; cbn [fst snd]; try (change (len (@nil (list N))) with 0; lia).
  specialize (IH (drop 2048 x)). destruct (gather_chunks room (drop 2048 x)) as [cs r]. cbn [fst snd] in *.
  rewrite len_cons. rewrite len_drop in IH. lia.
Qed.
Lemma w_chunks_once : forall o e fuel h x out, len x <= e ->
  logs (w_chunks_loop o e fuel h x out)
       (fun l r => once (e - len x) (e - len (snd r)) l /\ len (snd r) <= len x).
Proof.
  intros o e. induction fuel as [|fuel IH]; intros h x out L; cbn [w_chunks_loop]; destruct (_ <=? _).
  - apply logs_lift. discriminate.
  - apply logs_lift. intros r [= <-]. cbn [snd]. split; [now apply once_quiet|lia].
  - pose proof (gather_len (N.to_nat C_MAX_SIMD_DEGREE) x) as G.
    destruct (gather_chunks (N.to_nat C_MAX_SIMD_DEGREE) x) as [cs r]. cbn [fst snd] in G. cbv zeta.
    apply logs_bind. eapply logs_impl; [apply w_many_once|]. intros l out' R.
    apply logs_bind. eapply logs_impl; [apply w_push_chunks_quiet|]. intros l' h' Q.
    eapply logs_impl; [apply IH; lia|]. intros l'' q [R' A]. split; [|lia].
    eapply once_app; [exact R|]. replace (e - len x + 2048 * len cs) with (e - len r) by lia.
    now apply once_l.
  - apply logs_lift. intros r [= <-]. cbn [snd]. split; [now apply once_quiet|lia].
Qed.
Lemma w_rest_once : forall o e j h x, len x <= e ->
  logs (w_update_rest o e j h x) (fun l _ => once (e - len x) e l).
Proof.
  intros * L. unfold w_update_rest. apply logs_bind. eapply logs_impl; [now apply w_chunks_once|].
  intros l [g y] [R A]. cbn [snd] in *. destruct (N.ltb_spec 0 (len y)) as [G|G].
  - apply logs_bind. eapply logs_impl; [apply w_merge_quiet|]. intros l' k Q.
    apply logs_bind. eapply logs_impl; [apply w_chunk_update_once; lia|]. intros l'' s R'.
    apply logs_lift. intros _ _. eapply once_app; [exact R|]. apply once_l; [exact Q|].
    rewrite app_nil_r. exact R'.
  - apply logs_lift. intros _ _. rewrite app_nil_r. replace (e - len y) with e in R by lia. exact R.
Qed.
Lemma w_hasher_once : forall o j h x, logs (w_hasher_update o j h x) (fun l _ => once 0 (len x) l).
Proof.
  intros. unfold w_hasher_update. cbv zeta. destruct (_ || _).
  - generalize (if len x <? sub_size o C_CHUNK_LEN (chunk_state_len (c_chunk_of h)) then len x
                else sub_size o C_CHUNK_LEN (chunk_state_len (c_chunk_of h))). intros n.
    apply logs_bind, logs_lift. intros src Es. cbn [app].
    assert (Ls : n <= len x /\ len src = n).
    { unfold slice in Es. destruct (N.leb_spec (0 + n) (len x)); [|discriminate Es].
      injection Es as <-. rewrite len_take, len_drop. lia. }
    destruct Ls as [Ln Ls]. apply logs_bind.
    eapply logs_impl; [apply w_chunk_update_once; lia|]. intros l s R.
    replace (n - len src) with 0 in R by lia. rewrite len_drop.
    destruct (N.ltb_spec 0 (len x - n)) as [G|G].
    + apply logs_bind. eapply logs_impl; [apply w_fin_quiet|]. intros l1 out Q1.
      apply logs_bind. eapply logs_impl; [apply w_push_quiet|]. intros l2 g Q2.
      apply logs_bind, logs_pure. intros _ _.
      eapply logs_impl; [apply w_rest_once; rewrite len_drop; lia|]. intros l3 y R3.
      rewrite len_drop in R3. replace (len x - (len x - n)) with n in R3 by lia.
      eapply once_app; [exact R|]. apply once_l; [exact Q1|]. apply once_l; [exact Q2|].
      apply once_l; [reflexivity|exact R3].
    + apply logs_lift. intros y _. rewrite app_nil_r. replace (len x) with n by lia. exact R.
  - eapply logs_impl; [apply w_rest_once; lia|]. intros l y R. now rewrite N.sub_diag in R.
Qed.

Lemma w_update_reads : forall o junk h input h', snd (w_hasher_update o junk h input) = Ok h' ->
  forall i, times_read i (fst (w_hasher_update o junk h input)) = if i <? len input then 1 else 0.
Proof.
  intros * E i. destruct (w_hasher_once o junk h input _ E) as [_ H]. rewrite H.
  now replace (0 <=? i) with true by lia.
Qed.
Lemma w_finalize_reads : forall o h hash, snd (w_hasher_finalize o h) = Ok hash ->
  forall i, times_read i (fst (w_hasher_finalize o h)) = 0.
Proof. intros * E i. apply quiet_times. exact (w_finalize_quiet o h _ E). Qed.
