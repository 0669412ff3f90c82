(* How many chunks are hashed side by side. *)
From Coq Require Import NArith List Bool Lia.
From Coq Require Import ZifyBool ZifyNat ZifyN.
From Verif Require Import Base BaseFacts Spec Portable Platform Lib SessionSpec Session ApiFacts.
From Verif Require Import HasherFacts Io Widths.
Import ListNotations.
Open Scope N_scope.

Lemma wbind_lift : forall A B (r : res A) (f : A -> wd B),
  wbind (wlift r) f = match r with Ok x => f x | Panic => ([], Panic) | NoFuel => ([], NoFuel) end.
Proof. intros A B [x| |] f; try reflexivity. unfold wlift, wbind. destruct (f x). reflexivity. Qed.

Lemma snd_wbind : forall A B (m : wd A) (f : A -> wd B) (g : A -> res B),
  (forall x, snd (f x) = g x) -> snd (wbind m f) = bind (snd m) g.
Proof.
  intros A B [l [x| |]] f g H; cbn [wbind snd bind]; try reflexivity.
  rewrite <- H. now destruct (f x).
Qed.

Lemma snd_update_chunks : forall c fuel h chunks out,
  snd (w_update_chunks c fuel h chunks out) = update_chunks c fuel h chunks out.
Proof.
  intros c. induction fuel as [|fuel IH]; intros h chunks out; cbn [w_update_chunks update_chunks];
    destruct (len (take (MAX_SIMD_DEGREE c) chunks) =? 0); try reflexivity.
  apply snd_wbind. intros out'. apply snd_wbind. intros h'. apply IH.
Qed.

Lemma snd_update : forall c h input, snd (w_update c h input) = update c h input.
Proof.
  intros c h input. unfold w_update, update. cbv zeta.
  apply snd_wbind. intros [[h' input'] return_now]. destruct return_now; [reflexivity|].
  destruct (chunks_exact CHUNK_LEN input') as [chunks remainder].
  apply snd_wbind. intros _.
  transitivity (bind (snd (w_update_chunks c (length chunks) h' chunks (zeros (MAX_SIMD_DEGREE c * OUT_LEN))))
    (fun h => dassert c (cs_len (h_chunk h) =? 0) ;; dassert c (len remainder <? CHUNK_LEN) ;;
     if negb (len remainder =? 0) then
      let* h := merge_loop c (length (h_stack h)) h (cs_offset (h_chunk h)) in
      let* s := cs_update c (h_chunk h) remainder in
      Ok (Hasher (h_stack h) s)
    else Ok h)); [|now rewrite snd_update_chunks].
  apply snd_wbind. intros h2. apply snd_wbind. intros _. apply snd_wbind. intros _.
  destruct (negb (len remainder =? 0)); [|reflexivity].
  apply snd_wbind. intros h3. apply snd_wbind. intros s. reflexivity.
Qed.

Lemma snd_feed : forall c inputs h, snd (w_feed c h inputs) = feed c h inputs.
Proof.
  intros c. induction inputs as [|x r IH]; intros h; [reflexivity|]. cbn [w_feed feed].
  rewrite <- snd_update. apply snd_wbind. exact IH.
Qed.

(* ---- the numbers ---- *)

(* all calls of an update are full but the last *)
Definition lanes (c : cfg) (chunks : N) : list N :=
  repeat (MAX_SIMD_DEGREE c) (N.to_nat (chunks / MAX_SIMD_DEGREE c))
  ++ (if chunks mod MAX_SIMD_DEGREE c =? 0 then [] else [chunks mod MAX_SIMD_DEGREE c]).

Lemma degree_pos : forall c, 1 <= MAX_SIMD_DEGREE c.
Proof. intros c. unfold MAX_SIMD_DEGREE. destruct (x86 c); lia. Qed.

Lemma lanes_0 : forall c, lanes c 0 = [].
Proof. intros c. unfold lanes. pose proof (degree_pos c). rewrite N.div_0_l, N.mod_0_l by lia. reflexivity. Qed.
Lemma lanes_short : forall c n, 0 < n -> n < MAX_SIMD_DEGREE c -> lanes c n = [n].
Proof.
  intros c n H L. unfold lanes. rewrite N.div_small, N.mod_small by lia.
  replace (n =? 0) with false by lia. reflexivity.
Qed.
Lemma lanes_step : forall c n, MAX_SIMD_DEGREE c <= n ->
  lanes c n = MAX_SIMD_DEGREE c :: lanes c (n - MAX_SIMD_DEGREE c).
Proof.
  intros c n L. pose proof (degree_pos c) as D. set (M := MAX_SIMD_DEGREE c) in *. unfold lanes. fold M.
  assert (E : exists k, n = k + 1 * M) by (exists (n - M); lia). destruct E as [k ->].
  replace (k + 1 * M - M) with k by lia. rewrite N.div_add, N.mod_add by lia.
  replace (N.to_nat (k / M + 1)) with (S (N.to_nat (k / M))) by lia. reflexivity.
Qed.

(* also when something panics: then the list is cut off *)
Definition starts (a b : list N) : Prop := exists r, b = a ++ r.

Lemma chunks_widths : forall c fuel h chunks out, (length chunks <= fuel)%nat ->
  let w := w_update_chunks c fuel h chunks out in
  starts (fst w) (lanes c (len chunks)) /\
  (forall h', snd w = Ok h' -> fst w = lanes c (len chunks)).
Proof.
  intros c. pose proof (degree_pos c) as D.
  induction fuel as [|fuel IH]; intros h chunks out Lf; cbn [w_update_chunks]; cbv zeta.
  - destruct chunks; [|cbn in Lf; lia]. change (take (MAX_SIMD_DEGREE c) (@nil (list N))) with (firstn (N.to_nat (MAX_SIMD_DEGREE c)) (@nil (list N))).
    rewrite firstn_nil, len_nil. cbn [N.eqb wlift fst snd].
    rewrite lanes_0. split; [now exists []|auto].
  - rewrite len_take. destruct (N.min (MAX_SIMD_DEGREE c) (len chunks) =? 0) eqn:Z.
    { replace (len chunks) with 0 by lia. rewrite lanes_0. split; [now exists []|auto]. }
    assert (St : lanes c (len chunks) = N.min (MAX_SIMD_DEGREE c) (len chunks)
                   :: lanes c (len (drop (MAX_SIMD_DEGREE c) chunks))).
    { rewrite len_drop. destruct (N.le_gt_cases (MAX_SIMD_DEGREE c) (len chunks)) as [H|H].
      - rewrite lanes_step by lia. now replace (N.min _ _) with (MAX_SIMD_DEGREE c) by lia.
      - rewrite lanes_short by lia. replace (N.min _ _) with (len chunks) by lia.
        replace (len chunks - _) with 0 by lia. now rewrite lanes_0. }
    rewrite St. cbv zeta.
    destruct (hash_many _ _ _ _ _ _ _ _ _ _ _) as [out'| |]; cbn [wbind fst snd].
    2, 3: split; [eexists; reflexivity|discriminate].
    rewrite wbind_lift. destruct (push_batch _ _ _) as [h'| |]; cbn [fst snd].
    2, 3: split; [eexists; reflexivity|discriminate].
    specialize (IH h' (drop (MAX_SIMD_DEGREE c) chunks) out').
    assert (Lf' : (length (drop (MAX_SIMD_DEGREE c) chunks) <= fuel)%nat).
    { pose proof (len_drop _ (MAX_SIMD_DEGREE c) chunks) as E. unfold len in E, Z. lia. }
    specialize (IH Lf'). cbv zeta in IH.
    destruct (w_update_chunks c fuel h' _ out') as [l r]. cbn [fst snd app] in *.
    destruct IH as [[t IH1] IH2]. split.
    + exists t. cbn. now rewrite IH1.
    + intros h2 E. f_equal. eauto.
Qed.

Lemma chunks_number : forall input : list N,
  len (fst (chunks_exact CHUNK_LEN input)) = len input / 2048.
Proof.
  intros input. pose proof (chunks_exact_spec _ CHUNK_LEN input eq_refl) as H.
  destruct (chunks_exact CHUNK_LEN input) as [cs r]. apply H.
Qed.

(* what update does to the bytes that do not go through the chunk state first *)
Definition w_rest (c : cfg) (h : hasher) (input : list N) : wd hasher :=
  let '(chunks, remainder) := chunks_exact CHUNK_LEN input in
  wlift (dassert c (cs_len (h_chunk h) =? 0)) ;^
  let^ h := w_update_chunks c (length chunks) h chunks
              (zeros (MAX_SIMD_DEGREE c * OUT_LEN)) in
  wlift (dassert c (cs_len (h_chunk h) =? 0)) ;^
  wlift (dassert c (len remainder <? CHUNK_LEN)) ;^
  if negb (len remainder =? 0) then
    let^ h := wlift (merge_loop c (length (h_stack h)) h (cs_offset (h_chunk h))) in
    let^ s := wlift (cs_update c (h_chunk h) remainder) in
    wlift (Ok (Hasher (h_stack h) s))
  else wlift (Ok h).

Lemma starts_nil : forall l, starts [] l.
Proof. intros l. now exists l. Qed.
Lemma starts_refl : forall l, starts l l.
Proof. intros l. exists []. symmetry. apply app_nil_r. Qed.

Lemma rest_widths : forall c h input, let w := w_rest c h input in
  starts (fst w) (lanes c (len input / 2048)) /\
  (forall h', snd w = Ok h' -> fst w = lanes c (len input / 2048)).
Proof.
  intros c h input. cbv zeta. unfold w_rest.
  pose proof (chunks_number input) as Lc.
  destruct (chunks_exact CHUNK_LEN input) as [chunks remainder]. cbn [fst] in Lc.
  rewrite <- Lc.
  rewrite wbind_lift. destruct (dassert c (cs_len (h_chunk h) =? 0)) as [u| |]; cbn [fst snd].
  2, 3: split; [apply starts_nil|discriminate].
  destruct (chunks_widths c (length chunks) h chunks (zeros (MAX_SIMD_DEGREE c * OUT_LEN))) as [H1 H2]; [lia|].
  destruct (w_update_chunks _ _ _ _ _) as [l [h2| |]]; cbn [fst snd wbind] in *.
  2, 3: split; [exact H1|discriminate].
  specialize (H2 h2 eq_refl). subst l.
  assert (G : forall (m : wd hasher), fst m = [] ->
    let w := (let (l', r) := m in (lanes c (len chunks) ++ l', r)) in
    starts (fst w) (lanes c (len chunks)) /\ (forall h', snd w = Ok h' -> fst w = lanes c (len chunks))).
  { intros [l r] E. cbn in *. subst l. rewrite app_nil_r. split; [apply starts_refl|auto]. }
  apply G.
  repeat (rewrite ?wbind_lift;
    match goal with |- fst (match ?e with _ => _ end) = _ => destruct e end; try reflexivity).
Qed.

(* at most one call of an update is not full, whatever the hasher and the input *)
Lemma update_widths : forall c h input, exists n, n * 2048 <= len input /\
  starts (fst (w_update c h input)) (lanes c n) /\
  (forall h', snd (w_update c h input) = Ok h' -> fst (w_update c h input) = lanes c n).
Proof.
  intros c h input. unfold w_update. cbv zeta. rewrite wbind_lift.
  match goal with |- context [match ?e with Ok _ => _ | Panic => _ | NoFuel => _ end] => set (X := e) end.
  assert (HX : match X with Ok (_, input', _) => len input' <= len input | _ => True end).
  { unfold X. destruct (_ || _); [|cbn; lia].
    destruct (subU _ _ _) as [want| |]; cbn [bind]; auto.
    destruct (slice_to _ _); cbn [bind]; auto. destruct (cs_update _ _ _); cbn [bind]; auto.
    destruct (slice_from input _) as [i2| |] eqn:E; cbn [bind]; auto.
    assert (L2 : len i2 <= len input).
    { unfold slice_from in E. destruct (_ <=? _); [|discriminate E]. injection E as <-.
      rewrite len_drop. lia. }
    destruct (negb _); [|exact L2].
    destruct (dassert _ _); cbn [bind]; auto. destruct (cs_finalize _ _ _); cbn [bind]; auto.
    destruct (push_chunk_hash _ _ _ _); cbn [bind]; auto. destruct (add64 _ _ _); cbn [bind]; auto.
    destruct (cs_reset _ _ _); cbn [bind]; auto. }
  destruct X as [[[h2 i2] ret]| |].
  - destruct ret.
    + exists 0. rewrite lanes_0. cbn. split; [lia|]. split; [apply starts_nil|auto].
    + exists (len i2 / 2048). split; [|apply (rest_widths c h2 i2)].
      pose proof (N.mul_div_le (len i2) 2048). lia.
  - exists 0. rewrite lanes_0. cbn. split; [lia|]. split; [apply starts_nil|auto].
  - exists 0. rewrite lanes_0. cbn. split; [lia|]. split; [apply starts_nil|auto].
Qed.

(* ---- buffers of WIDE_BUF_LEN ---- *)

(* the chunk state is untouched but for its offset *)
Lemma merge_loop_chunk : forall c fuel h off h', merge_loop c fuel h off = Ok h' ->
  h_chunk h' = h_chunk h.
Proof.
  intros c. induction fuel as [|fuel IH]; intros h off h' E; cbn [merge_loop] in E;
    destruct (needs_merge h off); try discriminate E; try congruence.
  destruct (merge_parent c h) as [h1| |] eqn:M; cbn [bind] in E; try discriminate E.
  apply IH in E. rewrite E. unfold merge_parent in M. cbv zeta in M.
  repeat match type of M with
  | bind ?x _ = _ => destruct x; cbn [bind] in M; try discriminate M
  end. injection M as <-. reflexivity.
Qed.
Lemma push_chunk_hash_chunk : forall c h x off h', push_chunk_hash c h x off = Ok h' ->
  h_chunk h' = h_chunk h.
Proof.
  intros c h x off h' E. unfold push_chunk_hash in E.
  destruct (merge_loop _ _ _ _) as [h1| |] eqn:M; cbn [bind] in E; try discriminate E.
  destruct (push_cap _ _ _); cbn [bind] in E; try discriminate E. injection E as <-.
  cbn [h_chunk]. now apply merge_loop_chunk in M.
Qed.
Lemma push_batch_cs : forall c hs h h', push_batch c h hs = Ok h' ->
  cs_len (h_chunk h') = cs_len (h_chunk h).
Proof.
  intros c. induction hs as [|x hs IH]; intros h h' E; cbn [push_batch] in E; [congruence|].
  destruct (push_chunk_hash _ _ _ _) as [h1| |] eqn:P; cbn [bind] in E; try discriminate E.
  destruct (add64 _ _ _); cbn [bind] in E; try discriminate E. apply IH in E. rewrite E.
  apply push_chunk_hash_chunk in P. unfold cs_len. cbn [h_chunk set_chunk_offset cs_count cs_buf_len].
  now rewrite P.
Qed.
Lemma update_chunks_cs : forall c fuel h chunks out h', update_chunks c fuel h chunks out = Ok h' ->
  cs_len (h_chunk h') = cs_len (h_chunk h).
Proof.
  intros c. induction fuel as [|fuel IH]; intros h chunks out h' E; cbn [update_chunks] in E; cbv zeta in E;
    destruct (len (take (MAX_SIMD_DEGREE c) chunks) =? 0); try discriminate E; try congruence.
  destruct (hash_many _ _ _ _ _ _ _ _ _ _ _); cbn [bind] in E; try discriminate E.
  destruct (push_batch _ _ _) as [h1| |] eqn:P; cbn [bind] in E; try discriminate E.
  apply IH in E. rewrite E. now apply push_batch_cs in P.
Qed.

(* an update that bypasses the chunk state *)
Lemma direct_update : forall c h input h', cs_len (h_chunk h) = 0 -> len input <> 2048 ->
  update c h input = Ok h' ->
  fst (w_update c h input) = lanes c (len input / 2048) /\
  (len input mod 2048 = 0 -> cs_len (h_chunk h') = 0).
Proof.
  intros c h input h' Z L E.
  assert (Ew : w_update c h input = w_rest c h input).
  { unfold w_update. cbv zeta. change CHUNK_LEN with 2048. rewrite Z.
    replace (len input =? 2048) with false by lia. rewrite andb_false_r. cbn [orb N.ltb N.compare].
    rewrite wbind_lift. reflexivity. }
  rewrite <- snd_update, Ew in E. rewrite Ew. split; [now apply (rest_widths c h input) in E|].
  intros D. rewrite <- Ew, snd_update in E. unfold update in E. cbv zeta in E.
  change CHUNK_LEN with 2048 in E. rewrite Z in E.
  replace (len input =? 2048) with false in E by lia. rewrite andb_false_r in E.
  cbn [orb N.ltb N.compare bind] in E.
  pose proof (chunks_exact_spec _ 2048 input eq_refl) as S.
  destruct (chunks_exact 2048 input) as [chunks remainder].
  destruct (dassert _ _); cbn [bind] in E; try discriminate E.
  destruct (update_chunks _ _ _ _ _) as [h1| |] eqn:U; cbn [bind] in E; try discriminate E.
  destruct (dassert _ _); cbn [bind] in E; try discriminate E.
  destruct (dassert _ _); cbn [bind] in E; try discriminate E.
  destruct S as (E1 & E2 & E3 & E4).
  assert (R : len remainder = 0).
  { assert (Lc : len (concat chunks) = 2048 * len chunks).
    { clear - E2. induction E2 as [|x l Hx _ IH]; [reflexivity|]. cbn [concat].
      rewrite len_app, len_cons, IH. lia. }
    pose proof (f_equal len E1) as L1. rewrite len_app in L1.
    pose proof (N.div_mod (len input) 2048 ltac:(lia)). lia. }
  rewrite R in E. cbn [N.eqb negb] in E. injection E as <-.
  apply update_chunks_cs in U. congruence.
Qed.

Lemma lanes_full : forall c k, lanes c (MAX_SIMD_DEGREE c * k) = repeat (MAX_SIMD_DEGREE c) (N.to_nat k).
Proof.
  intros c k. pose proof (degree_pos c). unfold lanes.
  rewrite N.mul_comm, N.div_mul, N.mod_mul by lia. cbn [N.eqb]. apply app_nil_r.
Qed.
Lemma repeat_add : forall A (x : A) a b, repeat x a ++ repeat x b = repeat x (a + b).
Proof. intros A x a b. now rewrite repeat_app. Qed.

Lemma wide_update : forall c h m d input, x86 c = true -> hasher_rel c h (m, d) ->
  cs_len (h_chunk h) = 0 -> bytes input -> len input mod 16384 = 0 -> len d + len input < W64 ->
  exists h', w_update c h input = (repeat 8 (N.to_nat (len input / 16384)), Ok h') /\
    hasher_rel c h' (m, d ++ input) /\ cs_len (h_chunk h') = 0.
Proof.
  intros c h m d input X R Z B D L.
  destruct (update_rel c h m d input R B L) as (h' & E & R').
  pose proof (N.div_mod (len input) 16384 ltac:(lia)) as Q. rewrite D, N.add_0_r in Q.
  destruct (direct_update c h input h' Z) as [W Z']; [lia|exact E|].
  assert (Q8 : len input / 2048 = 8 * (len input / 16384)).
  { rewrite Q at 1. replace (16384 * (len input / 16384)) with (8 * (len input / 16384) * 2048) by lia.
    apply N.div_mul. lia. }
  exists h'. split; [|split; [exact R'|apply Z'; lia]].
  rewrite (surjective_pairing (w_update c h input)), snd_update, E, W, Q8. f_equal.
  pose proof (lanes_full c (len input / 16384)) as Lf. unfold MAX_SIMD_DEGREE in Lf.
  rewrite X in Lf. exact Lf.
Qed.

Lemma wide_feed_gen : forall inputs c h m d, x86 c = true -> hasher_rel c h (m, d) ->
  cs_len (h_chunk h) = 0 -> Forall bytes inputs -> Forall (fun x => len x mod 16384 = 0) inputs ->
  len d + len (concat inputs) < W64 ->
  exists h', w_feed c h inputs = (repeat 8 (N.to_nat (len (concat inputs) / 16384)), Ok h') /\
    hasher_rel c h' (m, d ++ concat inputs) /\ cs_len (h_chunk h') = 0 /\
    len (concat inputs) mod 16384 = 0.
Proof.
  induction inputs as [|x r IH]; intros c h m d X R Z B D L.
  - exists h. cbn [w_feed concat]. rewrite app_nil_r. auto.
  - cbn [concat] in *. rewrite len_app in L.
    inversion B as [|? ? Bx Br]; subst. inversion D as [|? ? Dx Dr]; subst. cbn beta in Dx.
    destruct (wide_update c h m d x X R Z Bx Dx) as (h1 & E1 & R1 & Z1); [lia|].
    destruct (IH c h1 m (d ++ x) X R1 Z1 Br Dr) as (h2 & E2 & R2 & Z2 & D2); [rewrite len_app; lia|].
    pose proof (N.div_mod (len x) 16384 ltac:(lia)) as Qx.
    assert (Q : len (x ++ concat r) / 16384 = len x / 16384 + len (concat r) / 16384 /\
                len (x ++ concat r) mod 16384 = 0).
    { rewrite len_app. replace (len x) with (len x / 16384 * 16384) at 1 3 by lia.
      rewrite N.add_comm, N.div_add, N.mod_add by lia. split; [lia|exact D2]. }
    exists h2. cbn [w_feed]. rewrite E1. cbn [wbind]. rewrite E2, app_assoc, repeat_add. destruct Q as [-> Q2].
    split; [f_equal; f_equal; lia|]. auto.
Qed.

Lemma start_cs : forall p m, cs_len (h_chunk (start p m)) = 0.
Proof. intros p [|k|k]; reflexivity. Qed.

Lemma wide_feed : forall c p m inputs, x86 c = true -> platform_ok c p -> mode_ok m ->
  Forall bytes inputs -> Forall (fun x => len x mod WIDE_BUF_LEN c = 0) inputs ->
  len (concat inputs) < 2 ^ 64 ->
  exists h, w_feed c (start p m) inputs
    = (repeat (MAX_SIMD_DEGREE c) (N.to_nat (len (concat inputs) / WIDE_BUF_LEN c)), Ok h) /\
    cs_len (h_chunk h) = 0.
Proof.
  intros c p m inputs X P M B D L. unfold WIDE_BUF_LEN, MAX_SIMD_DEGREE in *. rewrite X in *.
  destruct (wide_feed_gen inputs c (start p m) m [] X (start_rel c p m P M) (start_cs p m) B D)
    as (h & E & _ & Z & _); [rewrite len_nil; exact L|]. exists h. auto.
Qed.

(* ---- copy_wide ---- *)

Lemma write_all_once : forall c l h buf l' h' wfuel, w_update c h buf = (l', Ok h') -> buf <> [] ->
  (1 <= wfuel)%nat -> write_all (w_write c) wfuel (l, h) buf = Ok (IoOk tt, (l ++ l', h')).
Proof.
  intros c l h buf l' h' [|wfuel] E Nb Lw; [lia|]. destruct buf as [|b buf]; [contradiction|].
  cbn [write_all]. unfold w_write at 1. rewrite E. cbn [bind].
  replace (len (b :: buf) =? 0) with false by (rewrite len_cons; lia).
  unfold slice_from. rewrite N.leb_refl. cbn [bind]. rewrite drop_all by lia. now destruct wfuel.
Qed.

Lemma copy_lanes_gen : forall c m, x86 c = true -> forall data, bytes data ->
  forall l h d total, hasher_rel c h (m, d) -> cs_len (h_chunk h) = 0 ->
  len d + len data < W64 -> total + len data < W64 ->
  exists w h', (w = [] \/ exists k, w = [k] /\ k < 8) /\
    forall fuel wfuel, (length data < fuel)%nat -> (1 <= wfuel)%nat ->
    copy_loop c slice_read (w_write c) fuel wfuel data (l, h) total
    = Ok (IoOk (total + len data), [], (l ++ repeat 8 (N.to_nat (len data / 16384)) ++ w, h')).
Proof.
  intros c m X.
  assert (CB : COPY_BUF_LEN c = 16384).
  { unfold COPY_BUF_LEN, WIDE_BUF_LEN, MAX_SIMD_DEGREE. now rewrite X. }
  assert (Nil : forall w fuel wfuel total, (0 < fuel)%nat ->
    copy_loop c slice_read (w_write c) fuel wfuel [] w total = Ok (IoOk total, [], w)).
  { intros w [|fuel] wfuel total Hf; [lia|]. cbn [copy_loop]. unfold slice_read.
    rewrite take_all, drop_all by (rewrite len_nil; lia). reflexivity. }
  assert (Step : forall data l h total fuel wfuel l' h', (0 < fuel)%nat -> (1 <= wfuel)%nat ->
    data <> [] -> total + len data < W64 ->
    w_update c h (take 16384 data) = (l', Ok h') ->
    copy_loop c slice_read (w_write c) fuel wfuel data (l, h) total
    = copy_loop c slice_read (w_write c) (fuel - 1) wfuel (drop 16384 data) (l ++ l', h')
        (total + N.min 16384 (len data))).
  { intros data l h total [|fuel] wfuel l' h' Hf Hw Nd Lt E; [lia|]. cbn [copy_loop].
    replace (S fuel - 1)%nat with fuel by lia.
    unfold slice_read at 1. rewrite CB.
    assert (Lt' : len (take 16384 data) = N.min 16384 (len data)) by apply len_take.
    assert (Np : take 16384 data <> []).
    { intros Z. rewrite Z, len_nil in Lt'. destruct data; [contradiction|]. rewrite len_cons in Lt'. lia. }
    destruct (take 16384 data) as [|b bs] eqn:T; [contradiction|]. rewrite <- T in *.
    rewrite Lt'. replace (N.min 16384 (len data) <=? 16384) with true by lia.
    rewrite (write_all_once c l h _ l' h' wfuel E Np Hw). cbn [bind].
    rewrite add64_ok by lia. reflexivity. }
  induction data as [data IH] using list_len_ind. intros B l h d total R Z L Lt.
  destruct data as [|b0 data0] eqn:Ed.
  { exists [], h. split; [now left|]. intros fuel wfuel Hf Hw. rewrite Nil by lia.
    rewrite len_nil, N.add_0_r. cbn. now rewrite app_nil_r. }
  rewrite <- Ed in *. assert (Nd : data <> []) by now rewrite Ed. clear Ed b0 data0.
  assert (Lp : 0 < len data) by (destruct data; [contradiction|rewrite len_cons; lia]).
  destruct (N.le_gt_cases 16384 (len data)) as [H|H].
  - (* a full buffer *)
    assert (Bt : bytes (take 16384 data) /\ bytes (drop 16384 data)).
    { apply bytes_app. now rewrite take_drop. }
    destruct Bt as [Bt Bd].
    assert (Lt' : len (take 16384 data) = 16384) by (rewrite len_take; lia).
    destruct (wide_update c h m d (take 16384 data) X R Z Bt) as (h1 & E1 & R1 & Z1);
      [now rewrite Lt'|lia|]. rewrite Lt' in E1.
    change (repeat 8 (N.to_nat (16384 / 16384))) with [8] in E1.
    pose proof (len_drop _ 16384 data) as Ld.
    destruct (IH (drop 16384 data)) with (l := l ++ [8]) (h := h1) (d := d ++ take 16384 data)
      (total := total + 16384) as (w & h2 & Hw & E2); auto; try (rewrite ?len_app; lia).
    exists w, h2. split; [exact Hw|]. intros fuel wfuel Hf Hwf.
    rewrite (Step data l h total fuel wfuel [8] h1) by (auto; lia).
    replace (N.min 16384 (len data)) with 16384 by lia.
    rewrite E2 by (auto; unfold len in Ld, H; lia). rewrite Ld.
    replace (total + 16384 + (len data - 16384)) with (total + len data) by lia.
    replace (len data / 16384) with ((len data - 16384) / 16384 + 1).
    2: { rewrite <- N.div_add by lia. f_equal. lia. }
    replace (N.to_nat ((len data - 16384) / 16384 + 1)) with (S (N.to_nat ((len data - 16384) / 16384))) by lia.
    cbn [repeat app]. now rewrite <- app_assoc.
  - (* the last, short buffer *)
    destruct (update_rel c h m d data R B L) as (h1 & E1 & _).
    destruct (update_widths c h data) as (n & Ln & _ & Hn). rewrite snd_update in Hn.
    specialize (Hn h1 E1). exists (lanes c n), h1. split.
    + assert (M8 : MAX_SIMD_DEGREE c = 8) by (unfold MAX_SIMD_DEGREE; now rewrite X).
      destruct (N.eq_dec n 0) as [->|N0]; [left; apply lanes_0|right]. exists n.
      rewrite lanes_short by lia. split; [reflexivity|lia].
    + intros fuel wfuel Hf Hw.
      rewrite (Step data l h total fuel wfuel (lanes c n) h1); auto; try lia.
      2: { rewrite take_all by lia. rewrite (surjective_pairing (w_update c h data)), snd_update, E1, Hn.
           reflexivity. }
      rewrite drop_all by lia. rewrite Nil by (unfold len in Lp; lia).
      replace (N.min 16384 (len data)) with (len data) by lia. rewrite N.div_small by lia. reflexivity.
Qed.

Lemma copy_lanes : forall c p m data, x86 c = true -> platform_ok c p -> mode_ok m -> bytes data ->
  len data < 2 ^ 64 ->
  exists w h', (w = [] \/ exists k, w = [k] /\ k < MAX_SIMD_DEGREE c) /\
    forall fuel wfuel, (length data < fuel)%nat -> (1 <= wfuel)%nat ->
    copy_wide c slice_read (w_write c) fuel wfuel data ([], start p m)
    = Ok (IoOk (len data), [],
          (repeat (MAX_SIMD_DEGREE c) (N.to_nat (len data / WIDE_BUF_LEN c)) ++ w, h')).
Proof.
  intros c p m data X P M B L. unfold WIDE_BUF_LEN, MAX_SIMD_DEGREE. rewrite X.
  apply (copy_lanes_gen c m X data B [] (start p m) [] 0); auto using start_rel, start_cs.
Qed.

(* ---- short reads ---- *)

Lemma small_update : forall c h input, len input < WIDE_BUF_LEN c ->
  Forall (fun k => k < MAX_SIMD_DEGREE c) (fst (w_update c h input)).
Proof.
  intros c h input L. destruct (update_widths c h input) as (n & Ln & [r S] & _).
  unfold WIDE_BUF_LEN in L. change CHUNK_LEN with 2048 in L.
  assert (Hn : n < MAX_SIMD_DEGREE c) by lia.
  assert (F : Forall (fun k => k < MAX_SIMD_DEGREE c) (lanes c n)).
  { destruct (N.eq_dec n 0) as [->|N0]; [rewrite lanes_0; constructor|].
    rewrite lanes_short by lia. auto. }
  rewrite S in F. apply Forall_app in F. apply F.
Qed.

Lemma small_write_all : forall c wfuel l h buf x l' h',
  Forall (fun k => k < MAX_SIMD_DEGREE c) l -> len buf < WIDE_BUF_LEN c ->
  write_all (w_write c) wfuel (l, h) buf = Ok (x, (l', h')) ->
  Forall (fun k => k < MAX_SIMD_DEGREE c) l'.
Proof.
  intros c. induction wfuel as [|wfuel IH]; intros l h buf x l' h' Fl L E.
  - destruct buf; cbn in E; [injection E; congruence|discriminate E].
  - destruct buf as [|b buf]; [cbn in E; injection E; congruence|]. cbn [write_all] in E.
    unfold w_write at 1 in E. pose proof (small_update c h (b :: buf) L) as Su.
    destruct (w_update c h (b :: buf)) as [l1 [h1| |]]; cbn [bind fst] in *; try discriminate E.
    assert (F1 : Forall (fun k => k < MAX_SIMD_DEGREE c) (l ++ l1)) by (apply Forall_app; auto).
    destruct (len (b :: buf) =? 0); [injection E; congruence|].
    destruct (slice_from (b :: buf) (len (b :: buf))) as [rest| |] eqn:S; cbn [bind] in E; try discriminate E.
    apply IH in E; auto. unfold slice_from in S. destruct (_ <=? _); [|discriminate S]. injection S as <-.
    rewrite len_drop. lia.
Qed.

Lemma short_reads : forall R (rd : R -> N -> read_result * R) c,
  (forall r n data r', rd r n = (ReadOk data, r') -> len data < WIDE_BUF_LEN c) ->
  forall fuel wfuel r l h total x r' l' h',
  Forall (fun k => k < MAX_SIMD_DEGREE c) l ->
  copy_loop c rd (w_write c) fuel wfuel r (l, h) total = Ok (x, r', (l', h')) ->
  Forall (fun k => k < MAX_SIMD_DEGREE c) l'.
Proof.
  intros R rd c Sh. induction fuel as [|fuel IH]; intros wfuel r l h total x r' l' h' Fl E; [discriminate E|].
  cbn [copy_loop] in E. destruct (rd r (COPY_BUF_LEN c)) as [a r1] eqn:Er.
  destruct a as [data| |e].
  - apply Sh in Er. destruct data as [|b bs]; [injection E; congruence|].
    destruct (len (b :: bs) <=? COPY_BUF_LEN c); [|discriminate E].
    destruct (write_all (w_write c) wfuel (l, h) (b :: bs)) as [[y [l1 h1]]| |] eqn:Ew; cbn [bind] in E;
      try discriminate E.
    apply small_write_all in Ew; auto. destruct y as [u|e]; [|injection E; congruence].
    destruct (add64 _ _ _); cbn [bind] in E; try discriminate E. eapply IH; eauto.
  - eapply IH; eauto.
  - injection E; congruence.
Qed.

Lemma short_reads_copy : forall R (rd : R -> N -> read_result * R) c p m,
  (forall r n data r', rd r n = (ReadOk data, r') -> len data < WIDE_BUF_LEN c) ->
  forall fuel wfuel r x r' l h,
  copy_wide c rd (w_write c) fuel wfuel r ([], start p m) = Ok (x, r', (l, h)) ->
  Forall (fun k => k < MAX_SIMD_DEGREE c) l.
Proof. intros R rd c p m Sh fuel wfuel r x r' l h E. eapply short_reads; eauto. Qed.

(* ---- every update ---- *)

Lemma starts_repeat : forall A (x : A) n l r, repeat x n = l ++ r -> l = repeat x (length l).
Proof.
  intros A x. induction n as [|n IH]; intros l r E.
  - destruct l; [reflexivity|discriminate E].
  - destruct l as [|y l]; [reflexivity|]. cbn [repeat app] in E. injection E as <- E.
    cbn [length repeat]. f_equal. eapply IH, E.
Qed.

Lemma every_update : forall c h input, exists k w,
  fst (w_update c h input) = repeat (MAX_SIMD_DEGREE c) k ++ w /\
  (w = [] \/ exists j, w = [j] /\ 0 < j < MAX_SIMD_DEGREE c) /\
  N.of_nat k <= len input / WIDE_BUF_LEN c.
Proof.
  intros c h input. destruct (update_widths c h input) as (n & Ln & [r S] & _).
  pose proof (degree_pos c) as P.
  assert (B : forall k, N.of_nat k <= n / MAX_SIMD_DEGREE c -> N.of_nat k <= len input / WIDE_BUF_LEN c).
  { intros k Hk. apply N.div_le_lower_bound; unfold WIDE_BUF_LEN; change CHUNK_LEN with 2048; [lia|].
    pose proof (N.mul_div_le n (MAX_SIMD_DEGREE c) ltac:(lia)).
    assert (MAX_SIMD_DEGREE c * N.of_nat k <= n) by nia. nia. }
  unfold lanes in S. set (q := n / MAX_SIMD_DEGREE c) in *.
  set (t := if n mod MAX_SIMD_DEGREE c =? 0 then [] else [n mod MAX_SIMD_DEGREE c]) in *.
  assert (T : t = [] \/ exists j, t = [j] /\ 0 < j < MAX_SIMD_DEGREE c).
  { subst t. pose proof (N.mod_lt n (MAX_SIMD_DEGREE c) ltac:(lia)).
    destruct (N.eqb_spec (n mod MAX_SIMD_DEGREE c) 0); [now left|right]. eexists. split; [reflexivity|lia]. }
  destruct (list_eq_dec N.eq_dec r []) as [->|Nr].
  - rewrite app_nil_r in S. exists (N.to_nat q), t. split; [easy|]. split; [exact T|]. apply B. lia.
  - destruct T as [T|[j [T _]]]; rewrite T in S.
    + rewrite app_nil_r in S. pose proof (starts_repeat _ _ _ _ _ S) as E.
      exists (length (fst (w_update c h input))), []. rewrite app_nil_r. split; [exact E|]. split; [now left|].
      apply B. apply (f_equal (@length N)) in S. rewrite repeat_length, app_length in S. lia.
    + destruct (exists_last Nr) as (r' & z & ->). rewrite app_assoc in S. apply app_inj_tail in S.
      destruct S as [S _]. pose proof (starts_repeat _ _ _ _ _ S) as E.
      exists (length (fst (w_update c h input))), []. rewrite app_nil_r. split; [exact E|]. split; [now left|].
      apply B. apply (f_equal (@length N)) in S. rewrite repeat_length, app_length in S. lia.
Qed.

(* ---- a pipe ---- *)

Lemma pipe_copies_gen : forall c m k, 0 < k -> forall data, bytes data ->
  forall l h d total, hasher_rel c h (m, d) -> len d + len data < W64 -> total + len data < W64 ->
  exists w h', forall fuel wfuel, (length data < fuel)%nat -> (1 <= wfuel)%nat ->
    copy_loop c (pipe_read k) (w_write c) fuel wfuel data (l, h) total
    = Ok (IoOk (total + len data), [], (w, h')).
Proof.
  intros c m k K. assert (CB : 0 < COPY_BUF_LEN c) by (unfold COPY_BUF_LEN, WIDE_BUF_LEN, MAX_SIMD_DEGREE; destruct (x86 c); cbv; auto).
  remember (N.min k (COPY_BUF_LEN c)) as s eqn:Es. assert (Hs : 0 < s <= COPY_BUF_LEN c) by lia.
  induction data as [data IH] using list_len_ind. intros B l h d total R L Lt.
  destruct data as [|b0 data0] eqn:Ed.
  { exists l, h. intros [|fuel] wfuel Hf Hw; [cbn in Hf; lia|]. cbn [copy_loop]. unfold pipe_read.
    rewrite <- Es, take_all, drop_all by (rewrite len_nil; lia). now rewrite len_nil, N.add_0_r. }
  rewrite <- Ed in *. assert (Lp : 0 < len data) by (rewrite Ed, len_cons; lia). clear Ed b0 data0.
  assert (Bt : bytes (take s data) /\ bytes (drop s data)).
  { apply bytes_app. now rewrite take_drop. }
  destruct Bt as [Bt Bd].
  pose proof (len_take _ s data) as Lk. pose proof (len_drop _ s data) as Ld.
  destruct (update_rel c h m d (take s data) R Bt) as (h1 & E1 & R1); [lia|].
  destruct (IH (drop s data)) with (l := l ++ fst (w_update c h (take s data))) (h := h1)
    (d := d ++ take s data) (total := total + len (take s data)) as (w & h2 & E2);
    auto; try (rewrite ?len_app; lia).
  exists w, h2. intros [|fuel] wfuel Hf Hw; [lia|]. cbn [copy_loop]. unfold pipe_read at 1. rewrite <- Es.
  assert (Np : take s data <> []) by (intros Z; rewrite Z, len_nil in Lk; lia).
  destruct (take s data) as [|b bs] eqn:T; [contradiction|]. rewrite <- T in *.
  replace (len (take s data) <=? COPY_BUF_LEN c) with true by lia.
  rewrite (write_all_once c l h _ (fst (w_update c h (take s data))) h1 wfuel); auto.
  2: { rewrite <- E1, <- snd_update. apply surjective_pairing. }
  cbn [bind]. rewrite add64_ok by lia. cbn [bind].
  rewrite E2 by (auto; unfold len in Ld, Lp; lia). do 4 f_equal. lia.
Qed.

Lemma pipe_copies : forall c p m k data, platform_ok c p -> mode_ok m -> bytes data ->
  len data < 2 ^ 64 -> 0 < k < WIDE_BUF_LEN c ->
  exists l h, Forall (fun j => j < MAX_SIMD_DEGREE c) l /\
    forall fuel wfuel, (length data < fuel)%nat -> (1 <= wfuel)%nat ->
    copy_wide c (pipe_read k) (w_write c) fuel wfuel data ([], start p m)
    = Ok (IoOk (len data), [], (l, h)).
Proof.
  intros c p m k data P M B L K.
  destruct (pipe_copies_gen c m k ltac:(lia) data B [] (start p m) [] 0) as (l & h & E);
    auto using start_rel.
  exists l, h. split; [|exact E].
  eapply (short_reads_copy _ (pipe_read k) c p m) with (fuel := S (length data)) (wfuel := 1%nat) (r := data); [|apply E; lia].
  intros r n dt r' Er. unfold pipe_read in Er. injection Er as <- _. rewrite len_take. lia.
Qed.
