(* The library reads every byte of an input once: the one-shot functions and an update.  The
   functions that produce output read no input. *)
From Coq Require Import NArith List Bool Lia ZArith.
From Coq Require Import ZifyBool ZifyNat ZifyN.
From Verif Require Import Base BaseFacts Spec SpecFacts Portable Platform ManyFacts WrapSpec WrapFacts SpanFacts.
From Verif Require Import Lib Session LibCalls SecretSpec SecretFacts.
From Verif Require Import VOps VSteps VStepsFacts VMemSpec VMemFacts LibSteps LibStepsFacts.
From Verif Require Import CImpl CVMemFacts CHSteps CHStepsSpec CHMemFacts.
Import ListNotations.
Open Scope N_scope.

(* ---- quiet parts ---- *)

Lemma p_comp_quiet : forall p cv b n o f, quiet_logs (p_compress p cv b n o f).
Proof. intros [] * x _; [apply portable_quiet|apply sse41_quiet..]. Qed.
Lemma v_hash_quiet : forall o, quiet_logs (v_to_hash o).
Proof. intros. unfold v_to_hash. apply quiet_logs_bind; [apply p_comp_quiet|]. intros. apply lift_quiet. Qed.

Definition silent (l : list vstep) : Prop := forall i, times_read i l = 0.
Lemma quiet_silent : forall l, quiet l -> silent l.
Proof. intros l H i. now apply quiet_times. Qed.
Lemma silent_app : forall a b, silent a -> silent b -> silent (a ++ b).
Proof. intros a b A B i. now rewrite times_app, A, B. Qed.
Lemma once_silent : forall a l, silent l -> once a a l.
Proof.
  intros * H. split; [lia|]. intros i. rewrite H.
  destruct (N.leb_spec a i), (N.ltb_spec i a); cbn [andb]; lia.
Qed.
Lemma once_sr : forall a b l l', once a b l -> silent l' -> once a b (l ++ l').
Proof. intros * H Q. eapply once_app; [exact H|now apply once_silent]. Qed.
Lemma once_sl : forall a b l l', silent l -> once a b l' -> once a b (l ++ l').
Proof. intros * Q H. eapply once_app; [|exact H]. now apply once_silent. Qed.

Lemma once_load : forall a n, once a (a + n) [Load (PInput 0) a n].
Proof.
  intros. split; [lia|]. intros i. unfold times_read. cbn [filter reads_at].
  destruct (_ && _); reflexivity.
Qed.
Lemma once_call : forall a, once a (a + 64) [Call (PInput 0) a].
Proof.
  intros. split; [lia|]. intros i. unfold times_read. cbn [filter reads_at].
  destruct (_ && _); reflexivity.
Qed.

(* ---- hash_many ---- *)

Lemma lie_relocate : forall pos s, lie_in (PInput 0) pos CHUNK_LEN s = relocate pos s.
Proof. intros pos []; try reflexivity; destruct p; reflexivity. Qed.
Lemma v_many_once : forall c p pos xs key off d fl fs fe out,
  Forall (fun x => len x = 2048) xs -> len xs * 32 <= len out ->
  logs (lying_in (PInput 0) pos CHUNK_LEN (p_hash_many c p CHUNK_LEN xs key off d fl fs fe out))
       (fun l _ => once pos (pos + 2048 * len xs) l).
Proof.
  intros * F L r E. cbn [lying_in fst snd] in *.
  destruct (many_memory c p CHUNK_LEN xs key off d fl fs fe out r eq_refl F L E) as (A & B & _).
  revert A B. generalize (fst (p_hash_many c p CHUNK_LEN xs key off d fl fs fe out)). intros l A B.
  rewrite (map_ext _ _ (lie_relocate pos)). now apply relocated_once.
Qed.
Lemma children_silent : forall pos size l, silent (map (lie_in PChildren pos size) l).
Proof.
  intros pos size l i. induction l as [|s l IH]; [reflexivity|]. unfold times_read in *. cbn [map filter].
  destruct s as [s|[| | |k| | | | | | |] off n| | | |[| | |k| | | | | | |] off| | |]; exact IH.
Qed.

Lemma many_len : forall c p cap inputs key off d fl fs fe out result,
  cap mod 64 = 0 -> Forall (fun i => len i = cap /\ bytes i) inputs ->
  length key = 8%nat -> words key -> 32 * len inputs <= len out -> small off ->
  snd (p_hash_many c p cap inputs key off d fl fs fe out) = Ok result -> len result = len out.
Proof.
  intros * Hc F L W Lo Ho E. rewrite p_many_value, hash_many_any in E by auto.
  unfold many_result in E. destruct (_ && _); [discriminate E|].
  match type of E with Ok ?a = _ => replace result with a by congruence end. clear E.
  enough (K : len (concat (hash_all (wrapped blake_compress) key fl fs fe off d inputs)) = 32 * len inputs)
    by (rewrite len_app, K, len_drop; lia).
  clear - L W. revert off. induction inputs as [|i r IH]; intros off; [reflexivity|].
  cbn [hash_all concat]. rewrite len_app, IH, len_cons, wrapped_one.
  rewrite (proj1 (hash_one_shape key fl fs fe (off mod W64) i L W)). lia.
Qed.

(* ---- one-shot ---- *)

Lemma WU_large : forall c, 4294967296 <= WU c.
Proof. intros c. unfold WU, W32, W64. destruct (w64 c); lia. Qed.

Lemma v_hoc_loop_once : forall c p pos fuel x cv off r fl bf bo, len x <= 2048 -> bo <= len x ->
  logs (v_hash_one_chunk_loop c p pos fuel x cv off r fl bf bo)
       (fun l y => match y with
                   | inl _ => once (pos + bo) (pos + len x) l
                   | inr (_, _, b) => once (pos + bo) (pos + b) l /\ b <= len x
                   end).
Proof.
  intros c p pos. pose proof (WU_large c) as Wc.
  induction fuel as [|fuel IH]; intros * L Lb; cbn [v_hash_one_chunk_loop]; change BLOCK_LEN with 64;
    rewrite addU_ok by lia; apply logs_bind, logs_lift; intros e [= <-]; cbn [app];
    destruct (N.leb_spec (bo + 64) (len x)) as [G|G].
  - apply logs_lift. discriminate.
  - apply logs_lift. intros y [= <-]. split; [now apply once_quiet|exact Lb].
  - apply logs_bind, logs_lift. intros e [= <-]. cbn [app]. destruct (N.eqb_spec (bo + 64) (len x)) as [G'|G'].
    + apply logs_bind, logs_pure. intros b _. apply logs_lift. intros y [= <-]. cbn [app].
      rewrite <- G', N.add_assoc. apply once_load.
    + apply logs_bind, logs_pure. intros b _. apply logs_bind.
      eapply logs_impl; [apply p_comp_quiet|]. intros l k Q. apply logs_bind, logs_lift. intros b' [= <-]. cbn [app].
      eapply logs_impl; [apply IH; lia|]. intros l' y H.
      assert (R : once (pos + bo) (pos + (bo + 64)) (Call (PInput 0) (pos + bo) :: l)).
      { apply (once_r _ _ [_]); [|exact Q]. rewrite N.add_assoc. apply once_call. }
      destruct y as [o|[[? ?] b']].
      * exact (once_app _ _ _ _ _ R H).
      * destruct H as [H H']. split; [exact (once_app _ _ _ _ _ R H)|exact H'].
  - apply logs_lift. intros y [= <-]. split; [now apply once_quiet|exact Lb].
Qed.
Lemma v_one_chunk_once : forall c p pos x key off r fl, len x <= 2048 ->
  logs (v_hash_one_chunk c p pos x key off r fl) (fun l _ => once pos (pos + len x) l).
Proof.
  intros * L. pose proof (WU_large c). unfold v_hash_one_chunk.
  apply logs_bind, logs_lift. intros _ _. cbn [app].
  apply logs_bind. eapply logs_impl; [apply v_hoc_loop_once; lia|]. intros l [o|[[cv f] bo]] R; rewrite N.add_0_r in R.
  - apply logs_lift. intros y _. now rewrite app_nil_r.
  - destruct R as [R Lb]. rewrite subU_ok by lia.
    apply logs_bind, logs_lift. intros n [= <-]. cbn [app].
    apply logs_bind, logs_pure. intros src _.
    apply logs_bind, logs_lift. intros dst _. apply logs_bind, logs_lift. intros _ _.
    apply logs_bind, logs_lift. intros last _. apply logs_lift. intros y _. cbn [app].
    eapply once_app; [exact R|]. replace (pos + len x) with (pos + bo + (len x - bo)) by lia. apply once_load.
Qed.

Lemma v_chunks_once : forall c p pos x key off fl out, 32 * (len x / 2048) <= len out ->
  logs (v_hash_chunks_parallel c p pos x key off fl out) (fun l _ => once pos (pos + len x) l).
Proof.
  intros * L. unfold v_hash_chunks_parallel.
  apply logs_bind, logs_lift. intros _ _. apply logs_bind, logs_lift. intros _ _.
  apply logs_bind, logs_lift. intros _ _. cbn [app].
  pose proof (chunks_exact_spec _ CHUNK_LEN x eq_refl) as S. destruct (chunks_exact CHUNK_LEN x) as [cs r].
  destruct S as (E & F & Lr & Lc). change CHUNK_LEN with 2048 in *.
  assert (Lx : len x = 2048 * len cs + len r).
  { rewrite <- E, len_app. f_equal. now apply len_concat_const. }
  apply logs_bind, logs_lift. intros arr A. apply push_all_inv in A; [|lenlia]. destruct A as [-> _]. cbn [app].
  apply logs_bind. eapply logs_impl; [apply v_many_once; [exact F|lia]|]. intros l o R.
  destruct (N.eqb_spec (len r) 0) as [Z|Z]; cbn [negb].
  - apply logs_lift. intros y _. rewrite app_nil_r. replace (len x) with (2048 * len cs) by lia. exact R.
  - apply logs_bind, logs_lift. intros d _. apply logs_bind, logs_lift. intros i _. cbn [app].
    apply logs_bind. eapply logs_impl; [apply v_one_chunk_once; lia|]. intros l' o' R'.
    apply logs_bind. eapply logs_impl; [apply v_hash_quiet|]. intros l'' h Q.
    apply logs_bind, logs_lift. intros o'' _. apply logs_lift. intros y _. cbn [app]. rewrite app_nil_r.
    eapply once_app; [exact R|]. apply once_r; [|exact Q].
    replace (pos + 2048 * len cs) with (pos + len cs * 2048) by lia.
    replace (pos + len x) with (pos + len cs * 2048 + len r) by lia. exact R'.
Qed.
Lemma v_parents_silent : forall c p x key fl out,
  logs (v_hash_parents_parallel c p x key fl out) (fun l _ => silent l).
Proof.
  intros. unfold v_hash_parents_parallel. cbv zeta.
  apply logs_bind, logs_lift. intros _ _. apply logs_bind, logs_lift. intros _ _.
  apply logs_bind, logs_lift. intros _ _. cbn [app].
  destruct (chunks_exact BLOCK_LEN x) as [cs r].
  apply logs_bind, logs_lift. intros arr _. cbn [app].
  apply logs_bind. unfold lying_in. apply logs_pure. intros o _.
  pose proof (children_silent 0 BLOCK_LEN (fst (p_hash_many c p BLOCK_LEN arr key 0 0 (N.lor fl PARENT) 0 0 out))) as S.
  destruct (negb _).
  - apply logs_bind, logs_lift. intros ? _. apply logs_bind, logs_lift. intros ? _.
    apply logs_bind, logs_lift. intros ? _. apply logs_bind, logs_lift. intros ? _.
    apply logs_lift. intros ? _. cbn [app]. rewrite app_nil_r. exact S.
  - apply logs_lift. intros ? _. rewrite app_nil_r. exact S.
Qed.

Lemma degree_max : forall c p, platform_ok c p -> N.max (simd_degree p) 2 <= MAX_SIMD_DEGREE_OR_2 c.
Proof.
  intros c p P. unfold MAX_SIMD_DEGREE_OR_2, platform_ok in *.
  destruct p; cbn in *; destruct (x86 c); try discriminate; lia.
Qed.
Definition room (p : platform) (x out : list N) : Prop :=
  if len x <=? 2048 then 32 <= len out else 32 * N.max (simd_degree p) 2 <= len out.
Lemma room_big : forall p x out, 32 * N.max (simd_degree p) 2 <= len out -> room p x out.
Proof. intros. unfold room. destruct (_ <=? _); lia. Qed.
Lemma room_chunks : forall p x out, len x <= simd_degree p * 2048 -> room p x out -> 32 * (len x / 2048) <= len out.
Proof.
  intros p x out L R. unfold room in R. destruct (N.leb_spec (len x) 2048) as [G|G].
  - assert (len x / 2048 <= 1) by (apply N.div_le_upper_bound; lia). lia.
  - assert (len x / 2048 <= simd_degree p) by (apply N.div_le_upper_bound; lia). lia.
Qed.

Lemma split_lens : forall A (l a b : list A) n, split_at l n = Ok (a, b) -> len a = n /\ len b = len l - n.
Proof.
  intros * E. unfold split_at in E. destruct (N.leb_spec n (len l)); [|discriminate E].
  injection E as <- <-. rewrite len_take, len_drop. lia.
Qed.
Lemma v_recurse_once : forall c p, platform_ok c p -> forall fuel pos x key off fl out, room p x out ->
  logs (v_hash_recurse c p pos fuel x key off fl out) (fun l _ => once pos (pos + len x) l).
Proof.
  intros c p P. pose proof (degree_max c p P) as D. induction fuel as [|fuel IH]; intros * R; cbn [v_hash_recurse];
    change CHUNK_LEN with 2048; destruct (N.leb_spec (len x) (simd_degree p * 2048)) as [G|G].
  - now apply v_chunks_once, (room_chunks p).
  - apply logs_lift. discriminate.
  - now apply v_chunks_once, (room_chunks p).
  - apply logs_bind, logs_lift. intros ll _. apply logs_bind, logs_lift. intros [a b] E. cbn [app].
    unfold split_at in E. destruct (N.leb_spec ll (len x)) as [Ll|]; [|discriminate E]. injection E as <- <-.
    apply logs_bind, logs_lift. intros off' _. apply logs_bind, logs_lift. intros _ _. cbn [app]. cbv zeta.
    change OUT_LEN with 32.
    set (m := if len (take ll x) =? 2048 then 1 else N.max (simd_degree p) 2).
    assert (Hm : 32 * m <= 32 * MAX_SIMD_DEGREE_OR_2 c) by (unfold m; destruct (_ =? _); lia).
    pose proof (len_zeros (2 * MAX_SIMD_DEGREE_OR_2 c * 32)) as Lz. revert Lz.
    generalize (zeros (2 * MAX_SIMD_DEGREE_OR_2 c * 32)). intros z Lz.
    apply logs_bind, logs_lift. intros [lo ro] E. cbn [app]. apply split_lens in E. destruct E as [Llo Lro].
    apply logs_bind. eapply logs_impl; [apply IH|].
    { unfold room. rewrite Llo. unfold m. destruct (N.eqb_spec (len (take ll x)) 2048) as [T|T].
      - rewrite T. apply N.le_refl.
      - destruct (_ <=? _); lia. }
    intros l [lo' ln] R1. cbn [app].
    apply logs_bind. eapply logs_impl; [apply IH; apply room_big; lia|].
    intros l' [ro' rn] R2.
    assert (R3 : once pos (pos + len x) (l ++ l')).
    { eapply once_app; [exact R1|]. rewrite len_take, len_drop in *.
      replace (N.min ll (len x)) with ll in * by lia. replace (pos + len x) with (pos + ll + (len x - ll)) by lia. exact R2. }
    apply logs_bind, logs_lift. intros _ _. apply logs_bind, logs_lift. intros _ _. cbn [app].
    destruct (ln =? 1).
    + apply logs_bind, logs_lift. intros ? _. apply logs_bind, logs_lift. intros ? _.
      apply logs_bind, logs_lift. intros ? _. apply logs_lift. intros ? _. cbn [app]. rewrite app_nil_r. exact R3.
    + apply logs_bind, logs_lift. intros ? _. cbn [app].
      eapply logs_impl; [apply v_parents_silent|]. intros l'' y S. rewrite app_assoc. now apply once_sr.
Qed.
Lemma v_condense_silent : forall c p fuel x key fl out,
  logs (v_condense_loop c p fuel x key fl out) (fun l _ => silent l).
Proof.
  intros c p. induction fuel as [|fuel IH]; intros; cbn [v_condense_loop]; destruct (_ <? _).
  - apply logs_lift. discriminate.
  - apply logs_lift. intros y _ i. reflexivity.
  - apply logs_bind. eapply logs_impl; [apply v_parents_silent|]. intros l [o n] S.
    apply logs_bind, logs_lift. intros ? _. apply logs_bind, logs_lift. intros ? _.
    apply logs_bind, logs_lift. intros ? _. apply logs_bind, logs_lift. intros ? _. cbn [app].
    eapply logs_impl; [apply IH|]. intros l' y S'. now apply silent_app.
  - apply logs_lift. intros y _ i. reflexivity.
Qed.
Lemma v_root_silent : forall c p x key fl, logs (v_condense_root c p x key fl) (fun l _ => silent l).
Proof.
  intros. unfold v_condense_root. cbv zeta. apply logs_bind, logs_lift. intros _ _. apply logs_bind, logs_lift. intros _ _. cbn [app].
  apply logs_bind. eapply logs_impl; [apply v_condense_silent|]. intros l y S.
  apply logs_bind, logs_lift. intros ? _. apply logs_lift. intros ? _. cbn [app]. now rewrite app_nil_r.
Qed.
Lemma v_internal_once : forall c p x key fl, platform_ok c p ->
  logs (v_hash_internal c p x key fl) (fun l _ => once 0 (len x) l).
Proof.
  intros * P. unfold v_hash_internal. cbv zeta. destruct (N.leb_spec (len x) CHUNK_LEN) as [G|G].
  - now apply v_one_chunk_once.
  - apply logs_bind. eapply logs_impl; [apply v_recurse_once; [exact P|]|].
    { apply room_big. pose proof (degree_max c p P). rewrite len_zeros. change OUT_LEN with 32. lia. }
    intros l [o n] R. apply logs_bind, logs_lift. intros ? _. cbn [app].
    eapply logs_impl; [apply v_root_silent|]. intros l' y S. now apply once_sr.
Qed.
Lemma v_oneshot_xof_once : forall c p m x, platform_ok c p ->
  logs (v_oneshot_xof c p m x) (fun l _ => once 0 (len x) l).
Proof. intros c p [|k|k] x P; now apply v_internal_once. Qed.
Lemma v_oneshot_once : forall c p m x, platform_ok c p ->
  logs (v_oneshot c p m x) (fun l _ => once 0 (len x) l).
Proof.
  intros. unfold v_oneshot. apply logs_bind. eapply logs_impl; [now apply v_oneshot_xof_once|]. intros l o R.
  eapply logs_impl; [apply v_hash_quiet|]. intros. now apply once_r.
Qed.

(* ---- streaming ---- *)

Lemma v_fill_once : forall c e s x, len x <= e ->
  logs (v_fill_buf c e s x)
       (fun l r => once (e - len x) (e - len (snd r)) l /\ len (snd r) <= len x /\
          (cs_buf_len s = 0 -> len x <= 64 -> snd r = []) /\ (x = [] -> snd r = [])).
Proof.
  intros * L. unfold v_fill_buf. cbv zeta. apply logs_bind, logs_lift. intros want Ew. cbn [app].
  set (n := N.min want (len x)).
  apply logs_bind, logs_pure. intros src _. apply logs_bind, logs_lift. intros buf _.
  apply logs_bind, logs_lift. intros bl _. apply logs_bind, logs_lift. intros rest Er.
  apply logs_lift. intros r Eq. cbn [app].
  assert (Lr : snd r = rest) by (apply (f_equal (fun q => match q with Ok y => snd y | _ => rest end)) in Eq; now symmetry).
  rewrite Lr. clear Eq Lr.
  assert (Lr : len rest = len x - n).
  { unfold slice_from in Er. destruct (_ <=? _); [|discriminate Er]. injection Er as <-. apply len_drop. }
  split; [|split; [lia|split]].
  - replace (e - len rest) with (e - len x + n) by lia. apply once_load.
  - intros Z Lx. rewrite Z, subU_ok in Ew by (unfold BLOCK_LEN; lia). change BLOCK_LEN with 64 in Ew. injection Ew as <-.
    apply len_0_nil. lia.
  - intros ->. apply len_0_nil. change (len (@nil N)) with 0 in Lr. lia.
Qed.
Lemma v_block_logs : forall c s b (Q : list vstep -> chunk_state -> Prop),
  (forall l t, cs_buf_len t = cs_buf_len s -> quiet l -> Q l t) -> logs (v_cs_compress c s b) Q.
Proof.
  intros * H. unfold v_cs_compress. cbv zeta. apply logs_bind. eapply logs_impl; [apply p_comp_quiet|]. intros l cv Ql.
  apply logs_bind, logs_lift. intros n _. apply logs_lift. intros t [= <-]. cbn [app]. rewrite app_nil_r. now apply H.
Qed.
Lemma v_loop_once : forall c e fuel s x, len x <= e ->
  logs (v_cs_update_loop c e fuel s x)
       (fun l r => once (e - len x) (e - len (snd r)) l /\
          (len (snd r) <= len x /\ len (snd r) <= 64 /\ cs_buf_len (fst r) = cs_buf_len s /\ (x = [] -> snd r = []))).
Proof.
  intros c e. induction fuel as [|fuel IH]; intros s x L; cbn [v_cs_update_loop];
    destruct (N.ltb_spec BLOCK_LEN (len x)) as [G|G]; change BLOCK_LEN with 64 in *.
  - apply logs_lift. discriminate.
  - apply logs_lift. intros r [= <-]. cbn [fst snd]. split; [now apply once_quiet|]. repeat split; auto; lia.
  - apply logs_bind, logs_lift. intros _ _. cbn [app]. apply logs_bind, logs_pure. intros b _.
    apply logs_bind, v_block_logs. intros l t Et Ql. apply logs_bind, logs_lift. intros y Ey. cbn [app].
    assert (Ly : len y = len x - 64).
    { unfold slice_from in Ey. destruct (_ <=? _); [|discriminate Ey]. injection Ey as <-. apply len_drop. }
    eapply logs_impl; [apply IH; lia|]. intros l' r (R & A & B & C & D). split; [|repeat split; try lia].
    + eapply (once_app _ _ _ (_ :: l)); [|exact R].
      apply (once_r _ _ [_]); [|exact Ql].
      replace (e - len y) with (e - len x + 64) by lia. apply once_call.
    + intros ->. unfold len in G. cbn in G. lia.
  - apply logs_lift. intros r [= <-]. cbn [fst snd]. split; [now apply once_quiet|]. repeat split; auto; lia.
Qed.
Lemma v_chunk_update_once : forall c e s x, len x <= e ->
  logs (v_cs_update c e s x) (fun l _ => once (e - len x) e l).
Proof.
  intros * L. unfold v_cs_update. apply logs_bind.
  eapply logs_impl with (Q := fun l r => once (e - len x) (e - len (snd r)) l /\ len (snd r) <= len x /\
    (cs_buf_len (fst r) = 0 \/ snd r = [])).
  - destruct (N.ltb_spec 0 (cs_buf_len s)) as [G|G].
    + apply logs_bind. eapply logs_impl; [now apply v_fill_once|].
      intros l [t y] (R & A & _ & _). cbn [fst snd] in *. destruct (N.eqb_spec (len y) 0) as [G'|G']; cbn [negb].
      * apply logs_lift. intros r [= <-]. cbn [fst snd]. rewrite app_nil_r. split; [exact R|].
        split; [exact A|]. right. now apply len_0_nil.
      * apply logs_bind, logs_lift. intros _ _. apply logs_bind, v_block_logs. intros l' t' _ Ql'.
        apply logs_lift. intros r [= <-]. cbn [fst snd cs_buf_len app]. rewrite app_nil_r.
        split; [|split; [exact A|now left]]. now apply once_r.
    + apply logs_lift. intros r [= <-]. cbn [fst snd]. split; [now apply once_quiet|]. split; [lia|]. left. lia.
  - intros l [t y] (R & A & B). cbn [fst snd] in *. apply logs_bind.
    eapply logs_impl; [apply v_loop_once; lia|]. intros l' [u z] (R' & A' & Z & C & D). cbn [fst snd] in *.
    apply logs_bind. eapply logs_impl; [apply v_fill_once; lia|].
    intros l'' [v w] (R'' & A'' & F & F'). cbn [fst snd] in *.
    apply logs_bind, logs_lift. intros _ _. apply logs_bind, logs_lift. intros _ _. apply logs_lift. intros r _. cbn [app].
    assert (W : w = []). { destruct B as [B|B]; [apply F; [congruence|exact Z]|auto]. }
    subst w. change (len (@nil N)) with 0 in R''. rewrite N.sub_0_r in R''.
    eapply once_app; [exact R|]. eapply once_app; [exact R'|]. rewrite app_nil_r. exact R''.
Qed.

Lemma v_merge_parent_quiet : forall c h, quiet_logs (v_merge_parent c h).
Proof.
  intros. unfold v_merge_parent. cbv zeta. do 5 (apply quiet_logs_bind; [apply lift_quiet|]; intros).
  apply quiet_logs_bind; [apply v_hash_quiet|]. intros. apply lift_quiet.
Qed.
Lemma v_merge_quiet : forall c fuel h n, quiet_logs (v_merge_loop c fuel h n).
Proof.
  intros c. induction fuel as [|fuel IH]; intros; cbn [v_merge_loop]; destruct (needs_merge h n); try apply lift_quiet.
  apply quiet_logs_bind; [apply v_merge_parent_quiet|]. intros. apply IH.
Qed.
Lemma v_push_quiet : forall c h x n, quiet_logs (v_push_chunk_hash c h x n).
Proof.
  intros. unfold v_push_chunk_hash. apply quiet_logs_bind; [apply v_merge_quiet|]. intros.
  apply quiet_logs_bind; [apply lift_quiet|]. intros. apply lift_quiet.
Qed.
Lemma v_batch_quiet : forall c xs h, quiet_logs (v_push_batch c h xs).
Proof.
  intros c. induction xs as [|x xs IH]; intros; cbn [v_push_batch]; [apply lift_quiet|].
  apply quiet_logs_bind; [apply v_push_quiet|]. intros.
  apply quiet_logs_bind; [apply lift_quiet|]. intros. apply IH.
Qed.

(* h is well formed: it is related to itself *)
Lemma self_ok : forall A (R : A -> A -> Prop) m, vrel R m m -> logs m (fun _ x => R x x).
Proof. intros A R m [_ H] x E. now rewrite E in H. Qed.
Lemma logs_and : forall A (m : vs A) Q Q', logs m Q -> logs m Q' -> logs m (fun l x => Q l x /\ Q' l x).
Proof. intros * H K x E. split; auto. Qed.

Lemma L2_self : forall A (R : A -> A -> Prop) l, Forall (fun x => R x x) l -> L2 R l l.
Proof. intros * H. induction H; constructor; auto. Qed.

Lemma v_update_chunks_once : forall c e fuel h xs out, len xs * 2048 <= e ->
  Forall (fun x => len x = 2048 /\ bytes x) xs -> len out = MAX_SIMD_DEGREE c * 32 -> bytes out -> Rh h h ->
  logs (v_update_chunks c e fuel h xs out) (fun l _ => once (e - len xs * 2048) e l).
Proof.
  intros c e. assert (M : 0 < MAX_SIMD_DEGREE c) by (unfold MAX_SIMD_DEGREE; destruct (x86 c); lia).
  induction fuel as [|fuel IH]; intros h xs out L F Lo Bo Hh; cbn [v_update_chunks]; cbv zeta;
    destruct (N.eqb_spec (len (take (MAX_SIMD_DEGREE c) xs)) 0) as [Z|Z]; rewrite len_take in Z.
  - apply logs_lift. intros r _. replace (len xs) with 0 by lia. rewrite N.sub_0_r. now apply once_quiet.
  - apply logs_lift. discriminate.
  - apply logs_lift. intros r _. replace (len xs) with 0 by lia. rewrite N.sub_0_r. now apply once_quiet.
  - set (ys := take (MAX_SIMD_DEGREE c) xs).
    assert (Fy : Forall (fun x => len x = 2048 /\ bytes x) ys) by now apply Forall_take.
    assert (Ly : len ys <= MAX_SIMD_DEGREE c) by (unfold ys; rewrite len_take; lia).
    assert (Lx : len xs = len ys + len (drop (MAX_SIMD_DEGREE c) xs)) by (unfold ys; rewrite len_take, len_drop; lia).
    pose proof Hh as [_ (_ & [[K1 K2] _] & [_ Hs] & _)].
    apply logs_bind. eapply logs_impl.
    { apply logs_and; [|apply logs_and].
      - apply v_many_once; [|lia]. eapply Forall_impl; [|exact Fy]. now intros ? [].
      - instantiate (1 := fun _ o => len o = len out). intros o E. cbn [lying_in snd] in E.
        eapply many_len; [..|exact E]; auto; try reflexivity. lia.
      - apply self_ok, vrel_lying, p_hash_many_rel; [reflexivity| |now repeat split|exact Hs|now split].
        apply L2_self. eapply Forall_impl; [|exact Fy]. intros x [A B]. repeat split; auto. }
    intros l o (R & Lo' & Ro'). cbn beta in *.
    apply logs_bind. eapply logs_impl.
    { apply logs_and; [apply v_batch_quiet|]. apply self_ok, v_push_batch_rel; [|exact Hh].
      apply L2_take, (proj1 (chunks_rel OUT_LEN _ _ Ro')). }
    intros l' h' [Q Hh']. cbn beta in *.
    eapply logs_impl.
    { apply IH; [lia|now apply Forall_drop|congruence|apply Ro'|exact Hh']. }
    intros l'' r R'. change CHUNK_LEN with 2048 in R. eapply once_app; [exact R|]. apply once_l; [exact Q|].
    replace (e - len xs * 2048 + 2048 * len ys) with (e - len (drop (MAX_SIMD_DEGREE c) xs) * 2048) by lia. exact R'.
Qed.

Lemma v_update_once : forall c h x, Rh h h -> bytes x ->
  logs (v_update c h x) (fun l _ => once 0 (len x) l).
Proof.
  intros c h x Hh Bx. unfold v_update. cbv zeta. set (e := len x). apply logs_bind.
  eapply logs_impl with (Q := fun l r =>
    once 0 (e - len (snd (fst r))) l /\ Rh (fst (fst r)) (fst (fst r)) /\ bytes (snd (fst r)) /\
    len (snd (fst r)) <= e /\ (snd r = true -> snd (fst r) = [])).
  - destruct (_ || _).
    + apply logs_bind, logs_lift. intros want _. cbn [app]. set (n := N.min want e).
      apply logs_bind, logs_lift. intros now_ En. cbn [app].
      assert (Ln : len now_ = n /\ bytes now_).
      { unfold slice_to in En. destruct (N.leb_spec n (len x)) as [G|G]; [|discriminate En].
        injection En as <-. rewrite len_take. split; [lia|now apply bytes_take]. }
      destruct Ln as [Ln Bn]. apply logs_bind. eapply logs_impl.
      { apply logs_and; [apply v_chunk_update_once; lia|].
        apply self_ok, v_cs_update_rel; [exact (proj2 Hh)|now split]. }
      intros l s [R Hs]. cbn beta in *. replace (n - len now_) with 0 in R by lia.
      apply logs_bind, logs_lift. intros y Ey. cbn [app].
      assert (Ly : len y = e - n /\ bytes y).
      { unfold slice_from in Ey. destruct (N.leb_spec n (len x)) as [G|G]; [|discriminate Ey].
        injection Ey as <-. rewrite len_drop. split; [reflexivity|now apply bytes_drop]. }
      destruct Ly as [Ly By]. replace n with (e - len y) in R by lia.
      destruct (N.eqb_spec (len y) 0) as [Z|Z]; cbn [negb].
      * apply logs_lift. intros r Er.
        assert (Er' : r = (Hasher (h_stack h) s, y, true)) by congruence. subst r. cbn [fst snd]. rewrite app_nil_r.
        split; [exact R|]. split; [split; [exact (proj1 Hh)|exact Hs]|]. split; [exact By|]. split; [lia|].
        intros _. now apply len_0_nil.
      * apply logs_bind, logs_lift. intros _ _. apply logs_bind, logs_lift. intros o Eo. cbn [app].
        assert (Ho : Ro o o).
        { pose proof (cs_finalize_rel c s s NotRoot Hs) as K. now rewrite Eo in K. }
        apply logs_bind. eapply logs_impl.
        { apply logs_and; [apply v_hash_quiet|now apply self_ok, v_to_hash_rel]. }
        intros l1 k [Q1 Hk]. cbn beta in *.
        apply logs_bind. eapply logs_impl.
        { apply logs_and; [apply v_push_quiet|]. apply self_ok, v_push_chunk_rel; [split; [exact (proj1 Hh)|exact Hs]|exact Hk]. }
        intros l2 g [Q2 Hg]. cbn beta in *.
        apply logs_bind, logs_lift. intros i Ei. apply logs_bind, logs_lift. intros q Eq. cbn [app].
        assert (Hi : small i).
        { pose proof (addw_small c (cs_offset s) CHUNK_LEN) as K. rewrite Ei in K. now destruct K. }
        assert (Hq : Rcs q q).
        { pose proof (cs_reset_rel c s s i Hs Hi) as K. now rewrite Eq in K. }
        apply logs_lift. intros r Er.
        assert (Er' : r = (Hasher (h_stack g) q, y, false)) by congruence. subst r. cbn [fst snd].
        split; [|split; [split; [exact (proj1 Hg)|exact Hq]|split; [exact By|split; [lia|discriminate]]]].
        rewrite app_nil_r. apply once_r; [exact R|]. now apply quiet_app.
    + apply logs_lift. intros r Er. assert (Er' : r = (h, x, false)) by congruence. subst r. cbn [fst snd].
      split; [|split; [exact Hh|split; [exact Bx|split; [lia|discriminate]]]].
      replace (e - len x) with 0 by lia. now apply once_quiet.
  - intros l [[g y] ret] (R & Hg & By & Ly & Z). cbn [fst snd] in *. destruct ret.
    { apply logs_lift. intros r _. rewrite (Z eq_refl) in R. change (len (@nil N)) with 0 in R.
      rewrite N.sub_0_r in R. now rewrite app_nil_r. }
    pose proof (chunks_exact_spec _ CHUNK_LEN y eq_refl) as S.
    assert (Hy : Rb y y) by now split. destruct (chunks_rel CHUNK_LEN _ _ Hy) as [H1 H2].
    destruct (chunks_exact CHUNK_LEN y) as [cs t]. cbn [fst snd] in *.
    destruct S as (E & F & Lt & Lc). change CHUNK_LEN with 2048 in *.
    assert (Ly' : len y = len cs * 2048 + len t).
    { rewrite <- E, len_app. rewrite (len_concat_const _ 2048) by exact F. lia. }
    assert (Fb : Forall (fun x => len x = 2048 /\ bytes x) cs).
    { clear - H1. remember cs as ds eqn:Ed in H1 at 2. clear Ed. induction H1 as [|a b ? ? (A & _ & B & _)]; constructor; auto. }
    apply logs_bind, logs_lift. intros _ _. cbn [app].
    apply logs_bind. eapply logs_impl.
    { apply logs_and.
      - apply v_update_chunks_once with (e := e - len t); [lia|exact Fb|apply len_zeros|apply Rb_zeros|exact Hg].
      - apply self_ok, v_update_chunks_rel; [exact Hg|exact H1|apply Rb_zeros]. }
    intros l1 k [R1 Hk]. cbn beta in *.
    replace (e - len t - len cs * 2048) with (e - len y) in R1 by lia.
    pose proof (once_app _ _ _ _ _ R R1) as R2.
    apply logs_bind, logs_lift. intros _ _. apply logs_bind, logs_lift. intros _ _. cbn [app].
    destruct (N.eqb_spec (len t) 0) as [Zt|Zt]; cbn [negb].
    + apply logs_lift. intros r _. rewrite app_nil_r. rewrite Zt, N.sub_0_r in R2. exact R2.
    + apply logs_bind. eapply logs_impl; [apply v_merge_quiet|]. intros l2 q Q.
      apply logs_bind. eapply logs_impl; [apply v_chunk_update_once; lia|]. intros l3 s R3.
      apply logs_lift. intros r _. rewrite app_nil_r, app_assoc.
      eapply once_app; [exact R2|]. now apply once_l.
Qed.

(* ---- the output ---- *)

Lemma v_finalize_loop_quiet : forall c fuel h w i, quiet_logs (v_finalize_loop c fuel h w i).
Proof.
  intros c. induction fuel as [|fuel IH]; intros; cbn [v_finalize_loop]; cbv zeta;
    (apply quiet_logs_bind; [apply lift_quiet|]); intros; (destruct (i =? 0); [apply lift_quiet|]).
  - apply lift_quiet.
  - apply quiet_logs_bind; [apply lift_quiet|]. intros.
    apply quiet_logs_bind; [apply v_hash_quiet|]. intros. apply IH.
Qed.
Lemma v_finalize_xof_quiet : forall c h, quiet_logs (v_finalize_xof c h).
Proof.
  intros. unfold v_finalize_xof. cbv zeta. destruct (_ =? 0); [apply lift_quiet|].
  apply quiet_logs_bind; [|intros []; apply v_finalize_loop_quiet]. destruct (0 <? _).
  - do 3 (apply quiet_logs_bind; [apply lift_quiet|]; intros).
    apply quiet_logs_bind; [apply v_hash_quiet|]. intros. apply lift_quiet.
  - do 4 (apply quiet_logs_bind; [apply lift_quiet|]; intros). apply lift_quiet.
Qed.
Lemma v_finalize_quiet : forall c h, quiet_logs (v_finalize c h).
Proof. intros. unfold v_finalize. apply quiet_logs_bind; [apply v_finalize_xof_quiet|]. intros. apply v_hash_quiet. Qed.
Lemma sse41_xof_quiet : quiet_comp sse41_v_compress_xof.
Proof.
  intros cv b n o f. destruct (same_sse41_xof cv b n o f [] [] 0 0 0) as [-> _].
  vm_compute. reflexivity.
Qed.
Lemma p_xof_quiet : forall p cv b n o f, quiet_logs (p_compress_xof p cv b n o f).
Proof. intros [] * x _; [apply quiet_scalar|apply sse41_xof_quiet..]. Qed.
Lemma v_read_quiet : forall c o, quiet_logs (v_read c o).
Proof.
  intros. unfold v_read. apply quiet_logs_bind; [apply p_xof_quiet|]. intros.
  apply quiet_logs_bind; [apply lift_quiet|]. intros. apply lift_quiet.
Qed.
Lemma v_reads_quiet : forall c n o, quiet_logs (v_reads c n o).
Proof.
  intros c. induction n as [|n IH]; intros; cbn [v_reads]; [apply lift_quiet|].
  apply quiet_logs_bind; [apply v_read_quiet|]. intros [].
  apply quiet_logs_bind; [apply IH|]. intros []. apply lift_quiet.
Qed.

(* ---- the theorems ---- *)

Lemma lib_reads_values : forall c p m input h,
  snd (v_oneshot c p m input) = oneshot c p m input /\
  snd (v_oneshot_xof c p m input) = oneshot_xof c p m input /\
  snd (v_update c h input) = update c h input /\
  snd (v_finalize c h) = finalize c h /\
  snd (v_finalize_xof c h) = finalize_xof c h /\
  forall n o, snd (v_reads c n o) = reads c n o.
Proof.
  intros. split; [apply v_ret_oneshot|]. split; [apply v_ret_oneshot_xof|]. split; [apply v_ret_update|].
  split; [apply v_ret_finalize|]. split; [apply v_ret_finalize_xof|]. intros. apply v_ret_reads.
Qed.
Lemma once_reads : forall n l, once 0 n l -> forall i, times_read i l = if i <? n then 1 else 0.
Proof. intros n l [_ H] i. rewrite H. now replace (0 <=? i) with true by lia. Qed.
Lemma lib_oneshot_reads : forall c p m input, platform_ok c p ->
  (forall hash, snd (v_oneshot c p m input) = Ok hash ->
   forall i, times_read i (fst (v_oneshot c p m input)) = if i <? len input then 1 else 0) /\
  (forall o, snd (v_oneshot_xof c p m input) = Ok o ->
   forall i, times_read i (fst (v_oneshot_xof c p m input)) = if i <? len input then 1 else 0).
Proof.
  intros * P. split; intros x E; apply once_reads.
  - exact (v_oneshot_once c p m input P x E).
  - exact (v_oneshot_xof_once c p m input P x E).
Qed.
Lemma lib_update_reads : forall c p m inputs h input h', mode_ok m -> Forall bytes inputs -> bytes input ->
  feed c (start p m) inputs = Ok h -> snd (v_update c h input) = Ok h' ->
  forall i, times_read i (fst (v_update c h input)) = if i <? len input then 1 else 0.
Proof.
  intros * M F B E E'. apply once_reads. refine (v_update_once c h input _ B h' E').
  pose proof (v_ret_feed c inputs (start p m)) as V. unfold vret in V. rewrite E in V.
  refine (self_ok _ Rh (v_feed c (start p m) inputs) (v_feed_rel _ _ _ _ _ _ _) h V).
  - apply L2_self. eapply Forall_impl; [|exact F]. intros x Hx. now split.
  - apply start_Rh; auto. destruct m; exact I.
Qed.
Lemma lib_output_reads : forall c,
  (forall h hash, snd (v_finalize c h) = Ok hash -> forall i, times_read i (fst (v_finalize c h)) = 0) /\
  (forall h o, snd (v_finalize_xof c h) = Ok o -> forall i, times_read i (fst (v_finalize_xof c h)) = 0) /\
  (forall n o r, snd (v_reads c n o) = Ok r -> forall i, times_read i (fst (v_reads c n o)) = 0).
Proof.
  intros c. split; [|split]; intros * E i; apply quiet_times.
  - exact (v_finalize_quiet c h _ E).
  - exact (v_finalize_xof_quiet c h _ E).
  - exact (v_reads_quiet c n o _ E).
Qed.
