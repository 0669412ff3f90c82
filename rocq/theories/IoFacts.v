(* Proofs about copy_wide. *)
From Coq Require Import NArith List Bool Lia ZArith.
From Coq Require Import ZifyBool ZifyNat ZifyN.
From Verif Require Import Base BaseFacts Spec Portable Platform Lib Session SessionSpec ApiFacts Io IoSpec.
Import ListNotations.
Open Scope N_scope.

Section Generic.
Context {R W : Type}.
Variable rd : R -> N -> read_result * R.
Variable wr : W -> list N -> res (write_result * W).

Lemma accepts_app : forall w a w1, accepts wr w a w1 -> forall b w2, accepts wr w1 b w2 ->
  accepts wr w (a ++ b) w2.
Proof.
  induction 1; intros b w3 H3; auto.
  - rewrite <- app_assoc. econstructor; eauto.
  - econstructor 3; eauto.
Qed.

Lemma write_all_sound : forall fuel w buf x w', write_all wr fuel w buf = Ok (x, w') ->
  match x with
  | IoOk _ => accepts wr w buf w'
  | IoErr e => exists taken rest w1, buf = taken ++ rest /\ accepts wr w taken w1 /\ fails wr e w1 w'
  end.
Proof.
  induction fuel as [|fuel IH]; intros w buf x w' E.
  - destruct buf as [|b buf]; [|discriminate]. injection E as <- <-. constructor.
  - destruct buf as [|b buf]; [injection E as <- <-; constructor|].
    remember (b :: buf) as l eqn:El. cbn [write_all] in E. rewrite El in E at 1.
    destruct (wr w l) as [[a w1]| |] eqn:Ew; cbn [bind] in E; try discriminate.
    destruct a as [n| |e].
    + destruct (N.eqb_spec n 0) as [->|Nz].
      * injection E as <- <-. exists [], l, w. split; [reflexivity|]. split; [constructor|].
        exists l. right. split; [exact Ew|reflexivity].
      * destruct (N.le_gt_cases n (len l)) as [Hn|Hn].
        2:{ unfold slice_from in E. rewrite (proj2 (N.leb_gt _ _)) in E by exact Hn. discriminate. }
        rewrite slice_from_ok in E by exact Hn. cbn [bind] in E. apply IH in E.
        destruct x as [u|e].
        -- rewrite <- (take_drop _ n l) at 1. econstructor; eauto.
        -- destruct E as (taken & rest & w2 & E1 & E2 & E3).
           exists (take n l ++ taken), rest, w2. split.
           { rewrite <- app_assoc, <- E1. symmetry. apply take_drop. }
           split; [|exact E3]. econstructor; eauto.
    + apply IH in E. destruct x as [u|e].
      * econstructor 3; eauto.
      * destruct E as (taken & rest & w2 & E1 & E2 & E3).
        exists taken, rest, w2. split; [exact E1|]. split; [|exact E3]. econstructor 3; eauto.
    + injection E as <- <-. exists [], l, w. split; [reflexivity|]. split; [constructor|].
      exists l. left. exact Ew.
Qed.

Lemma copy_loop_sound : forall c fuel wfuel r w total x r' w',
  copy_loop c rd wr fuel wfuel r w total = Ok (x, r', w') ->
  exists bs r1, delivers rd (COPY_BUF_LEN c) r bs r1 /\
    match x with
    | IoOk n => at_eof rd (COPY_BUF_LEN c) r1 r' /\ accepts wr w bs w' /\
        (total < W64 -> n = (total + len bs) mod W64) /\ (dbg c = true -> n = total + len bs)
    | IoErr e =>
        (at_error rd (COPY_BUF_LEN c) e r1 r' /\ accepts wr w bs w') \/
        (r1 = r' /\ exists taken rest w1, bs = taken ++ rest /\ accepts wr w taken w1 /\ fails wr e w1 w')
    end.
Proof.
  intros c. induction fuel as [|fuel IH]; intros wfuel r w total x r' w' E; [discriminate|].
  cbn [copy_loop] in E. destruct (rd r (COPY_BUF_LEN c)) as [a r1] eqn:Er.
  destruct a as [data| |e].
  - destruct data as [|b data].
    + injection E as <- <- <-. exists [], r. split; [constructor|]. split; [exact Er|].
      split; [constructor|]. rewrite len_nil, N.add_0_r. split; [|auto].
      intros H. symmetry. apply N.mod_small. exact H.
    + remember (b :: data) as l eqn:El.
      destruct (N.leb_spec (len l) (COPY_BUF_LEN c)) as [Hl|Hl]; [|discriminate].
      destruct (write_all wr wfuel w l) as [[y w1]| |] eqn:Ew; cbn [bind] in E; try discriminate.
      apply write_all_sound in Ew. 
      assert (Nl : l <> []) by (subst; discriminate).
      destruct y as [u|e].
      * assert (Ea : exists t, add64 c total (len l) = Ok t /\ t = (total + len l) mod W64 /\
          (dbg c = true -> t = total + len l)).
        { unfold add64, addw in *. destruct (dbg c) eqn:Ed.
          - destruct (N.leb_spec W64 (total + len l)) as [Hs|Hs]; cbn [andb] in *; [discriminate E|].
            eexists. split; [reflexivity|]. split; [reflexivity|]. intros _. now apply N.mod_small.
          - cbn [andb]. eexists. split; [reflexivity|]. split; [reflexivity|discriminate]. }
        destruct Ea as (t & Et & Et1 & Et2). rewrite Et in E. cbn [bind] in E.
        apply IH in E. destruct E as (bs & r2 & D & E).
        exists (l ++ bs), r2. split; [econstructor; eauto|].
        destruct x as [n|e].
        -- destruct E as (E1 & E2 & E3 & E4). split; [exact E1|].
           split; [eapply accepts_app; eauto|]. rewrite len_app. split.
           ++ intros _. rewrite E3 by (rewrite Et1; apply N.mod_lt; discriminate).
              rewrite Et1, N.add_mod_idemp_l by discriminate. f_equal. lia.
           ++ intros Hd. rewrite E4 by exact Hd. rewrite Et2 by exact Hd. lia.
        -- destruct E as [[E1 E2]|[E1 (taken & rest & w2 & E2 & E3 & E4)]].
           ++ left. split; [exact E1|]. eapply accepts_app; eauto.
           ++ right. split; [exact E1|]. exists (l ++ taken), rest, w2.
              rewrite E2, app_assoc. split; [reflexivity|]. split; [|exact E4]. eapply accepts_app; eauto.
      * injection E as <- <- <-. exists l, r1. split.
        { rewrite <- (app_nil_r l). econstructor; eauto. constructor. }
        right. split; [reflexivity|exact Ew].
  - apply IH in E. destruct E as (bs & r2 & D & E).
    exists bs, r2. split; [econstructor 3; eauto|exact E].
  - injection E as <- <- <-. exists [], r. split; [constructor|]. left. split; [exact Er|constructor].
Qed.

(* a writer that takes everything, with an invariant and its effect *)
Variable inv : W -> list N -> Prop.       (* the writer has taken these bytes *)
Variable limit : N.
Variable okdata : list N -> Prop.
Hypothesis takes : forall w got buf, inv w got -> okdata buf -> len got + len buf < limit ->
  exists w', wr w buf = Ok (WriteOk (len buf), w') /\ inv w' (got ++ buf).
Hypothesis okdata_app : forall a b, okdata (a ++ b) -> okdata a /\ okdata b.

Lemma write_all_total : forall fuel w got buf, inv w got -> okdata buf -> len got + len buf < limit ->
  exists w', write_all wr (S fuel) w buf = Ok (IoOk tt, w') /\ inv w' (got ++ buf).
Proof.
  intros fuel w got buf I O L. destruct buf as [|b buf].
  - exists w. rewrite app_nil_r. auto.
  - destruct (takes w got (b :: buf) I O L) as (w' & E & I').
    exists w'. split; [|exact I']. cbn [write_all]. rewrite E. cbn [bind].
    rewrite (proj2 (N.eqb_neq _ _)) by (rewrite len_cons; lia).
    rewrite slice_from_ok by lia. cbn [bind]. rewrite drop_all by lia. destruct fuel; reflexivity.
Qed.

Lemma copy_loop_total : forall c r bs r1, delivers rd (COPY_BUF_LEN c) r bs r1 ->
  forall r' z, (at_eof rd (COPY_BUF_LEN c) r1 r' /\ z = None) \/
    (exists e, at_error rd (COPY_BUF_LEN c) e r1 r' /\ z = Some e) ->
  forall w got total, inv w got -> okdata bs -> len got + len bs < limit -> total + len bs < W64 ->
  exists w', inv w' (got ++ bs) /\
  exists fuel0, forall fuel wfuel, (fuel0 <= fuel)%nat -> (1 <= wfuel)%nat ->
    copy_loop c rd wr fuel wfuel r w total
    = Ok (match z with None => IoOk (total + len bs) | Some e => IoErr e end, r', w').
Proof.
  intros c r bs r1 D. induction D as [r|r data r1 bs r2 E Nd Ld D IH|r r1 bs r2 E D IH];
    intros r' z Z w got total I O Lg Lt.
  - exists w. rewrite app_nil_r, len_nil, N.add_0_r. split; [exact I|].
    exists 1%nat. intros [|fuel] wfuel Hf _; [lia|]. cbn [copy_loop].
    destruct Z as [[Z ->]|(e & Z & ->)]; rewrite Z; reflexivity.
  - apply okdata_app in O. destruct O as [O1 O2]. rewrite len_app in Lg, Lt.
    destruct (write_all_total 0 w got data I O1 ltac:(lia)) as (w1 & _ & I1).
    assert (Det : forall fuel, exists w1, write_all wr (S fuel) w data = Ok (IoOk tt, w1) /\ inv w1 (got ++ data)).
    { intros fuel. now apply write_all_total; [| |lia]. }
    destruct (takes w got data I O1 ltac:(lia)) as (w2 & E2 & I2).
    destruct (IH r' z Z w2 (got ++ data) (total + len data) I2 O2) as (w' & I' & fuel0 & H);
      try (rewrite ?len_app; lia).
    exists w'. split; [now rewrite app_assoc|]. exists (S fuel0). intros [|fuel] [|wfuel] Hf Hw; try lia.
    cbn [copy_loop]. rewrite E. destruct data as [|b data]; [contradiction|].
    rewrite (proj2 (N.leb_le _ _)) by exact Ld.
    remember (b :: data) as l eqn:El.
    replace (write_all wr (S wfuel) w l) with (@Ok (io_result unit * W) (IoOk tt, w2)).
    2:{ rewrite El in *. cbn [write_all]. rewrite E2. cbn [bind].
        rewrite (proj2 (N.eqb_neq _ _)) by (rewrite len_cons; lia).
        rewrite slice_from_ok by lia. cbn [bind]. rewrite drop_all by lia. destruct wfuel; reflexivity. }
    cbn [bind]. rewrite add64_ok by lia. cbn [bind]. rewrite H by lia.
    rewrite len_app. replace (total + (len l + len bs)) with (total + len l + len bs) by lia. reflexivity.
  - destruct (IH r' z Z w got total I O Lg Lt) as (w' & I' & fuel0 & H).
    exists w'. split; [exact I'|]. exists (S fuel0). intros [|fuel] wfuel Hf Hw; [lia|].
    cbn [copy_loop]. rewrite E. apply H; lia.
Qed.

End Generic.

(* ---- statements of Prop_Io ---- *)

Lemma copy_to_vec : forall R (rd : R -> N -> read_result * R) c r bs r1 r' v,
  delivers rd (COPY_BUF_LEN c) r bs r1 -> len bs < 2 ^ 64 ->
  (at_eof rd (COPY_BUF_LEN c) r1 r' ->
   exists fuel0, forall fuel wfuel, (fuel0 <= fuel)%nat -> (1 <= wfuel)%nat ->
     copy_wide c rd vec_write fuel wfuel r v = Ok (IoOk (len bs), r', v ++ bs)) /\
  (forall e, at_error rd (COPY_BUF_LEN c) e r1 r' ->
   exists fuel0, forall fuel wfuel, (fuel0 <= fuel)%nat -> (1 <= wfuel)%nat ->
     copy_wide c rd vec_write fuel wfuel r v = Ok (IoErr e, r', v ++ bs)).
Proof.
  intros R rd c r bs r1 r' v D L.
  assert (T : forall w got buf, w = v ++ got -> True -> len got + len buf < W64 ->
    exists w', vec_write w buf = Ok (WriteOk (len buf), w') /\ w' = v ++ got ++ buf).
  { intros w got buf -> _ _. eexists. split; [reflexivity|]. now rewrite app_assoc. }
  split.
  - intros Z.
    destruct (copy_loop_total rd vec_write (fun w got => w = v ++ got) W64 (fun _ => True) T
      ltac:(auto) c r bs r1 D r' None (or_introl (conj Z eq_refl)) v [] 0) as (w' & I' & f0 & H);
      auto; rewrite ?app_nil_r, ?len_nil; auto.
    exists f0. intros fuel wfuel Hf Hw. unfold copy_wide. rewrite H by auto. now rewrite I'.
  - intros e Z.
    destruct (copy_loop_total rd vec_write (fun w got => w = v ++ got) W64 (fun _ => True) T
      ltac:(auto) c r bs r1 D r' (Some e) (or_intror (ex_intro _ e (conj Z eq_refl))) v [] 0)
      as (w' & I' & f0 & H); auto; rewrite ?app_nil_r, ?len_nil; auto.
    exists f0. intros fuel wfuel Hf Hw. unfold copy_wide. rewrite H by auto. now rewrite I'.
Qed.

Lemma hasher_takes : forall c m data w got buf, hasher_rel c w (m, data ++ got) -> bytes buf ->
  len got + len buf < W64 - len data ->
  exists w', hasher_write c w buf = Ok (WriteOk (len buf), w') /\
    hasher_rel c w' (m, data ++ got ++ buf).
Proof.
  intros c m data w got buf I B L. 
  destruct (update_rel c w m (data ++ got) buf I B) as (h' & E & H); [rewrite len_app; lia|].
  exists h'. unfold hasher_write, write. rewrite E. cbn [bind]. split; [reflexivity|].
  now rewrite app_assoc.
Qed.

Lemma copy_to_hasher : forall R (rd : R -> N -> read_result * R) c p m inputs r bs r1 r' z,
  platform_ok c p -> mode_ok m -> Forall bytes inputs -> bytes bs ->
  len (concat inputs) + len bs < 2 ^ 64 ->
  delivers rd (COPY_BUF_LEN c) r bs r1 ->
  (at_eof rd (COPY_BUF_LEN c) r1 r' /\ z = IoOk (len bs)) \/
  (exists e, at_error rd (COPY_BUF_LEN c) e r1 r' /\ z = IoErr e) ->
  exists h h' fuel0, feed c (start p m) inputs = Ok h /\
    (forall fuel wfuel, (fuel0 <= fuel)%nat -> (1 <= wfuel)%nat ->
      copy_wide c rd (hasher_write c) fuel wfuel r h = Ok (z, r', h')) /\
    finalize c h' = Ok (spec_hash blake_compress m (concat inputs ++ bs)) /\
    hasher_rel c h' (m, concat inputs ++ bs).
Proof.
  intros R rd c p m inputs r bs r1 r' z P M Bi B L D Z.
  destruct (feed_gen inputs c (start p m) m [] (start_rel c p m P M) Bi) as (h & Eh & Hh).
  { rewrite len_nil. change W64 with (2 ^ 64). lia. }
  cbn [app] in Hh. exists h.
  assert (Z' : exists z', ((at_eof rd (COPY_BUF_LEN c) r1 r' /\ z' = None) \/
    (exists e, at_error rd (COPY_BUF_LEN c) e r1 r' /\ z' = Some e)) /\
    z = match z' with None => IoOk (0 + len bs) | Some e => IoErr e end).
  { destruct Z as [[Z ->]|(e & Z & ->)]; [exists None|exists (Some e)]; eauto 6. }
  destruct Z' as (z' & Z' & Ez).
  destruct (copy_loop_total rd (hasher_write c) (fun w got => hasher_rel c w (m, concat inputs ++ got))
    (W64 - len (concat inputs)) bytes (hasher_takes c m (concat inputs))
    (fun a b => proj1 (bytes_app a b)) c r bs r1 D r' z' Z' h [] 0) as (h' & I' & f0 & H).
  - now rewrite app_nil_r.
  - exact B.
  - rewrite len_nil. change W64 with (2 ^ 64). lia.
  - change W64 with (2 ^ 64). lia.
  - exists h', f0. split; [exact Eh|]. split.
    + intros fuel wfuel Hf Hw. unfold copy_wide. rewrite H by auto. now rewrite Ez.
    + split; [now apply finalize_hash|exact I'].
Qed.

Lemma copy_hashes : forall R (rd : R -> N -> read_result * R) c p m inputs r bs r1 r' z,
  platform_ok c p -> mode_ok m -> Forall bytes inputs -> bytes bs ->
  len (concat inputs) + len bs < 2 ^ 64 ->
  delivers rd (COPY_BUF_LEN c) r bs r1 ->
  (at_eof rd (COPY_BUF_LEN c) r1 r' /\ z = IoOk (len bs)) \/
  (exists e, at_error rd (COPY_BUF_LEN c) e r1 r' /\ z = IoErr e) ->
  exists h h' fuel0, feed c (start p m) inputs = Ok h /\
    (forall fuel wfuel, (fuel0 <= fuel)%nat -> (1 <= wfuel)%nat ->
      copy_wide c rd (hasher_write c) fuel wfuel r h = Ok (z, r', h')) /\
    finalize c h' = Ok (spec_hash blake_compress m (concat inputs ++ bs)).
Proof.
  intros R rd c p m inputs r bs r1 r' z P M Bi B L D Z.
  destruct (copy_to_hasher R rd c p m inputs r bs r1 r' z P M Bi B L D Z)
    as (h & h' & f0 & E1 & E2 & E3 & _).
  exists h, h', f0. auto.
Qed.

Lemma write_is_update : forall c h buf,
  (forall h', update c h buf = Ok h' -> write c h buf = Ok (h', len buf)) /\ flush h = Ok h.
Proof. intros c h buf. split; [|reflexivity]. intros h' E. unfold write. now rewrite E. Qed.

Lemma buffer_sizes : forall c,
  STD_DEFAULT_BUF_LEN <= COPY_BUF_LEN c /\ COPY_BUF_LEN c mod WIDE_BUF_LEN c = 0 /\
  WIDE_BUF_LEN c <= COPY_BUF_LEN c.
Proof.
  intros c. unfold COPY_BUF_LEN, WIDE_BUF_LEN, STD_DEFAULT_BUF_LEN, MAX_SIMD_DEGREE.
  destruct (x86 c); cbn; repeat split; lia.
Qed.

Lemma copy_sound : forall R W (rd : R -> N -> read_result * R) (wr : W -> list N -> res (write_result * W))
  c fuel wfuel r w x r' w',
  copy_wide c rd wr fuel wfuel r w = Ok (x, r', w') ->
  exists bs r1, delivers rd (COPY_BUF_LEN c) r bs r1 /\
    match x with
    | IoOk n => at_eof rd (COPY_BUF_LEN c) r1 r' /\ accepts wr w bs w' /\
        n = len bs mod 2 ^ 64 /\ (dbg c = true -> n = len bs)
    | IoErr e =>
        (at_error rd (COPY_BUF_LEN c) e r1 r' /\ accepts wr w bs w') \/
        (r1 = r' /\ exists taken rest w1, bs = taken ++ rest /\ accepts wr w taken w1 /\ fails wr e w1 w')
    end.
Proof.
  intros R W rd wr c fuel wfuel r w x r' w' E. unfold copy_wide in E.
  apply copy_loop_sound in E. destruct E as (bs & r1 & D & E). exists bs, r1. split; [exact D|].
  destruct x as [n|e]; [|exact E]. destruct E as (E1 & E2 & E3 & E4).
  rewrite N.add_0_l in E3, E4. split; [exact E1|]. split; [exact E2|]. split; [apply E3; reflexivity|exact E4].
Qed.

(* ---- steady writers ---- *)

Lemma write_all_steady : forall W (wr : W -> list N -> res (write_result * W)), steady wr ->
  forall buf w, exists f0 w', accepts wr w buf w' /\
    forall fuel, (f0 <= fuel)%nat -> write_all wr fuel w buf = Ok (IoOk tt, w').
Proof.
  intros W wr (pat & St).
  assert (H : forall k j buf w, (length buf <= k)%nat -> (pat w <= j)%nat -> exists f0 w', accepts wr w buf w' /\
    forall fuel, (f0 <= fuel)%nat -> write_all wr fuel w buf = Ok (IoOk tt, w')).
  { induction k as [|k IHk].
    - intros j buf w Hb _. destruct buf as [|b buf]; [|cbn in Hb; lia].
      exists 0%nat, w. split; [constructor|]. intros [|fuel] _; reflexivity.
    - induction j as [|j IHj]; intros buf w Hb Hp;
        (destruct buf as [|b buf];
         [exists 0%nat, w; split; [constructor|]; intros [|fuel] _; reflexivity|]);
        remember (b :: buf) as l eqn:El;
        (assert (Nl : l <> []) by (subst; discriminate));
        destruct (St w l Nl) as [(n & w1 & E & Hn)|(w1 & E & Hp1)]; try lia.
      all: try (destruct (IHk (pat w1) (drop n l) w1) as (f0 & w' & A & F);
        [unfold drop; rewrite skipn_length; unfold len in Hn; lia|lia|];
        exists (S f0), w'; split;
        [rewrite <- (take_drop _ n l); econstructor; eauto; lia|];
        intros [|fuel] Hf; [lia|]; cbn [write_all]; rewrite El at 1; rewrite E; cbn [bind];
        rewrite (proj2 (N.eqb_neq _ _)) by lia; rewrite slice_from_ok by lia; cbn [bind]; apply F; lia).
      destruct (IHj l w1 Hb ltac:(lia)) as (f0 & w' & A & F).
      exists (S f0), w'. split; [econstructor 3; eauto|].
      intros [|fuel] Hf; [lia|]. cbn [write_all]. rewrite El at 1. rewrite E. cbn [bind]. apply F. lia. }
  intros buf w. exact (H (length buf) (pat w) buf w (le_n _) (le_n _)).
Qed.

(* what has been delivered is copied, and the loop goes on from there *)
Lemma copy_loop_goes_on : forall R W (rd : R -> N -> read_result * R) (wr : W -> list N -> res (write_result * W)) c,
  steady wr -> forall r bs r1, delivers rd (COPY_BUF_LEN c) r bs r1 ->
  forall w total, total + len bs < W64 ->
  exists f0 k w', accepts wr w bs w' /\ forall fuel wfuel, (f0 <= wfuel)%nat ->
    copy_loop c rd wr (k + fuel) wfuel r w total = copy_loop c rd wr fuel wfuel r1 w' (total + len bs).
Proof.
  intros R W rd wr c St r bs r1 D.
  induction D as [r|r data r1 bs r2 E Nd Ld D IH|r r1 bs r2 E D IH]; intros w total Lt.
  - exists 0%nat, 0%nat, w. split; [constructor|]. intros. rewrite len_nil, N.add_0_r. reflexivity.
  - rewrite len_app in Lt. destruct (write_all_steady W wr St data w) as (f1 & w1 & A1 & F1).
    destruct (IH w1 (total + len data) ltac:(lia)) as (f2 & k & w' & A2 & F2).
    exists (f1 + f2)%nat, (S k), w'. split; [eapply accepts_app; eauto|].
    intros fuel wfuel Hw. cbn [Nat.add copy_loop]. rewrite E.
    destruct data as [|b data]; [contradiction|].
    rewrite (proj2 (N.leb_le _ _)) by exact Ld. rewrite F1 by lia. cbn [bind].
    rewrite add64_ok by lia. cbn [bind]. rewrite F2 by lia. rewrite len_app, N.add_assoc. reflexivity.
  - destruct (IH w total Lt) as (f0 & k & w' & A & F). exists f0, (S k), w'. split; [exact A|].
    intros fuel wfuel Hw. cbn [Nat.add copy_loop]. rewrite E. now apply F.
Qed.

Lemma copy_ends : forall R W (rd : R -> N -> read_result * R) (wr : W -> list N -> res (write_result * W))
  c r bs r1 w,
  steady wr -> delivers rd (COPY_BUF_LEN c) r bs r1 -> len bs < 2 ^ 64 ->
  exists w' fuel0, accepts wr w bs w' /\ forall fuel wfuel, (fuel0 <= fuel)%nat -> (fuel0 <= wfuel)%nat ->
    (forall r', at_eof rd (COPY_BUF_LEN c) r1 r' ->
       copy_wide c rd wr fuel wfuel r w = Ok (IoOk (len bs), r', w')) /\
    (forall e r', at_error rd (COPY_BUF_LEN c) e r1 r' ->
       copy_wide c rd wr fuel wfuel r w = Ok (IoErr e, r', w')) /\
    (claims_too_much rd (COPY_BUF_LEN c) r1 -> copy_wide c rd wr fuel wfuel r w = Panic).
Proof.
  intros R W rd wr c r bs r1 w St D L.
  destruct (copy_loop_goes_on R W rd wr c St r bs r1 D w 0 L) as (f0 & k & w' & A & F).
  exists w', (f0 + S k)%nat. split; [exact A|]. intros fuel wfuel Hf Hw. unfold copy_wide.
  replace fuel with (k + S (fuel - S k))%nat by lia. rewrite F by lia. cbn [copy_loop].
  split; [|split].
  - intros r' Z. unfold at_eof in Z. now rewrite Z.
  - intros e r' Z. unfold at_error in Z. now rewrite Z.
  - intros (data & r' & Z & Hd). rewrite Z. destruct data as [|b data]; [rewrite len_nil in Hd; lia|].
    now rewrite (proj2 (N.leb_gt _ _)).
Qed.

Lemma documented_sizes : forall c,
  (x86 c = true -> WIDE_BUF_LEN c = 16384) /\ WIDE_BUF_LEN c <= 65536.
Proof.
  intros c. unfold WIDE_BUF_LEN, MAX_SIMD_DEGREE. destruct (x86 c); cbn; split; try discriminate; auto; lia.
Qed.
