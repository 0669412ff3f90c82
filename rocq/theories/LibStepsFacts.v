(* The functions of LibSteps.v return what the functions of Lib.v return, and two runs on inputs
   of the same lengths, in the same mode, make the same steps. *)
From Coq Require Import NArith List Bool Lia ZArith.
From Coq Require Import ZifyBool ZifyNat ZifyN.
From Verif Require Import Base BaseFacts Spec Portable Platform Lib Session LibCalls SecretSpec SecretFacts.
From Verif Require Import VOps VSteps VStepsSpec VStepsFacts LibSteps.
Import ListNotations.
Open Scope N_scope.

(* ---- returned values ---- *)

Lemma v_ret_to_hash : forall o, vret (v_to_hash o) (Ok (to_hash o)).
Proof.
  intros o. unfold v_to_hash. eapply vret_val; [apply p_compress_value|]. reflexivity.
Qed.

Ltac vret_step :=
  match goal with
  | |- forall _, _ => intro
  | |- vret (vlift _) _ => apply vret_lift
  | |- vret (load_in _ _ _) _ => reflexivity
  | |- vret (call_in _ _) _ => reflexivity
  | |- vret (lying_in _ _ _ _) _ => apply p_many_value
  | |- vret (vbind (p_compress _ _ _ _ _ _) _) _ => eapply vret_val; [apply p_compress_value|]
  | |- vret (vbind (p_compress_xof _ _ _ _ _ _) _) _ => eapply vret_val; [apply p_xof_value|]
  | |- vret (vbind (v_to_hash _) _) _ => eapply vret_val; [apply v_ret_to_hash|]
  | |- vret (vbind _ _) (bind _ _) => apply vret_bind
  | |- vret (match ?x with _ => _ end) _ => destruct x
  | |- vret (p_hash_many _ _ _ _ _ _ _ _ _ _ _) _ => apply p_many_value
  | H : forall _, _ |- vret _ _ => apply H
  | |- vret _ _ => progress cbv beta zeta
  end.
Ltac vret_all := repeat vret_step.

Lemma v_ret_read : forall c o, vret (v_read c o) (read c o).
Proof. intros c o. unfold v_read, read. vret_all. Qed.

Lemma v_ret_hoc_loop : forall c p pos fuel chunk cv off r fl bf bo,
  vret (v_hash_one_chunk_loop c p pos fuel chunk cv off r fl bf bo)
          (hash_one_chunk_loop c p fuel chunk cv off r fl bf bo).
Proof.
  intros c p pos. induction fuel as [|fuel IH]; intros; cbn [v_hash_one_chunk_loop hash_one_chunk_loop]; vret_all.
Qed.

Lemma v_ret_hash_one_chunk : forall c p pos chunk key off r fl,
  vret (v_hash_one_chunk c p pos chunk key off r fl) (hash_one_chunk c p chunk key off r fl).
Proof.
  intros. unfold v_hash_one_chunk, hash_one_chunk. pose proof v_ret_hoc_loop. vret_all.
Qed.

Lemma v_ret_hash_chunks : forall c p pos input key off fl out,
  vret (v_hash_chunks_parallel c p pos input key off fl out) (hash_chunks_parallel c p input key off fl out).
Proof.
  intros. unfold v_hash_chunks_parallel, hash_chunks_parallel. pose proof v_ret_hash_one_chunk. vret_all.
Qed.

Lemma v_ret_hash_parents : forall c p ch key fl out,
  vret (v_hash_parents_parallel c p ch key fl out) (hash_parents_parallel c p ch key fl out).
Proof. intros. unfold v_hash_parents_parallel, hash_parents_parallel. vret_all. Qed.

Lemma v_ret_hash_recurse : forall c p fuel pos input key off fl out,
  vret (v_hash_recurse c p pos fuel input key off fl out) (hash_recurse c p fuel input key off fl out).
Proof.
  intros c p. pose proof v_ret_hash_chunks. pose proof v_ret_hash_parents.
  induction fuel as [|fuel IH]; intros; cbn [v_hash_recurse hash_recurse]; vret_all.
Qed.

Lemma v_ret_condense_loop : forall c p fuel ch key fl out,
  vret (v_condense_loop c p fuel ch key fl out) (condense_loop c p fuel ch key fl out).
Proof.
  intros c p. pose proof v_ret_hash_parents.
  induction fuel as [|fuel IH]; intros; cbn [v_condense_loop condense_loop]; vret_all.
Qed.

Lemma v_ret_condense_root : forall c p ch key fl,
  vret (v_condense_root c p ch key fl) (condense_root c p ch key fl).
Proof. intros. unfold v_condense_root, condense_root. pose proof v_ret_condense_loop. vret_all. Qed.

Lemma v_ret_hash_internal : forall c p input key fl,
  vret (v_hash_internal c p input key fl) (hash_internal c p input key fl).
Proof.
  intros. unfold v_hash_internal, hash_internal. pose proof v_ret_hash_one_chunk.
  pose proof v_ret_hash_recurse. pose proof v_ret_condense_root. vret_all.
Qed.

Lemma v_ret_oneshot_xof : forall c p m input,
  vret (v_oneshot_xof c p m input) (oneshot_xof c p m input).
Proof. intros c p [|k|k] input; apply v_ret_hash_internal. Qed.
Lemma v_ret_oneshot : forall c p m input,
  vret (v_oneshot c p m input) (oneshot c p m input).
Proof.
  intros c p m input. unfold v_oneshot.
  replace (oneshot c p m input) with (let* o := oneshot_xof c p m input in Ok (to_hash o))
    by (destruct m; reflexivity).
  apply vret_bind; [apply v_ret_oneshot_xof|intros o; apply v_ret_to_hash].
Qed.

Lemma v_ret_cs_compress : forall c s b, vret (v_cs_compress c s b) (cs_compress c s b).
Proof. intros. unfold v_cs_compress, cs_compress. vret_all. Qed.
Lemma v_ret_fill : forall c e s x, vret (v_fill_buf c e s x) (cs_fill_buf c s x).
Proof. intros. unfold v_fill_buf, cs_fill_buf. vret_all. Qed.
Lemma v_ret_cs_loop : forall c e fuel s input,
  vret (v_cs_update_loop c e fuel s input) (cs_update_loop c fuel s input).
Proof.
  intros c e. pose proof v_ret_cs_compress.
  induction fuel as [|fuel IH]; intros; cbn [v_cs_update_loop cs_update_loop]; vret_all.
Qed.
Lemma v_ret_cs_update : forall c e s input, vret (v_cs_update c e s input) (cs_update c s input).
Proof.
  intros. unfold v_cs_update, cs_update. pose proof v_ret_cs_compress. pose proof v_ret_cs_loop.
  pose proof v_ret_fill. vret_all.
Qed.
Lemma v_ret_merge_parent : forall c h, vret (v_merge_parent c h) (merge_parent c h).
Proof. intros. unfold v_merge_parent, merge_parent. vret_all. Qed.
Lemma v_ret_merge_loop : forall c fuel h off, vret (v_merge_loop c fuel h off) (merge_loop c fuel h off).
Proof.
  intros c. pose proof v_ret_merge_parent.
  induction fuel as [|fuel IH]; intros; cbn [v_merge_loop merge_loop]; vret_all.
Qed.
Lemma v_ret_push : forall c h x off, vret (v_push_chunk_hash c h x off) (push_chunk_hash c h x off).
Proof. intros. unfold v_push_chunk_hash, push_chunk_hash. pose proof v_ret_merge_loop. vret_all. Qed.
Lemma v_ret_push_batch : forall c xs h, vret (v_push_batch c h xs) (push_batch c h xs).
Proof.
  intros c. pose proof v_ret_push.
  induction xs as [|x xs IH]; intros; cbn [v_push_batch push_batch]; vret_all.
Qed.
Lemma v_ret_update_chunks : forall c e fuel h chunks out,
  vret (v_update_chunks c e fuel h chunks out) (update_chunks c fuel h chunks out).
Proof.
  intros c e. pose proof v_ret_push_batch.
  induction fuel as [|fuel IH]; intros; cbn [v_update_chunks update_chunks]; vret_all.
Qed.
Lemma v_ret_update : forall c h input, vret (v_update c h input) (update c h input).
Proof.
  intros. unfold v_update, update. pose proof v_ret_cs_update. pose proof v_ret_push.
  pose proof v_ret_update_chunks. pose proof v_ret_merge_loop. vret_all.
Qed.
Lemma v_ret_finalize_loop : forall c fuel h w i,
  vret (v_finalize_loop c fuel h w i) (finalize_loop c fuel h w i).
Proof.
  intros c. induction fuel as [|fuel IH]; intros; cbn [v_finalize_loop finalize_loop]; vret_all.
Qed.
Lemma v_ret_finalize_xof : forall c h, vret (v_finalize_xof c h) (finalize_xof c h).
Proof. intros. unfold v_finalize_xof, finalize_xof. pose proof v_ret_finalize_loop. vret_all. Qed.
Lemma v_ret_finalize : forall c h, vret (v_finalize c h) (finalize c h).
Proof.
  intros. unfold v_finalize, finalize. apply vret_bind; [apply v_ret_finalize_xof|].
  intros o. apply v_ret_to_hash.
Qed.
Lemma v_ret_feed : forall c inputs h, vret (v_feed c h inputs) (feed c h inputs).
Proof.
  intros c. pose proof v_ret_update. induction inputs as [|x r IH]; intros; cbn [v_feed feed]; vret_all.
Qed.
Lemma v_ret_reads : forall c n o, vret (v_reads c n o) (reads c n o).
Proof.
  intros c. pose proof v_ret_read. induction n as [|n IH]; intros; cbn [v_reads reads]; vret_all.
Qed.

(* ---- two runs ---- *)

Lemma vrel_pure : forall A A' (R : A -> A' -> Prop) a a', R a a' -> vrel R (vlift (Ok a)) (vlift (Ok a')).
Proof. intros. now apply vrel_lift. Qed.
(* the steps from VStepsFacts, the values from SecretFacts *)
Lemma vrel_values : forall A A' (R : A -> A' -> Prop) m m' r r',
  vrel any m m' -> vret m r -> vret m' r' -> relr R r r' -> vrel R m m'.
Proof. intros * [E _] <- <- H. now split. Qed.

Lemma p_compress_rel : forall p a b x y bl off fl, Rk a b -> Rn 64 x y -> small off ->
  vrel Rk (p_compress p a x bl off fl) (p_compress p b y bl off fl).
Proof.
  intros. eapply vrel_values; [apply same_compress|apply p_compress_value|apply p_compress_value|].
  now apply compress_Rk.
Qed.
Lemma p_compress_xof_rel : forall p a b x y bl off fl, Rk a b -> Rn 64 x y -> small off ->
  vrel Rb (p_compress_xof p a x bl off fl) (p_compress_xof p b y bl off fl).
Proof.
  intros. eapply vrel_values; [apply same_compress_xof|apply p_xof_value|apply p_xof_value|].
  now apply compress_xof_Rb.
Qed.
Lemma L2_like : forall n l m, L2 (Rn n) l m -> L2 like l m.
Proof.
  intros n l m H. induction H as [|x y l m (A & B & _) H IH]; constructor; auto.
  unfold like. congruence.
Qed.
Lemma p_hash_many_rel : forall c cap, cap mod 64 = 0 -> forall p inputs inputs' key key' off d fl fs fe out out',
  L2 (Rn cap) inputs inputs' -> Rk key key' -> small off -> Rb out out' ->
  vrel Rb (p_hash_many c p cap inputs key off d fl fs fe out)
          (p_hash_many c p cap inputs' key' off d fl fs fe out').
Proof.
  intros. eapply vrel_values; [apply same_many|apply p_many_value|apply p_many_value|].
  - eapply L2_like; eauto.
  - now destruct H3.
  - now apply hash_many_rel.
Qed.

Lemma v_read_rel : forall c o o', Ro o o' -> vrel (Rp Rb Ro) (v_read c o) (v_read c o').
Proof.
  intros c o o' (K & B & L & [E Hs] & F & P). unfold v_read. rewrite <- L, <- E, <- F, <- P.
  eapply vrel_bind; [now apply p_compress_xof_rel|]. intros x y Hx.
  eapply vrel_bind; [apply vrel_lift, addw_small|]. intros i i' [<- Hi].
  apply vrel_pure. split; cbn [fst snd]; [exact Hx|]. now apply Ro_intro.
Qed.
Lemma v_to_hash_rel : forall o o', Ro o o' -> vrel (Rn 32) (v_to_hash o) (v_to_hash o').
Proof.
  intros o o' (K & B & L & [E Hs] & F & P). unfold v_to_hash. rewrite <- L, <- E, <- F, <- P.
  eapply vrel_bind; [now apply p_compress_rel|]. intros x y Hx. apply vrel_pure. now apply state_words_Rn.
Qed.

(* Steps that do not touch the data are the same on both sides. *)
Ltac same := eapply vrel_bind; [apply vrel_lift, relr_refl|intros ? ? <-].

Lemma vrel_load : forall A A' (R : A -> A' -> Prop) pos n r r', relr R r r' ->
  vrel R (load_in pos n r) (load_in pos n r').
Proof. intros * H. split; [reflexivity|exact H]. Qed.
Lemma vrel_call : forall A A' (R : A -> A' -> Prop) pos r r', relr R r r' ->
  vrel R (call_in pos r) (call_in pos r').
Proof. intros * H. split; [reflexivity|exact H]. Qed.
Lemma vrel_lying : forall A A' (R : A -> A' -> Prop) q pos size m m', vrel R m m' ->
  vrel R (lying_in q pos size m) (lying_in q pos size m').
Proof. intros * [E H]. split; cbn [lying_in fst snd]; [now rewrite E|exact H]. Qed.

(* ---- one-shot ---- *)

Lemma v_hoc_loop_rel : forall c p pos fuel x y a b off r fl bf bo, Rb x y -> Rk a b -> small off ->
  vrel Rx (v_hash_one_chunk_loop c p pos fuel x a off r fl bf bo)
         (v_hash_one_chunk_loop c p pos fuel y b off r fl bf bo).
Proof.
  intros c p pos fuel. induction fuel as [|fuel IH]; intros x y a b off r fl bf bo Hx Hk Ho;
    cbn [v_hash_one_chunk_loop]; same; rewrite (Rb_len _ _ Hx).
  - destruct (_ <=? _); [apply vrel_lift; exact I|]. apply vrel_pure. cbn. auto.
  - destruct (_ <=? _); [|apply vrel_pure; cbn; auto]. same.
    destruct (_ =? _).
    + eapply vrel_bind; [apply vrel_load, slice_rel; exact Hx|]. intros u v Hu. apply vrel_pure.
      cbn [Rx]. now apply Ro_intro.
    + eapply vrel_bind; [apply vrel_call, slice_rel; exact Hx|]. intros u v Hu.
      eapply vrel_bind; [now apply p_compress_rel|]. intros k k' Hk'. same. now apply IH.
Qed.

Lemma v_hash_one_chunk_rel : forall c p pos x y a b off r fl, Rb x y -> Rk a b -> small off ->
  vrel Ro (v_hash_one_chunk c p pos x a off r fl) (v_hash_one_chunk c p pos y b off r fl).
Proof.
  intros c p pos x y a b off r fl Hx Hk Ho. unfold v_hash_one_chunk. same.
  assert (E : length y = length x) by (pose proof (Rb_len _ _ Hx); unfold len in *; lia). rewrite E.
  eapply vrel_bind; [now apply v_hoc_loop_rel|]. intros [o|[[cv f] bo]] [o'|[[cv' f'] bo']] H; cbn [Rx] in H; try contradiction.
  - now apply vrel_pure.
  - destruct H as (Hc & <- & <-). rewrite (Rb_len _ _ Hx). same.
    eapply vrel_bind; [apply vrel_load, slice_from_rel; exact Hx|]. intros u v Hu.
    eapply vrel_bind; [apply vrel_lift, slice_to_rel, Rb_zeros|]. intros w z Hw.
    destruct (Rn_len _ _ _ Hw) as [-> ->]. rewrite (Rb_len _ _ Hu). same.
    eapply vrel_bind; [apply vrel_lift; eapply copy_at_rel; [apply Rn_zeros|exact Hu]|]. intros q q' Hq.
    apply vrel_pure. now apply Ro_intro.
Qed.

Lemma v_hash_chunks_rel : forall c p pos x y a b off fl out out', Rb x y -> Rk a b -> small off -> Rb out out' ->
  vrel (Rp Rb eq) (v_hash_chunks_parallel c p pos x a off fl out) (v_hash_chunks_parallel c p pos y b off fl out').
Proof.
  intros c p pos x y a b off fl out out' Hx Hk Ho Hout. unfold v_hash_chunks_parallel.
  rewrite (Rb_len _ _ Hx). same. same. same.
  destruct (chunks_rel CHUNK_LEN _ _ Hx) as [H1 H2].
  destruct (chunks_exact CHUNK_LEN x) as [cs r], (chunks_exact CHUNK_LEN y) as [cs' r']. cbn [fst snd] in *.
  eapply vrel_bind; [apply vrel_lift, L2_push_all; [constructor|exact H1]|]. intros u v Hu.
  eapply vrel_bind; [apply vrel_lying, p_hash_many_rel; auto; reflexivity|]. intros o o' Hoo.
  rewrite (L2_len _ _ _ _ _ Hu), (Rb_len _ _ H2).
  destruct (negb _); [|apply vrel_pure; now split].
  same. eapply vrel_bind; [apply vrel_lift, addw_small|]. intros i i' [<- Hi].
  eapply vrel_bind; [now apply v_hash_one_chunk_rel|]. intros q q' Hq.
  eapply vrel_bind; [now apply v_to_hash_rel|]. intros h h' Hh.
  eapply vrel_bind; [apply vrel_lift; eapply copy_at_rel; [now apply Rb_n|eapply Rn_b; eauto]|]. intros z z' Hz.
  apply vrel_pure. split; cbn; [eapply Rn_b; eauto|reflexivity].
Qed.

Lemma v_hash_parents_rel : forall c p x y a b fl out out', Rb x y -> Rk a b -> Rb out out' ->
  vrel (Rp Rb eq) (v_hash_parents_parallel c p x a fl out) (v_hash_parents_parallel c p y b fl out').
Proof.
  intros c p x y a b fl out out' Hx Hk Hout. unfold v_hash_parents_parallel.
  rewrite (Rb_len _ _ Hx). same. same. same.
  destruct (chunks_rel BLOCK_LEN _ _ Hx) as [H1 H2].
  destruct (chunks_exact BLOCK_LEN x) as [cs r], (chunks_exact BLOCK_LEN y) as [cs' r']. cbn [fst snd] in *.
  eapply vrel_bind; [apply vrel_lift, L2_push_all; [constructor|exact H1]|]. intros u v Hu.
  eapply vrel_bind; [apply vrel_lying, p_hash_many_rel; auto; reflexivity|]. intros o o' Hoo.
  rewrite (L2_len _ _ _ _ _ Hu), (Rb_len _ _ H2).
  destruct (negb _); [|apply vrel_pure; now split].
  eapply vrel_bind; [apply vrel_lift, slice_from_rel; exact Hoo|]. intros q q' Hq.
  eapply vrel_bind; [apply vrel_lift, slice_to_rel; exact Hq|]. intros w z Hw.
  destruct (Rn_len _ _ _ Hw) as [-> ->]. same.
  eapply vrel_bind; [apply vrel_lift; eapply copy_at_rel; [now apply Rb_n|exact H2]|]. intros k k' Hz.
  apply vrel_pure. split; cbn; [eapply Rn_b; eauto|reflexivity].
Qed.

Lemma v_hash_recurse_rel : forall c p fuel pos x y a b off fl out out', Rb x y -> Rk a b -> small off -> Rb out out' ->
  vrel (Rp Rb eq) (v_hash_recurse c p pos fuel x a off fl out) (v_hash_recurse c p pos fuel y b off fl out').
Proof.
  intros c p fuel. induction fuel as [|fuel IH]; intros pos x y a b off fl out out' Hx Hk Ho Hout;
    cbn [v_hash_recurse]; rewrite (Rb_len _ _ Hx).
  - destruct (_ <=? _); [now apply v_hash_chunks_rel|apply vrel_lift; exact I].
  - destruct (_ <=? _); [now apply v_hash_chunks_rel|]. same.
    eapply vrel_bind; [apply vrel_lift, split_at_rel; exact Hx|]. intros [l r] [l' r'] [Hl Hr]. cbn [fst snd] in *.
    rewrite (Rb_len _ _ Hl). eapply vrel_bind; [apply vrel_lift, addw_small|]. intros i i' [<- Hi]. same.
    eapply vrel_bind; [apply vrel_lift, split_at_rel, Rb_zeros|]. intros [lo ro] [lo' ro'] [Hlo Hro]. cbn [fst snd] in *.
    eapply vrel_bind; [now apply IH|]. intros [lo1 ln] [lo1' ln'] [Hlo1 E]. cbn [fst snd] in *. subst ln'.
    eapply vrel_bind; [now apply IH|]. intros [ro1 rn] [ro1' rn'] [Hro1 E]. cbn [fst snd] in *. subst rn'.
    pose proof (Rb_app _ _ _ _ Hlo1 Hro1) as Hc. same. same.
    destruct (ln =? 1).
    + eapply vrel_bind; [apply vrel_lift, slice_to_rel; exact Hout|]. intros u u' Hu.
      eapply vrel_bind; [apply vrel_lift, slice_to_rel; exact Hc|]. intros v v' Hv.
      eapply vrel_bind; [apply vrel_lift; eapply copy_at_rel; [now apply Rb_n|eapply Rn_b; eauto]|].
      intros w w' Hw. apply vrel_pure. split; cbn; [eapply Rn_b; eauto|reflexivity].
    + eapply vrel_bind; [apply vrel_lift, slice_to_rel; exact Hc|]. intros v v' Hv.
      apply v_hash_parents_rel; auto. eapply Rn_b; eauto.
Qed.

Lemma v_condense_loop_rel : forall c p fuel x y a b fl out out', Rb x y -> Rk a b -> Rb out out' ->
  vrel Rb (v_condense_loop c p fuel x a fl out) (v_condense_loop c p fuel y b fl out').
Proof.
  intros c p fuel. induction fuel as [|fuel IH]; intros x y a b fl out out' Hx Hk Hout;
    cbn [v_condense_loop]; rewrite (Rb_len _ _ Hx).
  - destruct (_ <? _); [apply vrel_lift; exact I|now apply vrel_pure].
  - destruct (_ <? _); [|now apply vrel_pure].
    eapply vrel_bind; [now apply v_hash_parents_rel|]. intros [o n] [o' n'] [Ho E]. cbn [fst snd] in *. subst n'.
    eapply vrel_bind; [apply vrel_lift, slice_to_rel; exact Hx|]. intros u u' Hu.
    eapply vrel_bind; [apply vrel_lift, slice_to_rel; exact Ho|]. intros v v' Hv.
    eapply vrel_bind; [apply vrel_lift; eapply copy_at_rel; [now apply Rb_n|eapply Rn_b; eauto]|]. intros w w' Hw.
    eapply vrel_bind; [apply vrel_lift, slice_to_rel; eapply Rn_b; exact Hw|]. intros z z' Hz.
    apply IH; auto. eapply Rn_b; eauto.
Qed.

Lemma v_condense_root_rel : forall c p x y a b fl, Rb x y -> Rk a b ->
  vrel Ro (v_condense_root c p x a fl) (v_condense_root c p y b fl).
Proof.
  intros c p x y a b fl Hx Hk. unfold v_condense_root. rewrite (Rb_len _ _ Hx). same. same.
  assert (E : length y = length x) by (pose proof (Rb_len _ _ Hx); unfold len in *; lia). rewrite E.
  eapply vrel_bind; [apply v_condense_loop_rel; auto using Rb_zeros|]. intros z z' Hz.
  eapply vrel_bind; [apply vrel_lift, slice_rel; exact Hz|]. intros u u' Hu.
  apply vrel_pure. apply Ro_intro; auto. reflexivity.
Qed.

Lemma v_hash_internal_rel : forall c p x y a b fl, Rb x y -> Rk a b ->
  vrel Ro (v_hash_internal c p x a fl) (v_hash_internal c p y b fl).
Proof.
  intros c p x y a b fl Hx Hk. unfold v_hash_internal. rewrite (Rb_len _ _ Hx).
  destruct (_ <=? _); [apply v_hash_one_chunk_rel; auto; reflexivity|].
  unfold depth_fuel. rewrite (Rb_len _ _ Hx).
  eapply vrel_bind; [apply v_hash_recurse_rel; auto using Rb_zeros; reflexivity|].
  intros [o n] [o' n'] [Ho E]. cbn [fst snd] in *. subst n'.
  eapply vrel_bind; [apply vrel_lift, slice_to_rel; exact Ho|]. intros u u' Hu.
  apply v_condense_root_rel; auto. eapply Rn_b; eauto.
Qed.

Lemma v_oneshot_xof_rel : forall c p m m' x y, mode_ok m -> mode_ok m' -> same_kind m m' -> Rb x y ->
  vrel Ro (v_oneshot_xof c p m x) (v_oneshot_xof c p m' y).
Proof.
  intros c p m m' x y M M' K H. pose proof (mode_Rk m m' M M') as Hk.
  destruct m, m'; cbn [same_kind] in K; try contradiction; cbn [v_oneshot_xof mode_key] in *;
    now apply v_hash_internal_rel.
Qed.

(* ---- streaming ---- *)

(* expose the equal fields of two related states *)
Ltac open s s' H :=
  destruct s as [?cv ?key ?off ?cnt ?buf ?bl ?fl ?pl], s' as [?cv ?key ?off ?cnt ?buf ?bl ?fl ?pl];
  destruct H as (?Hcv & ?Hkey & [?Hoff ?Hsm] & ?Hcnt & ?Hbuf & ?Hbl & ?Hfl & ?Hpl);
  cbn [cs_cv cs_key cs_offset cs_count cs_buf cs_buf_len cs_flags cs_platform] in *; subst.

Lemma v_cs_compress_rel : forall c s s' x y, Rcs s s' -> Rn 64 x y ->
  vrel Rcs (v_cs_compress c s x) (v_cs_compress c s' y).
Proof.
  intros c s s' x y H Hx. open s s' H. unfold v_cs_compress, cs_maybe_chunk_start_flag.
  cbn [cs_cv cs_key cs_offset cs_count cs_buf cs_buf_len cs_flags cs_platform].
  eapply vrel_bind; [now apply p_compress_rel|]. intros k k' Hk. same. apply vrel_pure. now apply Rcs_intro.
Qed.

Lemma v_fill_rel : forall c e s s' x y, Rcs s s' -> Rb x y ->
  vrel (Rp Rcs Rb) (v_fill_buf c e s x) (v_fill_buf c e s' y).
Proof.
  intros c e s s' x y H Hx. open s s' H. unfold v_fill_buf.
  cbn [cs_cv cs_key cs_offset cs_count cs_buf cs_buf_len cs_flags cs_platform].
  rewrite (Rb_len _ _ Hx). same.
  eapply vrel_bind; [apply vrel_load, slice_to_rel; exact Hx|]. intros u v Hu.
  eapply vrel_bind; [apply vrel_lift; eapply copy_at_rel; [eassumption|eapply Rn_b; eauto]|]. intros q q' Hq. same.
  eapply vrel_bind; [apply vrel_lift, slice_from_rel; exact Hx|]. intros z z' Hz.
  apply vrel_pure. split; cbn [fst snd]; [now apply Rcs_intro|exact Hz].
Qed.

Lemma v_cs_loop_rel : forall c e fuel s s' x y, Rcs s s' -> Rb x y ->
  vrel (Rp Rcs Rb) (v_cs_update_loop c e fuel s x) (v_cs_update_loop c e fuel s' y).
Proof.
  intros c e fuel. induction fuel as [|fuel IH]; intros s s' x y H Hx; cbn [v_cs_update_loop];
    rewrite (Rb_len _ _ Hx).
  - destruct (_ <? _); [apply vrel_lift; exact I|]. apply vrel_pure. now split.
  - destruct (_ <? _); [|apply vrel_pure; now split]. rewrite (Rcs_buf_len _ _ H). same.
    eapply vrel_bind; [apply vrel_call, slice_rel; exact Hx|]. intros u u' Hu.
    eapply vrel_bind; [now apply v_cs_compress_rel|]. intros t t' Ht.
    eapply vrel_bind; [apply vrel_lift, slice_from_rel; exact Hx|]. intros z z' Hz. now apply IH.
Qed.

Lemma v_cs_update_rel : forall c e s s' x y, Rcs s s' -> Rb x y ->
  vrel Rcs (v_cs_update c e s x) (v_cs_update c e s' y).
Proof.
  intros c e s s' x y H Hx. unfold v_cs_update.
  eapply vrel_bind with (R := Rp Rcs Rb).
  - rewrite (Rcs_buf_len _ _ H). destruct (0 <? cs_buf_len s); [|apply vrel_pure; now split].
    eapply vrel_bind; [apply v_fill_rel; eauto|]. intros [t z] [t' z'] [Ht Hz]. cbn [fst snd] in *.
    rewrite (Rb_len _ _ Hz). destruct (negb _); [|apply vrel_pure; now split].
    rewrite (Rcs_buf_len _ _ Ht). same.
    eapply vrel_bind; [apply v_cs_compress_rel; [exact Ht|now apply Rcs_buf]|]. intros w w' Hw.
    apply vrel_pure. split; cbn [fst snd]; [|exact Hz].
    open w w' Hw. cbn [cs_cv cs_key cs_offset cs_count cs_buf cs_buf_len cs_flags cs_platform].
    apply Rcs_intro; auto using Rn_zeros.
  - intros [t z] [t' z'] [Ht Hz]. cbn [fst snd] in *.
    assert (E : length z' = length z) by (pose proof (Rb_len _ _ Hz); unfold len in *; lia). rewrite E.
    eapply vrel_bind; [now apply v_cs_loop_rel|]. intros [u v] [u' v'] [Hu Hv]. cbn [fst snd] in *.
    eapply vrel_bind; [apply v_fill_rel; eauto|]. intros [q w] [q' w'] [Hq Hw]. cbn [fst snd] in *.
    rewrite (Rb_len _ _ Hw), (Rcs_len _ _ Hq). same. same. now apply vrel_pure.
Qed.

Lemma v_merge_parent_rel : forall c h h', Rh h h' -> vrel Rh (v_merge_parent c h) (v_merge_parent c h').
Proof.
  intros c h h' [Hs Hc]. unfold v_merge_parent. rewrite (L2_len _ _ _ _ _ Hs). same. same. same.
  eapply vrel_bind; [apply vrel_lift, L2_index; exact Hs|]. intros l l' Hl.
  eapply vrel_bind; [apply vrel_lift, L2_index; exact Hs|]. intros r r' Hr.
  eapply vrel_bind; [now apply v_to_hash_rel, parent_Ro|]. intros x x' Hx.
  apply vrel_pure. split; cbn [h_stack h_chunk]; [|exact Hc]. now apply L2_take, L2_set.
Qed.
Lemma v_merge_loop_rel : forall c fuel h h' off, Rh h h' ->
  vrel Rh (v_merge_loop c fuel h off) (v_merge_loop c fuel h' off).
Proof.
  intros c fuel. induction fuel as [|fuel IH]; intros h h' off H; cbn [v_merge_loop];
    rewrite (needs_merge_rel _ _ _ H); destruct (needs_merge h off).
  - apply vrel_lift. exact I.
  - now apply vrel_pure.
  - eapply vrel_bind; [now apply v_merge_parent_rel|]. intros; now apply IH.
  - now apply vrel_pure.
Qed.
Lemma v_push_chunk_rel : forall c h h' x y off, Rh h h' -> Rn 32 x y ->
  vrel Rh (v_push_chunk_hash c h x off) (v_push_chunk_hash c h' y off).
Proof.
  intros c h h' x y off H Hx. unfold v_push_chunk_hash. rewrite <- (L2_length _ _ _ _ _ (proj1 H)).
  eapply vrel_bind; [now apply v_merge_loop_rel|]. intros g g' [Hs Hc].
  eapply vrel_bind; [apply vrel_lift, L2_push; eauto|]. intros t t' Ht. apply vrel_pure. now split.
Qed.
Lemma v_push_batch_rel : forall c xs ys h h', L2 (Rn 32) xs ys -> Rh h h' ->
  vrel Rh (v_push_batch c h xs) (v_push_batch c h' ys).
Proof.
  intros c xs ys h h' H. revert h h'. induction H as [|x y xs ys Hx H IH]; intros h h' Hh; cbn [v_push_batch].
  - now apply vrel_pure.
  - rewrite (Rcs_off _ _ (proj2 Hh)). eapply vrel_bind; [now apply v_push_chunk_rel|]. intros g g' [Hs Hc].
    rewrite (Rcs_off _ _ Hc). eapply vrel_bind; [apply vrel_lift, addw_small|]. intros i i' [<- Hi].
    apply IH. split; cbn [h_stack h_chunk]; [exact Hs|].
    destruct (h_chunk g) as [], (h_chunk g') as []. unfold Rcs, Req in *. cbn in *. intuition.
Qed.
Lemma v_update_chunks_rel : forall c e fuel h h' xs ys out out', Rh h h' -> L2 (Rn CHUNK_LEN) xs ys -> Rb out out' ->
  vrel Rh (v_update_chunks c e fuel h xs out) (v_update_chunks c e fuel h' ys out').
Proof.
  intros c e fuel. induction fuel as [|fuel IH]; intros h h' xs ys out out' Hh Hx Hout;
    cbn [v_update_chunks];
    pose proof (L2_take _ _ _ (MAX_SIMD_DEGREE c) _ _ Hx) as Ht; rewrite (L2_len _ _ _ _ _ Ht).
  - destruct (_ =? 0); [now apply vrel_pure|apply vrel_lift; exact I].
  - destruct (_ =? 0); [now apply vrel_pure|].
    eapply vrel_bind with (R := Rb).
    { destruct Hh as [_ (Hcv & Hkey & [Hoff Hsm] & Hcnt & Hbuf & Hbl & Hfl & Hpl)].
      rewrite <- Hoff, <- Hfl, <- Hpl, (L2_len _ _ _ _ _ Hx). apply vrel_lying, p_hash_many_rel; auto. }
    intros o o' Ho.
    eapply vrel_bind; [apply v_push_batch_rel; [apply L2_take, (proj1 (chunks_rel OUT_LEN _ _ Ho))|exact Hh]|].
    intros g g' Hg. apply IH; auto. now apply L2_drop.
Qed.

Lemma v_update_rel : forall c h h' x y, Rh h h' -> Rb x y -> vrel Rh (v_update c h x) (v_update c h' y).
Proof.
  intros c h h' x y Hh Hx. unfold v_update.
  rewrite (Rcs_off _ _ (proj2 Hh)), (Rcs_len _ _ (proj2 Hh)), (Rb_len _ _ Hx).
  eapply vrel_bind with (R := Rp (Rp Rh Rb) eq).
  - destruct (_ || _); [|apply vrel_pure; repeat split; cbn; auto; apply Hh || apply Hx].
    same.
    eapply vrel_bind; [apply vrel_lift, slice_to_rel; exact Hx|]. intros u u' Hu.
    eapply vrel_bind; [apply v_cs_update_rel; [exact (proj2 Hh)|eapply Rn_b; exact Hu]|]. intros s s' Hs.
    eapply vrel_bind; [apply vrel_lift, slice_from_rel; exact Hx|]. intros z z' Hz.
    rewrite (Rb_len _ _ Hz). destruct (negb _).
    + rewrite (Rcs_len _ _ Hs). same.
      eapply vrel_bind; [apply vrel_lift, cs_finalize_rel; exact Hs|]. intros o o' Ho.
      eapply vrel_bind; [now apply v_to_hash_rel|]. intros k k' Hk.
      rewrite (Rcs_off _ _ Hs).
      eapply vrel_bind; [apply v_push_chunk_rel; [split; [exact (proj1 Hh)|exact Hs]|exact Hk]|]. intros g g' Hg.
      eapply vrel_bind; [apply vrel_lift, addw_small|]. intros i i' [<- Hi].
      eapply vrel_bind; [apply vrel_lift, cs_reset_rel; eauto|]. intros q q' Hq.
      apply vrel_pure. split; cbn [fst snd]; [|reflexivity]. split; cbn [fst snd]; [|exact Hz].
      split; [exact (proj1 Hg)|exact Hq].
    + apply vrel_pure. split; cbn [fst snd]; [|reflexivity]. split; cbn [fst snd]; [|exact Hz].
      split; [exact (proj1 Hh)|exact Hs].
  - intros [[g z] ret] [[g' z'] ret'] [[Hg Hz] E]. cbn [fst snd] in *. subst ret'.
    destruct ret; [now apply vrel_pure|].
    destruct (chunks_rel CHUNK_LEN _ _ Hz) as [H1 H2].
    destruct (chunks_exact CHUNK_LEN z) as [cs r], (chunks_exact CHUNK_LEN z') as [cs' r']. cbn [fst snd] in *.
    rewrite (Rcs_len _ _ (proj2 Hg)). same. rewrite <- (L2_length _ _ _ _ _ H1), (Rb_len _ _ H2).
    eapply vrel_bind; [apply v_update_chunks_rel; auto using Rb_zeros|]. intros k k' Hk.
    rewrite (Rcs_len _ _ (proj2 Hk)). same. same.
    destruct (negb _); [|now apply vrel_pure].
    rewrite (Rcs_off _ _ (proj2 Hk)), <- (L2_length _ _ _ _ _ (proj1 Hk)).
    eapply vrel_bind; [now apply v_merge_loop_rel|]. intros q q' Hq.
    eapply vrel_bind; [apply v_cs_update_rel; [exact (proj2 Hq)|exact H2]|]. intros s s' Hs.
    apply vrel_pure. split; [exact (proj1 Hq)|exact Hs].
Qed.

Lemma v_finalize_loop_rel : forall c fuel h h' w w' i, Rh h h' -> Rn 32 w w' ->
  vrel Ro (v_finalize_loop c fuel h w i) (v_finalize_loop c fuel h' w' i).
Proof.
  intros c fuel. induction fuel as [|fuel IH]; intros h h' w w' i Hh Hw; cbn [v_finalize_loop].
  - eapply vrel_bind; [apply vrel_lift, L2_index; exact (proj1 Hh)|]. intros l l' Hl.
    destruct (i =? 0); [apply vrel_pure, parent_Ro; auto; exact (proj2 Hh)|apply vrel_lift; exact I].
  - eapply vrel_bind; [apply vrel_lift, L2_index; exact (proj1 Hh)|]. intros l l' Hl.
    destruct (i =? 0); [apply vrel_pure, parent_Ro; auto; exact (proj2 Hh)|]. same.
    eapply vrel_bind; [apply v_to_hash_rel, parent_Ro; eauto; exact (proj2 Hh)|]. intros x x' Hx. now apply IH.
Qed.

Lemma v_finalize_xof_rel : forall c h h', Rh h h' -> vrel Ro (v_finalize_xof c h) (v_finalize_xof c h').
Proof.
  intros c h h' Hh. unfold v_finalize_xof. destruct Hh as [Hs Hc].
  rewrite (L2_len _ _ _ _ _ Hs). destruct (_ =? 0); [apply vrel_lift; now apply cs_finalize_rel|].
  rewrite <- (L2_length _ _ _ _ _ Hs).
  eapply vrel_bind with (R := Rp (Rn 32) eq).
  - rewrite (Rcs_len _ _ Hc), (Rcs_off _ _ Hc). destruct (0 <? cs_len _).
    + rewrite (needs_merge_rel h h' _ (conj Hs Hc)). same.
      eapply vrel_bind; [apply vrel_lift, cs_finalize_rel; exact Hc|]. intros o o' Ho. same.
      eapply vrel_bind; [now apply v_to_hash_rel|]. intros k k' Hk. apply vrel_pure. now split.
    + same. same. eapply vrel_bind; [apply vrel_lift, L2_index; exact Hs|]. intros l l' Hl. same.
      apply vrel_pure. now split.
  - intros [w i] [w' i'] [Hw E]. cbn [fst snd] in *. subst i'. apply v_finalize_loop_rel; auto. now split.
Qed.

Lemma v_feed_rel : forall c xs ys h h', L2 Rb xs ys -> Rh h h' -> vrel Rh (v_feed c h xs) (v_feed c h' ys).
Proof.
  intros c xs ys h h' H. revert h h'. induction H as [|x y xs ys Hx H IH]; intros h h' Hh; cbn [v_feed].
  - now apply vrel_pure.
  - eapply vrel_bind; [now apply v_update_rel|]. intros; now apply IH.
Qed.

Lemma v_reads_rel : forall c n o o', Ro o o' -> vrel (Rp (L2 Rb) Ro) (v_reads c n o) (v_reads c n o').
Proof.
  intros c n. induction n as [|n IH]; intros o o' H; cbn [v_reads].
  - apply vrel_pure. split; [constructor|exact H].
  - eapply vrel_bind; [now apply v_read_rel|]. intros [b q] [b' q'] [Hb Hq]. cbn [fst snd] in *.
    eapply vrel_bind; [now apply IH|]. intros [bs r] [bs' r'] [Hbs Hr]. cbn [fst snd] in *.
    apply vrel_pure. split; cbn; [now constructor|exact Hr].
Qed.

(* ---- programs ---- *)

Lemma v_root_rel : forall c p m m' g g', mode_ok m -> mode_ok m' -> same_kind m m' ->
  bytes (data g) -> bytes (data g') -> same_lengths g g' -> vrel Ro (v_root c p m g) (v_root c p m' g').
Proof.
  intros c p m m' g g' M M' K B B' L.
  destruct g as [x|xs], g' as [y|ys]; cbn [same_lengths] in L; try contradiction; cbn [v_root data] in *.
  - apply v_oneshot_xof_rel; auto. now split.
  - unfold v_stream_xof. eapply vrel_bind; [apply v_feed_rel; [now apply L2_lens|now apply start_Rh]|].
    intros; now apply v_finalize_xof_rel.
Qed.

Lemma v_hash_root : forall c p m g, v_hash c p m g = vbind (v_root c p m g) v_to_hash.
Proof.
  intros c p m [x|xs]; [reflexivity|]. cbn [v_hash v_root]. unfold v_stream, v_stream_xof, v_finalize, vbind.
  destruct (v_feed c (start p m) xs) as [t [h| |]]; try reflexivity.
  destruct (v_finalize_xof c h) as [t' [o| |]]; try reflexivity.
  destruct (v_to_hash o). now rewrite app_assoc.
Qed.
Lemma vrel_seen : forall A A' (R : A -> A' -> Prop) m m', vrel R m m' -> steps_seen m = steps_seen m'.
Proof.
  intros * [E K]. unfold steps_seen. rewrite E. f_equal.
  destruct (snd m), (snd m'); cbn in *; contradiction || reflexivity.
Qed.

Lemma program_seen : forall c p m m' g g' n, mode_ok m -> mode_ok m' -> same_kind m m' ->
  bytes (data g) -> bytes (data g') -> same_lengths g g' ->
  steps_seen (v_hash c p m g) = steps_seen (v_hash c p m' g') /\
  steps_seen (v_xof c p m g n) = steps_seen (v_xof c p m' g' n).
Proof.
  intros. rewrite !v_hash_root. split.
  - eapply vrel_seen. eapply vrel_bind; [now apply v_root_rel|]. intros o o' Ho. now apply v_to_hash_rel.
  - eapply vrel_seen. unfold v_xof. eapply vrel_bind; [now apply v_root_rel|]. intros o o' Ho. now apply v_reads_rel.
Qed.

Lemma v_ret_root : forall c p m g,
  vret (v_root c p m g)
       (match g with
        | OneShot x => oneshot_xof c p m x
        | Streaming xs => let* h := feed c (start p m) xs in finalize_xof c h
        end).
Proof.
  intros c p m [x|xs]; [apply v_ret_oneshot_xof|].
  cbn [v_root]. unfold v_stream_xof. apply vret_bind; [apply v_ret_feed|]. intros; apply v_ret_finalize_xof.
Qed.
Lemma v_ret_hash : forall c p m g,
  vret (v_hash c p m g)
       (match g with
        | OneShot x => oneshot c p m x
        | Streaming xs => let* h := feed c (start p m) xs in finalize c h
        end).
Proof.
  intros c p m [x|xs]; [apply v_ret_oneshot|].
  cbn [v_hash]. unfold v_stream. apply vret_bind; [apply v_ret_feed|]. intros; apply v_ret_finalize.
Qed.
Lemma v_ret_xof : forall c p m g n,
  vret (v_xof c p m g n)
       (let* o := match g with
        | OneShot x => oneshot_xof c p m x
        | Streaming xs => let* h := feed c (start p m) xs in finalize_xof c h
        end in reads c n o).
Proof. intros. unfold v_xof. apply vret_bind; [apply v_ret_root|]. intros; apply v_ret_reads. Qed.

(* ---- as stated in Prop_VSteps ---- *)

Lemma steps_values : forall c p cap cv block block_len offset flags
  inputs key delta flags_start flags_end out m g n,
  snd (p_compress p cv block block_len offset flags) =
    Ok (Platform.compress p cv block block_len offset flags) /\
  snd (p_compress_xof p cv block block_len offset flags) =
    Ok (Platform.compress_xof p cv block block_len offset flags) /\
  snd (p_hash_many c p cap inputs key offset delta flags flags_start flags_end out) =
    Platform.hash_many c p cap inputs key offset delta flags flags_start flags_end out /\
  snd (v_hash c p m g) =
    match g with
    | OneShot x => oneshot c p m x
    | Streaming xs => let* h := feed c (start p m) xs in finalize c h
    end /\
  snd (v_xof c p m g n) =
    let* o := match g with
              | OneShot x => oneshot_xof c p m x
              | Streaming xs => let* h := feed c (start p m) xs in finalize_xof c h
              end in
    reads c n o.
Proof.
  intros. repeat split;
    [apply p_compress_value|apply p_xof_value|apply p_many_value|apply v_ret_hash|apply v_ret_xof].
Qed.

Lemma calls_seen : forall p cv cv' block block' block_len block_len' offset offset' flags flags',
  steps_seen (p_compress p cv block block_len offset flags) =
    steps_seen (p_compress p cv' block' block_len' offset' flags') /\
  steps_seen (p_compress_xof p cv block block_len offset flags) =
    steps_seen (p_compress_xof p cv' block' block_len' offset' flags').
Proof.
  intros. split; eapply vrel_seen; [apply same_compress|apply same_compress_xof].
Qed.

Lemma many_seen : forall c p cap inputs inputs' key key' offset delta
  flags flags' flags_start flags_start' flags_end flags_end' out out',
  Forall2 (fun x y => len x = len y) inputs inputs' -> len out = len out' ->
  steps_seen (p_hash_many c p cap inputs key offset delta flags flags_start flags_end out) =
  steps_seen (p_hash_many c p cap inputs' key' offset delta flags' flags_start' flags_end' out').
Proof.
  intros * F L. eapply vrel_seen. apply same_many; [|exact L].
  induction F; constructor; assumption.
Qed.
