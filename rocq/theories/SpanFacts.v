(* Facts about Span.v, and the depth of the recursion. *)
From Coq Require Import NArith List Bool Lia ZArith.
From Coq Require Import ZifyBool ZifyNat ZifyN.
From Verif Require Import Base BaseFacts Spec Portable Platform Lib Session LibFacts ApiFacts LibCalls TraceFacts Span PyImpl PyFacts.
Import ListNotations.
Open Scope N_scope.

(* ---- the results are those of Lib.v ---- *)

Lemma snd_then : forall A B (m : timed A) (f : A -> timed B) g, (forall x, snd (f x) = g x) ->
  snd (then_ m f) = bind (snd m) g.
Proof.
  intros A B [t [x| |]] f g H; cbn [then_ snd bind]; try reflexivity.
  rewrite <- H. now destruct (f x).
Qed.
Lemma snd_time : forall A (m : tr A) r, returns m r -> snd (time_of m) = r.
Proof. intros A m r H. unfold time_of. specialize (H []). now destruct (m []). Qed.
Lemma snd_join : forall A B jn (a : timed A) (b : timed B),
  snd (s_join jn a b) = let* x := snd a in let* y := snd b in Ok (x, y).
Proof. intros A B jn [t [x| |]] [u [y| |]]; reflexivity. Qed.

Lemma snd_recurse : forall jn c p fuel input key off fl out,
  snd (s_hash_recurse jn c p fuel input key off fl out) = hash_recurse c p fuel input key off fl out.
Proof.
  intros jn c p. induction fuel as [|fuel IH]; intros input key off fl out;
    cbn [s_hash_recurse hash_recurse]; destruct (_ <=? _);
    try (apply snd_time, ret_hash_chunks); [reflexivity|].
  apply snd_then. intros ll. apply snd_then. intros [l r]. apply snd_then. intros ro.
  apply snd_then. intros _. cbv zeta. apply snd_then. intros [lo ro'].
  match goal with |- _ = bind ?e ?k => transitivity (bind (let* x := e in
    let* y := hash_recurse c p fuel r key ro fl ro' in Ok (x, y)) (fun q => let '(x, y) := q in
      let '(left_out, left_n) := x in let '(right_out, right_n) := y in
      bind (dassert c (left_n =? (if len l =? CHUNK_LEN then 1 else N.max (simd_degree p) 2))) (fun _ =>
      bind (dassert c ((1 <=? right_n) && (right_n <=? left_n))) (fun _ =>
      if left_n =? 1 then
        let* dst := slice_to out (2 * OUT_LEN) in
        let* src := slice_to (left_out ++ right_out) (2 * OUT_LEN) in
        let* out := copy_at out 0 src in Ok (out, 2)
      else
        let* children := slice_to (left_out ++ right_out) ((left_n + right_n) * OUT_LEN) in
        hash_parents_parallel c p children key fl out)))) end.
  2: { destruct (hash_recurse c p fuel l key off fl lo) as [[a b]| |]; cbn [bind]; [|reflexivity..].
       destruct (hash_recurse c p fuel r key ro fl ro') as [[a' b']| |]; reflexivity. }
  rewrite <- (IH l), <- (IH r), <- snd_join with (jn := jn). apply snd_then. intros [[a b] [a' b']].
  apply snd_then. intros _. apply snd_then. intros _. destruct (b =? 1).
  - apply snd_then. intros d. apply snd_then. intros s. apply snd_then. reflexivity.
  - apply snd_then. intros ch. apply snd_time, ret_hash_parents.
Qed.

Lemma snd_internal : forall jn c p input key fl,
  snd (s_hash_internal jn c p input key fl) = hash_internal c p input key fl.
Proof.
  intros jn c p input key fl. unfold s_hash_internal, hash_internal. destruct (_ <=? _).
  - apply snd_time, ret_hash_one_chunk.
  - cbv zeta. rewrite <- snd_recurse with (jn := jn). apply snd_then. intros [a b]. apply snd_then. intros ch.
    apply snd_time, ret_condense_root.
Qed.

Lemma snd_oneshot : forall jn c p m input, snd (s_oneshot jn c p m input) = oneshot c p m input.
Proof.
  intros jn c p m input. unfold s_oneshot.
  erewrite snd_then by (intros o; apply snd_time, ret_to_hash).
  destruct m; cbn [oneshot]; unfold hash, keyed_hash, derive_key, hash_xof, keyed_hash_xof, derive_key_xof;
    now rewrite snd_internal.
Qed.

(* ---- one after the other: the number of calls ---- *)

(* A traced function only adds to the list. *)
Definition appends {A : Type} (m : tr A) : Prop := forall s, m s = (s ++ fst (m []), snd (m [])).

Lemma app_lift : forall A (r : res A), appends (lift r).
Proof. intros A r s. unfold lift. cbn. now rewrite app_nil_r. Qed.
Lemma app_note : forall xs, appends (note xs).
Proof. intros xs s. reflexivity. Qed.
Lemma app_bind : forall A B (m : tr A) (f : A -> tr B), appends m -> (forall x, appends (f x)) ->
  appends (tbind m f).
Proof.
  intros A B m f Hm Hf s. unfold tbind. rewrite (Hm s). destruct (m []) as [l [x| |]]; cbn [fst snd]; auto.
  rewrite (Hf x (s ++ l)), (Hf x l). cbn [fst snd]. now rewrite app_assoc.
Qed.

Ltac app_step :=
  match goal with
  | |- forall _, _ => intro
  | |- appends (lift _) => apply app_lift
  | |- appends (note _) => apply app_note
  | |- appends (tbind _ _) => apply app_bind
  | |- appends (match ?x with _ => _ end) => destruct x
  | H : forall _, _ |- appends _ => apply H
  | |- appends (t_compress _ _ _ _ _ _) => unfold t_compress
  | |- appends (t_hash_many _ _ _ _ _ _ _ _ _ _ _) => unfold t_hash_many
  | |- appends (t_to_hash _) => unfold t_to_hash
  | |- appends _ => progress cbv beta zeta
  end.
Ltac app := repeat app_step.

Lemma app_hoc_loop : forall c p fuel chunk cv off r fl bf bo,
  appends (t_hash_one_chunk_loop c p fuel chunk cv off r fl bf bo).
Proof. intros c p. induction fuel as [|fuel IH]; intros; cbn [t_hash_one_chunk_loop]; app. Qed.
Lemma app_hash_one_chunk : forall c p chunk key off r fl, appends (t_hash_one_chunk c p chunk key off r fl).
Proof. intros. unfold t_hash_one_chunk. pose proof app_hoc_loop. app. Qed.
Lemma app_to_hash : forall o, appends (t_to_hash o).
Proof. intros. app. Qed.
Lemma app_hash_chunks : forall c p input key off fl out, appends (t_hash_chunks_parallel c p input key off fl out).
Proof. intros. unfold t_hash_chunks_parallel. pose proof app_hash_one_chunk. app. Qed.
Lemma app_hash_parents : forall c p ch key fl out, appends (t_hash_parents_parallel c p ch key fl out).
Proof. intros. unfold t_hash_parents_parallel. app. Qed.
Lemma app_hash_recurse : forall c p fuel input key off fl out, appends (t_hash_recurse c p fuel input key off fl out).
Proof.
  intros c p. pose proof app_hash_chunks. pose proof app_hash_parents.
  induction fuel as [|fuel IH]; intros; cbn [t_hash_recurse]; app.
Qed.
Lemma app_condense_loop : forall c p fuel ch key fl out, appends (t_condense_loop c p fuel ch key fl out).
Proof.
  intros c p. pose proof app_hash_parents. induction fuel as [|fuel IH]; intros; cbn [t_condense_loop]; app.
Qed.
Lemma app_condense_root : forall c p ch key fl, appends (t_condense_root c p ch key fl).
Proof. intros. unfold t_condense_root. pose proof app_condense_loop. app. Qed.
Lemma app_hash_internal : forall c p input key fl, appends (t_hash_internal c p input key fl).
Proof.
  intros. unfold t_hash_internal. pose proof app_hash_one_chunk. pose proof app_hash_recurse.
  pose proof app_condense_root. app.
Qed.

Lemma time_bind : forall A B (m : tr A) (f : A -> tr B) g, (forall x, appends (f x)) ->
  (forall x, time_of (f x) = g x) -> time_of (tbind m f) = then_ (time_of m) g.
Proof.
  intros A B m f g Hf E. unfold time_of at 1 2, tbind, then_. destruct (m []) as [l [x| |]]; try reflexivity.
  rewrite (Hf x l), <- E. unfold time_of. destruct (f x []) as [l' r]. cbn [fst snd]. now rewrite len_app.
Qed.
Lemma time_lift : forall A (r : res A), time_of (lift r) = at_once r.
Proof. reflexivity. Qed.
Lemma time_lift_bind : forall A B (r : res A) (f : A -> tr B) g, (forall x, time_of (f x) = g x) ->
  time_of (tbind (lift r) f) = then_ (at_once r) g.
Proof.
  intros A B [x| |] f g E; try reflexivity. unfold tbind, lift, at_once, then_. rewrite <- E.
  unfold time_of. now destruct (f x []).
Qed.
Lemma join_seq : forall A B C (a : timed A) (b : timed B) (k : A * B -> timed C),
  then_ (s_join N.add a b) k = then_ a (fun x => then_ b (fun y => k (x, y))).
Proof.
  intros A B C [t [x| |]] [u [y| |]] k; cbn [s_join then_]; try reflexivity.
  destruct (k (x, y)) as [v r]. now rewrite N.add_assoc.
Qed.
Lemma then_ext : forall A B (m : timed A) (f g : A -> timed B), (forall x, f x = g x) ->
  then_ m f = then_ m g.
Proof. intros A B [t [x| |]] f g E; cbn [then_]; now rewrite ?E. Qed.

Lemma seq_recurse : forall c p fuel input key off fl out,
  time_of (t_hash_recurse c p fuel input key off fl out)
  = s_hash_recurse N.add c p fuel input key off fl out.
Proof.
  intros c p. pose proof app_hash_recurse as AR. pose proof app_hash_parents as AP.
  induction fuel as [|fuel IH]; intros input key off fl out;
    cbn [t_hash_recurse s_hash_recurse]; destruct (_ <=? _); try reflexivity.
  apply time_lift_bind. intros ll. apply time_lift_bind. intros [l r]. apply time_lift_bind. intros ro.
  apply time_lift_bind. intros _. cbv zeta. apply time_lift_bind. intros [lo ro'].
  rewrite join_seq, <- (IH l). apply time_bind.
  { intros [a b]. app. }
  intros [a b]. rewrite <- (IH r). apply time_bind.
  { intros [a' b']. app. }
  intros [a' b']. apply time_lift_bind. intros _. apply time_lift_bind. intros _. destruct (b =? 1).
  - apply time_lift_bind. intros d. apply time_lift_bind. intros s. apply time_lift_bind. reflexivity.
  - apply time_lift_bind. reflexivity.
Qed.

Lemma seq_internal : forall c p input key fl,
  time_of (t_hash_internal c p input key fl) = s_hash_internal N.add c p input key fl.
Proof.
  intros c p input key fl. unfold t_hash_internal, s_hash_internal. destruct (_ <=? _); [reflexivity|].
  cbv zeta. rewrite <- seq_recurse. apply time_bind.
  - intros [a b]. pose proof app_condense_root. app.
  - intros [a b]. apply time_lift_bind. reflexivity.
Qed.

Lemma seq_oneshot : forall c p m input,
  fst (s_oneshot N.add c p m input) = len (fst (t_oneshot c p m input [])).
Proof.
  intros c p m input.
  replace (s_oneshot N.add c p m input) with (time_of (t_oneshot c p m input)).
  - unfold time_of. now destruct (t_oneshot c p m input []).
  - unfold t_oneshot, s_oneshot.
    replace (match m with
     | Hashing => s_hash_internal N.add c p input IV 0
     | Keyed key => s_hash_internal N.add c p input (words_from_key_bytes key) KEYED_HASH
     | Deriving key => s_hash_internal N.add c p input (words_from_key_bytes key) DERIVE_KEY
     end) with (time_of (t_oneshot_xof c p m input)).
    + apply time_bind; [apply app_to_hash|reflexivity].
    + destruct m; apply seq_internal.
Qed.

(* ---- bounds on the pieces ---- *)

Definition at_most {A : Type} (b : N) (m : tr A) : Prop := len (fst (m [])) <= b.

Lemma am_lift : forall A b (r : res A), at_most b (lift r).
Proof. intros A b r. unfold at_most, lift. cbn. lia. Qed.
Lemma am_bind : forall A B a b (m : tr A) (f : A -> tr B), at_most a m -> (forall x, appends (f x)) ->
  (forall x, snd (m []) = Ok x -> at_most b (f x)) -> at_most (a + b) (tbind m f).
Proof.
  intros A B a b m f Hm Hf H. unfold at_most, tbind in *. destruct (m []) as [l [x| |]]; cbn [fst snd] in *; try lia.
  rewrite (Hf x l). cbn [fst]. rewrite len_app. specialize (H x eq_refl). lia.
Qed.
Lemma am_lift_bind : forall A B b (r : res A) (f : A -> tr B),
  (forall x, r = Ok x -> at_most b (f x)) -> at_most b (tbind (lift r) f).
Proof.
  intros A B b [x| |] f H; unfold at_most, tbind, lift in *; cbn [fst]; try (cbn; lia). now apply H.
Qed.
Lemma am_le : forall A a b (m : tr A), at_most a m -> a <= b -> at_most b m.
Proof. unfold at_most. intros. lia. Qed.

Lemma hash1_count : forall comp fuel cv l off bf fl fe, len (hash1_calls comp fuel cv l off bf fl fe) <= len l / 64.
Proof.
  intros comp. induction fuel as [|fuel IH]; intros cv l off bf fl fe; cbn [hash1_calls];
    change BLOCK_LEN with 64; destruct (N.leb_spec 64 (len l)); try (rewrite len_nil; lia).
  rewrite len_cons. etransitivity; [apply N.add_le_mono_l, IH|]. rewrite len_drop. lia.
Qed.
Lemma many_count : forall p b inputs key off d fl fs fe, Forall (fun x => len x = 64 * b) inputs ->
  len (many_calls p inputs key off d fl fs fe) <= b * len inputs.
Proof.
  intros p b. induction inputs as [|x r IH]; intros key off d fl fs fe H; cbn [many_calls];
    [rewrite len_nil; lia|].
  inversion H as [|? ? Hx Hr]; subst. rewrite len_app, len_cons.
  pose proof (hash1_count (compress p) (length x) key x off (N.lor fl fs) fl fe) as H1.
  rewrite Hx, N.mul_comm, N.div_mul in H1 by lia.
  pose proof (IH key ((off + d) mod W64) d fl fs fe Hr). lia.
Qed.

Lemma push_all_inv : forall A cap (l acc r : list A), push_all cap acc l = Ok r -> len acc <= cap ->
  r = acc ++ l /\ len r <= cap.
Proof.
  intros A cap. induction l as [|x l IH]; intros acc r E L; cbn [push_all] in E.
  - injection E as <-. now rewrite app_nil_r.
  - unfold push_cap in E. destruct (N.ltb_spec (len acc) cap) as [Hc|Hc]; cbn [bind] in E; [|discriminate E].
    apply IH in E; [|rewrite len_app, len_cons, len_nil; lia]. destruct E as [-> H].
    split; [now rewrite <- app_assoc|exact H].
Qed.

Lemma am_hash_many : forall c p cap b inputs key off d fl fs fe out, Forall (fun x => len x = 64 * b) inputs ->
  at_most (b * len inputs) (t_hash_many c p cap inputs key off d fl fs fe out).
Proof. intros. unfold at_most, t_hash_many, tbind, note, lift. cbn [fst app]. now apply many_count. Qed.

Lemma WU_big : forall c, W32 <= WU c.
Proof. intros c. unfold WU, W32, W64. destruct (w64 c); lia. Qed.

Lemma am_hoc_loop : forall c p fuel chunk cv off r fl bf bo, len chunk <= 2048 -> bo <= len chunk ->
  at_most ((len chunk - bo - 1) / 64) (t_hash_one_chunk_loop c p fuel chunk cv off r fl bf bo).
Proof.
  intros c p. pose proof (WU_big c) as Wb. unfold W32 in Wb.
  induction fuel as [|fuel IH]; intros chunk cv off r fl bf bo L Hb; cbn [t_hash_one_chunk_loop]; change BLOCK_LEN with 64;
    rewrite addU_ok by lia; apply am_lift_bind; intros e He; injection He as <-;
    destruct (N.leb_spec (bo + 64) (len chunk)) as [H|H]; try apply am_lift.
  apply am_lift_bind. intros e He; injection He as <-.
  destruct (N.eqb_spec (bo + 64) (len chunk)) as [H'|H'].
  - apply am_lift_bind. intros blk _. apply am_lift.
  - apply am_lift_bind. intros blk _.
    apply am_le with (1 + (len chunk - (bo + 64) - 1) / 64); [|lia].
    apply am_bind; [unfold at_most; cbn; lia| |].
    + intros x. pose proof app_hoc_loop. app.
    + intros cv' _. apply am_lift_bind. intros bo' Eb. injection Eb as <-. apply IH; lia.
Qed.

Lemma am_one_chunk : forall c p chunk key off r fl, len chunk <= 2048 ->
  at_most ((len chunk - 1) / 64) (t_hash_one_chunk c p chunk key off r fl).
Proof.
  intros c p chunk key off r fl L. unfold t_hash_one_chunk. apply am_lift_bind. intros _ _.
  apply am_le with ((len chunk - 0 - 1) / 64 + 0); [|rewrite N.sub_0_r; lia].
  apply am_bind; [apply am_hoc_loop; lia| |].
  - intros x. app.
  - intros [o|[[cv bf] bo]] _; [apply am_lift|].
    repeat (apply am_lift_bind; intros ? _). apply am_lift.
Qed.

Lemma am_chunks : forall c p input key off fl out n, len input <= n * 2048 ->
  at_most (32 * n) (t_hash_chunks_parallel c p input key off fl out).
Proof.
  intros c p input key off fl out n L. unfold t_hash_chunks_parallel. change CHUNK_LEN with 2048.
  do 3 (apply am_lift_bind; intros _ _).
  pose proof (chunks_exact_spec _ 2048 input eq_refl) as CS.
  destruct (chunks_exact 2048 input) as [cs rm]. destruct CS as (C1 & C2 & C3 & C4).
  apply am_lift_bind. intros arr Ea. apply push_all_inv in Ea; [|rewrite len_nil; lia].
  destruct Ea as [-> _]. cbn [app].
  assert (Lr : len rm = len input mod 2048).
  { rewrite <- C1, len_app. rewrite (len_concat_const _ 2048) by exact C2.
    rewrite N.add_comm, N.mul_comm, N.mod_add, N.mod_small by lia. reflexivity. }
  pose proof (N.div_mod (len input) 2048 ltac:(lia)) as DM. rewrite <- Lr, <- C4 in DM.
  pose proof (app_hash_one_chunk) as AC.
  apply am_le with (32 * len cs + (if len rm =? 0 then 0 else 32)).
  2: { destruct (N.eqb_spec (len rm) 0); nia. }
  apply am_bind.
  - apply am_hash_many. exact C2.
  - intros x. destruct (len rm =? 0); cbn [negb]; app.
  - intros o _. destruct (N.eqb_spec (len rm) 0) as [Z|Z]; cbn [negb]; [apply am_lift|].
    apply am_lift_bind; intros d _. apply am_lift_bind; intros off' _.
    apply am_le with ((len rm - 1) / 64 + 1); [|lia].
    apply am_bind; [apply am_one_chunk; lia| |].
    + intros x. app.
    + intros ou _. apply am_le with (1 + 0); [|lia]. apply am_bind; [unfold at_most; cbn; lia| |].
      * intros x. app.
      * intros h _. apply am_lift_bind; intros o' _. apply am_lift.
Qed.

Lemma am_parents : forall c p ch key fl out n, len ch <= 64 * n + 63 ->
  at_most n (t_hash_parents_parallel c p ch key fl out) /\
  at_most 8 (t_hash_parents_parallel c p ch key fl out) /\
  forall out' k, snd (t_hash_parents_parallel c p ch key fl out []) = Ok (out', k) -> k = (len ch + 63) / 64.
Proof.
  intros c p ch key fl out n L.
  assert (M8 : MAX_SIMD_DEGREE_OR_2 c <= 8).
  { unfold MAX_SIMD_DEGREE_OR_2, MAX_SIMD_DEGREE. destruct (x86 c); cbn; lia. }
  unfold t_hash_parents_parallel. change BLOCK_LEN with 64.
  pose proof (chunks_exact_spec _ 64 ch eq_refl) as CS.
  destruct (chunks_exact 64 ch) as [cs rm]. destruct CS as (C1 & C2 & C3 & C4).
  assert (Lr : len rm = len ch mod 64).
  { rewrite <- C1, len_app. rewrite (len_concat_const _ 64) by exact C2.
    rewrite N.add_comm, N.mul_comm, N.mod_add, N.mod_small by lia. reflexivity. }
  pose proof (N.div_mod (len ch) 64 ltac:(lia)) as DM. rewrite <- Lr, <- C4 in DM.
  assert (Q : forall b, (len cs <= MAX_SIMD_DEGREE_OR_2 c -> len cs <= b) ->
    at_most b (lift (dassert c (len ch mod OUT_LEN =? 0)) ;!
      lift (dassert c (2 <=? len ch / OUT_LEN)) ;!
      lift (dassert c (len ch / OUT_LEN <=? 2 * MAX_SIMD_DEGREE_OR_2 c)) ;!
      let! parents_array := lift (push_all (MAX_SIMD_DEGREE_OR_2 c) [] cs) in
      let! out := t_hash_many c p 64 parents_array key 0 0 (N.lor fl PARENT) 0 0 out in
      if negb (len rm =? 0) then
        let! tail := lift (slice_from out (len parents_array * OUT_LEN)) in
        let! dst := lift (slice_to tail OUT_LEN) in
        lift (assert_ (len dst =? len rm)) ;!
        let! out := lift (copy_at out (len parents_array * OUT_LEN) rm) in
        lift (Ok (out, len parents_array + 1))
      else lift (Ok (out, len parents_array)))).
  { intros b Hb. do 3 (apply am_lift_bind; intros _ _). apply am_lift_bind. intros arr Ea.
    apply push_all_inv in Ea; [|rewrite len_nil; lia]. destruct Ea as [-> Hcap]. cbn [app] in *.
    apply am_le with (1 * len cs + 0); [|specialize (Hb Hcap); lia]. apply am_bind.
    - apply am_hash_many. exact C2.
    - intros x. app.
    - intros o _. destruct (len rm =? 0); cbn [negb]; [apply am_lift|].
      repeat (apply am_lift_bind; intros ? _). apply am_lift. }
  split; [apply Q; lia|]. split; [apply Q; lia|].
  intros out' k E. unfold tbind, lift, t_hash_many, note, dassert in E. cbv zeta in E.
  destruct (dbg c && _) in E; [discriminate E|]. destruct (dbg c && _) in E; [discriminate E|].
  destruct (dbg c && _) in E; [discriminate E|].
  destruct (push_all (MAX_SIMD_DEGREE_OR_2 c) [] cs) as [arr| |] eqn:Ea; try discriminate E.
  apply push_all_inv in Ea; [|rewrite len_nil; lia]. destruct Ea as [-> _]. cbn [app] in *.
  unfold tbind, lift in E.
  destruct (hash_many _ _ _ _ _ _ _ _ _ _ _) in E; try discriminate E.
  destruct (N.eqb_spec (len rm) 0) as [Z|Z]; cbn [negb] in E.
  - cbn [snd] in E. injection E as _ <-. lia.
  - destruct (slice_from _ _) in E; try discriminate E. destruct (slice_to _ _) in E; try discriminate E.
    unfold assert_ in E. destruct (_ =? _) in E; try discriminate E.
    destruct (copy_at _ _ _) in E; try discriminate E. cbn [snd] in E. injection E as _ <-. lia.
Qed.

Lemma time_le : forall A b (m : tr A), at_most b m -> fst (time_of m) <= b.
Proof. intros A b m H. unfold at_most, time_of in *. now destruct (m []). Qed.
Lemma then_le : forall A B b (r : res A) (f : A -> timed B),
  (forall x, r = Ok x -> fst (f x) <= b) -> fst (then_ (at_once r) f) <= b.
Proof.
  intros A B b [x| |] f H; cbn [then_ at_once fst]; try lia. specialize (H x eq_refl).
  destruct (f x). cbn [fst] in *. lia.
Qed.
Lemma then_sum : forall A B a b (m : timed A) (f : A -> timed B), fst m <= a ->
  (forall x, snd m = Ok x -> fst (f x) <= b) -> fst (then_ m f) <= a + b.
Proof.
  intros A B a b [t [x| |]] f H Hf; cbn [then_ fst snd] in *; try lia. specialize (Hf x eq_refl).
  destruct (f x). cbn [fst] in *. lia.
Qed.
Lemma join_max : forall A B b (x : timed A) (y : timed B), fst x <= b -> fst y <= b ->
  fst (s_join N.max x y) <= b.
Proof. intros A B b [t [x| |]] [u [y| |]] H1 H2; cbn [s_join fst] in *; lia. Qed.

Lemma degree_8 : forall p, simd_degree p <= 8.
Proof. destruct p; cbn; lia. Qed.

Lemma recurse_span : forall c p f fuel input key off fl out, len input < WU c ->
  len input <= 2048 * 2 ^ N.of_nat f ->
  fst (s_hash_recurse N.max c p fuel input key off fl out) <= 256 + 8 * N.of_nat f.
Proof.
  intros c p. pose proof (degree_8 p) as D8.
  assert (S1 : 1 <= simd_degree p) by (destruct p; cbn; lia).
  assert (Leaf : forall f fuel input key off fl out, len input <= simd_degree p * 2048 ->
    fst (s_hash_recurse N.max c p fuel input key off fl out) <= 256 + 8 * N.of_nat f).
  { intros f fuel input key off fl out L.
    destruct fuel; cbn [s_hash_recurse]; change CHUNK_LEN with 2048; rewrite (proj2 (N.leb_le _ _) L);
    (etransitivity; [apply time_le, (am_chunks _ _ _ _ _ _ _ (simd_degree p)), L|lia]). }
  induction f as [|f IH]; intros fuel input key off fl out Lw Lf.
  { apply (Leaf O). change (2 ^ N.of_nat 0) with 1 in Lf. nia. }
  destruct (N.le_gt_cases (len input) (simd_degree p * 2048)) as [Hs|Hs]; [now apply Leaf|].
  destruct fuel as [|fuel]; cbn [s_hash_recurse]; change CHUNK_LEN with 2048;
    rewrite (proj2 (N.leb_gt _ _) Hs); [cbn [at_once fst]; lia|].
  assert (Hb : 2048 < len input) by nia.
  destruct (left_chunks_spec _ Hb) as (A1 & A2 & A3).
  rewrite left_len_ok by auto. apply then_le. intros ll El.
  assert (Ell : ll = 2048 * left_chunks (len input)) by congruence. subst ll. clear El.
  remember (left_chunks (len input)) as k eqn:Ek.
  assert (Kp : k = 2 ^ N.log2 ((len input - 1) / 2048)) by exact Ek.
  apply then_le. intros [l r] Es. unfold split_at in Es.
  rewrite (proj2 (N.leb_le _ _)) in Es by lia.
  assert (El : l = take (2048 * k) input) by congruence.
  assert (Er : r = drop (2048 * k) input) by congruence. subst l r. clear Es.
  apply then_le. intros ro _. apply then_le. intros _ _. cbv zeta. apply then_le. intros [lo ro'] _.
  assert (Lt : len (take (2048 * k) input) = 2048 * k) by lenlia.
  assert (Ld : len (drop (2048 * k) input) = len input - 2048 * k) by lenlia.
  assert (H4' : k <= 2 ^ N.of_nat f).
  { rewrite Nat2N.inj_succ in Lf. rewrite Kp in *.
    assert (Q : 2 ^ N.log2 ((len input - 1) / 2048) < 2 ^ N.succ (N.of_nat f)) by lia.
    apply N.pow_lt_mono_r_iff in Q; [|lia]. apply N.pow_le_mono_r; lia. }
  apply N.le_trans with ((256 + 8 * N.of_nat f) + 8); [|lia]. apply then_sum.
  - apply join_max; apply IH; lia.
  - intros [[a b] [a' b']] _. apply then_le. intros _ _. apply then_le. intros _ _. destruct (b =? 1).
    + apply then_le. intros d _. apply then_le. intros s _. apply then_le. intros o _. cbn [at_once fst]. lia.
    + apply then_le. intros ch _. apply time_le. eapply (am_parents c p ch key fl out (len ch)). lia.
Qed.

Lemma am_condense_loop : forall c p fuel ch key fl out n, len ch = 32 * n ->
  at_most n (t_condense_loop c p fuel ch key fl out).
Proof.
  intros c p. pose proof app_condense_loop as AL.
  induction fuel as [|fuel IH]; intros ch key fl out n L; cbn [t_condense_loop]; change BLOCK_LEN with 64;
    destruct (N.ltb_spec 64 (len ch)) as [H|H]; try apply am_lift.
  destruct (am_parents c p ch key fl out (n / 2)) as (P1 & _ & P3); [lia|].
  apply am_le with (n / 2 + (n + 1) / 2); [|lia]. apply am_bind; [exact P1| |].
  - intros [a b]. app.
  - intros [a b] E. apply P3 in E. cbv beta iota.
    apply am_lift_bind. intros d Ed. apply am_lift_bind. intros s _. apply am_lift_bind. intros ch' _.
    apply am_lift_bind. intros ch2 E2. change OUT_LEN with 32 in *. unfold slice_to in E2.
    destruct (N.leb_spec (b * 32) (len ch')) as [Hl|Hl]; [|discriminate E2]. injection E2 as <-.
    apply IH. rewrite len_take. lia.
Qed.

Lemma am_condense_root : forall c p ch key fl n, len ch = 32 * n ->
  at_most n (t_condense_root c p ch key fl).
Proof.
  intros c p ch key fl n L. unfold t_condense_root. do 2 (apply am_lift_bind; intros _ _). cbv zeta.
  apply am_le with (n + 0); [|lia]. apply am_bind; [now apply am_condense_loop| |].
  - intros x. app.
  - intros x _. apply am_lift_bind. intros b _. apply am_lift.
Qed.

Definition number_of_chunks (n : N) : N := (n + 2047) / 2048.

Lemma internal_span : forall c p input key fl, platform_ok c p -> length key = 8%nat -> words key ->
  bytes input -> len input < WU c ->
  fst (s_hash_internal N.max c p input key fl)
  <= 264 + 8 * N.log2_up (number_of_chunks (len input)).
Proof.
  intros c p input key fl P Lk Wk B L. unfold s_hash_internal. change CHUNK_LEN with 2048.
  assert (HW : WU c <= W64) by (unfold WU; destruct (w64 c); unfold W32, W64; lia).
  destruct (N.leb_spec (len input) 2048) as [H|H].
  - etransitivity; [apply time_le, am_one_chunk; exact H|]. lia.
  - cbv zeta. set (f := N.log2_up (number_of_chunks (len input))).
    assert (Lf : len input <= 2048 * 2 ^ N.of_nat (N.to_nat f)).
    { rewrite N2Nat.id. unfold f. assert (1 < number_of_chunks (len input)) by (unfold number_of_chunks; lia).
      pose proof (N.log2_up_spec _ H0) as [_ U]. unfold number_of_chunks in *. lia. }
    replace (264 + 8 * f) with ((256 + 8 * N.of_nat (N.to_nat f)) + 8) by lia.
    apply then_sum; [now apply recurse_span|].
    intros [o n] E. rewrite snd_recurse in E.
    pose proof (D_max c p P) as DM. pose proof (degree_8 p) as D8.
    destruct (hash_recurse_ok c p key fl P Lk Wk (depth_fuel input) input 0 (zeros (MAX_SIMD_DEGREE_OR_2 c * OUT_LEN)))
      as (l & [C1 C2 C3 C4 C5 C6] & E'); auto; try lia.
    { unfold depth_fuel. rewrite N2Nat.id. pose proof (N.size_gt (len input)). lia. }
    { rewrite len_zeros. change OUT_LEN with 32. lia. }
    change (2048 * 0) with 0 in E'. rewrite E' in E. injection E as _ <-.
    apply then_le. intros ch Ec. apply time_le.
    unfold slice_to in Ec. destruct (N.leb_spec (len l * OUT_LEN) (len o)) as [Hl|Hl]; [|discriminate Ec].
    injection Ec as <-. change OUT_LEN with 32 in *.
    apply am_le with (len l); [|unfold D in *; lia]. apply am_condense_root. rewrite len_take. lia.
Qed.

Lemma oneshot_span : forall c p m input, platform_ok c p -> mode_ok m -> bytes input -> len input < WU c ->
  fst (s_oneshot N.max c p m input) <= 265 + 8 * N.log2_up ((len input + 2047) / 2048).
Proof.
  intros c p m input P M B L. destruct (mode_key_ok m M) as [Lk Wk]. unfold s_oneshot.
  pose proof (internal_span c p input (mode_key m) (mode_flags m) P Lk Wk B L) as S.
  unfold number_of_chunks in S.
  replace (265 + 8 * N.log2_up ((len input + 2047) / 2048))
    with ((264 + 8 * N.log2_up ((len input + 2047) / 2048)) + 1) by lia.
  apply then_sum; [destruct m; exact S|]. intros o _. apply time_le. unfold at_most. cbn. lia.
Qed.

Lemma oneshot_span_max : forall c p m input, platform_ok c p -> mode_ok m -> bytes input -> len input < WU c ->
  fst (s_oneshot N.max c p m input) <= 689.
Proof.
  intros c p m input P M B L. etransitivity; [apply oneshot_span; auto|].
  assert (HW : WU c <= W64) by (unfold WU; destruct (w64 c); unfold W32, W64; lia).
  assert (N.log2_up ((len input + 2047) / 2048) <= 53); [|lia].
  change 53 with (N.log2_up (2 ^ 53)). apply N.log2_up_le_mono.
  change (2 ^ 53) with 9007199254740992. unfold W64 in HW. lia.
Qed.

(* ---- the depth of the recursion ---- *)

Lemma rec_depth : forall c p d d' input key off fl out, len input < WU c ->
  len input <= 2048 * 2 ^ N.of_nat d -> len input <= 2048 * 2 ^ N.of_nat d' ->
  hash_recurse c p d input key off fl out = hash_recurse c p d' input key off fl out.
Proof.
  intros c p. assert (S1 : 1 <= simd_degree p) by (destruct p; cbn; lia).
  assert (Leaf : forall f fuel input key off fl out, len input <= simd_degree p * 2048 ->
    hash_recurse c p f input key off fl out = hash_recurse c p fuel input key off fl out).
  { intros f fuel input key off fl out L.
    destruct f, fuel; cbn [hash_recurse]; change CHUNK_LEN with 2048; now rewrite (proj2 (N.leb_le _ _) L). }
  induction d as [|d IH]; intros d' input key off fl out Lw Ld1 Ld2.
  { apply Leaf. change (2 ^ N.of_nat 0) with 1 in Ld1. nia. }
  destruct (N.le_gt_cases (len input) (simd_degree p * 2048)) as [Hs|Hs]; [now apply Leaf|].
  destruct d' as [|d']; [change (2 ^ N.of_nat 0) with 1 in Ld2; nia|].
  cbn [hash_recurse]; change CHUNK_LEN with 2048. rewrite (proj2 (N.leb_gt _ _) Hs).
  assert (Hb : 2048 < len input) by nia.
  destruct (left_chunks_spec _ Hb) as (A1 & A2 & A3).
  rewrite left_len_ok by auto. cbn [bind].
  remember (left_chunks (len input)) as k eqn:Ek.
  assert (Kp : k = 2 ^ N.log2 ((len input - 1) / 2048)) by exact Ek.
  unfold split_at at 1 3. rewrite (proj2 (N.leb_le _ _)) by lia. cbn [bind].
  assert (Lt : len (take (2048 * k) input) = 2048 * k) by lenlia.
  assert (Ld : len (drop (2048 * k) input) = len input - 2048 * k) by lenlia.
  assert (H4 : forall f, len input <= 2048 * 2 ^ N.of_nat (S f) -> k <= 2 ^ N.of_nat f).
  { intros f Lf. rewrite Nat2N.inj_succ in Lf. rewrite Kp in *.
    assert (Q : 2 ^ N.log2 ((len input - 1) / 2048) < 2 ^ N.succ (N.of_nat f)) by lia.
    apply N.pow_lt_mono_r_iff in Q; [|lia]. apply N.pow_le_mono_r; lia. }
  apply H4 in Ld1, Ld2.
  destruct (add64 c off (len (take (2048 * k) input))) as [ro| |]; cbn [bind]; [|reflexivity..].
  destruct (dassert c (popcount (simd_degree p) =? 1)); cbn [bind]; [|reflexivity..].
  destruct (split_at _ _) as [[lo ro']| |]; cbn [bind]; [|reflexivity..].
  rewrite (IH d' (take (2048 * k) input)) by lia.
  destruct (hash_recurse c p d' (take (2048 * k) input) key off fl lo) as [[x y]| |]; cbn [bind]; [|reflexivity..].
  now rewrite (IH d' (drop (2048 * k) input)) by lia.
Qed.

Lemma depth_ok : forall c p m input d, platform_ok c p -> mode_ok m -> bytes input ->
  2048 < len input -> len input < WU c -> (len input + 2047) / 2048 <= 2 ^ N.of_nat d ->
  exists r, hash_recurse c p d input (mode_key m) 0 (mode_flags m) (zeros (MAX_SIMD_DEGREE_OR_2 c * OUT_LEN)) = Ok r /\
    hash_recurse c p (depth_fuel input) input (mode_key m) 0 (mode_flags m)
      (zeros (MAX_SIMD_DEGREE_OR_2 c * OUT_LEN)) = Ok r.
Proof.
  intros c p m input d P M B H1 L Hd. destruct (mode_key_ok m M) as [Lk Wk].
  assert (HW : WU c <= W64) by (unfold WU; destruct (w64 c); unfold W32, W64; lia).
  pose proof (D_max c p P) as DM. assert (Hd' : len input <= 2048 * 2 ^ N.of_nat d) by lia.
  destruct (hash_recurse_ok c p (mode_key m) (mode_flags m) P Lk Wk d input 0 (zeros (MAX_SIMD_DEGREE_OR_2 c * OUT_LEN)))
    as (l & _ & E); auto; try lia.
  { rewrite len_zeros. change OUT_LEN with 32. lia. }
  change (2048 * 0) with 0 in E. eexists. split; [exact E|]. rewrite <- E. apply rec_depth; auto.
  unfold depth_fuel. rewrite N2Nat.id. pose proof (N.size_gt (len input)). lia.
Qed.

(* ---- Python ---- *)

Lemma y_depth : forall key flags d fuel input off, len input <= 2048 * 2 ^ N.of_nat d ->
  (length input <= fuel)%nat ->
  y_hash_recurse d input key off flags = y_hash_recurse fuel input key off flags.
Proof.
  intros key flags.
  assert (Leaf : forall f fuel input off, len input <= 2048 ->
    y_hash_recurse f input key off flags = y_hash_recurse fuel input key off flags).
  { intros f fuel input off L.
    destruct f, fuel; cbn [y_hash_recurse]; change y_CHUNK_LEN with 2048; now rewrite (proj2 (N.leb_le _ _) L). }
  induction d as [|d IH]; intros fuel input off Ld Lf.
  { apply Leaf. change (2 ^ N.of_nat 0) with 1 in Ld. lia. }
  destruct (N.le_gt_cases (len input) 2048) as [Hs|Hs]; [now apply Leaf|].
  destruct fuel as [|fuel]; [unfold len in Hs; lia|].
  cbn [y_hash_recurse]; change y_CHUNK_LEN with 2048. rewrite (proj2 (N.leb_gt _ _) Hs).
  destruct (left_chunks_spec _ Hs) as (A1 & A2 & A3).
  rewrite y_left_ok by auto. cbn [bind].
  remember (left_chunks (len input)) as k eqn:Ek.
  assert (Kp : k = 2 ^ N.log2 ((len input - 1) / 2048)) by exact Ek.
  assert (Lt : len (take (2048 * k) input) = 2048 * k) by lenlia. rewrite Lt.
  assert (Ldr : len (drop (2048 * k) input) = len input - 2048 * k) by lenlia.
  assert (H4 : k <= 2 ^ N.of_nat d).
  { rewrite Nat2N.inj_succ in Ld. rewrite Kp in *.
    assert (Q : 2 ^ N.log2 ((len input - 1) / 2048) < 2 ^ N.succ (N.of_nat d)) by lia.
    apply N.pow_lt_mono_r_iff in Q; [|lia]. apply N.pow_le_mono_r; lia. }
  rewrite (IH fuel (take (2048 * k) input)) by (unfold len in *; lia).
  destruct (y_hash_recurse fuel (take (2048 * k) input) key off flags); cbn [bind]; [|reflexivity..].
  now rewrite (IH fuel (drop (2048 * k) input)) by (unfold len in *; lia).
Qed.

Lemma y_depth_ok : forall kw flags input d, 8 <= len kw -> words kw ->
  flags = 0 \/ flags = Spec.KEYED_HASH \/ flags = Spec.DERIVE_KEY -> bytes input ->
  (len input + 2047) / 2048 <= 2 ^ N.of_nat d ->
  exists o, y_hash_recurse d input kw 0 flags = Ok o /\
            y_hash_recurse (length input) input kw 0 flags = Ok o.
Proof.
  intros kw flags input d Lk Wk Hf B Hd.
  destruct (y_recurse_ok kw flags Lk Wk Hf (length input) input 0 B (le_n _)) as (o & E & _).
  change (2048 * 0) with 0 in E. exists o. split; [|exact E]. rewrite <- E. apply y_depth; [lia|auto].
Qed.
