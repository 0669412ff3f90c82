(* Facts about TSession.v, for Prop_TSession.v. *)
From Coq Require Import NArith List Bool Lia.
From Verif Require Import Base BaseFacts Spec Portable Platform Lib SessionSpec Session LibCalls.
From Verif Require Import TraceFacts SecretSpec SecretFacts TSession.
Import ListNotations.
Open Scope N_scope.

(* ---- the traced program is the program ---- *)

Lemma ret_write : forall c h x,
  returns (let! h := t_update c h x in lift (Ok (h, len x))) (write c h x).
Proof. intros c h x. unfold write. apply ret_bind; [apply ret_update|]. intros. apply ret_lift. Qed.

Lemma ret_step : forall c p w x, returns (t_step c p w x) (step c p w x).
Proof.
  intros c p w x. destruct x; cbn [t_step step];
    try (apply ret_bind; [apply ret_lift|intros ?h]).
  - apply ret_bind; [apply ret_oneshot|]. intros. apply ret_lift.
  - apply ret_bind; [apply ret_oneshot_xof|]. intros. apply ret_lift.
  - apply ret_lift.
  - apply ret_lift.
  - apply ret_bind; [apply ret_update|]. intros. apply ret_lift.
  - intros s. unfold write. pose proof (ret_update c h input s) as E. unfold tbind.
    destruct (t_update c h input s) as [t r]. cbn [snd] in E. subst r.
    destruct (update c h input) as [h'| |]; reflexivity.
  - apply ret_bind; [apply ret_lift|]. intros. apply ret_lift.
  - apply ret_bind; [apply ret_finalize|]. intros. apply ret_lift.
  - apply ret_bind; [apply ret_finalize_xof|]. intros. apply ret_lift.
  - apply ret_lift.
  - apply ret_bind; [apply ret_read|]. intros [b o]. apply ret_lift.
  - intros s. reflexivity.
Qed.
Lemma ret_run : forall c xs ps w, returns (t_run c ps w xs) (run c ps w xs).
Proof.
  intros c. induction xs as [|x xs IH]; intros ps w; cbn [t_run run]; [apply ret_lift|].
  apply ret_bind; [apply ret_step|]. intros [w1 s1].
  apply ret_bind; [apply IH|]. intros [w2 s2]. apply ret_lift.
Qed.

(* ---- two programs that differ in secrets only ---- *)

Definition Rw (w w' : world) : Prop :=
  L2 Rh (w_hashers w) (w_hashers w') /\ L2 Ro (w_outputs w) (w_outputs w').
Definition Rs (s s' : seen) : Prop := size_seen s = size_seen s'.

Lemma L2_nth_error : forall A B (R : A -> B -> Prop) l m i, L2 R l m ->
  relr R match nth_error l i with Some a => Ok a | None => Panic end
         match nth_error m i with Some a => Ok a | None => Panic end.
Proof. intros A B R l m i H. revert i. induction H; intros [|i]; cbn; auto. Qed.
Lemma L2_replace : forall A B (R : A -> B -> Prop) l m i x y, L2 R l m -> R x y ->
  L2 R (replace l i x) (replace m i y).
Proof. intros A B R l m i x y H K. revert i. induction H; intros [|i]; cbn [replace]; constructor; auto. Qed.
Lemma L2_snoc : forall A B (R : A -> B -> Prop) l m x y, L2 R l m -> R x y -> L2 R (l ++ [x]) (m ++ [y]).
Proof. intros. apply Forall2_app; auto. Qed.

Lemma oneshot_rel : forall c p m m' x y, mode_ok m -> mode_ok m' -> same_kind m m' -> Rb x y ->
  rel (Rn 32) (t_oneshot c p m x) (t_oneshot c p m' y).
Proof.
  intros. unfold t_oneshot. eapply rel_bind; [now apply oneshot_xof_rel|]. intros. now apply t_to_hash_rel.
Qed.
Lemma finalize_rel : forall c h h', Rh h h' -> rel (Rn 32) (t_finalize c h) (t_finalize c h').
Proof.
  intros. unfold t_finalize. eapply rel_bind; [now apply finalize_xof_rel|]. intros. now apply t_to_hash_rel.
Qed.

Lemma step_rel : forall c p w w' x y, Rw w w' -> call_ok x -> call_ok y -> same_call x y ->
  rel (Rp Rw Rs) (t_step c p w x) (t_step c p w' y).
Proof.
  intros c p w w' x y Hw Ox Oy Hs. pose proof Hw as [HH HO].
  destruct x, y; cbn [same_call] in Hs; try contradiction; cbn [call_ok] in Ox, Oy; cbn [t_step];
    try match type of Hs with _ /\ _ => destruct Hs as [Hs1 Hs2] end; subst;
    try (eapply rel_bind; [apply rel_lift, L2_nth_error; eassumption|intros h h' Hh]).
  - eapply rel_bind; [apply oneshot_rel; try tauto; split; tauto|]. intros a b Hab.
    apply rel_ok. split; [exact Hw|]. unfold Rs, hash_as_bytes. cbn [size_seen snd]. destruct (Rn_len _ _ _ Hab) as [-> ->]. reflexivity.
  - eapply rel_bind; [apply oneshot_xof_rel; try tauto; split; tauto|]. intros a b Hab.
    apply rel_ok. repeat split; auto. cbn. now apply L2_snoc.
  - apply rel_ok. repeat split; auto. cbn. apply L2_snoc; [exact HH|]. now apply start_Rh.
  - apply rel_ok. repeat split; auto. cbn. now apply L2_snoc.
  - eapply rel_bind; [apply update_rel; [exact Hh|split; auto]|]. intros a b Hab.
    apply rel_ok. repeat split; auto; cbn. now apply L2_replace.
  - eapply rel_bind; [apply update_rel; [exact Hh|split; auto]|]. intros a b Hab.
    apply rel_ok. repeat split; auto; cbn; [now apply L2_replace|]. unfold Rs. cbn. congruence.
  - eapply rel_bind with (R := Rh); [apply rel_lift; exact Hh|]. intros a b Hab.
    apply rel_ok. repeat split; auto; cbn. now apply L2_replace.
  - eapply rel_bind; [now apply finalize_rel|]. intros a b Hab.
    apply rel_ok. split; [exact Hw|]. unfold Rs, hash_as_bytes. cbn [size_seen snd]. destruct (Rn_len _ _ _ Hab) as [-> ->]. reflexivity.
  - eapply rel_bind; [now apply finalize_xof_rel|]. intros a b Hab.
    apply rel_ok. repeat split; auto. cbn. now apply L2_snoc.
  - apply rel_ok. repeat split; auto. cbn. now apply L2_snoc.
  - eapply rel_bind; [now apply t_read_rel|]. intros [a o] [b o'] [Hab Hoo]. cbn [fst snd] in *.
    apply rel_ok. repeat split; auto; cbn; [now apply L2_replace|].
    unfold Rs. cbn [size_seen snd]. now rewrite (Rb_len _ _ Hab).
  - eapply rel_bind; [now apply t_to_hash_rel|]. intros a b Hab.
    apply rel_ok. split; [exact Hw|]. unfold Rs, hash_as_bytes. cbn [size_seen snd]. destruct (Rn_len _ _ _ Hab) as [-> ->]. reflexivity.
Qed.

Lemma run_rel : forall c xs ys, L2 same_call xs ys -> Forall call_ok xs -> Forall call_ok ys ->
  forall ps w w', Rw w w' -> rel (Rp Rw (L2 Rs)) (t_run c ps w xs) (t_run c ps w' ys).
Proof.
  intros c xs ys H. induction H as [|x y xs ys Hxy H IH]; intros Fx Fy ps w w' Hw; cbn [t_run].
  - apply rel_ok. split; [exact Hw|constructor].
  - inversion_clear Fx. inversion_clear Fy.
    eapply rel_bind; [now apply step_rel|]. intros [w1 s1] [w2 s2] [Hw1 Hs1]. cbn [fst snd] in *.
    eapply rel_bind; [now apply IH|]. intros [w3 s3] [w4 s4] [Hw3 Hs3]. cbn [fst snd] in *.
    apply rel_ok. split; [exact Hw3|]. now constructor.
Qed.

Lemma L2_sizes : forall l m, L2 Rs l m -> map size_seen l = map size_seen m.
Proof. intros l m H. induction H; cbn [map]; [reflexivity|]. now f_equal. Qed.

Lemma session_observed : forall c ps xs ys, Forall2 same_call xs ys ->
  Forall call_ok xs -> Forall call_ok ys ->
  observed (t_run c ps (World [] []) xs []) = observed (t_run c ps (World [] []) ys []) /\
  sizes (run c ps (World [] []) xs) = sizes (run c ps (World [] []) ys).
Proof.
  intros c ps xs ys H Fx Fy.
  assert (R : rel (Rp Rw (L2 Rs)) (t_run c ps (World [] []) xs) (t_run c ps (World [] []) ys)).
  { apply run_rel; auto. split; constructor. }
  split; [eapply rel_observed; exact R|].
  destruct (R [] [] eq_refl) as [_ K]. rewrite !ret_run in K.
  destruct (run c ps (World [] []) xs) as [[w s]| |], (run c ps (World [] []) ys) as [[w' s']| |];
    cbn in K; try contradiction; cbn [sizes]; auto. destruct K as [_ K]. now apply L2_sizes.
Qed.

Lemma run_traced : forall c ps w xs s, snd (t_run c ps w xs s) = run c ps w xs.
Proof. intros. apply ret_run. Qed.

(* ---- the calls listed for the simplest programs are those of LibCalls.v ---- *)

Lemma fst_bind : forall A B B' (m m' : tr A) (f : A -> tr B) (f' : A -> tr B') s, m s = m' s ->
  (forall a t, fst (f a t) = fst (f' a t)) -> fst (tbind m f s) = fst (tbind m' f' s).
Proof. intros * E H. unfold tbind. rewrite E. destruct (m' s) as [t [a| |]]; auto. Qed.
Lemma fst_ret : forall A B (m : tr A) (f : A -> B) s, fst (tbind m (fun a => lift (Ok (f a))) s) = fst (m s).
Proof. intros. unfold tbind. destruct (m s) as [t [a| |]]; reflexivity. Qed.
Lemma bind_assoc : forall A B C (m : tr A) (f : A -> tr B) (g : B -> tr C) s,
  tbind (tbind m f) g s = tbind m (fun a => tbind (f a) g) s.
Proof. intros. unfold tbind. destruct (m s) as [t [a| |]]; reflexivity. Qed.
Lemma fst_run_cons : forall c p w x r s,
  fst (t_run c (fun _ => p) w (x :: r) s)
  = fst (tbind (t_step c p w x) (fun ws => t_run c (fun _ => p) (fst ws) r) s).
Proof.
  intros. cbn [t_run]. apply fst_bind; [reflexivity|]. intros [w' a] t. cbn [fst].
  unfold tbind. destruct (t_run c (fun _ => p) w' r t) as [t' [[w'' a']| |]]; reflexivity.
Qed.

Section Calls.
Variables (c : cfg) (p : platform).
Let P : nat -> platform := fun _ => p.

Lemma fst_feed : forall f, f = CUpdate \/ f = CWrite -> forall xs h r s,
  fst (t_run c P (World [h] []) (map (f O) xs ++ r) s)
  = fst (tbind (t_feed c h xs) (fun h => t_run c P (World [h] []) r) s).
Proof.
  intros f Hf. induction xs as [|x xs IH]; intros h r s; [reflexivity|].
  cbn [map app t_feed]. unfold P. rewrite fst_run_cons.
  assert (E : forall t, fst (tbind (t_step c p (World [h] []) (f O x)) (fun ws => t_run c P (fst ws) (map (f O) xs ++ r)) t)
    = fst (tbind (t_update c h x) (fun h => t_run c P (World [h] []) (map (f O) xs ++ r)) t)).
  { intros t. destruct Hf as [-> | ->]; cbn [t_step w_hashers w_outputs nth_error replace]; unfold tbind, lift;
      destruct (t_update c h x t) as [t' [h'| |]]; reflexivity. }
  unfold P in E. rewrite E, bind_assoc. apply fst_bind; [reflexivity|]. intros h' t. apply IH.
Qed.

Lemma fst_reads : forall n h o s,
  fst (t_run c P (World h [o]) (repeat (CRead O) n) s) = fst (t_reads c n o s).
Proof.
  induction n as [|n IH]; intros h o s; [reflexivity|]. cbn [repeat t_reads]. unfold P. rewrite fst_run_cons.
  assert (E : forall t, fst (tbind (t_step c p (World h [o]) (CRead O)) (fun ws => t_run c P (fst ws) (repeat (CRead O) n)) t)
    = fst (tbind (t_read c o) (fun x => t_run c P (World h [snd x]) (repeat (CRead O) n)) t)).
  { intros t. cbn [t_step w_hashers w_outputs nth_error replace]. unfold tbind, lift.
    destruct (t_read c o t) as [t' [[b o']| |]]; reflexivity. }
  unfold P in E. rewrite E. apply fst_bind; [reflexivity|]. intros [b o'] t. cbn [snd]. fold P. rewrite IH.
  unfold tbind. destruct (t_reads c n o' t) as [t' [[bs o'']| |]]; reflexivity.
Qed.

Lemma session_calls : forall m n s,
  (forall input, fst (t_run c P (World [] []) [CHash m input] s) = fst (t_hash c p m (OneShot input) s)) /\
  (forall input, fst (t_run c P (World [] []) [CHashXof m input; CToHash O] s)
                 = fst (t_hash c p m (OneShot input) s)) /\
  (forall input, fst (t_run c P (World [] []) (CHashXof m input :: repeat (CRead O) n) s)
                 = fst (t_xof c p m (OneShot input) n s)) /\
  (forall f, f = CUpdate \/ f = CWrite -> forall inputs,
     fst (t_run c P (World [] []) (CNew m :: map (f O) inputs ++ [CFinalize O]) s)
     = fst (t_hash c p m (Streaming inputs) s) /\
     fst (t_run c P (World [] []) (CNew m :: map (f O) inputs ++ CFinalizeXof O :: repeat (CRead O) n) s)
     = fst (t_xof c p m (Streaming inputs) n s)).
Proof.
  intros m n s. split; [|split; [|split]].
  - intros input. unfold P. rewrite fst_run_cons. cbn [t_step t_run t_hash]. unfold tbind, lift.
    destruct (t_oneshot c p m input s) as [t [a| |]]; reflexivity.
  - intros input. unfold P. rewrite fst_run_cons. cbn [t_step t_run t_hash w_hashers w_outputs app].
    unfold t_oneshot, tbind, lift.
    destruct (t_oneshot_xof c p m input s) as [t [o| |]]; reflexivity.
  - intros input. unfold P. rewrite fst_run_cons. cbn [t_step w_hashers w_outputs app].
    unfold t_xof. cbn [t_root]. rewrite bind_assoc. apply fst_bind; [reflexivity|].
    intros o t. unfold tbind, lift. cbn [fst]. apply fst_reads.
  - intros f Hf inputs. split.
    + unfold P. rewrite fst_run_cons. cbn [t_step w_hashers w_outputs app].
      unfold tbind at 1. unfold lift. cbn [fst]. fold P. rewrite (fst_feed f Hf).
      cbn [t_hash]. unfold t_stream. apply fst_bind; [reflexivity|]. intros h t.
      unfold P. rewrite fst_run_cons. cbn [t_step t_run w_hashers w_outputs nth_error]. unfold tbind, lift.
      destruct (t_finalize c h t) as [t' [a| |]]; reflexivity.
    + unfold P. rewrite fst_run_cons. cbn [t_step w_hashers w_outputs app].
      unfold tbind at 1. unfold lift. cbn [fst]. fold P. rewrite (fst_feed f Hf).
      unfold t_xof. cbn [t_root]. unfold t_stream_xof. rewrite bind_assoc.
      apply fst_bind; [reflexivity|]. intros h t.
      unfold P. rewrite fst_run_cons. cbn [t_step w_hashers w_outputs nth_error]. rewrite bind_assoc.
      unfold tbind at 1. unfold lift at 1. rewrite bind_assoc. apply fst_bind; [reflexivity|].
      intros o t'. unfold tbind, lift. cbn [fst app]. apply fst_reads.
Qed.
End Calls.
