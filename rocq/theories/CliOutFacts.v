(* Printing that may fail: what is delivered is always a prefix of the text. *)
From Coq Require Import NArith List Bool Lia ZArith.
From Coq Require Import ZifyBool ZifyNat ZifyN.
From Verif Require Import Base BaseFacts Spec HexSpec Portable Platform Lib Io IoSpec Cli CliSpec CliOut.
From Verif Require Import CliFacts.
Import ListNotations.
Open Scope N_scope.

Section Facts.
Context {Q : Type} (w : Q -> list N -> delivery * Q) (LB : line_buffered w).

Definition text (q : @outs Q) : list N := o_delivered q ++ o_waiting q.
Definition lines_out (q : @outs Q) : Prop := ~ In 10 (o_waiting q).

(* m prints t and returns x, or is stopped by a failure after a prefix of t *)
Definition prints {A : Type} (m : @outm Q A) (x : A) (t : list N) : Prop :=
  forall q, lines_out q -> o_failed q = false ->
  exists q',
  (m q = (Ok x, q') /\ text q' = text q ++ t /\ lines_out q' /\ o_failed q' = false) \/
  (m q = (Panic, q') /\ (exists u v, t = u ++ v /\ text q' = text q ++ u) /\ o_failed q' = true /\ ~ reliable w).

Lemma prints_lift : forall A (x : A), prints (lift (Ok x)) x [].
Proof. intros A x q L F. exists q. left. rewrite app_nil_r. auto. Qed.

Lemma prints_bind : forall A B (m : outm A) (k : A -> outm B) x y t u,
  prints m x t -> prints (k x) y u -> prints (bindo m k) y (t ++ u).
Proof.
  intros A B m k x y t u Hm Hk q L F. unfold bindo.
  destruct (Hm q L F) as (q1 & [(E & T & L1 & F1)|(E & (u1 & v1 & T & T1) & F1 & R1)]); rewrite E.
  - destruct (Hk q1 L1 F1) as (q2 & [(E2 & T2 & L2 & F2)|(E2 & (u2 & v2 & T2 & T3) & F2 & R2)]).
    + exists q2. left. rewrite E2, T2, T, <- app_assoc. auto.
    + exists q2. right. rewrite E2. repeat split; auto. exists (t ++ u2), v2.
      rewrite T3, T, T2, <- !app_assoc. auto.
  - exists q1. right. repeat split; auto. exists u1, (v1 ++ u). rewrite T, <- app_assoc. auto.
Qed.

Lemma prints_then : forall A B (x : A) (k : A -> outm B) y t,
  prints (k x) y t -> prints (bindo (lift (Ok x)) k) y t.
Proof. intros A B x k y t H. exact H. Qed.

Lemma prints_put : forall t, prints (put w t) tt t.
Proof.
  intros t q L F. unfold put. destruct (w (o_sys q) (o_waiting q ++ t)) as [[n|n] s] eqn:E.
  - eexists. left. split; [reflexivity|]. unfold text, lines_out. cbn [o_delivered o_waiting o_failed].
    rewrite <- app_assoc, take_drop, app_assoc. split; [reflexivity|]. split; [|assumption].
    exact (LB _ _ _ _ E).
  - eexists. right. split; [reflexivity|]. unfold text. cbn [o_delivered o_waiting o_failed].
    split.
    + exists t, []. rewrite app_nil_r, <- app_assoc, take_drop, app_assoc. auto.
    + split; [reflexivity|]. intros R. destruct (R (o_sys q) (o_waiting q ++ t)) as (k & z & Ek). congruence.
Qed.

Lemma prints_puts : forall ts, prints (puts w ts) tt (concat ts).
Proof.
  induction ts as [|t ts IH]; cbn [puts concat]; [apply prints_lift|].
  eapply prints_bind; [apply prints_put|exact IH].
Qed.

(* ---- the loops print what those of Cli.v return ---- *)

Lemma print_hex_loop_prints : forall c fuel o r out o' out',
  print_hex_loop c fuel o r out = Ok (o', out') ->
  exists t, out' = out ++ t /\ prints (print_hex_loop_out w c fuel o r) o' t.
Proof.
  intros c. induction fuel as [|fuel IH]; intros o r out o' out'; cbn [print_hex_loop print_hex_loop_out].
  - destruct (0 <? r); [discriminate|]. intros [= <- <-]. exists []. rewrite app_nil_r.
    split; [reflexivity|apply prints_lift].
  - destruct (0 <? r).
    2:{ intros [= <- <-]. exists []. rewrite app_nil_r. split; [reflexivity|apply prints_lift]. }
    destruct (read c o) as [[bytes o1]| |]; cbn [bind]; try discriminate.
    destruct (slice bytes 0 OUT_LEN) as [h1| |]; cbn [bind]; try discriminate.
    destruct (slice bytes OUT_LEN OUT_LEN) as [h2| |]; cbn [bind]; try discriminate.
    destruct (to_hex (hash_from_bytes h1)) as [x1| |]; cbn [bind]; try discriminate.
    destruct (slice_to x1 _) as [s1| |]; cbn [bind]; try discriminate.
    destruct (subw c W64 r _) as [r1| |] eqn:E1; cbn [bind]; try discriminate.
    destruct (to_hex (hash_from_bytes h2)) as [x2| |] eqn:Ex2; cbn [bind]; try discriminate.
    destruct (slice_to x2 _) as [s2| |] eqn:Es2; cbn [bind]; try discriminate.
    destruct (subw c W64 r1 _) as [r2| |] eqn:E2; cbn [bind]; try discriminate.
    intros E. destruct (IH _ _ _ _ _ E) as (t & -> & H). exists (s1 ++ s2 ++ t).
    split; [now rewrite <- !app_assoc|].
    apply prints_then. eapply prints_bind; [apply prints_put|].
    rewrite E1. cbn [bind]. rewrite Ex2. cbn [bind]. rewrite Es2. cbn [bind].
    apply prints_then. eapply prints_bind; [apply prints_put|].
    rewrite E2. apply prints_then. exact H.
Qed.

Lemma print_hex_prints : forall c fuel o n o' t,
  print_hex c fuel o n = Ok (o', t) -> prints (print_hex_out w c fuel o n) o' t.
Proof.
  intros c fuel o n o' t. unfold print_hex, print_hex_out.
  destruct (mul64 c 2 n) as [r| |]; cbn [bind]; try discriminate. intros E.
  destruct (print_hex_loop_prints _ _ _ _ _ _ _ E) as (u & -> & H). exact H.
Qed.

Lemma hash_inputs_prints : forall S F (o : os S F) c p fuel wfuel key derive n many inputs s out err out' err' s',
  hash_inputs c p o fuel wfuel key derive n many s out err inputs = Ok (out', err', s') ->
  exists t, out' = out ++ t /\
    prints (hash_inputs_out w c p o fuel wfuel key derive n many s err inputs) (err', s') t /\
    (t = [] \/ exists u, t = u ++ [10]).
Proof.
  intros S F o c p fuel wfuel key derive n many.
  induction inputs as [|path r IH]; intros s out err out' err' s'; cbn [hash_inputs hash_inputs_out].
  - intros [= <- <- <-]. exists []. rewrite app_nil_r. split; [reflexivity|]. split; [apply prints_lift|auto].
  - destruct (hash_one c p o fuel wfuel s (Some path) key derive) as [[x s1]| |]; cbn [bind]; try discriminate.
    assert (End : forall t l, (t = [] \/ exists u, t = u ++ [10]) -> (exists u, l = u ++ [10]) ->
      l ++ t = [] \/ exists u, l ++ t = u ++ [10]).
    { intros t l [->|(u & ->)] (v & ->); right; [exists v; now rewrite app_nil_r|].
      exists ((v ++ [10]) ++ u). now rewrite <- !app_assoc. }
    destruct x as [y|e].
    + destruct (print_hex c fuel y n) as [[y' h]| |] eqn:Eh; cbn [bind]; try discriminate.
      intros E. destruct (IH _ _ _ _ _ _ E) as (t & -> & H & HT).
      eexists. split; [rewrite <- app_assoc; reflexivity|]. split.
      * apply prints_then. cbn beta iota. rewrite <- app_assoc.
        eapply prints_bind; [apply (print_hex_prints _ _ _ _ _ _ Eh)|].
        eapply prints_bind; [|exact H].
        pose proof (prints_puts (if many then [TWO_SPACES; os_lossy o path; NEWLINE] else [NEWLINE])) as Hp.
        replace (if many then TWO_SPACES ++ os_lossy o path ++ NEWLINE else NEWLINE)
          with (concat (if many then [TWO_SPACES; os_lossy o path; NEWLINE] else [NEWLINE])); [exact Hp|].
        destruct many; cbn [concat]; now rewrite ?app_nil_r.
      * apply End; [exact HT|]. destruct many.
        -- exists (h ++ TWO_SPACES ++ os_lossy o path). now rewrite <- !app_assoc.
        -- exists h. reflexivity.
    + intros E. destruct (IH _ _ _ _ _ _ E) as (t & -> & H & HT).
      eexists. split; [rewrite <- app_assoc; reflexivity|]. split.
      * apply prints_then. cbn beta iota. eapply prints_bind; [|exact H].
        pose proof (prints_puts [BAO; os_lossy o path; COLON; os_error o e; NEWLINE]) as Hp.
        cbn [concat] in Hp. rewrite app_nil_r in Hp. exact Hp.
      * apply End; [exact HT|]. exists (BAO ++ os_lossy o path ++ COLON ++ os_error o e).
        now rewrite <- !app_assoc.
Qed.

Lemma cli_hash_prints : forall S F (o : os S F) c p fuel wfuel s a t st s',
  cli_hash c p o fuel wfuel s a = Ok (t, st, s') ->
  prints (cli_hash_out w c p o fuel wfuel s a) (st, s') t /\ (t = [] \/ exists u, t = u ++ [10]).
Proof.
  intros S F o c p fuel wfuel s a t st s'. unfold cli_hash, cli_hash_out.
  destruct (decode_key a) as [key|].
  2:{ intros [= <- <- <-]. split; [apply prints_lift|auto]. }
  destruct (negb (is_empty (a_inputs a))).
  - destruct (hash_inputs _ _ _ _ _ _ _ _ _ _ _ _ _) as [[[out err] s1]| |] eqn:E; cbn [bind]; try discriminate.
    intros [= <- <- <-]. destruct (hash_inputs_prints _ _ _ _ _ _ _ _ _ _ _ _ _ _ _ _ _ _ E) as (u & -> & H & HT).
    split; [|exact HT]. rewrite <- (app_nil_r ([] ++ u)). eapply prints_bind; [exact H|]. apply prints_lift.
  - destruct (hash_one _ _ _ _ _ _ _ _ _) as [[x s1]| |]; cbn [bind]; try discriminate.
    destruct x as [y|e].
    + destruct (print_hex _ _ _ _) as [[y' h]| |] eqn:Eh; cbn [bind]; try discriminate.
      intros [= <- <- <-]. split; [|right; exists h; reflexivity].
      apply prints_then. cbn beta iota. eapply prints_bind; [apply (print_hex_prints _ _ _ _ _ _ Eh)|].
      rewrite <- (app_nil_r NEWLINE). eapply prints_bind; [apply prints_put|]. apply prints_lift.
    + intros [= <- <- <-]. split; [|auto]. apply prints_then. apply prints_lift.
Qed.

(* ---- the whole process ---- *)

Lemma process_prints : forall A (m : outm A) x t q, prints m x t -> (t = [] \/ exists u, t = u ++ [10]) ->
  process w m q = (Ok x, t, false) \/
  exists d rest, process w m q = (Panic, d, true) /\ t = d ++ rest /\ ~ reliable w.
Proof.
  intros A m x t q H HT. unfold process.
  destruct (H (Outs [] [] q false)) as (z & [(E & T & L & F)|(E & (u & v & T & T1) & F & R)]);
    [intros []|reflexivity| |]; rewrite E, F.
  - left. unfold text in T. cbn [o_delivered o_waiting app] in T.
    assert (W : o_waiting z = []).
    { destruct HT as [->|(u & ->)].
      - now apply app_eq_nil in T.
      - destruct (o_waiting z) as [|y l] eqn:Ew using rev_ind; [reflexivity|]. exfalso.
        rewrite app_assoc in T. apply app_inj_tail in T as [_ ->]. apply L. rewrite Ew.
        apply in_or_app. right. now left. }
    rewrite W in *. rewrite app_nil_r in T. rewrite T.
    destruct (w (o_sys z) []) as [[n|n] s']; unfold take; rewrite firstn_nil, app_nil_r; reflexivity.
  - right. unfold text in T1. cbn [o_delivered o_waiting app] in T1.
    set (n := match w (o_sys z) (o_waiting z) with (Delivered n, _) | (Broken n, _) => n end).
    exists (o_delivered z ++ take n (o_waiting z)), (drop n (o_waiting z) ++ v).
    split; [reflexivity|]. split; [|exact R]. rewrite T, <- T1, app_assoc. f_equal. now rewrite <- app_assoc, take_drop.
Qed.

End Facts.

Section Results.
Context {S F : Type} (o : os S F) {Q : Type} (w : Q -> list N -> delivery * Q) (LB : line_buffered w).

Lemma cli_hash_process : forall c p fuel wfuel s a t st s' q,
  cli_hash c p o fuel wfuel s a = Ok (t, st, s') ->
  process w (cli_hash_out w c p o fuel wfuel s a) q = (Ok (st, s'), t, false) \/
  exists d rest, process w (cli_hash_out w c p o fuel wfuel s a) q = (Panic, d, true) /\ t = d ++ rest /\
    ~ reliable w.
Proof.
  intros c p fuel wfuel s a t st s' q E.
  destruct (cli_hash_prints w LB _ _ _ _ _ _ _ _ _ _ _ _ E) as [H HT].
  exact (process_prints w _ _ _ _ q H HT).
Qed.

End Results.

Lemma out_inputs : forall S F (o : os S F) c p a m s xs s',
  platform_ok c p -> asked_mode a m -> asked_length a < 2 ^ 63 -> a_inputs a <> [] ->
  reading c o s (a_inputs a) xs s' ->
  exists fuel0, forall fuel wfuel, (fuel0 <= fuel)%nat -> (1 <= wfuel)%nat ->
  forall Q (w : Q -> list N -> delivery * Q) q, line_buffered w ->
  let t := concat (map (fun x => line o m (asked_length a) (1 <? len (a_inputs a)) (fst x) (snd x))
                       (combine (a_inputs a) xs)) in
  process w (cli_hash_out w c p o fuel wfuel s a) q
    = (Ok (if existsb failed xs then 1 else 0, s'), t, false) \/
  exists d rest, process w (cli_hash_out w c p o fuel wfuel s a) q = (Panic, d, true) /\ t = d ++ rest /\
    ~ reliable w.
Proof.
  intros S F o c p a m s xs s' P A Hn Hi R.
  destruct (cli_inputs S F o c p a m s xs s' P A Hn Hi R) as (f0 & E).
  exists f0. intros fuel wfuel Hf Hw Q w q LB. apply cli_hash_process; auto.
Qed.

Lemma out_stdin : forall S F (o : os S F) c p a m s bs s',
  platform_ok c p -> asked_mode a m -> asked_length a < 2 ^ 63 -> a_inputs a = [] ->
  sees c o s None bs s' -> bytes bs -> len bs < 2 ^ 64 ->
  exists fuel0, forall fuel wfuel, (fuel0 <= fuel)%nat -> (1 <= wfuel)%nat ->
  forall Q (w : Q -> list N -> delivery * Q) q, line_buffered w ->
  let t := hex (spec_xof blake_compress m bs (asked_length a)) ++ [10] in
  process w (cli_hash_out w c p o fuel wfuel s a) q = (Ok (0, s'), t, false) \/
  exists d rest, process w (cli_hash_out w c p o fuel wfuel s a) q = (Panic, d, true) /\ t = d ++ rest /\
    ~ reliable w.
Proof.
  intros S F o c p a m s bs s' P A Hn Hi H B L.
  destruct (cli_stdin S F o c p a m s bs s' P A Hn Hi H B L) as (f0 & E).
  exists f0. intros fuel wfuel Hf Hw Q w q LB. apply cli_hash_process; auto.
Qed.


Lemma out_stdin_fails : forall S F (o : os S F) c p a m s e s',
  platform_ok c p -> asked_mode a m -> a_inputs a = [] -> unreadable c o s None e s' ->
  exists fuel0, forall fuel wfuel, (fuel0 <= fuel)%nat -> (1 <= wfuel)%nat ->
  forall Q (w : Q -> list N -> delivery * Q) q,
  process w (cli_hash_out w c p o fuel wfuel s a) q = (Ok (1, s'), [], false).
Proof.
  intros S F o c p a m s e s' P A Hi H. destruct (asked_ok a m A) as (M & K & D).
  destruct (hash_one_unreadable c p o P m M _ _ _ _ H) as (f0 & E).
  exists f0. intros fuel wfuel Hf Hw Q w q. unfold process, cli_hash_out.
  rewrite K, D, Hi. cbn [is_empty negb]. unfold bindo, lift. rewrite E by auto.
  cbn [o_sys o_waiting o_delivered o_failed app].
  destruct (w q []) as [[n|n] z]; unfold take; now rewrite firstn_nil.
Qed.

Lemma out_bad_key : forall S F (o : os S F) c p a k s fuel wfuel Q (w : Q -> list N -> delivery * Q) q,
  (a_key a = Some k \/ a_key a = None /\ a_derive_key a = Some k) ->
  ~ (len k = 64 /\ exists key, unhex k = Some key) ->
  process w (cli_hash_out w c p o fuel wfuel s a) q = (Ok (1, s), [], false).
Proof.
  intros S F o c p a k s fuel wfuel Q w q Hk Hb. unfold process, cli_hash_out.
  rewrite (decode_key_bad a k).
  - unfold lift. cbn [o_sys o_waiting o_delivered o_failed app].
    destruct (w q []) as [[n|n] z]; unfold take; now rewrite firstn_nil.
  - unfold key_arg. destruct Hk as [->|[-> ->]]; reflexivity.
  - destruct (N.eq_dec (len k) 64) as [L|L]; [right|now left].
    destruct (unhex k) as [key|]; [|reflexivity]. exfalso. eauto.
Qed.
