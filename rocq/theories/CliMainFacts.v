(* main: --help, --version, and hashing. *)
From Coq Require Import String Ascii NArith List Bool Lia.
From Verif Require Import Base BaseFacts Spec HexSpec Portable Platform Lib Io IoSpec Cli CliSpec CliOut CliMain.
From Verif Require Import CliFacts CliOutFacts.
Import ListNotations.
Open Scope N_scope.
Open Scope list_scope.

Lemma usage_ends : exists u, USAGE = u ++ [10].
Proof. exists (removelast USAGE). vm_compute. reflexivity. Qed.

(* the printing main prints what the pure one returns *)
Lemma main_prints : forall S F (o : os S F) c p fuel wfuel s a t st s' Q (w : Q -> list N -> delivery * Q) q,
  line_buffered w ->
  main_text c p o fuel wfuel s a = Ok (t, st, s') ->
  process w (main_out w c p o fuel wfuel s a) q = (Ok (st, s'), t, false) \/
  exists d rest, process w (main_out w c p o fuel wfuel s a) q = (Panic, d, true) /\ t = d ++ rest /\
    ~ reliable w.
Proof.
  intros S F o c p fuel wfuel s a t st s' Q w q LB. unfold main_text, main_out, cli_main, cli_main_out.
  destruct (a_help a); [|destruct (a_version a)].
  - intros E. assert (X : t = USAGE /\ st = 0 /\ s' = s) by (repeat split; congruence).
    destruct X as (-> & -> & ->).
    apply process_prints; [|right; apply usage_ends].
    rewrite <- (app_nil_r USAGE) at 2. eapply prints_bind; [now apply prints_put|]. apply prints_lift.
  - intros E. assert (X : t = VERSION ++ NEWLINE /\ st = 0 /\ s' = s) by (repeat split; congruence).
    destruct X as (-> & -> & ->).
    apply process_prints; [|right; now exists VERSION].
    replace (VERSION ++ NEWLINE) with (concat [VERSION; NEWLINE] ++ [])
      by (cbn [concat]; now rewrite !app_nil_r).
    eapply prints_bind; [now apply prints_puts|]. apply prints_lift.
  - intros E. now apply cli_hash_process.
Qed.

Lemma main_help : forall S F (o : os S F) c p a s fuel wfuel, a_help a = true ->
  main_text c p o fuel wfuel s a = Ok (USAGE, 0, s).
Proof. intros. unfold main_text, cli_main. now rewrite H. Qed.

Lemma main_version : forall S F (o : os S F) c p a s fuel wfuel, a_help a = false -> a_version a = true ->
  main_text c p o fuel wfuel s a = Ok ((VERSION ++ [10]), 0, s).
Proof. intros. unfold main_text, cli_main. now rewrite H, H0. Qed.

Lemma help_out : forall S F (o : os S F) c p a s fuel wfuel Q (w : Q -> list N -> delivery * Q) q,
  line_buffered w -> a_help a = true ->
  process w (main_out w c p o fuel wfuel s a) q = (Ok (0, s), USAGE, false) \/
  exists d rest, process w (main_out w c p o fuel wfuel s a) q = (Panic, d, true) /\ USAGE = d ++ rest /\
    ~ reliable w.
Proof. intros. apply main_prints; [assumption|]. now apply main_help. Qed.

Lemma version_out : forall S F (o : os S F) c p a s fuel wfuel Q (w : Q -> list N -> delivery * Q) q,
  line_buffered w -> a_help a = false -> a_version a = true ->
  process w (main_out w c p o fuel wfuel s a) q = (Ok (0, s), (VERSION ++ [10]), false) \/
  exists d rest, process w (main_out w c p o fuel wfuel s a) q = (Panic, d, true) /\
    (VERSION ++ [10]) = d ++ rest /\ ~ reliable w.
Proof. intros. apply main_prints; [assumption|]. now apply main_version. Qed.

Lemma main_inputs : forall S F (o : os S F) c p a m s xs s',
  a_help a = false -> a_version a = false ->
  platform_ok c p -> asked_mode a m -> asked_length a < 2 ^ 63 -> a_inputs a <> [] ->
  reading c o s (a_inputs a) xs s' ->
  exists fuel0, forall fuel wfuel, (fuel0 <= fuel)%nat -> (1 <= wfuel)%nat ->
  forall Q (w : Q -> list N -> delivery * Q) q, line_buffered w ->
  let t := concat (map (fun x => line o m (asked_length a) (1 <? len (a_inputs a)) (fst x) (snd x))
                       (combine (a_inputs a) xs)) in
  process w (main_out w c p o fuel wfuel s a) q
    = (Ok (if existsb failed xs then 1 else 0, s'), t, false) \/
  exists d rest, process w (main_out w c p o fuel wfuel s a) q = (Panic, d, true) /\ t = d ++ rest /\
    ~ reliable w.
Proof.
  intros S F o c p a m s xs s' H V. unfold main_out, cli_main_out. rewrite H, V. apply out_inputs.
Qed.

Lemma main_stdin : forall S F (o : os S F) c p a m s bs s',
  a_help a = false -> a_version a = false ->
  platform_ok c p -> asked_mode a m -> asked_length a < 2 ^ 63 -> a_inputs a = [] ->
  sees c o s None bs s' -> bytes bs -> len bs < 2 ^ 64 ->
  exists fuel0, forall fuel wfuel, (fuel0 <= fuel)%nat -> (1 <= wfuel)%nat ->
  forall Q (w : Q -> list N -> delivery * Q) q, line_buffered w ->
  let t := (hex (spec_xof blake_compress m bs (asked_length a)) ++ [10]) in
  process w (main_out w c p o fuel wfuel s a) q = (Ok (0, s'), t, false) \/
  exists d rest, process w (main_out w c p o fuel wfuel s a) q = (Panic, d, true) /\ t = d ++ rest /\
    ~ reliable w.
Proof.
  intros S F o c p a m s bs s' H V. unfold main_out, cli_main_out. rewrite H, V. apply out_stdin.
Qed.

Lemma main_stdin_fails : forall S F (o : os S F) c p a m s e s',
  a_help a = false -> a_version a = false ->
  platform_ok c p -> asked_mode a m -> a_inputs a = [] -> unreadable c o s None e s' ->
  exists fuel0, forall fuel wfuel, (fuel0 <= fuel)%nat -> (1 <= wfuel)%nat ->
  forall Q (w : Q -> list N -> delivery * Q) q,
  process w (main_out w c p o fuel wfuel s a) q = (Ok (1, s'), [], false).
Proof.
  intros S F o c p a m s e s' H V. unfold main_out, cli_main_out. rewrite H, V. apply out_stdin_fails.
Qed.

Lemma main_bad_key : forall S F (o : os S F) c p a k s fuel wfuel Q (w : Q -> list N -> delivery * Q) q,
  a_help a = false -> a_version a = false ->
  (a_key a = Some k \/ a_key a = None /\ a_derive_key a = Some k) ->
  ~ (len k = 64 /\ exists key, unhex k = Some key) ->
  process w (main_out w c p o fuel wfuel s a) q = (Ok (1, s), [], false).
Proof.
  intros S F o c p a k s fuel wfuel Q w q H V. unfold main_out, cli_main_out. rewrite H, V. now apply out_bad_key.
Qed.
