(* C41: what the command line tool has printed when its output fails or it is stopped. *)
From Coq Require Import NArith List Bool Lia.
From Verif Require Import Base BaseFacts Spec HexSpec Portable Platform Lib Io IoSpec Cli CliSpec CliOut.
From Verif Require Import CliOutFacts Samples Prop_Cli.
Import ListNotations.
Open Scope N_scope.

(* Standard output may fail at any write (a full disk, a closed pipe), after taking any part
   of the text.  With t the inputs' lines (as in C31), either the process ends with its
   normal status and exactly t was delivered, or a write failed, the process panicked,
   and what was delivered is a prefix of t.  In particular status 0 means that the whole text
   was delivered.  A process killed at some moment has delivered what it delivers
   if every write fails from that moment on, so that too is a prefix of t. *)
Theorem C41_inputs : forall S F (o : os S F) c p a m s xs s',
  platform_ok c p -> asked_mode a m -> asked_length a < 2 ^ 63 -> a_inputs a <> [] ->
  reading c o s (a_inputs a) xs s' ->
  exists fuel0, forall fuel wfuel, (fuel0 <= fuel)%nat -> (1 <= wfuel)%nat ->
  forall Q (w : Q -> list N -> delivery * Q) q, line_buffered w ->
  let t := concat (map (fun x => line o m (asked_length a) (1 <? len (a_inputs a)) (fst x) (snd x))
                       (combine (a_inputs a) xs)) in
  process w (cli_hash_out w c p o fuel wfuel s a) q
    = (Ok (if existsb failed xs then 1 else 0, s'), t, false) \/
  exists d rest, process w (cli_hash_out w c p o fuel wfuel s a) q = (Panic, d, true) /\ t = d ++ rest /\
    ~ reliable w.
Proof. exact out_inputs. Qed.

(* The same without inputs, for standard input. *)
Theorem C41_stdin : forall S F (o : os S F) c p a m s bs s',
  platform_ok c p -> asked_mode a m -> asked_length a < 2 ^ 63 -> a_inputs a = [] ->
  sees c o s None bs s' -> bytes bs -> len bs < 2 ^ 64 ->
  exists fuel0, forall fuel wfuel, (fuel0 <= fuel)%nat -> (1 <= wfuel)%nat ->
  forall Q (w : Q -> list N -> delivery * Q) q, line_buffered w ->
  let t := hex (spec_xof blake_compress m bs (asked_length a)) ++ [10] in
  process w (cli_hash_out w c p o fuel wfuel s a) q = (Ok (0, s'), t, false) \/
  exists d rest, process w (cli_hash_out w c p o fuel wfuel s a) q = (Panic, d, true) /\ t = d ++ rest /\
    ~ reliable w.
Proof. exact out_stdin. Qed.

(* Where C27 and C30 say that nothing is printed, nothing is delivered and no write is
   attempted that could fail. *)
Theorem C41_stdin_fails : forall S F (o : os S F) c p a m s e s',
  platform_ok c p -> asked_mode a m -> a_inputs a = [] -> unreadable c o s None e s' ->
  exists fuel0, forall fuel wfuel, (fuel0 <= fuel)%nat -> (1 <= wfuel)%nat ->
  forall Q (w : Q -> list N -> delivery * Q) q,
  process w (cli_hash_out w c p o fuel wfuel s a) q = (Ok (1, s'), [], false).
Proof. exact out_stdin_fails. Qed.
Theorem C41_bad_key : forall S F (o : os S F) c p a k s fuel wfuel Q (w : Q -> list N -> delivery * Q) q,
  (a_key a = Some k \/ a_key a = None /\ a_derive_key a = Some k) ->
  ~ (len k = 64 /\ exists key, unhex k = Some key) ->
  process w (cli_hash_out w c p o fuel wfuel s a) q = (Ok (1, s), [], false).
Proof. exact out_bad_key. Qed.

(* A line-buffered output to a disk with q bytes left; text without a newline waits until
   there are more than 8 bytes of it. *)
Definition disk (q : N) (x : list N) : delivery * N :=
  if existsb (N.eqb 10) x || (8 <? len x) then
    if len x <=? q then (Delivered (len x), q - len x) else (Broken q, 0)
  else (Delivered 0, q).
Lemma disk_ok : line_buffered disk.
Proof.
  intros q x n q' E. unfold disk in E.
  destruct (existsb (N.eqb 10) x) eqn:Ex; cbn [orb] in E.
  - destruct (len x <=? q); inversion E; subst. rewrite drop_all by lia. intros [].
  - assert (H : ~ In 10 x).
    { intros H. assert (T : existsb (N.eqb 10) x = true) by (apply existsb_exists; exists 10; auto).
      congruence. }
    destruct (8 <? len x); [destruct (len x <=? q)|]; inversion E; subst; auto.
    rewrite drop_all by lia. intros [].
Qed.
(* the inputs of C31_run; with room for 40 bytes all of it is delivered, with room for 15
   only the first line and the beginning of the second *)
Example C41_example :
  let run := process disk (cli_hash_out disk (Cfg true false true) PPortable (one_file true [1]) 9 9 (0, false)
    (Args [[120]; [102]; [100]; [102]] false None None (Some 2) false)) in
  let h := hex (take 2 (spec_hash blake_compress Hashing [1])) in
  let t := [98; 97; 111; 58; 32; 120; 58; 32; 69; 48; 50; 10] ++ h ++ [32; 32; 102; 10] ++
           [98; 97; 111; 58; 32; 100; 58; 32; 69; 50; 49; 10] ++ h ++ [32; 32; 102; 10] in
  run 40 = (Ok (1, (0, false)), t, false) /\ run 15 = (Panic, take 15 t, true).
Proof. split; vm_compute; reflexivity. Qed.

Print Assumptions C41_inputs.
Print Assumptions C41_stdin.
Print Assumptions C41_stdin_fails.
Print Assumptions C41_bad_key.
