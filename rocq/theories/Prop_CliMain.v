(* C67: the whole command line tool: --help, --version, or hashing. *)
From Coq Require Import String Ascii NArith List Bool Lia.
From Verif Require Import Base BaseFacts Spec HexSpec Portable Platform Lib Io IoSpec Cli CliSpec CliOut CliMain.
From Verif Require Import CliMainFacts Samples Prop_Cli Prop_CliOut.
Import ListNotations.
Open Scope N_scope.
Open Scope list_scope.

(* The characters of a text as bytes. *)
Definition ascii (s : string) : list N := map N_of_ascii (list_ascii_of_string s).
(* The two texts, from main.rs:9-14 and the version in Cargo.toml. *)
Definition help_text : list N :=
  [10] ++ ascii "Usage: baokeshed [<inputs>...] [--length=<bytes>] [--key=<hex> | --derive-key=<hex>]" ++ [10] ++
  ascii "       baokeshed (--help | --version)" ++ [10].
Definition version_text : list N := ascii "0.1.0" ++ [10].

(* With --help the tool prints the usage text and ends with status 0, or a write failed and
   it panics with a prefix delivered.  It opens and reads nothing: the system's state s
   is the same afterwards, whatever the other arguments are. *)
Theorem C67_help : forall S F (o : os S F) c p a s fuel wfuel Q (w : Q -> list N -> delivery * Q) q,
  line_buffered w -> a_help a = true ->
  process w (main_out w c p o fuel wfuel s a) q = (Ok (0, s), help_text, false) \/
  exists d rest, process w (main_out w c p o fuel wfuel s a) q = (Panic, d, true) /\ help_text = d ++ rest /\
    ~ reliable w.
Proof. exact help_out. Qed.

(* The same for --version. *)
Theorem C67_version : forall S F (o : os S F) c p a s fuel wfuel Q (w : Q -> list N -> delivery * Q) q,
  line_buffered w -> a_help a = false -> a_version a = true ->
  process w (main_out w c p o fuel wfuel s a) q = (Ok (0, s), version_text, false) \/
  exists d rest, process w (main_out w c p o fuel wfuel s a) q = (Panic, d, true) /\ version_text = d ++ rest /\
    ~ reliable w.
Proof. exact version_out. Qed.

(* Otherwise it does what C41 says of the hashing: with inputs, *)
Theorem C67_inputs : forall S F (o : os S F) c p a m s xs s',
  a_help a = false -> a_version a = false ->
  platform_ok c p -> asked_mode a m -> asked_length a < 2 ^ 63 -> a_inputs a <> [] ->
  reading c o s (a_inputs a) xs s' ->
  exists fuel0, forall fuel wfuel, (fuel0 <= fuel)%nat -> (1 <= wfuel)%nat ->
  forall Q (w : Q -> list N -> delivery * Q) q, line_buffered w ->
  let t := concat (map (fun x => line o m (asked_length a) (1 <? len (a_inputs a)) (fst x) (snd x))
                       (combine (a_inputs a) xs)) in
  process w (main_out w c p o fuel wfuel s a) q
    = (Ok (if existsb failed xs then 1 else 0, s'), t, false) \/
  exists d rest, process w (main_out w c p o fuel wfuel s a) q = (Panic, d, true) /\ t = d ++ rest /\
    ~ reliable w.
Proof. exact main_inputs. Qed.
(* with standard input, *)
Theorem C67_stdin : forall S F (o : os S F) c p a m s bs s',
  a_help a = false -> a_version a = false ->
  platform_ok c p -> asked_mode a m -> asked_length a < 2 ^ 63 -> a_inputs a = [] ->
  sees c o s None bs s' -> bytes bs -> len bs < 2 ^ 64 ->
  exists fuel0, forall fuel wfuel, (fuel0 <= fuel)%nat -> (1 <= wfuel)%nat ->
  forall Q (w : Q -> list N -> delivery * Q) q, line_buffered w ->
  let t := hex (spec_xof blake_compress m bs (asked_length a)) ++ [10] in
  process w (main_out w c p o fuel wfuel s a) q = (Ok (0, s'), t, false) \/
  exists d rest, process w (main_out w c p o fuel wfuel s a) q = (Panic, d, true) /\ t = d ++ rest /\
    ~ reliable w.
Proof. exact main_stdin. Qed.
(* with a standard input that cannot be read, *)
Theorem C67_stdin_fails : forall S F (o : os S F) c p a m s e s',
  a_help a = false -> a_version a = false ->
  platform_ok c p -> asked_mode a m -> a_inputs a = [] -> unreadable c o s None e s' ->
  exists fuel0, forall fuel wfuel, (fuel0 <= fuel)%nat -> (1 <= wfuel)%nat ->
  forall Q (w : Q -> list N -> delivery * Q) q,
  process w (main_out w c p o fuel wfuel s a) q = (Ok (1, s'), [], false).
Proof. exact main_stdin_fails. Qed.
(* and with a bad key. *)
Theorem C67_bad_key : forall S F (o : os S F) c p a k s fuel wfuel Q (w : Q -> list N -> delivery * Q) q,
  a_help a = false -> a_version a = false ->
  (a_key a = Some k \/ a_key a = None /\ a_derive_key a = Some k) ->
  ~ (len k = 64 /\ exists key, unhex k = Some key) ->
  process w (main_out w c p o fuel wfuel s a) q = (Ok (1, s), [], false).
Proof. exact main_bad_key. Qed.

(* The texts have 124 and 6 bytes.  On the disk of C41_example with enough room each is printed in
   full; with room for 4 bytes only those arrive and the tool panics.  Without the flags the
   same arguments hash the file. *)
Example C67_example :
  let run (help version : bool) := process disk (main_out disk (Cfg true false true) PPortable
    (one_file true [1]) 9 9 (0, false) (Args [[102]] help None None (Some 2) version)) in
  run true false 200 = (Ok (0, (0, false)), help_text, false) /\
  run true true 4 = (Panic, [10; 85; 115; 97], true) /\
  run false true 200 = (Ok (0, (0, false)), [48; 46; 49; 46; 48; 10], false) /\
  run false true 4 = (Panic, [48; 46; 49; 46], true) /\
  run false false 200 = (Ok (0, (0, false)), hex (take 2 (spec_hash blake_compress Hashing [1])) ++ [10], false).
Proof. repeat split; vm_compute; reflexivity. Qed.

Print Assumptions C67_help.
Print Assumptions C67_version.
Print Assumptions C67_inputs.
Print Assumptions C67_stdin.
Print Assumptions C67_stdin_fails.
Print Assumptions C67_bad_key.
