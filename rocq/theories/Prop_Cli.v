(* C27 to C31: the command line tool. *)
From Coq Require Import NArith List Bool Lia.
From Verif Require Import Base BaseFacts Spec HexSpec Portable Platform Lib Session Io IoSpec Cli CliSpec.
From Verif Require Import CliFacts CliBigFacts Samples.
Import ListNotations.
Open Scope N_scope.

(* ---- C27 ------------------------------------------------------------------------ *)

(* Two runs, on any two systems and builds, whose input has the same content bs print the
   same text, whether the content was mapped, streamed from a file in any pieces, or read
   from standard input: the extended hash of bs in hex. *)
Theorem C27_same_content_same_text :
  forall S F (o : os S F) S' F' (o' : os S' F') c c' p p' a m path path' s bs s1 t t1,
  platform_ok c p -> platform_ok c' p' -> asked_mode a m -> asked_length a < 2 ^ 63 ->
  bytes bs -> len bs < 2 ^ 64 ->
  sees c o s (Some path) bs s1 -> sees c' o' t (Some path') bs t1 ->
  exists fuel0, forall fuel wfuel, (fuel0 <= fuel)%nat -> (1 <= wfuel)%nat ->
    cli_hash c p o fuel wfuel s (with_inputs a [path])
    = Ok (hex (spec_xof blake_compress m bs (asked_length a)) ++ [10], 0, s1) /\
    cli_hash c' p' o' fuel wfuel t (with_inputs a [path'])
    = Ok (hex (spec_xof blake_compress m bs (asked_length a)) ++ [10], 0, t1).
Proof. exact same_content. Qed.

(* Without inputs, standard input is hashed. *)
Theorem C27_stdin : forall S F (o : os S F) c p a m s bs s',
  platform_ok c p -> asked_mode a m -> asked_length a < 2 ^ 63 -> a_inputs a = [] ->
  sees c o s None bs s' -> bytes bs -> len bs < 2 ^ 64 ->
  exists fuel0, forall fuel wfuel, (fuel0 <= fuel)%nat -> (1 <= wfuel)%nat ->
    cli_hash c p o fuel wfuel s a
    = Ok (hex (spec_xof blake_compress m bs (asked_length a)) ++ [10], 0, s').
Proof. exact cli_stdin. Qed.
Theorem C27_stdin_fails : forall S F (o : os S F) c p a m s e s',
  platform_ok c p -> asked_mode a m -> a_inputs a = [] -> unreadable c o s None e s' ->
  exists fuel0, forall fuel wfuel, (fuel0 <= fuel)%nat -> (1 <= wfuel)%nat ->
    cli_hash c p o fuel wfuel s a = Ok ([], 1, s').
Proof. exact cli_stdin_fails. Qed.

(* "-" is standard input; a file of that name can be reached as "./-". *)
Theorem C27_dash : forall p, is_dash p = true <-> means_stdin (Some p).
Proof. exact is_dash_iff. Qed.

(* A system with one file, of the given kind and content, which is also standard input;
   reads give at most 1000 bytes and are interrupted at position 1000 once.  The state is
   the position and whether the interruption has happened.  Other paths do not exist;
   the path "d" can be opened but not read. *)
Definition one_read (content : list N) (s : N * bool) (n : N) : read_result * (N * bool) :=
  if (fst s =? 1000) && negb (snd s) then (ReadInterrupted, (fst s, true))
  else let data := take (N.min 1000 n) (drop (fst s) content) in
       (ReadOk data, (fst s + len data, snd s)).
Definition one_file (regular : bool) (content : list N) : os (N * bool) bool :=
  Os _ _
    (fun s path => match path with
                   | [102] => (IoOk true, (0, snd s))
                   | [100] => (IoOk false, s)
                   | _ => (IoErr 2, s) end)
    (fun s f => if f : bool then (IoOk (regular, len content), s) else (IoOk (false, 0), s))
    (fun s f n => (IoOk (take n content), s))
    (fun s f n => if f : bool then one_read content s n else (ReadErr 21, s))
    (one_read content)
    (fun e => [69; 48 + e / 10; 48 + e mod 10])
    (fun path => path).

Lemma not_stdin : forall ch r, ch <> 45 -> ~ means_stdin (Some (ch :: r)).
Proof. intros ch r H (rest & E & _). congruence. Qed.

Example C27_example :
  let k := sample 2500 in
  sees (Cfg true true true) (one_file true k) (7, false) (Some [102]) k (0, false) /\
  sees (Cfg false false true) (one_file false k) (7, false) (Some [102]) k (2500, true) /\
  sees (Cfg false false true) (one_file false k) (0, false) (Some [45]) k (2500, true) /\
  sees (Cfg false false true) (one_file false k) (0, false) None k (2500, true) /\
  bytes k /\ len k < 2 ^ 64.
Proof.
  cbv zeta.
  assert (Lk : len (sample 2500) = 2500) by apply sample_len.
  assert (R : delivers (one_read (sample 2500)) 8192 (0, false) (sample 2500) (2500, true) /\
     at_eof (one_read (sample 2500)) 8192 (2500, true) (2500, true)).
  { split; [|reflexivity].
    replace (sample 2500) with
      (take 1000 (sample 2500) ++ take 1000 (drop 1000 (sample 2500)) ++ take 1000 (drop 2000 (sample 2500)) ++ [])
      at 2 by (vm_compute; reflexivity).
    eapply del_data; [reflexivity|vm_compute; discriminate|vm_compute; discriminate|].
    eapply del_interrupted; [reflexivity|].
    eapply del_data; [reflexivity|vm_compute; discriminate|vm_compute; discriminate|].
    eapply del_data; [reflexivity|vm_compute; discriminate|vm_compute; discriminate|].
    replace (_, _) with (2500, true) by (vm_compute; reflexivity). constructor. }
  destruct R as [R1 R2].
  split.
  { eapply sees_mapped; [apply not_stdin; discriminate|reflexivity|reflexivity| | | |]; rewrite ?Lk.
    - reflexivity.
    - vm_compute; discriminate.
    - cbn [os_map one_file]. rewrite take_all by (rewrite Lk; apply N.le_refl). reflexivity.
    - reflexivity. }
  split.
  { eapply sees_streamed; [apply not_stdin; discriminate|reflexivity|reflexivity|now left|exact R1|exact R2]. }
  split.
  { eapply sees_stdin; [exists []; repeat constructor|exact R1|exact R2]. }
  split.
  { eapply sees_stdin; [exact I|exact R1|exact R2]. }
  split; [apply sample_bytes|rewrite Lk; reflexivity].
Qed.
Example C27_dash_example :
  is_dash [45] = true /\ is_dash [45; 47; 46] = true /\ is_dash [46; 47; 45] = false /\
  is_dash [45; 97] = false /\ is_dash [47; 45] = false.
Proof. repeat split. Qed.

(* ---- C28 ------------------------------------------------------------------------ *)

(* For a length n below 2^63 exactly the hex text of the first n bytes of the stream is
   printed: 2n lower-case digits. *)
Theorem C28_print_hex : forall c p m input n,
  platform_ok c p -> mode_ok m -> bytes input -> len input < WU c -> n < 2 ^ 63 ->
  exists o fuel0, oneshot_xof c p m input = Ok o /\
    forall fuel, (fuel0 <= fuel)%nat ->
      exists o', print_hex c fuel o n = Ok (o', hex (spec_xof blake_compress m input n)).
Proof. exact print_hex_oneshot. Qed.
Theorem C28_text : forall m input n, mode_ok m -> bytes input ->
  len (hex (spec_xof blake_compress m input n)) = 2 * n /\
  Forall lower_hex (hex (spec_xof blake_compress m input n)) /\
  unhex (hex (spec_xof blake_compress m input n)) = Some (spec_xof blake_compress m input n).
Proof. exact xof_text. Qed.

Example C28_example :
  platform_ok (Cfg true true true) PSSE41 /\ mode_ok (Keyed sample_key) /\ bytes (sample 70) /\
  2 ^ 63 - 1 < 2 ^ 63.
Proof. exact (conj eq_refl (conj sample_key_ok (conj (sample_bytes 70) eq_refl))). Qed.

(* ---- C29 ------------------------------------------------------------------------ *)

(* The length is a u64, but not every u64 length works: *)
Theorem C29_every_length_refuted :
  ~ (forall c p m input n o, platform_ok c p -> mode_ok m -> bytes input -> len input < WU c ->
       n < 2 ^ 64 -> oneshot_xof c p m input = Ok o ->
       exists fuel o', print_hex c fuel o n = Ok (o', hex (spec_xof blake_compress m input n))).
Proof. exact length_refuted. Qed.

(* for every n of at least 2^63 a debug build panics and a release build prints n - 2^63
   bytes and reports success *)
Theorem C29_big_lengths : forall S F (o : os S F) c p a m s bs s' n,
  platform_ok c p -> asked_mode a m -> a_inputs a = [] ->
  a_length a = Some n -> 2 ^ 63 <= n < 2 ^ 64 ->
  sees c o s None bs s' -> bytes bs -> len bs < 2 ^ 64 ->
  exists fuel0, forall fuel wfuel, (fuel0 <= fuel)%nat -> (1 <= wfuel)%nat ->
    cli_hash c p o fuel wfuel s a
    = if dbg c then Panic
      else Ok (hex (spec_xof blake_compress m bs (n - 2 ^ 63)) ++ [10], 0, s').
Proof. exact cli_big. Qed.

Example C29_example :
  2 ^ 63 <= 2 ^ 63 + 3 < 2 ^ 64 /\
  sees (Cfg true true true) (one_file true []) (0, false) None [] (0, false).
Proof.
  split; [split; [discriminate|reflexivity]|].
  eapply sees_stdin; [exact I|constructor|reflexivity].
Qed.

(* With inputs: a release build prints every line, each with n - 2^63 bytes of hash; a debug build
   panics unless no input can be read, in which case there are only error lines. *)
Theorem C29_big_lengths_inputs : forall S F (o : os S F) c p a m s xs s' n,
  platform_ok c p -> asked_mode a m -> a_inputs a <> [] ->
  a_length a = Some n -> 2 ^ 63 <= n < 2 ^ 64 -> reading c o s (a_inputs a) xs s' ->
  exists fuel0, forall fuel wfuel, (fuel0 <= fuel)%nat -> (1 <= wfuel)%nat ->
    cli_hash c p o fuel wfuel s a
    = if dbg c && negb (forallb failed xs) then Panic
      else Ok (concat (map (fun x => line o m (n - 2 ^ 63) (1 <? len (a_inputs a)) (fst x) (snd x))
                           (combine (a_inputs a) xs)),
               if existsb failed xs then 1 else 0, s').
Proof. exact cli_big_inputs. Qed.

(* a missing file and a readable one (C31_example has their reading), asking for 2^63 + 1 bytes *)
Example C29_inputs_run :
  let run (debug : bool) := cli_hash (Cfg debug false true) PPortable (one_file true [1]) 9 9 (0, false)
    (Args [[120]; [102]] false None None (Some (2 ^ 63 + 1)) false) in
  run true = Panic /\
  run false = Ok ([98; 97; 111; 58; 32; 120; 58; 32; 69; 48; 50; 10] ++
    hex (take 1 (spec_hash blake_compress Hashing [1])) ++ [32; 32; 102; 10], 1, (0, false)).
Proof. split; vm_compute; reflexivity. Qed.

(* ---- C30 ------------------------------------------------------------------------ *)

(* If the key is not 64 hex digits the tool ends with status 1 and prints no hash, and the
   system's state is untouched: no file was opened and nothing was read. *)
Theorem C30_bad_key : forall S F (o : os S F) c p a k s fuel wfuel,
  (a_key a = Some k \/ a_key a = None /\ a_derive_key a = Some k) ->
  ~ (len k = 64 /\ exists key, unhex k = Some key) ->
  cli_hash c p o fuel wfuel s a = Ok ([], 1, s).
Proof. exact cli_bad_key. Qed.

(* If it is, the decoded key is used, in the keyed mode for --key and the derivation mode
   for --derive-key (asked_mode in CliSpec), for every input: C31_every_input below. *)
Example C30_example :
  let k := hex sample_key in
  asked_mode (Args [] false (Some k) None None false) (Keyed sample_key) /\
  asked_mode (Args [] false None (Some k) None false) (Deriving sample_key) /\
  ~ (len (drop 1 k) = 64 /\ exists key, unhex (drop 1 k) = Some key) /\
  ~ (len (103 :: drop 1 k) = 64 /\ exists key, unhex (103 :: drop 1 k) = Some key).
Proof.
  cbv zeta. repeat split; try (exists sample_key; repeat split; reflexivity).
  - intros [L _]. discriminate L.
  - intros [_ [key E]]. discriminate E.
Qed.

(* ---- C31 ------------------------------------------------------------------------ *)

(* Whatever happened to each input (xs: its content or an error), the text printed is the
   inputs' lines in order, each line depending on that input alone, and the exit status is
   1 exactly if one failed. *)
Theorem C31_every_input : forall S F (o : os S F) c p a m s xs s',
  platform_ok c p -> asked_mode a m -> asked_length a < 2 ^ 63 -> a_inputs a <> [] ->
  reading c o s (a_inputs a) xs s' ->
  exists fuel0, forall fuel wfuel, (fuel0 <= fuel)%nat -> (1 <= wfuel)%nat ->
    cli_hash c p o fuel wfuel s a
    = Ok (concat (map (fun x => line o m (asked_length a) (1 <? len (a_inputs a)) (fst x) (snd x))
                      (combine (a_inputs a) xs)),
          if existsb failed xs then 1 else 0, s').
Proof. exact cli_inputs. Qed.

(* a missing file, a readable one, a directory, the readable one again *)
Example C31_example :
  reading (Cfg true true true) (one_file true (sample 100)) (0, false) [[120]; [102]; [100]; [102]]
    [Failure 2; Content (sample 100); Failure 21; Content (sample 100)] (0, false).
Proof.
  assert (A : forall s, sees (Cfg true true true) (one_file true (sample 100)) s (Some [102]) (sample 100) (0, snd s)).
  { intros s. eapply sees_mapped; [apply not_stdin; discriminate|reflexivity|reflexivity|reflexivity
      |vm_compute; discriminate|reflexivity|reflexivity]. }
  eapply reading_failure; [apply no_open; [apply not_stdin; discriminate|reflexivity]|].
  eapply reading_content; [apply A|apply sample_bytes|reflexivity|].
  eapply reading_failure.
  { eapply no_read; [apply not_stdin; discriminate|reflexivity|reflexivity|now left|constructor|constructor
      |reflexivity|reflexivity]. }
  eapply reading_content; [apply A|apply sample_bytes|reflexivity|]. constructor.
Qed.
(* and what is printed for it, with --length=2 *)
Example C31_run :
  cli_hash (Cfg true false true) PPortable (one_file true [1]) 9 9 (0, false)
    (Args [[120]; [102]; [100]; [102]] false None None (Some 2) false)
  = Ok ([98; 97; 111; 58; 32; 120; 58; 32; 69; 48; 50; 10] ++
        hex (take 2 (spec_hash blake_compress Hashing [1])) ++ [32; 32; 102; 10] ++
        [98; 97; 111; 58; 32; 100; 58; 32; 69; 50; 49; 10] ++
        hex (take 2 (spec_hash blake_compress Hashing [1])) ++ [32; 32; 102; 10], 1, (0, false)).
Proof. vm_compute. reflexivity. Qed.

Print Assumptions C27_same_content_same_text.
Print Assumptions C27_stdin.
Print Assumptions C27_stdin_fails.
Print Assumptions C27_dash.
Print Assumptions C28_print_hex.
Print Assumptions C28_text.
Print Assumptions C29_every_length_refuted.
Print Assumptions C29_big_lengths.
Print Assumptions C29_big_lengths_inputs.
Print Assumptions C30_bad_key.
Print Assumptions C31_every_input.
