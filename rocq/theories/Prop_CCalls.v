(* C43: which calls of the compression function the C hasher makes.  CCalls.v is the C code
   with a list of its calls, Calls.v the calls of the specified tree hash. *)
From Coq Require Import NArith List Bool Lia Permutation.
From Verif Require Import Base BaseFacts Spec Calls Portable Platform Lib SessionSpec Session LibCalls.
From Verif Require Import CSimd CImpl CSpec CCalls CCallFacts Extract Samples.
Import ListNotations.
Open Scope N_scope.

(* The code with the list of calls returns what the code returns, for all arguments: also
   when it aborts, and whatever was in the list before. *)
Theorem C43_traced_code : forall o memory key flags us s,
  snd (n_hash o memory key flags us s) = c_hash o memory key flags us.
Proof. exact c_erased. Qed.

(* For every choice of backends and every size_t, and however the input is cut, the C hasher
   makes exactly the calls of the specified tree hash: each once, none twice and no others.
   The limits are those of C20. *)
Theorem C43_c_calls : forall o memory m us,
  mode_ok m -> c_updates_ok us -> len memory = 53 * 32 ->
  (len (c_data us) <= 2 ^ 63 \/ ndebug o = true /\ len (c_data us) < 2 ^ 64) ->
  Permutation (fst (n_hash o memory (bytes_of_words (mode_key m)) (mode_flags m) us []))
              (calls blake_compress m (c_data us)).
Proof. exact c_calls. Qed.

(* These are the calls of the Rust library, on every platform, one-shot or streaming. *)
Theorem C43_same_calls_as_library : forall o memory m us c p g,
  mode_ok m -> c_updates_ok us -> len memory = 53 * 32 ->
  (len (c_data us) <= 2 ^ 63 \/ ndebug o = true /\ len (c_data us) < 2 ^ 64) ->
  platform_ok c p -> fits c g -> data g = c_data us ->
  Permutation (fst (n_hash o memory (bytes_of_words (mode_key m)) (mode_flags m) us []))
              (fst (t_hash c p m g [])).
Proof. exact c_calls_library. Qed.

(* One call for each 64-byte block, at least one, and one for each chunk of 2048 bytes after
   the first. *)
Theorem C43_number_of_calls : forall o memory m us,
  mode_ok m -> c_updates_ok us -> len memory = 53 * 32 ->
  (len (c_data us) <= 2 ^ 63 \/ ndebug o = true /\ len (c_data us) < 2 ^ 64) ->
  len (fst (n_hash o memory (bytes_of_words (mode_key m)) (mode_flags m) us []))
  = N.max 1 ((len (c_data us) + 63) / 64) + (N.max 1 ((len (c_data us) + 2047) / 2048) - 1).
Proof. exact c_count. Qed.

(* The last call, and no other, has the ROOT flag. *)
Theorem C43_root_flag : forall o memory m us,
  mode_ok m -> c_updates_ok us -> len memory = 53 * 32 ->
  (len (c_data us) <= 2 ^ 63 \/ ndebug o = true /\ len (c_data us) < 2 ^ 64) ->
  exists l last, fst (n_hash o memory (bytes_of_words (mode_key m)) (mode_flags m) us []) = l ++ [last] /\
    (forall x, In x l -> N.land (nd_flags x) Spec.ROOT = 0) /\
    N.land (nd_flags last) Spec.ROOT = Spec.ROOT /\ nd_off last = 0.
Proof. exact c_root. Qed.

(* All calls carry the flags of the mode. *)
Theorem C43_mode_bits : forall o memory m us,
  mode_ok m -> c_updates_ok us -> len memory = 53 * 32 ->
  (len (c_data us) <= 2 ^ 63 \/ ndebug o = true /\ len (c_data us) < 2 ^ 64) ->
  forall x, In x (fst (n_hash o memory (bytes_of_words (mode_key m)) (mode_flags m) us [])) ->
  N.land (nd_flags x) (N.lor Spec.KEYED_HASH Spec.DERIVE_KEY) = mode_flags m.
Proof. exact c_mode. Qed.

(* From the calls of a run of the C hasher, among any others, and the hash it returns, the
   procedure of Extract.v reads back the mode, the key and the input (C47). *)
Theorem C47_c_code : forall o memory m us A h,
  mode_ok m -> c_updates_ok us -> len memory = 53 * 32 ->
  (len (c_data us) <= 2 ^ 63 \/ ndebug o = true /\ len (c_data us) < 2 ^ 64) ->
  snd (n_hash o memory (bytes_of_words (mode_key m)) (mode_flags m) us []) = Ok h ->
  incl (fst (n_hash o memory (bytes_of_words (mode_key m)) (mode_flags m) us [])) A ->
  ~ collision blake_compress A A ->
  extract (queries blake_compress A) h = Some (m, c_data us).
Proof. exact c_extract. Qed.

Definition case_opts : copts := COpts false true true false true false false.
Definition case_updates : list (list N * list N) :=
  [(sample 100, sample 512); ([], sample 512); (sample 40000, sample 512); (sample 4096, sample 512)].
Example C43_case :
  mode_ok (Keyed sample_key) /\ c_updates_ok case_updates /\ len (sample 1696) = 53 * 32 /\
  len (c_data case_updates) = 44196 /\ platform_ok (Cfg false true true) PAVX2 /\
  fits (Cfg false true true) (Streaming (map fst case_updates)) /\
  data (Streaming (map fst case_updates)) = c_data case_updates.
Proof.
  split; [apply sample_key_ok|]. split; [|split; [apply sample_len|split; [|split; [reflexivity|split]]]].
  - unfold case_updates. repeat (apply Forall_cons; [cbn [fst snd]; split;
      [first [apply sample_bytes|constructor]|apply sample_len]|]). constructor.
  - unfold c_data, case_updates. cbn [map concat fst]. rewrite !len_app, !sample_len, !len_nil. reflexivity.
  - split; [|unfold case_updates; cbn [map concat fst]; rewrite !len_app, !sample_len, !len_nil; reflexivity].
    unfold case_updates. cbn [map fst data concat]. rewrite !bytes_app.
    repeat split; try apply sample_bytes; constructor.
  - reflexivity.
Qed.

(* a run: a single chunk, where even the order is the same, and the flags of two chunks *)
Example C43_run :
  fst (n_hash case_opts (sample 1696) (bytes_of_words (mode_key Hashing)) (mode_flags Hashing)
         [(sample 100, zeros 512); (sample 30, zeros 512)] [])
  = calls blake_compress Hashing (sample 100 ++ sample 30).
Proof. vm_compute. reflexivity. Qed.
Example C43_run_flags :
  skipn 31 (map nd_flags
    (fst (n_hash case_opts (sample 1696) (bytes_of_words (mode_key Hashing)) (mode_flags Hashing)
         [(sample 2048, zeros 512); ([7], zeros 512)] [])))
  = [2; 1 + 2; 4 + 8].
Proof. vm_compute. reflexivity. Qed.

Print Assumptions C43_traced_code.
Print Assumptions C43_c_calls.
Print Assumptions C43_same_calls_as_library.
Print Assumptions C43_number_of_calls.
Print Assumptions C43_root_flag.
Print Assumptions C43_mode_bits.
Print Assumptions C47_c_code.
