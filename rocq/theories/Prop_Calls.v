(* C14, C15, C35 for the code itself: which calls of the compression function the Rust
   functions make.  LibCalls.v is the code with a list of its calls, Calls.v the calls of
   the specified tree hash. *)
From Coq Require Import NArith List Bool Lia Permutation.
From Verif Require Import Base BaseFacts Spec Calls Portable Platform Lib SessionSpec Session LibCalls.
From Verif Require Import CallFacts Samples.
Import ListNotations.
Open Scope N_scope.

(* The code with the list of calls returns what the code returns, for all arguments: also
   when it panics, and whatever was in the list before. *)
Theorem traced_code : forall c p m s,
  (forall input, snd (t_hash c p m (OneShot input) s) = oneshot c p m input) /\
  (forall inputs, snd (t_hash c p m (Streaming inputs) s)
     = (let* h := feed c (start p m) inputs in finalize c h)) /\
  (forall input n, snd (t_xof c p m (OneShot input) n s)
     = (let* o := oneshot_xof c p m input in reads c n o)) /\
  (forall inputs n, snd (t_xof c p m (Streaming inputs) n s)
     = (let* h := feed c (start p m) inputs in let* o := finalize_xof c h in reads c n o)).
Proof. exact erased. Qed.

(* One-shot or streaming, on every platform, in debug and release builds, the code makes
   exactly the calls of the specified tree hash: each once, none twice and no others. *)
Theorem code_calls : forall c p m g n, platform_ok c p -> mode_ok m -> fits c g ->
  N.of_nat n < MAX_BLOCKS ->
  Permutation (fst (t_hash c p m g [])) (calls blake_compress m (data g)) /\
  Permutation (fst (t_xof c p m g n [])) (xof_calls blake_compress m (data g) n).
Proof. exact program_calls. Qed.

Definition avx2_cfg : cfg := Cfg false true true.
Definition small_cfg : cfg := Cfg true false false.
Definition pieces_program : program := Streaming [sample 1; sample 4096; []; sample 3000].
Definition whole_program : program := OneShot (sample 18433).
Example calls_example :
  platform_ok avx2_cfg PAVX2 /\ platform_ok small_cfg PPortable /\ mode_ok (Keyed sample_key) /\
  fits avx2_cfg pieces_program /\ fits small_cfg whole_program.
Proof.
  split; [reflexivity|]. split; [reflexivity|]. split; [apply sample_key_ok|]. split.
  - split; [|vm_compute; reflexivity]. cbn [data concat pieces_program].
    rewrite !bytes_app. repeat split; try apply sample_bytes; constructor.
  - split; [apply sample_bytes|]. cbn [whole_program]. rewrite sample_len. reflexivity.
Qed.
(* a run; for a single chunk even the order is the same *)
Example calls_run :
  fst (t_hash small_cfg PPortable Hashing (Streaming [sample 100; sample 30]) [])
  = calls blake_compress Hashing (sample 100 ++ sample 30).
Proof. vm_compute. reflexivity. Qed.

(* ---- C35 ---- *)

(* The number of calls for a hash is the number of 64-byte blocks (at least one), plus one
   for each parent: one less than the number of 2048-byte chunks.  n blocks of extended
   output instead of the hash take n calls instead of one. *)
Theorem C35_number_of_calls : forall c p m g n, platform_ok c p -> mode_ok m -> fits c g ->
  N.of_nat n < MAX_BLOCKS ->
  len (fst (t_hash c p m g []))
  = N.max 1 ((len (data g) + 63) / 64) + (N.max 1 ((len (data g) + 2047) / 2048) - 1) /\
  len (fst (t_xof c p m g n [])) + 1 = len (fst (t_hash c p m g [])) + N.of_nat n.
Proof. exact program_count. Qed.

Example C35_code_example :
  len (fst (t_hash small_cfg PPortable Hashing (OneShot []) [])) = 1 /\
  len (fst (t_hash avx2_cfg PAVX2 (Keyed sample_key) (Streaming [sample 2000; sample 49]) [])) = 33 + 1 /\
  len (fst (t_xof small_cfg PPortable Hashing (OneShot (sample 65)) 3 [])) = 1 + 3.
Proof. vm_compute. repeat split. Qed.

(* ---- C14 ---- *)

(* All calls of a run carry the flags of its mode, *)
Theorem C14_code_mode_bits : forall c p m g n, platform_ok c p -> mode_ok m -> fits c g ->
  N.of_nat n < MAX_BLOCKS ->
  forall x, In x (fst (t_hash c p m g [])) \/ In x (fst (t_xof c p m g n [])) ->
  N.land (nd_flags x) (N.lor Spec.KEYED_HASH Spec.DERIVE_KEY) = mode_flags m.
Proof. exact program_mode. Qed.
(* so two runs in different modes never make the same call, whatever the keys and inputs,
   the builds and the platforms. *)
Theorem C14_code_modes_disjoint : forall c p m g n c' p' m' g' n',
  platform_ok c p -> mode_ok m -> fits c g -> N.of_nat n < MAX_BLOCKS ->
  platform_ok c' p' -> mode_ok m' -> fits c' g' -> N.of_nat n' < MAX_BLOCKS ->
  mode_flags m <> mode_flags m' ->
  forall x, In x (fst (t_hash c p m g [])) \/ In x (fst (t_xof c p m g n [])) ->
            In x (fst (t_hash c' p' m' g' [])) \/ In x (fst (t_xof c' p' m' g' n' [])) -> False.
Proof. exact programs_disjoint. Qed.

Example C14_code_example :
  mode_flags (Keyed sample_key) <> mode_flags (Deriving sample_key) /\
  fst (t_hash small_cfg PPortable (Keyed sample_key) (OneShot [1]) [])
  <> fst (t_hash small_cfg PPortable (Deriving sample_key) (OneShot [1]) []).
Proof. split; [discriminate|]. vm_compute. discriminate. Qed.

(* ---- C15 ---- *)

(* The calls with the ROOT flag are those that produce output, and they come last: one for
   the hash, or one for each block of extended output, with the position as offset. *)
Theorem C15_code_root_flag : forall c p m g n, platform_ok c p -> mode_ok m -> fits c g ->
  N.of_nat n < MAX_BLOCKS ->
  exists l outs, fst (t_xof c p m g n []) = l ++ outs /\
    (forall x, In x l -> N.land (nd_flags x) Spec.ROOT = 0) /\
    Forall (fun x => N.land (nd_flags x) Spec.ROOT = Spec.ROOT) outs /\
    map nd_off outs = map (fun i => 64 * N.of_nat i) (seq 0 n) /\
    exists last, fst (t_hash c p m g []) = l ++ [last] /\
      N.land (nd_flags last) Spec.ROOT = Spec.ROOT /\ nd_off last = 0.
Proof. exact program_root. Qed.

Example C15_code_example :
  map (fun x => N.land (nd_flags x) Spec.ROOT)
      (fst (t_xof small_cfg PPortable Hashing (Streaming [sample 100; sample 100]) 2 []))
  = [0; 0; 0; 8; 8].
Proof. vm_compute. reflexivity. Qed.

Print Assumptions traced_code.
Print Assumptions code_calls.
Print Assumptions C35_number_of_calls.
Print Assumptions C14_code_mode_bits.
Print Assumptions C14_code_modes_disjoint.
Print Assumptions C15_code_root_flag.
