(* C14, C15, C16, C17, C35: the calls of the compression function. *)
From Coq Require Import NArith List Bool Lia.
From Verif Require Import Base Spec Calls Portable Platform Lib Session.
From Verif Require Import SecurityFacts Samples.
Import ListNotations.
Open Scope N_scope.

(* Calls.v lists the calls the specified hash makes.  The list is complete: the hash, and
   the list, depend on the compression function only through them. *)
Theorem calls_determine : forall F G m input,
  Forall (fun x =>
    F (nd_cv x) (nd_block x) (nd_blen x) (nd_off x) (nd_flags x)
    = G (nd_cv x) (nd_block x) (nd_blen x) (nd_off x) (nd_flags x)) (calls F m input) ->
  spec_hash F m input = spec_hash G m input /\ calls F m input = calls G m input.
Proof. exact calls_local. Qed.
(* and the hash is the result of the last call *)
Theorem hash_is_last_call : forall F m input,
  spec_hash F m input = call_result F (root_call F m input 0).
Proof. exact hash_is_root_result. Qed.

(* a compression function for the examples: the words of the block, truncated and mixed
   with the other inputs *)
Definition toy : cfun := fun cv block blen off flags =>
  map (fun i => (nth i cv 0 + 3 * nth i (words_of_bytes block) 0 + blen + 5 * off + 7 * flags) mod W32)
      (seq 0 16).
Example toy_ok : cfun_ok toy /\ cfun_ok blake_compress.
Proof.
  split; [|exact blake_ok]. intros cv block blen off flags _. unfold toy.
  rewrite map_length, seq_length. reflexivity.
Qed.

(* ---- C14 ------------------------------------------------------------------------ *)

(* Every call of a mode carries that mode's bits, *)
Theorem C14_mode_bits : forall F m input n x, In x (xof_calls F m input n) ->
  N.land (nd_flags x) (N.lor Spec.KEYED_HASH Spec.DERIVE_KEY) = mode_flags m.
Proof. exact call_mode. Qed.
(* so no call is made in two different modes, whatever the inputs and the keys. *)
Theorem C14_modes_disjoint : forall F G m m' x y n n' a, mode_flags m <> mode_flags m' ->
  In a (xof_calls F m x n) -> ~ In a (xof_calls G m' y n').
Proof. exact modes_disjoint. Qed.

Example C14_example :
  mode_flags Hashing <> mode_flags (Keyed sample_key) /\
  mode_flags (Keyed sample_key) <> mode_flags (Deriving sample_key) /\
  mode_flags Hashing <> mode_flags (Deriving sample_key) /\
  map (fun x => (nd_blen x, nd_off x, nd_flags x)) (xof_calls toy (Keyed sample_key) (sample 200) 2)
  = [(64, 0, 17); (64, 0, 16); (64, 0, 16); (8, 0, 26); (8, 64, 26)].
Proof. repeat split; try discriminate. Qed.

(* ---- C15 ------------------------------------------------------------------------ *)

(* The calls below the root do not carry the ROOT flag, the calls for the output do. *)
Theorem C15_root_flag : forall F m input,
  (forall x, In x (interior_calls F m input) -> N.land (nd_flags x) Spec.ROOT = 0) /\
  (forall k, N.land (nd_flags (root_call F m input k)) Spec.ROOT = Spec.ROOT).
Proof. exact root_only. Qed.
(* So a call below the root of one input is never a root call of another, *)
Theorem C15_root_separate : forall F m m' x y a k, In a (interior_calls F m x) ->
  a <> root_call F m' y k.
Proof. exact interior_not_root. Qed.
(* and if the result of a call below the root is some input's hash, that is a collision. *)
Theorem C15_interior_hash_collides : forall F m m' x y a, In a (interior_calls F m x) ->
  call_result F a = spec_hash F m' y -> collision F (calls F m x) (calls F m' y).
Proof. exact interior_hash. Qed.

(* three chunks: the flags and offsets of the last calls are those of a tree *)
Example C15_example :
  map (fun x => (nd_blen x, nd_off x, nd_flags x)) (skipn 60 (calls toy Hashing (sample 4100)))
  = [(64, 2048, 0); (64, 2048, 0); (64, 2048, 0); (64, 2048, 2); (64, 0, 4); (4, 4096, 3); (64, 0, 12)].
Proof. vm_compute. reflexivity. Qed.

(* ---- C17, C16 --------------------------------------------------------------------- *)

(* If two hashes are equal, then the modes, keys and inputs are equal, or two different
   calls made for them have the same result.  First for every compression function, *)
Theorem C17_collision_reduction : forall F, cfun_ok F -> forall m m' x y, mode_ok m -> mode_ok m' ->
  spec_hash F m x = spec_hash F m' y ->
  (m = m' /\ x = y) \/ collision F (calls F m x) (calls F m' y).
Proof. exact collision_reduction. Qed.
(* then for what the one-shot functions return, on any two platforms. *)
Theorem C17_code_collision_reduction : forall c c' p p' m m' x y,
  platform_ok c p -> platform_ok c' p' -> mode_ok m -> mode_ok m' ->
  bytes x -> bytes y -> len x < WU c -> len y < WU c' ->
  oneshot c p m x = oneshot c' p' m' y ->
  (m = m' /\ x = y) \/
  collision blake_compress (calls blake_compress m x) (calls blake_compress m' y).
Proof. exact code_collision. Qed.

Theorem C16_collision_reduction : forall c p m x y, platform_ok c p -> mode_ok m ->
  bytes x -> bytes y -> len x < WU c -> len y < WU c -> x <> y ->
  oneshot c p m x = oneshot c p m y ->
  collision blake_compress (calls blake_compress m x) (calls blake_compress m y).
Proof. exact code_collision_same. Qed.

(* the hypotheses can be met: a compression function that ignores the length of the block
   gives different inputs the same hash, and the theorem's collision is there *)
Definition weak : cfun := fun cv block blen off flags => firstn 16 (block ++ cv ++ zeros 8).
Example C17_example :
  cfun_ok weak /\ zeros 100 <> zeros 90 /\
  spec_hash weak Hashing (zeros 100) = spec_hash weak Hashing (zeros 90) /\
  collision weak (calls weak Hashing (zeros 100)) (calls weak Hashing (zeros 90)).
Proof.
  split; [|split; [vm_compute; discriminate|split; [reflexivity|]]].
  - intros cv block blen off flags H. unfold weak.
    rewrite firstn_length, !app_length, H. change (length (zeros 8)) with 8%nat. lia.
  - exists (root_call weak Hashing (zeros 100) 0), (root_call weak Hashing (zeros 90) 0).
    split; [apply in_or_app; right; now left|]. split; [apply in_or_app; right; now left|].
    split; [vm_compute; discriminate|reflexivity].
Qed.
(* and the hypotheses of the code's theorem, up to the equality of two hashes that
   nobody can exhibit *)
Example C16_example :
  platform_ok (Cfg false true true) PAVX2 /\ mode_ok (Keyed sample_key) /\
  bytes (sample 3000) /\ bytes (sample 3001) /\ len (sample 3000) < WU (Cfg false true true) /\
  sample 3000 <> sample 3001.
Proof.
  rewrite sample_len. repeat split; try reflexivity; try apply sample_bytes; try apply sample_key_ok.
  intros E. apply (f_equal len) in E. rewrite !sample_len in E. discriminate.
Qed.

(* ---- C35 ------------------------------------------------------------------------ *)

(* One call per 64-byte block, at least one, and one per parent: one less than the number
   of chunks.  C35_number_of_calls in Prop_Calls is the same for the code. *)
Theorem C35_spec_number_of_calls : forall F m input,
  len (calls F m input)
  = N.max 1 ((len input + 63) / 64) + (N.max 1 ((len input + 2047) / 2048) - 1).
Proof. exact calls_len. Qed.

Example C35_example :
  len (calls toy Hashing []) = 1 /\ len (calls toy Hashing (sample 2048)) = 32 /\
  len (calls toy Hashing (sample 4097)) = 65 + 2.
Proof. vm_compute. repeat split. Qed.

Print Assumptions calls_determine.
Print Assumptions C14_modes_disjoint.
Print Assumptions C15_root_flag.
Print Assumptions C15_interior_hash_collides.
Print Assumptions C17_collision_reduction.
Print Assumptions C17_code_collision_reduction.
Print Assumptions C16_collision_reduction.
Print Assumptions C35_spec_number_of_calls.
Print Assumptions hash_is_last_call.
Print Assumptions C14_mode_bits.
Print Assumptions C15_root_separate.
