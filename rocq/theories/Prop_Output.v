(* C09 to C13 and C34: extended output, hash values, Debug. *)
From Coq Require Import NArith List Bool Lia.
From Verif Require Import Base BaseFacts Spec HexSpec Portable Platform Lib SessionSpec Session.
From Verif Require Import ApiFacts HashFacts OneShotFacts Samples.
Import ListNotations.
Open Scope N_scope.

(* ---- C09, C10 --------------------------------------------------------------------- *)

(* The k-th read returns block k of the stream.  After n reads to_hash is the first half
   of block n.  For clones of outputs see C06. *)
Theorem C09_C10_output_stream : forall c p m input n,
  platform_ok c p -> mode_ok m -> bytes input -> len input < WU c -> N.of_nat n < 2 ^ 58 ->
  exists o bs o',
    oneshot_xof c p m input = Ok o /\ reads c n o = Ok (bs, o') /\
    length bs = n /\
    concat bs = spec_xof blake_compress m input (64 * N.of_nat n) /\
    (forall k, (k < n)%nat -> nth_error bs k = Some (spec_block blake_compress m input (N.of_nat k))) /\
    to_hash o' = take 32 (spec_block blake_compress m input (N.of_nat n)) /\
    oneshot c p m input = Ok (to_hash o).
Proof. exact xof_stream. Qed.

(* The same for the output of a hasher fed in any pieces. *)
Theorem C09_C10_hasher_output : forall c p m inputs n,
  platform_ok c p -> mode_ok m -> Forall bytes inputs -> len (concat inputs) < 2 ^ 64 ->
  N.of_nat n < 2 ^ 58 ->
  exists h o bs o',
    feed c (start p m) inputs = Ok h /\ finalize_xof c h = Ok o /\ reads c n o = Ok (bs, o') /\
    length bs = n /\
    concat bs = spec_xof blake_compress m (concat inputs) (64 * N.of_nat n) /\
    (forall k, (k < n)%nat ->
       nth_error bs k = Some (spec_block blake_compress m (concat inputs) (N.of_nat k))) /\
    to_hash o' = take 32 (spec_block blake_compress m (concat inputs) (N.of_nat n)) /\
    finalize c h = Ok (to_hash o).
Proof. exact hasher_stream. Qed.

(* Reading more gives an extension of what reading less gives, and the hash is the first
   32 bytes of the stream. *)
Theorem C09_prefix : forall m input a b, mode_ok m -> bytes input -> a <= b ->
  take a (spec_xof blake_compress m input b) = spec_xof blake_compress m input a.
Proof. exact xof_prefix. Qed.
Theorem C09_hash_is_prefix : forall m input, mode_ok m -> bytes input ->
  spec_hash blake_compress m input = spec_xof blake_compress m input 32.
Proof. exact xof_hash. Qed.

Example C09_example :
  N.of_nat (N.to_nat (2 ^ 58 - 1)) < 2 ^ 58 /\ mode_ok (Keyed sample_key) /\ bytes (sample 5000).
Proof. rewrite N2Nat.id. exact (conj eq_refl (conj sample_key_ok (sample_bytes 5000))). Qed.
Example C09_distinct_blocks :
  spec_block blake_compress Hashing [] 0 <> spec_block blake_compress Hashing [] 1.
Proof. vm_compute. discriminate. Qed.

(* ---- C11 -------------------------------------------------------------------------- *)

(* "An extensible-output hash result, from which you can read any number of bytes"
   (src/lib.rs:216-217) is false: *)
Theorem C11_any_number_of_bytes_refuted :
  ~ (forall c p m input n o, platform_ok c p -> mode_ok m -> bytes input -> len input < WU c ->
       oneshot_xof c p m input = Ok o -> exists bs o', reads c n o = Ok (bs, o')).
Proof. exact any_length_refuted. Qed.

(* for every input, a debug build panics in the 2^58-th read *)
Theorem C11_debug_panics : forall c p m input,
  platform_ok c p -> mode_ok m -> bytes input -> len input < WU c -> dbg c = true ->
  exists o, oneshot_xof c p m input = Ok o /\ reads c (N.to_nat (2 ^ 58)) o = Panic.
Proof. exact xof_debug_panics. Qed.

(* and a release build starts again from the beginning *)
Theorem C11_release_repeats : forall c p m input n,
  platform_ok c p -> mode_ok m -> bytes input -> len input < WU c -> dbg c = false ->
  exists o bs o',
    oneshot_xof c p m input = Ok o /\ reads c n o = Ok (bs, o') /\ length bs = n /\
    forall k, (k < n)%nat ->
      nth_error bs k = Some (spec_block blake_compress m input (N.of_nat k mod 2 ^ 58)).
Proof. exact xof_release_repeats. Qed.

Example C11_example :
  dbg (Cfg true true true) = true /\ dbg (Cfg false true true) = false /\
  N.of_nat (N.to_nat (2 ^ 58)) mod 2 ^ 58 = 0.
Proof. rewrite N2Nat.id. repeat split. Qed.

(* ---- C12 -------------------------------------------------------------------------- *)

(* 64 lower-case digits that decode to the hash *)
Theorem C12_hex : forall h, bytes h -> len h = 32 ->
  exists s, to_hex h = Ok s /\ len s = 64 /\ Forall lower_hex s /\ unhex s = Some h.
Proof. exact hex_faithful. Qed.
Theorem C12_hex_injective : forall a b, bytes a -> bytes b -> len a = 32 -> len b = 32 ->
  to_hex a = to_hex b -> a = b.
Proof. exact to_hex_inj. Qed.
Example C12_example :
  bytes sample_key /\ len sample_key = 32 /\
  to_hex [0; 171; 255] = Ok [48; 48; 97; 98; 102; 102].
Proof. split; [apply sample_bytes|]. split; reflexivity. Qed.

(* ---- C13 -------------------------------------------------------------------------- *)

Theorem C13_equality : forall a b,
  (hash_eq a b = true <-> a = b) /\ (hash_eq_bytes a b = true <-> a = b).
Proof. exact hash_eq_iff. Qed.
Theorem C13_conversions : forall b,
  hash_as_bytes (hash_from_bytes b) = b /\ hash_from_bytes (hash_as_bytes b) = b.
Proof. exact hash_conversions. Qed.
Example C13_example :
  hash_eq sample_key sample_key = true /\ hash_eq sample_key (rev sample_key) = false /\
  hash_eq (sample 31 ++ [7]) (sample 31 ++ [8]) = false.
Proof. repeat split. Qed.

(* ---- C34 -------------------------------------------------------------------------- *)

Theorem C34_debug_reveals_nothing : forall (o1 o2 : output) (h1 h2 : hasher),
  debug_output o1 = debug_output o2 /\ debug_hasher h1 = debug_hasher h2.
Proof. exact debug_constant. Qed.
(* the Debug text of a Hash is "Hash(0x", its hex form, ")" *)
Theorem C34_debug_hash : forall h, bytes h -> len h = 32 ->
  debug_hash h = Ok ([72; 97; 115; 104; 40; 48; 120] ++ hex h ++ [41]).
Proof. exact debug_hash_ok. Qed.
Example C34_example : start PPortable Hashing <> start PPortable (Keyed sample_key).
Proof. discriminate. Qed.

Print Assumptions C09_C10_output_stream.
Print Assumptions C09_C10_hasher_output.
Print Assumptions C09_prefix.
Print Assumptions C09_hash_is_prefix.
Print Assumptions C11_any_number_of_bytes_refuted.
Print Assumptions C11_debug_panics.
Print Assumptions C11_release_repeats.
Print Assumptions C12_hex.
Print Assumptions C12_hex_injective.
Print Assumptions C13_equality.
Print Assumptions C13_conversions.
Print Assumptions C34_debug_reveals_nothing.
Print Assumptions C34_debug_hash.
