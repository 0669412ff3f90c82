(* C47: reading an input off its hash.  Somebody who computes a hash of this design has to
   make the compression calls of its tree (C35), and from those calls and the hash alone the
   mode, the key and the input can be read back.  Extract.v is the procedure. *)
From Coq Require Import NArith List Bool Lia.
From Verif Require Import Base BaseFacts Spec SessionSpec Calls Extract.
From Verif Require Import Portable Platform Lib Session LibCalls ExtractFacts Samples Prop_Security.
Import ListNotations.
Open Scope N_scope.

(* Let A be any list of calls, in any order and among any others, that contains the calls of
   an input.  If no two calls in A have the same result, the procedure finds the input: it is
   given only the calls with their results and the hash. *)
Theorem C47_extracts : forall F A m input, cfun_ok F -> mode_ok m ->
  incl (calls F m input) A -> ~ collision F A A ->
  extract (queries F A) (spec_hash F m input) = Some (m, input).
Proof. exact extract_complete. Qed.

(* What it finds is right, without any condition on the calls. *)
Theorem C47_extracted : forall F A h m input, extract (queries F A) h = Some (m, input) ->
  mode_ok m /\ incl (calls F m input) A /\ spec_hash F m input = h.
Proof. exact extract_sound. Qed.

(* So when it finds nothing, whoever presents an input with that hash needs further calls. *)
Theorem C47_nothing_extracted : forall F A h, cfun_ok F -> ~ collision F A A ->
  extract (queries F A) h = None ->
  forall m input, mode_ok m -> spec_hash F m input = h -> ~ incl (calls F m input) A.
Proof. exact extract_none. Qed.

(* For the code: from the calls a run makes, one-shot or streaming, on any platform, and
   the hash it returns, *)
Theorem C47_code : forall c p m g A h, platform_ok c p -> mode_ok m -> fits c g ->
  snd (t_hash c p m g []) = Ok h -> incl (fst (t_hash c p m g [])) A ->
  ~ collision blake_compress A A ->
  extract (queries blake_compress A) h = Some (m, data g).
Proof. exact extract_program. Qed.
(* and what is found hashes to the hash. *)
Theorem C47_code_extracted : forall c p A h m input, platform_ok c p -> bytes input ->
  len input < WU c -> extract (queries blake_compress A) h = Some (m, input) ->
  oneshot c p m input = Ok h.
Proof. exact extract_input. Qed.

(* toy's calls for 130 bytes, in reverse order after a call of something else *)
Definition other_call : node := Nd (zeros 8) (zeros 64) 64 0 0.
Definition seen_calls : list node := other_call :: rev (calls toy (Keyed sample_key) (sample 130)).
Example C47_example :
  incl (calls toy (Keyed sample_key) (sample 130)) seen_calls /\
  ~ collision toy seen_calls seen_calls /\
  extract (queries toy seen_calls) (spec_hash toy (Keyed sample_key) (sample 130))
  = Some (Keyed sample_key, sample 130) /\
  extract (queries toy [other_call]) (spec_hash toy (Keyed sample_key) (sample 130)) = None.
Proof.
  split; [|split; [|split]].
  - intros x Hx. right. now apply in_rev in Hx.
  - apply distinct_results.
    assert (E : map (fun x => hd 0 (call_result toy x)) seen_calls = [64; 95; 39; 183])
      by (vm_compute; reflexivity).
    rewrite E. repeat constructor; cbn; intuition discriminate.
  - vm_compute. reflexivity.
  - vm_compute. reflexivity.
Qed.
(* with a collision among the calls the input need not be found: weak, which ignores the
   length of the block, has the same calls up to that length for two inputs *)
Example C47_collision_example :
  incl (calls weak Hashing (zeros 50)) (calls weak Hashing (zeros 40) ++ calls weak Hashing (zeros 50)) /\
  extract (queries weak (calls weak Hashing (zeros 40) ++ calls weak Hashing (zeros 50)))
    (spec_hash weak Hashing (zeros 50)) = Some (Hashing, zeros 40).
Proof. split; [intros x Hx; apply in_or_app; now right|vm_compute; reflexivity]. Qed.
(* the hypotheses for the code, up to the absence of collisions *)
Example C47_code_example :
  platform_ok (Cfg false true true) PAVX2 /\ mode_ok (Keyed sample_key) /\
  fits (Cfg false true true) (Streaming [sample 1; sample 4096]).
Proof.
  split; [reflexivity|]. split; [apply sample_key_ok|]. split; [|vm_compute; reflexivity].
  cbn [data concat]. rewrite !bytes_app. repeat split; try apply sample_bytes; constructor.
Qed.

Print Assumptions C47_extracts.
Print Assumptions C47_extracted.
Print Assumptions C47_nothing_extracted.
Print Assumptions C47_code.
Print Assumptions C47_code_extracted.
