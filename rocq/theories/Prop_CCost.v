(* C56: what a single call of the C hasher costs, whatever was fed before.  CCalls.v notes the
   calls of the compression function. *)
From Coq Require Import NArith List Bool Lia.
From Verif Require Import Base BaseFacts Spec LibCalls CSimd CImpl CSpec CCalls CCostFacts Samples.
Import ListNotations.
Open Scope N_scope.

(* hasher_update makes at most one call for every 64 bytes of its argument and one for every 2048, and 56 more:
   work put off by earlier updates is never more than the hashes that fit in the hasher. *)
Theorem C56_update_cost : forall o memory m us input junk,
  mode_ok m -> c_updates_ok us -> bytes input -> len junk = 16 * 32 -> len memory = 53 * 32 ->
  (len (c_data us) + len input <= 2 ^ 63 \/
   ndebug o = true /\ len (c_data us) + len input < 2 ^ 64) ->
  exists h h' log,
    c_updates o (hasher_init memory (bytes_of_words (mode_key m)) (mode_flags m)) us = Ok h /\
    n_hasher_update o junk h input [] = (log, Ok h') /\
    len log <= len input / 64 + len input / 2048 + 56.
Proof. exact c_update_cost. Qed.

(* hasher_finalize makes at most 54 calls and returns the tree hash; the hasher holds at most 53 hashes. *)
Theorem C56_finalize_cost : forall o memory m us,
  mode_ok m -> c_updates_ok us -> len memory = 53 * 32 ->
  (len (c_data us) <= 2 ^ 63 \/ ndebug o = true /\ len (c_data us) < 2 ^ 64) ->
  exists h log,
    c_updates o (hasher_init memory (bytes_of_words (mode_key m)) (mode_flags m)) us = Ok h /\
    n_hasher_finalize o h [] = (log, Ok (spec_hash blake_compress m (c_data us))) /\
    len log <= 54 /\ c_stack_len h <= 53 /\ len (c_stack h) = 53 * 32.
Proof. exact c_finalize_cost. Qed.

(* one byte after a whole chunk: the update compresses the last block of the chunk, which was put off, and
   finalize then compresses the second chunk and the root *)
Definition cost_opts : copts := COpts false false false false false false false.
Definition cost_updates : list (list N * list N) :=
  [(sample 2000, zeros 512); (sample 48, zeros 512)].
Example C56_hypotheses :
  mode_ok (Keyed sample_key) /\ c_updates_ok cost_updates /\ bytes (sample 10) /\
  len (zeros 512) = 16 * 32 /\ len (sample 1696) = 53 * 32 /\
  len (c_data cost_updates) + len (sample 10) <= 2 ^ 63.
Proof.
  split; [apply sample_key_ok|]. split.
  - unfold cost_updates. repeat (apply Forall_cons; [cbn [fst snd]; split; [apply sample_bytes|reflexivity]|]).
    constructor.
  - split; [apply sample_bytes|]. split; [reflexivity|]. split; [apply sample_len|].
    unfold c_data, cost_updates. cbn [map concat fst]. rewrite !len_app, !sample_len, len_nil.
    apply N.leb_le. reflexivity.
Qed.
Example C56_case :
  match c_updates cost_opts (hasher_init (zeros 1696) (bytes_of_words (mode_key Hashing)) 0) cost_updates with
  | Ok h => match n_hasher_update cost_opts (zeros 512) h [7] [] with
            | (log, Ok h') => len log = 1 /\ c_stack_len h' = 1 /\
                              len (fst (n_hasher_finalize cost_opts h' [])) = 2
            | _ => False
            end
  | _ => False
  end.
Proof. vm_compute. repeat split. Qed.

Print Assumptions C56_update_cost.
Print Assumptions C56_finalize_cost.
