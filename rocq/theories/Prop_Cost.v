(* C39: the work of one call and the size of a Hasher do not grow with the amount hashed. *)
From Coq Require Import NArith List Bool Lia.
From Verif Require Import Base BaseFacts Spec Portable Platform Lib SessionSpec Session.
From Verif Require Import LibCalls CostFacts Samples.
Import ListNotations.
Open Scope N_scope.

Definition debug_cfg : cfg := Cfg true true true.

(* Whatever came before, an update makes about one compression per 64 bytes of its own
   input, one per 2048 bytes, and at most 56 others. *)
Theorem C39_update_cost : forall c p m inputs input,
  platform_ok c p -> mode_ok m -> Forall bytes inputs -> bytes input ->
  len (concat inputs) + len input < 2 ^ 64 ->
  exists h h' log, feed c (start p m) inputs = Ok h /\
    t_update c h input [] = (log, Ok h') /\
    len log <= len input / 64 + len input / 2048 + 56.
Proof. exact update_cost. Qed.

(* finalize makes at most 54. *)
Theorem C39_finalize_cost : forall c p m inputs,
  platform_ok c p -> mode_ok m -> Forall bytes inputs -> len (concat inputs) < 2 ^ 64 ->
  exists h d log, feed c (start p m) inputs = Ok h /\
    t_finalize c h [] = (log, Ok d) /\ len log <= 54.
Proof. exact finalize_cost. Qed.

(* The state is never more than 53 hashes of 32 bytes and one block. *)
Theorem C39_state_size : forall c p m inputs,
  platform_ok c p -> mode_ok m -> Forall bytes inputs -> len (concat inputs) < 2 ^ 64 ->
  exists h, feed c (start p m) inputs = Ok h /\
    len (h_stack h) <= 53 /\ Forall (fun x => len x = 32) (h_stack h) /\
    len (cs_buf (h_chunk h)) = 64.
Proof. exact state_size. Qed.

(* one byte after two chunks: the update merges the two chunk hashes, and finalize then
   compresses the third chunk and the root *)
Example C39_example :
  match feed debug_cfg (start PPortable Hashing) [sample 2048; sample 2048] with
  | Ok h => match t_update debug_cfg h [7] [] with
            | (log, Ok h') => len log = 1 /\ len (h_stack h') = 1 /\
                              len (fst (t_finalize debug_cfg h' [])) = 2
            | _ => False
            end
  | _ => False
  end.
Proof. vm_compute. repeat split. Qed.

Print Assumptions C39_update_cost.
Print Assumptions C39_finalize_cost.
Print Assumptions C39_state_size.
