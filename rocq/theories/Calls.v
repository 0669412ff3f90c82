(* The calls of the compression function that the specified tree hash makes.
   Definitions only.  A call is written as a node: chaining value, block, number of
   block bytes in use, offset and flags.  The recursion follows Spec.v; theorem
   calls_determine in Prop_Security says that the hash depends on the compression
   function only through these calls. *)
From Coq Require Import NArith List Bool.
From Verif Require Import Base Spec.
Import ListNotations.
Open Scope N_scope.

Section WithCompression.
Variable F : cfun.

(* The calls for the blocks of a chunk before the last one. *)
Fixpoint chunk_calls (cv : list N) (off flags start : N) (bs : list (list N)) : list node :=
  match bs with
  | [] => []
  | [_] => []
  | b :: rest =>
      Nd cv b 64 off (N.lor flags start)
      :: chunk_calls (firstn 8 (F cv b 64 off (N.lor flags start))) off flags 0 rest
  end.

(* The calls below the top node of a tree, see Spec.subtree. *)
Fixpoint subtree_calls (key : list N) (flags : N) (k : nat) (i : N) (cs : list (list N))
  : list node :=
  match k with
  | O => chunk_calls key (2048 * i) flags CHUNK_START (pieces 64 (hd [] cs))
  | S k' =>
      let half := 2 ^ N.of_nat k' in
      if len cs <=? half then subtree_calls key flags k' i cs
      else subtree_calls key flags k' i (take half cs)
           ++ [subtree F key flags k' i (take half cs)]
           ++ subtree_calls key flags k' (i + half) (drop half cs)
           ++ [subtree F key flags k' (i + half) (drop half cs)]
  end.

(* The calls below the root of an input. *)
Definition interior_calls (m : mode) (input : list N) : list node :=
  let cs := pieces 2048 input in
  subtree_calls (mode_key m) (mode_flags m) (N.to_nat (N.log2_up (len cs))) 0 cs.

(* The call for block k of the output. *)
Definition root_call (m : mode) (input : list N) (k : N) : node :=
  let nd := spec_root F m input in
  Nd (nd_cv nd) (nd_block nd) (nd_blen nd) (64 * k) (N.lor (nd_flags nd) ROOT).

(* All calls made for the hash. *)
Definition calls (m : mode) (input : list N) : list node :=
  interior_calls m input ++ [root_call m input 0].

(* All calls made for n blocks of extended output. *)
Definition xof_calls (m : mode) (input : list N) (n : nat) : list node :=
  interior_calls m input ++ map (fun k => root_call m input (N.of_nat k)) (seq 0 n).

End WithCompression.

(* A compression function returns 16 words. *)
Definition cfun_ok (F : cfun) : Prop :=
  forall cv block blen off flags,
    length cv = 8%nat -> length (F cv block blen off flags) = 16%nat.

(* The 32-byte result of a call. *)
Definition call_result (F : cfun) (x : node) : list N :=
  bytes_of_words (firstn 8 (F (nd_cv x) (nd_block x) (nd_blen x) (nd_off x) (nd_flags x))).

(* Different calls, one from each list, with the same result. *)
Definition collision (F : cfun) (A B : list node) : Prop :=
  exists a b, In a A /\ In b B /\ a <> b /\ call_result F a = call_result F b.
