(* A program that uses the C hasher (CSession.v), with the list of the compression calls it
   makes (CCalls.v), and what it means that two programs differ in secrets only.
   Definitions only. *)
From Coq Require Import NArith List Bool.
From Verif Require Import Base CSimd CImpl SessionSpec CSessionSpec LibCalls CCalls.
Import ListNotations.
Open Scope N_scope.

(* CSession.c_step, with hasher_update and hasher_finalize of CCalls.v *)
Definition n_step (o : copts) (w : list c_hasher) (x : c_call)
  : tr (list c_hasher * list (list N)) :=
  let nth i := lift match nth_error w i with Some h => Ok h | None => Panic end in
  match x with
  | DNew memory key flags => lift (Ok (w ++ [hasher_init memory key flags], []))
  | DInit i key flags =>
      let! h := nth i in lift (Ok (replace w i (hasher_init (c_stack h) key flags), []))
  | DCopy i => let! h := nth i in lift (Ok (w ++ [h], []))
  | DAssign i j => let! _ := nth i in let! h := nth j in lift (Ok (replace w i h, []))
  | DUpdate i input junk =>
      let! h := nth i in
      let! h := n_hasher_update o junk h input in
      lift (Ok (replace w i h, []))
  | DFinalize i =>
      let! h := nth i in
      let! hash := n_hasher_finalize o h in
      lift (Ok (w, [hash]))
  end.
Fixpoint n_run (o : copts) (w : list c_hasher) (xs : list c_call)
  : tr (list c_hasher * list (list N)) :=
  match xs with
  | [] => lift (Ok (w, []))
  | x :: r =>
      let! (w, s) := n_step o w x in
      let! (w, ss) := n_run o w r in
      lift (Ok (w, s ++ ss))
  end.

(* The arguments of a step are what their types in C allow. *)
Definition c_call_ok (x : c_call) : Prop :=
  match x with
  | DNew memory key _ => bytes memory /\ length key = 32%nat /\ bytes key
  | DInit _ key _ => length key = 32%nat /\ bytes key
  | DUpdate _ input junk => bytes input /\ len junk = 16 * 32 /\ bytes junk
  | _ => True
  end.
(* The same step on the same variable, with the same flags and sizes; keys, inputs and the
   contents of uninitialised memory may differ. *)
Definition same_c_call (x y : c_call) : Prop :=
  match x, y with
  | DNew memory _ flags, DNew memory' _ flags' => len memory = len memory' /\ flags = flags'
  | DInit i _ flags, DInit j _ flags' => i = j /\ flags = flags'
  | DCopy i, DCopy j => i = j
  | DAssign i j, DAssign i' j' => i = i' /\ j = j'
  | DUpdate i input _, DUpdate j input' _ => i = j /\ len input = len input'
  | DFinalize i, DFinalize j => i = j
  | _, _ => False
  end.
