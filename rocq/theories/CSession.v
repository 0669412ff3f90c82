(* A program that uses the C hasher, run on the model of /repo/c/baokeshed.c.  Definitions
   only.

   The struct hasher (c/baokeshed.c:10-18, 130-134) contains numbers and arrays and no
   pointer, so assigning one copies its value; the wrapper in Rust derives Copy
   (src/c.rs:12, 24).  hasher_init (136-141) leaves the array subtree_hashes as it is.
   The program state is the list of its variables. *)
From Coq Require Import NArith List Bool.
From Verif Require Import Base CSimd CImpl SessionSpec CSessionSpec.
Import ListNotations.
Open Scope N_scope.

Definition c_step (o : copts) (w : list c_hasher) (x : c_call)
  : res (list c_hasher * list (list N)) :=
  let nth i := match nth_error w i with Some h => Ok h | None => Panic end in
  match x with
  | DNew memory key flags => Ok (w ++ [hasher_init memory key flags], [])
  | DInit i key flags =>
      let* h := nth i in Ok (replace w i (hasher_init (c_stack h) key flags), [])
  | DCopy i => let* h := nth i in Ok (w ++ [h], [])
  | DAssign i j => let* _ := nth i in let* h := nth j in Ok (replace w i h, [])
  | DUpdate i input junk =>
      let* h := nth i in
      let* h := hasher_update o junk h input in
      Ok (replace w i h, [])
  | DFinalize i =>
      let* h := nth i in
      let* hash := hasher_finalize o h in
      Ok (w, [hash])
  end.

Fixpoint c_run (o : copts) (w : list c_hasher) (xs : list c_call)
  : res (list c_hasher * list (list N)) :=
  match xs with
  | [] => Ok (w, [])
  | x :: r =>
      let* (w, s) := c_step o w x in
      let* (w, ss) := c_run o w r in
      Ok (w, s ++ ss)
  end.
