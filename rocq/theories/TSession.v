(* A program calling the API (Session.v), with the list of the compression calls it makes
   (LibCalls.v), and what it means that two programs differ in secrets only.
   Definitions only. *)
From Coq Require Import NArith List Bool.
From Verif Require Import Base Spec Platform Lib SessionSpec Session LibCalls SecretSpec.
Import ListNotations.
Open Scope N_scope.

(* Session.step; every function of src/lib.rs it calls is replaced by its version in
   LibCalls.v.  write is update and the length (src/lib.rs:994-1003). *)
Definition t_step (c : cfg) (p : platform) (w : world) (x : call) : tr (world * seen) :=
  let H := w_hashers w in
  let O := w_outputs w in
  let nth {A : Type} (l : list A) (i : nat) : tr A :=
    lift match nth_error l i with Some a => Ok a | None => Panic end in
  match x with
  | CHash m input => let! h := t_oneshot c p m input in lift (Ok (w, SBytes (hash_as_bytes h)))
  | CHashXof m input =>
      let! o := t_oneshot_xof c p m input in lift (Ok (World H (O ++ [o]), SNothing))
  | CNew m => lift (Ok (World (H ++ [start p m]) O, SNothing))
  | CClone i => let! h := nth H i in lift (Ok (World (H ++ [h]) O, SNothing))
  | CUpdate i input =>
      let! h := nth H i in
      let! h := t_update c h input in
      lift (Ok (World (replace H i h) O, SNothing))
  | CWrite i input =>
      let! h := nth H i in
      let! h := t_update c h input in
      lift (Ok (World (replace H i h) O, SCount (len input)))
  | CFlush i =>
      let! h := nth H i in
      let! h := lift (flush h) in
      lift (Ok (World (replace H i h) O, SNothing))
  | CFinalize i =>
      let! h := nth H i in
      let! d := t_finalize c h in
      lift (Ok (w, SBytes (hash_as_bytes d)))
  | CFinalizeXof i =>
      let! h := nth H i in
      let! o := t_finalize_xof c h in
      lift (Ok (World H (O ++ [o]), SNothing))
  | CCloneOutput j => let! o := nth O j in lift (Ok (World H (O ++ [o]), SNothing))
  | CRead j =>
      let! o := nth O j in
      let! (b, o) := t_read c o in
      lift (Ok (World H (replace O j o), SBytes b))
  | CToHash j =>
      let! o := nth O j in
      let! d := t_to_hash o in
      lift (Ok (w, SBytes (hash_as_bytes d)))
  end.

Fixpoint t_run (c : cfg) (ps : nat -> platform) (w : world) (xs : list call)
  : tr (world * list seen) :=
  match xs with
  | [] => lift (Ok (w, []))
  | x :: r =>
      let! (w, s) := t_step c (ps O) w x in
      let! (w, ss) := t_run c (fun n => ps (S n)) w r in
      lift (Ok (w, s :: ss))
  end.

(* The arguments of a call are what their Rust types allow. *)
Definition call_ok (x : call) : Prop :=
  match x with
  | CHash m input | CHashXof m input => mode_ok m /\ bytes input
  | CNew m => mode_ok m
  | CUpdate _ input | CWrite _ input => bytes input
  | _ => True
  end.
(* The same call, on the same handle, in the same mode, with an input of the same length;
   keys and inputs may differ. *)
Definition same_call (x y : call) : Prop :=
  match x, y with
  | CHash m a, CHash m' b | CHashXof m a, CHashXof m' b => same_kind m m' /\ len a = len b
  | CNew m, CNew m' => same_kind m m'
  | CUpdate i a, CUpdate j b | CWrite i a, CWrite j b => i = j /\ len a = len b
  | CClone i, CClone j | CFlush i, CFlush j | CFinalize i, CFinalize j
  | CFinalizeXof i, CFinalizeXof j | CCloneOutput i, CCloneOutput j
  | CRead i, CRead j | CToHash i, CToHash j => i = j
  | _, _ => False
  end.

(* What does not depend on secrets in an answer: its kind, a count, a number of bytes. *)
Definition size_seen (s : seen) : N * N :=
  match s with SNothing => (0, 0) | SCount n => (1, n) | SBytes b => (2, len b) end.
Definition sizes {A : Type} (r : res (A * list seen)) : list (N * N) :=
  match r with Ok (_, ss) => map size_seen ss | _ => [] end.
