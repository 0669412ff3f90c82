(* A program calling the API, run on the model of /repo/src/lib.rs.  Definitions only.

   Hashers and outputs are plain values in Rust (they own no shared memory: every
   field of ChunkState, Hasher and Output, src/lib.rs:222-230, 602-612, 756-759, is
   an array, an ArrayVec, a number or an enum, and Clone is derived, 221, 601, 755),
   so a program state is a list of hashers and a list of outputs, and cloning copies
   the value.  The platform is detected anew whenever a hasher or an output is
   created (src/lib.rs:544, 766); detection may return p. *)
From Coq Require Import NArith List Bool.
From Verif Require Import Base Spec Platform Lib SessionSpec.
Import ListNotations.
Open Scope N_scope.

(* hash / keyed_hash / derive_key and the _xof variants, src/lib.rs:555-596 *)
Definition oneshot (c : cfg) (p : platform) (m : mode) (input : list N) : res (list N) :=
  match m with
  | Hashing => hash c p input
  | Keyed key => keyed_hash c p key input
  | Deriving key => derive_key c p key input
  end.
Definition oneshot_xof (c : cfg) (p : platform) (m : mode) (input : list N) : res output :=
  match m with
  | Hashing => hash_xof c p input
  | Keyed key => keyed_hash_xof c p key input
  | Deriving key => derive_key_xof c p key input
  end.
(* Hasher::new, new_keyed, new_derive_key, src/lib.rs:770-788 *)
Definition start (p : platform) (m : mode) : hasher :=
  match m with
  | Hashing => hasher_new p
  | Keyed key => hasher_new_keyed p key
  | Deriving key => hasher_new_derive_key p key
  end.

(* a sequence of update calls *)
Fixpoint feed (c : cfg) (h : hasher) (inputs : list (list N)) : res hasher :=
  match inputs with
  | [] => Ok h
  | x :: r => let* h := update c h x in feed c h r
  end.

(* n calls of read *)
Fixpoint reads (c : cfg) (n : nat) (o : output) : res (list (list N) * output) :=
  match n with
  | O => Ok ([], o)
  | S n' =>
      let* (b, o) := read c o in
      let* (bs, o) := reads c n' o in
      Ok (b :: bs, o)
  end.

Record world : Type := World { w_hashers : list hasher; w_outputs : list output }.

Definition step (c : cfg) (p : platform) (w : world) (x : call) : res (world * seen) :=
  let H := w_hashers w in
  let O := w_outputs w in
  let nth {A : Type} (l : list A) (i : nat) : res A :=
    match nth_error l i with Some a => Ok a | None => Panic end in
  match x with
  | CHash m input => let* h := oneshot c p m input in Ok (w, SBytes (hash_as_bytes h))
  | CHashXof m input => let* o := oneshot_xof c p m input in Ok (World H (O ++ [o]), SNothing)
  | CNew m => Ok (World (H ++ [start p m]) O, SNothing)
  | CClone i => let* h := nth H i in Ok (World (H ++ [h]) O, SNothing)
  | CUpdate i input =>
      let* h := nth H i in
      let* h := update c h input in
      Ok (World (replace H i h) O, SNothing)
  | CWrite i input =>
      let* h := nth H i in
      let* (h, n) := write c h input in
      Ok (World (replace H i h) O, SCount n)
  | CFlush i =>
      let* h := nth H i in
      let* h := flush h in
      Ok (World (replace H i h) O, SNothing)
  | CFinalize i =>
      let* h := nth H i in
      let* d := finalize c h in
      Ok (w, SBytes (hash_as_bytes d))
  | CFinalizeXof i =>
      let* h := nth H i in
      let* o := finalize_xof c h in
      Ok (World H (O ++ [o]), SNothing)
  | CCloneOutput j => let* o := nth O j in Ok (World H (O ++ [o]), SNothing)
  | CRead j =>
      let* o := nth O j in
      let* (b, o) := read c o in
      Ok (World H (replace O j o), SBytes b)
  | CToHash j =>
      let* o := nth O j in
      Ok (w, SBytes (hash_as_bytes (to_hash o)))
  end.

(* ps n is what CPU detection returns at the n-th call *)
Fixpoint run (c : cfg) (ps : nat -> platform) (w : world) (xs : list call)
  : res (world * list seen) :=
  match xs with
  | [] => Ok (w, [])
  | x :: r =>
      let* (w, s) := step c (ps O) w x in
      let* (w, ss) := run c (fun n => ps (S n)) w r in
      Ok (w, s :: ss)
  end.

(* A program using one hasher: the bytes returned by each finalize and each sequence
   of reads. *)
Fixpoint history (c : cfg) (h : hasher) (es : list event) : res (list (list N)) :=
  match es with
  | [] => Ok []
  | EUpdate input :: r => let* h := update c h input in history c h r
  | EFinalize :: r =>
      let* d := finalize c h in
      let* rest := history c h r in
      Ok (hash_as_bytes d :: rest)
  | EXof n :: r =>
      let* o := finalize_xof c h in
      let* (bs, o) := reads c n o in
      let* rest := history c h r in
      Ok (concat bs :: rest)
  end.
