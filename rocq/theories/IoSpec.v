(* What it means for a reader to deliver bytes and for a writer to accept them, call by
   call.  Definitions only, independent of copy_wide. *)
From Coq Require Import NArith List Bool.
From Verif Require Import Base Io.
Import ListNotations.
Open Scope N_scope.

(* Called again and again with a buffer of n bytes, the reader in state r hands out the
   bytes bs and is then in state r'.  Interrupted calls hand out nothing. *)
Inductive delivers {R : Type} (rd : R -> N -> read_result * R) (n : N) : R -> list N -> R -> Prop :=
| del_nothing : forall r, delivers rd n r [] r
| del_data : forall r data r1 bs r2,
    rd r n = (ReadOk data, r1) -> data <> [] -> len data <= n ->
    delivers rd n r1 bs r2 -> delivers rd n r (data ++ bs) r2
| del_interrupted : forall r r1 bs r2,
    rd r n = (ReadInterrupted, r1) -> delivers rd n r1 bs r2 -> delivers rd n r bs r2.

(* The next call reports the end of the data, or an error. *)
Definition at_eof {R : Type} (rd : R -> N -> read_result * R) (n : N) (r r' : R) : Prop :=
  rd r n = (ReadOk [], r').
Definition at_error {R : Type} (rd : R -> N -> read_result * R) (n : N) (e : N) (r r' : R) : Prop :=
  rd r n = (ReadErr e, r').

(* In a sequence of write calls the writer in state w takes the bytes bs and is then in
   state w'. *)
Inductive accepts {W : Type} (wr : W -> list N -> res (write_result * W)) : W -> list N -> W -> Prop :=
| acc_nothing : forall w, accepts wr w [] w
| acc_write : forall w buf n w1 bs w2,
    wr w buf = Ok (WriteOk n, w1) -> n <= len buf ->
    accepts wr w1 bs w2 -> accepts wr w (take n buf ++ bs) w2
| acc_interrupted : forall w buf w1 bs w2,
    wr w buf = Ok (WriteInterrupted, w1) -> accepts wr w1 bs w2 -> accepts wr w bs w2.

(* A write call in state w fails with e. *)
Definition fails {W : Type} (wr : W -> list N -> res (write_result * W)) (e : N) (w w' : W) : Prop :=
  exists buf, wr w buf = Ok (WriteErr e, w') \/ (wr w buf = Ok (WriteOk 0, w') /\ e = WRITE_ZERO).

(* A writer that never fails: a call with a non-empty buffer takes at least one of its bytes
   or is interrupted, and it is not interrupted for ever. *)
Definition steady {W : Type} (wr : W -> list N -> res (write_result * W)) : Prop :=
  exists patience : W -> nat, forall w buf, buf <> [] ->
    (exists n w', wr w buf = Ok (WriteOk n, w') /\ 1 <= n <= len buf) \/
    (exists w', wr w buf = Ok (WriteInterrupted, w') /\ (patience w' < patience w)%nat).

(* The next call claims to have put more than n bytes into a buffer of n. *)
Definition claims_too_much {R : Type} (rd : R -> N -> read_result * R) (n : N) (r : R) : Prop :=
  exists data r', rd r n = (ReadOk data, r') /\ n < len data.
