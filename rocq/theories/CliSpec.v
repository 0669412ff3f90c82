(* What the command line tool should print.  Definitions only: no function of the model
   except its vocabulary (arguments and system calls). *)
From Coq Require Import NArith List Bool.
From Verif Require Import Base Spec HexSpec Io IoSpec Cli.
Import ListNotations.
Open Scope N_scope.

(* The input is standard input if there is no path or the path is "-", possibly followed
   by slashes and by dots that are path components (to Rust "-/" and "-/." equal "-"). *)
Definition means_stdin (path : option (list N)) : Prop :=
  match path with
  | None => True
  | Some p => exists rest, p = 45 :: concat rest /\ Forall (fun x => x = [47] \/ x = [47; 46]) rest
  end.

Section Contents.
Context {S F : Type} (c : cfg) (o : os S F).

(* In state s, reading the input named by path sees the bytes bs and leaves state s'.
   - a mapped file: regular, not empty, not longer than isize::MAX; the map holds bs
   - a streamed file: every other file; reading delivers bs and then the end
   - standard input: reading delivers bs and then the end *)
Inductive sees : S -> option (list N) -> list N -> S -> Prop :=
| sees_mapped : forall s path f s1 n s2 bs s3,
    ~ means_stdin (Some path) -> os_open o s path = (IoOk f, s1) ->
    os_stat o s1 f = (IoOk (true, n), s2) -> 0 < n -> n <= ISIZE_MAX c ->
    os_map o s2 f n = (IoOk bs, s3) -> len bs = n ->
    sees s (Some path) bs s3
| sees_streamed : forall s path f s1 reg n s2 bs s3 s4,
    ~ means_stdin (Some path) -> os_open o s path = (IoOk f, s1) ->
    os_stat o s1 f = (IoOk (reg, n), s2) -> reg = false \/ n = 0 \/ ISIZE_MAX c < n ->
    delivers (fun s n => os_read o s f n) (COPY_BUF_LEN c) s2 bs s3 ->
    at_eof (fun s n => os_read o s f n) (COPY_BUF_LEN c) s3 s4 ->
    sees s (Some path) bs s4
| sees_stdin : forall s path bs s1 s2,
    means_stdin path ->
    delivers (os_stdin o) (COPY_BUF_LEN c) s bs s1 -> at_eof (os_stdin o) (COPY_BUF_LEN c) s1 s2 ->
    sees s path bs s2.

(* In state s, reading the input named by path fails with error e and leaves state s':
   opening it, asking for its metadata or mapping it failed, or a read failed after
   some bytes. *)
Inductive unreadable : S -> option (list N) -> N -> S -> Prop :=
| no_open : forall s path e s1,
    ~ means_stdin (Some path) -> os_open o s path = (IoErr e, s1) -> unreadable s (Some path) e s1
| no_stat : forall s path f s1 e s2,
    ~ means_stdin (Some path) -> os_open o s path = (IoOk f, s1) ->
    os_stat o s1 f = (IoErr e, s2) -> unreadable s (Some path) e s2
| no_map : forall s path f s1 n s2 e s3,
    ~ means_stdin (Some path) -> os_open o s path = (IoOk f, s1) ->
    os_stat o s1 f = (IoOk (true, n), s2) -> 0 < n -> n <= ISIZE_MAX c ->
    os_map o s2 f n = (IoErr e, s3) -> unreadable s (Some path) e s3
| no_read : forall s path f s1 reg n s2 bs s3 e s4,
    ~ means_stdin (Some path) -> os_open o s path = (IoOk f, s1) ->
    os_stat o s1 f = (IoOk (reg, n), s2) -> reg = false \/ n = 0 \/ ISIZE_MAX c < n ->
    delivers (fun s n => os_read o s f n) (COPY_BUF_LEN c) s2 bs s3 -> bytes bs -> len bs < 2 ^ 64 ->
    at_error (fun s n => os_read o s f n) (COPY_BUF_LEN c) e s3 s4 ->
    unreadable s (Some path) e s4
| no_stdin : forall s path bs s1 e s2,
    means_stdin path ->
    delivers (os_stdin o) (COPY_BUF_LEN c) s bs s1 -> bytes bs -> len bs < 2 ^ 64 ->
    at_error (os_stdin o) (COPY_BUF_LEN c) e s1 s2 -> unreadable s path e s2.

(* What happened to each input, in order: the content seen, or the error. *)
Inductive outcome : Type := Content (bs : list N) | Failure (e : N).
Inductive reading : S -> list (list N) -> list outcome -> S -> Prop :=
| reading_done : forall s, reading s [] [] s
| reading_content : forall s path bs s1 r xs s2,
    sees s (Some path) bs s1 -> bytes bs -> len bs < 2 ^ 64 ->
    reading s1 r xs s2 -> reading s (path :: r) (Content bs :: xs) s2
| reading_failure : forall s path e s1 r xs s2,
    unreadable s (Some path) e s1 ->
    reading s1 r xs s2 -> reading s (path :: r) (Failure e :: xs) s2.

(* The line for one input: the first n bytes of its extended hash in hex, and its name
   if there are several inputs; or "bao: ", its name, ": " and the error. *)
Definition line (m : mode) (n : N) (many : bool) (path : list N) (x : outcome) : list N :=
  match x with
  | Content bs =>
      hex (spec_xof blake_compress m bs n) ++
      (if many then [32; 32] ++ os_lossy o path else []) ++ [10]
  | Failure e => [98; 97; 111; 58; 32] ++ os_lossy o path ++ [58; 32] ++ os_error o e ++ [10]
  end.
Definition failed (x : outcome) : bool := match x with Failure _ => true | _ => false end.

End Contents.

(* The mode asked for by --key and --derive-key (the usage text allows at most one). *)
Definition asked_mode (a : args) (m : mode) : Prop :=
  match a_key a, a_derive_key a with
  | None, None => m = Hashing
  | Some k, None => exists key, len k = 64 /\ unhex k = Some key /\ m = Keyed key
  | None, Some k => exists key, len k = 64 /\ unhex k = Some key /\ m = Deriving key
  | Some _, Some _ => False
  end.
Definition asked_length (a : args) : N := match a_length a with Some n => n | None => 32 end.
(* The same arguments with other inputs. *)
Definition with_inputs (a : args) (inputs : list (list N)) : args :=
  Args inputs (a_help a) (a_key a) (a_derive_key a) (a_length a) (a_version a).
