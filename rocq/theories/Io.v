(* Model of /repo/src/copy.rs and of the parts of std::io it uses.  Definitions only.

   A reader is a state of any type R with a function that answers one call of read; a
   writer likewise.  So every reader and writer that exists in a program is covered,
   whatever it does between the calls. *)
From Coq Require Import NArith List Bool.
From Verif Require Import Base Portable Platform Lib.
Import ListNotations.
Open Scope N_scope.

(* The answer to read(&mut buffer): n bytes were put at the front of the buffer (here:
   those bytes), or an error of kind Interrupted, or another error. *)
Inductive read_result : Type :=
| ReadOk (data : list N)
| ReadInterrupted
| ReadErr (e : N).

(* The answer to write(&buffer): the first n bytes were taken, or an error. *)
Inductive write_result : Type :=
| WriteOk (n : N)
| WriteInterrupted
| WriteErr (e : N).

(* io::Result<A>; io::ErrorKind::WriteZero is error number 0 *)
Inductive io_result (A : Type) : Type := IoOk (a : A) | IoErr (e : N).
Arguments IoOk {A} a.
Arguments IoErr {A} e.
Definition WRITE_ZERO : N := 0.

(* src/copy.rs:24 *)
Definition WIDE_BUF_LEN (c : cfg) : N := MAX_SIMD_DEGREE c * CHUNK_LEN.
(* src/copy.rs:29, 35-38 *)
Definition STD_DEFAULT_BUF_LEN : N := 8192.
Definition COPY_BUF_LEN (c : cfg) : N := if x86 c then WIDE_BUF_LEN c else STD_DEFAULT_BUF_LEN.

(* io::Write::write_all (std, from its documentation): call write until the buffer is
   used up; an answer of 0 bytes is an error; interrupted calls are repeated.  A writer
   may panic.  An answer above the buffer's length makes the slicing panic.  Each
   iteration uses one unit of fuel. *)
Fixpoint write_all {W : Type} (wr : W -> list N -> res (write_result * W)) (fuel : nat)
  (w : W) (buf : list N) : res (io_result unit * W) :=
  match buf with
  | [] => Ok (IoOk tt, w)
  | _ =>
      match fuel with
      | O => NoFuel
      | S fuel' =>
          let* (a, w) := wr w buf in
          match a with
          | WriteOk n =>
              if n =? 0 then Ok (IoErr WRITE_ZERO, w)
              else let* rest := slice_from buf n in write_all wr fuel' w rest
          | WriteInterrupted => write_all wr fuel' w buf
          | WriteErr e => Ok (IoErr e, w)
          end
      end
  end.

(* src/copy.rs:54-64, the loop.  A reader that claims more bytes than the buffer holds
   makes &buffer[..n] panic.  Each
   iteration uses one unit of fuel; wfuel is the fuel of write_all. *)
Fixpoint copy_loop {R W : Type} (c : cfg) (rd : R -> N -> read_result * R)
  (wr : W -> list N -> res (write_result * W)) (fuel wfuel : nat) (r : R) (w : W) (total : N)
  : res (io_result N * R * W) :=
  match fuel with
  | O => NoFuel
  | S fuel' =>
      let (a, r) := rd r (COPY_BUF_LEN c) in
      match a with
      | ReadOk [] => Ok (IoOk total, r, w)
      | ReadOk data =>
          if len data <=? COPY_BUF_LEN c then
            let* (x, w) := write_all wr wfuel w data in
            match x with
            | IoErr e => Ok (IoErr e, r, w)
            | IoOk _ =>
                let* total := add64 c total (len data) in
                copy_loop c rd wr fuel' wfuel r w total
            end
          else Panic
      | ReadInterrupted => copy_loop c rd wr fuel' wfuel r w total
      | ReadErr e => Ok (IoErr e, r, w)
      end
  end.

(* src/copy.rs:47-65 *)
Definition copy_wide {R W : Type} (c : cfg) (rd : R -> N -> read_result * R)
  (wr : W -> list N -> res (write_result * W)) (fuel wfuel : nat) (r : R) (w : W)
  : res (io_result N * R * W) :=
  copy_loop c rd wr fuel wfuel r w 0.

(* A Hasher as a writer: src/lib.rs:994-1003 *)
Definition hasher_write (c : cfg) (h : hasher) (buf : list N) : res (write_result * hasher) :=
  let* (h, n) := write c h buf in Ok (WriteOk n, h).

(* A Vec<u8> as a writer (std): takes everything. *)
Definition vec_write (v : list N) (buf : list N) : res (write_result * list N) :=
  Ok (WriteOk (len buf), v ++ buf).
