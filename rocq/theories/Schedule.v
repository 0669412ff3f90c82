(* hash_recurse with the two halves of each join running concurrently.  Definitions only.

   With the rayon feature, join (/repo/src/lib.rs:436-447) may run its two closures on
   different threads.  They share the input and the key, which nobody writes, and each
   has its own part of the parent's children_array (split_at_mut, 483).  Here the threads
   share one memory of arrays, new arrays are allocated from one common counter, and at
   every moment any thread may take the next step.  A step is one byte written to an
   output slice, one allocation with fork, or one join.  Rayon's own scheduling only
   restricts which of these interleavings occur.  A thread's computation between two
   writes (compressing its part of the input) reads only its input, its key and, after
   the join, its own children_array. *)
From Coq Require Import NArith List Bool.
From Verif Require Import Base Portable Platform Lib Spec Session.
Import ListNotations.
Open Scope N_scope.

(* What a call of hash_recurse does with memory. *)
Inductive prog : Type :=
| PRet (n : N)                                         (* return n *)
| PPanic
| PWrite (i b : N) (k : prog)                          (* out[i] = b; then k *)
| PFork (size split : N) (a b : prog) (k : N -> N -> list N -> prog).
    (* allocate size zero bytes, run a on [..split] and b on [split..] of them, wait for
       both, then k with the two returned numbers and the contents *)

(* ---- running alone ---------------------------------------------------------------- *)

Fixpoint seq_run (p : prog) (out : list N) : res (list N * N) :=
  match p with
  | PRet n => Ok (out, n)
  | PPanic => Panic
  | PWrite i b k => if i <? len out then seq_run k (set_nth out (N.to_nat i) b) else Panic
  | PFork size split a b k =>
      if split <=? size then
        let* (x, n1) := seq_run a (zeros split) in
        let* (y, n2) := seq_run b (zeros (size - split)) in
        seq_run (k n1 n2 (x ++ y)) out
      else Panic
  end.

(* ---- running concurrently ----------------------------------------------------------- *)

Definition memory : Type := nat -> list N.
Record region : Type := Region { r_array : nat; r_base : N; r_len : N }.

Definition view (m : memory) (r : region) : list N :=
  take (r_len r) (drop (r_base r) (m (r_array r))).
Definition set_array (m : memory) (a : nat) (v : list N) : memory :=
  fun b => if Nat.eqb b a then v else m b.
Definition put (m : memory) (r : region) (i b : N) : memory :=
  set_array m (r_array r) (set_nth (m (r_array r)) (N.to_nat (r_base r + i)) b).

(* A tree of threads. *)
Inductive thread : Type :=
| TRun (p : prog)
| TJoin (array : nat) (size split : N) (a b : thread) (k : N -> N -> list N -> prog)
| TDone (n : N)
| TPanic.

Definition finished (t : thread) : Prop :=
  match t with TDone _ | TPanic => True | _ => False end.

(* The memory, the number of arrays allocated so far, and the threads. *)
Definition config : Type := memory * nat * thread.

(* One step of one thread; r is the output slice of the root of the tree. *)
Inductive tstep : region -> config -> config -> Prop :=
| s_ret : forall r m n x, tstep r (m, n, TRun (PRet x)) (m, n, TDone x)
| s_panic : forall r m n, tstep r (m, n, TRun PPanic) (m, n, TPanic)
| s_write : forall r m n i b k, i < r_len r ->
    tstep r (m, n, TRun (PWrite i b k)) (put m r i b, n, TRun k)
| s_write_bounds : forall r m n i b k, r_len r <= i ->
    tstep r (m, n, TRun (PWrite i b k)) (m, n, TPanic)
| s_fork : forall r m n size split a b k, split <= size ->
    tstep r (m, n, TRun (PFork size split a b k))
            (set_array m n (zeros size), S n, TJoin n size split (TRun a) (TRun b) k)
| s_fork_bounds : forall r m n size split a b k, size < split ->
    tstep r (m, n, TRun (PFork size split a b k)) (m, n, TPanic)
| s_left : forall r m n m' n' f size split a a' b k,
    tstep (Region f 0 split) (m, n, a) (m', n', a') ->
    tstep r (m, n, TJoin f size split a b k) (m', n', TJoin f size split a' b k)
| s_right : forall r m n m' n' f size split a b b' k,
    tstep (Region f split (size - split)) (m, n, b) (m', n', b') ->
    tstep r (m, n, TJoin f size split a b k) (m', n', TJoin f size split a b' k)
| s_join : forall r m n f size split x y k,
    tstep r (m, n, TJoin f size split (TDone x) (TDone y) k) (m, n, TRun (k x y (m f)))
(* join waits for the other closure before it passes a panic on *)
| s_join_panic_a : forall r m n f size split b k, finished b ->
    tstep r (m, n, TJoin f size split TPanic b k) (m, n, TPanic)
| s_join_panic_b : forall r m n f size split x k,
    tstep r (m, n, TJoin f size split (TDone x) TPanic k) (m, n, TPanic).

Inductive tsteps (r : region) : config -> config -> Prop :=
| ts_refl : forall s, tsteps r s s
| ts_step : forall s1 s2 s3, tstep r s1 s2 -> tsteps r s2 s3 -> tsteps r s1 s3.

(* One array, holding out, and one thread. *)
Definition initial (p : prog) (out : list N) : config :=
  (fun a => if Nat.eqb a 0 then out else [], 1%nat, TRun p).
Definition out_region (out : list N) : region := Region 0 0 (len out).

(* ---- data races -------------------------------------------------------------------- *)

(* The next step of t, running in region r, may write or read cell i of array x. *)
Inductive touches : region -> thread -> nat -> N -> Prop :=
| t_write : forall r i b k, i < r_len r ->
    touches r (TRun (PWrite i b k)) (r_array r) (r_base r + i)
| t_left : forall r f size split a b k x i, touches (Region f 0 split) a x i ->
    touches r (TJoin f size split a b k) x i
| t_right : forall r f size split a b k x i, touches (Region f split (size - split)) b x i ->
    touches r (TJoin f size split a b k) x i
| t_join : forall r f size split x y k i, i < size ->
    touches r (TJoin f size split (TDone x) (TDone y) k) f i.

(* Two threads that run at the same time are about to touch the same cell. *)
Inductive race : thread -> Prop :=
| race_here : forall f size split a b k x i,
    touches (Region f 0 split) a x i -> touches (Region f split (size - split)) b x i ->
    race (TJoin f size split a b k)
| race_left : forall f size split a b k, race a -> race (TJoin f size split a b k)
| race_right : forall f size split a b k, race b -> race (TJoin f size split a b k).

(* ---- hash_recurse ------------------------------------------------------------------ *)

(* Write bs to out[i..]. *)
Fixpoint writes (i : N) (bs : list N) (k : prog) : prog :=
  match bs with
  | [] => k
  | b :: r => PWrite i b (writes (i + 1) r k)
  end.

(* Write the n outputs of 32 bytes that a function computed, and return n. *)
Definition emit (x : res (list N * N)) : prog :=
  match x with
  | Ok (buf, n) => writes 0 (take (n * OUT_LEN) buf) (PRet n)
  | _ => PPanic
  end.

(* src/lib.rs:450-512; out_len is out.len().  Compare Lib.hash_recurse. *)
Fixpoint recurse_prog (c : cfg) (p : platform) (fuel : nat) (input key : list N)
  (offset flags out_len : N) : prog :=
  if len input <=? simd_degree p * CHUNK_LEN
  then emit (hash_chunks_parallel c p input key offset flags (zeros out_len))
  else
    match fuel with
    | O => PPanic
    | S fuel' =>
        let setup :=
          let* ll := left_len c (len input) in
          let* (left_in, right_in) := split_at input ll in
          let* right_off := add64 c offset (len left_in) in
          dassert c (popcount (simd_degree p) =? 1) ;;
          Ok (left_in, right_in, right_off) in
        match setup with
        | Ok (left_in, right_in, right_off) =>
            let size := 2 * MAX_SIMD_DEGREE_OR_2 c * OUT_LEN in
            let degree := if len left_in =? CHUNK_LEN then 1 else N.max (simd_degree p) 2 in
            PFork size (degree * OUT_LEN)
              (recurse_prog c p fuel' left_in key offset flags (degree * OUT_LEN))
              (recurse_prog c p fuel' right_in key right_off flags (size - degree * OUT_LEN))
              (fun left_n right_n children_array =>
                 emit (dassert c (left_n =? degree) ;;
                       dassert c ((1 <=? right_n) && (right_n <=? left_n)) ;;
                       if left_n =? 1 then
                         let* dst := slice_to (zeros out_len) (2 * OUT_LEN) in
                         let* src := slice_to children_array (2 * OUT_LEN) in
                         Ok (src, 2)
                       else
                         let num_children := left_n + right_n in
                         let* children := slice_to children_array (num_children * OUT_LEN) in
                         hash_parents_parallel c p children key flags (zeros out_len)))
        | _ => PPanic
        end
    end.

(* src/lib.rs:538-552 with a concurrent hash_recurse: r is a possible outcome. *)
Definition outcome (c : cfg) (p : platform) (input key_words : list N) (flags : N)
  (r : res output) : Prop :=
  if len input <=? CHUNK_LEN
  then r = hash_one_chunk c p input key_words 0 Root flags
  else
    let children_array := zeros (MAX_SIMD_DEGREE_OR_2 c * OUT_LEN) in
    let task := recurse_prog c p (depth_fuel input) input key_words 0 flags (len children_array) in
    exists m n t,
      tsteps (out_region children_array) (initial task children_array) (m, n, t) /\
      match t with
      | TDone num_children =>
          r = (let* children := slice_to (m 0%nat) (num_children * OUT_LEN) in
               condense_root c p children key_words flags)
      | TPanic => r = Panic
      | _ => False
      end.

(* hash_xof, keyed_hash_xof, derive_key_xof: src/lib.rs:560-562, 574-577, 593-596 *)
Definition outcome_of (c : cfg) (p : platform) (m : mode) (input : list N) (r : res output) : Prop :=
  match m with
  | Hashing => outcome c p input Portable.IV 0 r
  | Keyed key => outcome c p input (words_from_key_bytes key) Lib.KEYED_HASH r
  | Deriving key => outcome c p input (words_from_key_bytes key) Lib.DERIVE_KEY r
  end.
