(* The hasher of /repo/c/baokeshed.c again, telling a failed assertion, which stops the
   program, from an access outside an object, which is undefined behaviour in C.
   Definitions only.

   In CImpl.v both are a Panic.  The functions below that can reach the assertion are those
   of CImpl.v, statement for statement; in the others every Panic is an access outside an
   object (of).  Theorem outcome_is_of_code in Prop_CSafe says that the two models agree. *)
From Coq Require Import NArith List Bool.
From Verif Require Import Base CSimd CImpl SessionSpec CSessionSpec CSession.
Import ListNotations.
Open Scope N_scope.

Inductive outcome (A : Type) : Type :=
  | Done (x : A)
  | Abort              (* an assertion failed *)
  | Undefined          (* memory outside an object was read or written *)
  | Endless.           (* the model ran out of fuel *)
Arguments Done {A} x. Arguments Abort {A}. Arguments Undefined {A}. Arguments Endless {A}.

(* code without assertions *)
Definition of {A : Type} (r : res A) : outcome A :=
  match r with Ok x => Done x | Panic => Undefined | NoFuel => Endless end.
Definition obind {A B : Type} (m : outcome A) (f : A -> outcome B) : outcome B :=
  match m with Done x => f x | Abort => Abort | Undefined => Undefined | Endless => Endless end.
Notation "'let%' x ':=' e 'in' k" := (obind e (fun x => k))
  (at level 200, x pattern, e at level 100, k at level 200, right associativity).
(* what CImpl.v makes of it *)
Definition forget {A : Type} (m : outcome A) : res A :=
  match m with Done x => Ok x | Abort | Undefined => Panic | Endless => NoFuel end.

(* c/baokeshed.c:158-167 *)
Definition u_push_chunk_hash (o : copts) (h : c_hasher) (hash : list N) (offset : N)
  : outcome c_hasher :=
  let% _ := (if ndebug o then Done tt
             else if c_stack_len h <? C_MAX_DEPTH then Done tt else Abort) in
  let% h := of (hasher_merge_all o h offset) in
  let% stack := of (copy_at (c_stack h) (c_stack_len h * C_OUT_LEN) hash) in
  Done (CHasher (c_chunk_of h) ((c_stack_len h + 1) mod W8) stack).

(* c/baokeshed.c:234-240 *)
Fixpoint u_push_chunks (o : copts) (n : nat) (chunk_index : N) (h : c_hasher) (out : list N)
  : outcome c_hasher :=
  match n with
  | O => Done h
  | S n' =>
      let% hash := of (slice out (chunk_index * C_OUT_LEN) C_OUT_LEN) in
      let% h := u_push_chunk_hash o h hash (k_offset (c_chunk_of h)) in
      let s := c_chunk_of h in
      let s := CChunk (k_state s) (k_key s) ((k_offset s + C_CHUNK_LEN) mod W64) (k_count s)
                 (k_buf s) (k_buf_len s) (k_flags s) in
      u_push_chunks o n' (chunk_index + 1) (CHasher s (c_stack_len h) (c_stack h)) out
  end.
(* c/baokeshed.c:224-242 *)
Fixpoint u_chunks_loop (o : copts) (fuel : nat) (h : c_hasher) (input out : list N)
  : outcome (c_hasher * list N) :=
  if C_CHUNK_LEN <=? len input then
    match fuel with
    | O => Endless
    | S fuel' =>
        let '(chunks, input) := gather_chunks (N.to_nat C_MAX_SIMD_DEGREE) input in
        let s := c_chunk_of h in
        let% out := of (c_hash_many o chunks (C_CHUNK_LEN / C_BLOCK_LEN) (k_key s) (k_offset s)
                          CHUNK_OFFSET_DELTAS (k_flags s) C_CHUNK_START C_CHUNK_END out) in
        let% h := u_push_chunks o (length chunks) 0 h out in
        u_chunks_loop o fuel' h input out
    end
  else Done (h, input).

(* c/baokeshed.c:219-256 *)
Definition u_update_rest (o : copts) (junk : list N) (h : c_hasher) (input : list N)
  : outcome c_hasher :=
  let% (h, input) := u_chunks_loop o (length input) h input junk in
  if 0 <? len input then
    let% h := of (hasher_merge_all o h (k_offset (c_chunk_of h))) in
    let% s := of (chunk_state_update o (c_chunk_of h) input) in
    Done (CHasher s (c_stack_len h) (c_stack h))
  else Done h.
(* c/baokeshed.c:192-256 *)
Definition u_hasher_update (o : copts) (junk : list N) (h : c_hasher) (input : list N)
  : outcome c_hasher :=
  let is_first_chunk := k_offset (c_chunk_of h) =? 0 in
  let maybe_root := is_first_chunk && (len input =? C_CHUNK_LEN) in
  if maybe_root || (0 <? chunk_state_len (c_chunk_of h)) then
    let n := sub_size o C_CHUNK_LEN (chunk_state_len (c_chunk_of h)) in
    let n := if len input <? n then len input else n in
    let% src := of (slice input 0 n) in
    let% s := of (chunk_state_update o (c_chunk_of h) src) in
    let h := CHasher s (c_stack_len h) (c_stack h) in
    let input := drop n input in
    if 0 <? len input then
      let out := chunk_state_finalize o s false in
      let% h := u_push_chunk_hash o h out (k_offset s) in
      let s := chunk_state_reset (c_chunk_of h)
                 ((k_offset (c_chunk_of h) + C_CHUNK_LEN) mod W64) in
      u_update_rest o junk (CHasher s (c_stack_len h) (c_stack h)) input
    else Done h
  else u_update_rest o junk h input.

(* c/baokeshed.c:258-293: no assertion *)
Definition u_hasher_finalize (o : copts) (h : c_hasher) : outcome (list N) :=
  of (hasher_finalize o h).

(* initialise, update, finalize: CSpec.c_hash *)
Fixpoint u_updates (o : copts) (h : c_hasher) (us : list (list N * list N)) : outcome c_hasher :=
  match us with
  | [] => Done h
  | (input, junk) :: r => let% h := u_hasher_update o junk h input in u_updates o h r
  end.
Definition u_hash (o : copts) (memory key : list N) (flags : N) (us : list (list N * list N))
  : outcome (list N) :=
  let% h := u_updates o (hasher_init memory key flags) us in u_hasher_finalize o h.

(* Programs: CSession.c_step and c_run.  Naming a variable that does not exist is an Abort (no
   such program can be written). *)
Definition u_step (o : copts) (w : list c_hasher) (x : c_call)
  : outcome (list c_hasher * list (list N)) :=
  let nth i := match nth_error w i with Some h => Done h | None => Abort end in
  match x with
  | DNew memory key flags => Done (w ++ [hasher_init memory key flags], [])
  | DInit i key flags =>
      let% h := nth i in Done (replace w i (hasher_init (c_stack h) key flags), [])
  | DCopy i => let% h := nth i in Done (w ++ [h], [])
  | DAssign i j => let% _ := nth i in let% h := nth j in Done (replace w i h, [])
  | DUpdate i input junk =>
      let% h := nth i in
      let% h := u_hasher_update o junk h input in
      Done (replace w i h, [])
  | DFinalize i =>
      let% h := nth i in
      let% hash := u_hasher_finalize o h in
      Done (w, [hash])
  end.
Fixpoint u_run (o : copts) (w : list c_hasher) (xs : list c_call)
  : outcome (list c_hasher * list (list N)) :=
  match xs with
  | [] => Done (w, [])
  | x :: r =>
      let% (w, s) := u_step o w x in
      let% (w, ss) := u_run o w r in
      Done (w, s ++ ss)
  end.

(* Calls whose arguments have the sizes that the C types give them: an object has a
   subtree_hashes array of 53 * 32 bytes (c/baokeshed.c:133), a key 32 bytes, and the array out
   of c/baokeshed.c:221 has 16 * 32 bytes (with any contents).  The input may have any
   length. *)
Definition c_call_typed (x : c_call) : Prop :=
  match x with
  | DNew memory key _ => len memory = 53 * 32 /\ length key = 32%nat /\ bytes key
  | DInit _ key _ => length key = 32%nat /\ bytes key
  | DUpdate _ input junk => bytes input /\ len junk = 16 * 32
  | _ => True
  end.
