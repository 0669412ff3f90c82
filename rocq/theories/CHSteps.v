(* The functions of /repo/c/baokeshed.c once more, this time noting the steps of the backends
   (CVSteps.v) and the accesses of the hasher itself to its input, to the buffer of the chunk
   state, to the array subtree_hashes and to the local array out.  Definitions only.

   Each function w_f below is the function f of CImpl.v, statement for statement, with a list
   of steps passed along.  Theorem C62_steps_are_of_the_code in Prop_CHSteps says that it
   returns what f returns.

   The input of hasher_update is array PInput 0.  The argument e is the position in it where
   the bytes `input` of the model end, so that the C pointer is at position e - len input.
   `memcpy` and `memset` are noted as one load and one store, compress with a Call on the block
   it is given.  Not noted: the fields of the structs that are numbers, and the copying of
   chaining values, the key and working_hash. *)
From Coq Require Import NArith List Bool.
From Verif Require Import Base CSimd CImpl VOps CVSteps SessionSpec CSessionSpec.
Import ListNotations.
Open Scope N_scope.

Definition access (l : list vstep) : vs unit := (l, Ok tt).

(* c/baokeshed.c:43-53 *)
Definition w_fill_buf (o : copts) (e : N) (s : c_chunk) (input : list N) : vs (c_chunk * list N) :=
  let n := sub_size o C_BLOCK_LEN (k_buf_len s) in
  let n := if len input <? n then len input else n in
  let? src := ([Load (PInput 0) (e - len input) n], slice input 0 n) in
  let? buf := ([Store PBuf (k_buf_len s) n], copy_at (k_buf s) (k_buf_len s) src) in
  vlift (Ok (CChunk (k_state s) (k_key s) (k_offset s) (k_count s) buf
               ((k_buf_len s + n mod W8) mod W8) (k_flags s), drop n input)).

(* c/baokeshed.c:82-84 and 91-93; at is where the block is *)
Definition w_chunk_state_block (o : copts) (s : c_chunk) (at_ : vstep) (block : list N) : vs c_chunk :=
  access [at_] ;?
  let? state := cv_compress o (k_state s) block C_BLOCK_LEN (k_offset s)
                  (N.lor (k_flags s) (chunk_state_maybe_start_flag s)) in
  vlift (Ok (CChunk state (k_key s) (k_offset s) ((k_count s + C_BLOCK_LEN) mod 65536)
               (k_buf s) (k_buf_len s) (k_flags s))).
(* c/baokeshed.c:90-96 *)
Fixpoint w_chunk_state_loop (o : copts) (e : N) (fuel : nat) (s : c_chunk) (input : list N)
  : vs (c_chunk * list N) :=
  if C_BLOCK_LEN <? len input then
    match fuel with
    | O => vlift NoFuel
    | S fuel' =>
        let? block := vlift (slice input 0 C_BLOCK_LEN) in
        let? s := w_chunk_state_block o s (Call (PInput 0) (e - len input)) block in
        w_chunk_state_loop o e fuel' s (drop C_BLOCK_LEN input)
    end
  else vlift (Ok (s, input)).
(* c/baokeshed.c:75-101 *)
Definition w_chunk_state_update (o : copts) (e : N) (s : c_chunk) (input : list N) : vs c_chunk :=
  let? (s, input) :=
    (if 0 <? k_buf_len s then
       let? (s, input) := w_fill_buf o e s input in
       if 0 <? len input then
         let? s := w_chunk_state_block o s (Call PBuf 0) (k_buf s) in
         access [Store PBuf 0 C_BLOCK_LEN] ;?
         vlift (Ok (CChunk (k_state s) (k_key s) (k_offset s) (k_count s) (zeros C_BLOCK_LEN) 0
                      (k_flags s), input))
       else vlift (Ok (s, input))
     else vlift (Ok (s, input))) in
  let? (s, input) := w_chunk_state_loop o e (length input) s input in
  let? (s, input) := w_fill_buf o e s input in
  vlift (Ok s).
(* c/baokeshed.c:104-115 *)
Definition w_chunk_state_finalize (o : copts) (s : c_chunk) (is_root : bool) : vs (list N) :=
  let block_flags :=
    N.lor (N.lor (k_flags s) (chunk_state_maybe_start_flag s)) C_CHUNK_END in
  let block_flags := if is_root then N.lor block_flags C_ROOT else block_flags in
  access [Call PBuf 0] ;?
  let? state := cv_compress o (k_state s) (k_buf s) (k_buf_len s) (k_offset s) block_flags in
  vlift (Ok (write_state_bytes state)).

(* c/baokeshed.c:117-128; at is where the block is *)
Definition w_hash_one_parent (o : copts) (at_ : vstep) (block key : list N) (is_root : bool)
  (flags : N) : vs (list N) :=
  let block_flags := N.lor flags C_PARENT in
  let block_flags := if is_root then N.lor block_flags C_ROOT else block_flags in
  access [at_] ;?
  let? state := cv_compress o key block C_BLOCK_LEN 0 block_flags in
  vlift (Ok (write_state_bytes state)).

(* c/baokeshed.c:148-156 *)
Definition w_merge_parent (o : copts) (h : c_hasher) : vs c_hasher :=
  let parent_block_start := (sub_size o (c_stack_len h) 2 * C_OUT_LEN) mod WS o in
  let? block := vlift (slice (c_stack h) parent_block_start C_BLOCK_LEN) in
  let? out := w_hash_one_parent o (Call PStack parent_block_start) block (k_key (c_chunk_of h))
                false (k_flags (c_chunk_of h)) in
  let? stack := ([Store PStack parent_block_start C_OUT_LEN],
                 copy_at (c_stack h) parent_block_start out) in
  vlift (Ok (CHasher (c_chunk_of h) ((c_stack_len h + 255) mod W8) stack)).
(* c/baokeshed.c:161-163 and 251-253 *)
Fixpoint w_merge_loop (o : copts) (fuel : nat) (h : c_hasher) (total_bytes : N) : vs c_hasher :=
  let? needs := vlift (hasher_needs_merge o h total_bytes) in
  if needs then
    match fuel with
    | O => vlift NoFuel
    | S fuel' => let? h := w_merge_parent o h in w_merge_loop o fuel' h total_bytes
    end
  else vlift (Ok h).
Definition w_merge_all (o : copts) (h : c_hasher) (total_bytes : N) : vs c_hasher :=
  w_merge_loop o (N.to_nat (c_stack_len h)) h total_bytes.
(* c/baokeshed.c:158-167 *)
Definition w_push_chunk_hash (o : copts) (h : c_hasher) (hash : list N) (offset : N) : vs c_hasher :=
  vlift (if ndebug o then Ok tt else assert_ (c_stack_len h <? C_MAX_DEPTH)) ;?
  let? h := w_merge_all o h offset in
  let? stack := ([Store PStack (c_stack_len h * C_OUT_LEN) C_OUT_LEN],
                 copy_at (c_stack h) (c_stack_len h * C_OUT_LEN) hash) in
  vlift (Ok (CHasher (c_chunk_of h) ((c_stack_len h + 1) mod W8) stack)).

(* A step of hash_many when its inputs are the chunks from position p of the input of
   hasher_update on: c/baokeshed.c:225-230 *)
Definition relocate (p : N) (s : vstep) : vstep :=
  match s with
  | Load (PInput k) off n => Load (PInput 0) (p + C_CHUNK_LEN * N.of_nat k + off) n
  | Call (PInput k) off => Call (PInput 0) (p + C_CHUNK_LEN * N.of_nat k + off)
  | _ => s
  end.
Definition relocated {A : Type} (p : N) (m : vs A) : vs A := (map (relocate p) (fst m), snd m).

(* c/baokeshed.c:234-240 *)
Fixpoint w_push_chunks (o : copts) (n : nat) (chunk_index : N) (h : c_hasher) (out : list N)
  : vs c_hasher :=
  match n with
  | O => vlift (Ok h)
  | S n' =>
      let? hash := ([Load POut (chunk_index * C_OUT_LEN) C_OUT_LEN],
                    slice out (chunk_index * C_OUT_LEN) C_OUT_LEN) in
      let? h := w_push_chunk_hash o h hash (k_offset (c_chunk_of h)) in
      let s := c_chunk_of h in
      let s := CChunk (k_state s) (k_key s) ((k_offset s + C_CHUNK_LEN) mod W64) (k_count s)
                 (k_buf s) (k_buf_len s) (k_flags s) in
      w_push_chunks o n' (chunk_index + 1) (CHasher s (c_stack_len h) (c_stack h)) out
  end.
(* c/baokeshed.c:224-242 *)
Fixpoint w_chunks_loop (o : copts) (e : N) (fuel : nat) (h : c_hasher) (input out : list N)
  : vs (c_hasher * list N) :=
  if C_CHUNK_LEN <=? len input then
    match fuel with
    | O => vlift NoFuel
    | S fuel' =>
        let '(chunks, rest) := gather_chunks (N.to_nat C_MAX_SIMD_DEGREE) input in
        let s := c_chunk_of h in
        let? out := relocated (e - len input)
                      (cv_hash_many o 0 chunks (C_CHUNK_LEN / C_BLOCK_LEN) (k_key s) (k_offset s)
                         CHUNK_OFFSET_DELTAS (k_flags s) C_CHUNK_START C_CHUNK_END out) in
        let? h := w_push_chunks o (length chunks) 0 h out in
        w_chunks_loop o e fuel' h rest out
    end
  else vlift (Ok (h, input)).

(* c/baokeshed.c:219-256 *)
Definition w_update_rest (o : copts) (e : N) (junk : list N) (h : c_hasher) (input : list N)
  : vs c_hasher :=
  let? (h, input) := w_chunks_loop o e (length input) h input junk in
  if 0 <? len input then
    let? h := w_merge_all o h (k_offset (c_chunk_of h)) in
    let? s := w_chunk_state_update o e (c_chunk_of h) input in
    vlift (Ok (CHasher s (c_stack_len h) (c_stack h)))
  else vlift (Ok h).
(* c/baokeshed.c:192-256; chunk_state_reset (31-37) clears the buffer *)
Definition w_hasher_update (o : copts) (junk : list N) (h : c_hasher) (input : list N) : vs c_hasher :=
  let e := len input in
  let is_first_chunk := k_offset (c_chunk_of h) =? 0 in
  let maybe_root := is_first_chunk && (len input =? C_CHUNK_LEN) in
  if maybe_root || (0 <? chunk_state_len (c_chunk_of h)) then
    let n := sub_size o C_CHUNK_LEN (chunk_state_len (c_chunk_of h)) in
    let n := if len input <? n then len input else n in
    let? src := vlift (slice input 0 n) in
    let? s := w_chunk_state_update o n (c_chunk_of h) src in
    let h := CHasher s (c_stack_len h) (c_stack h) in
    let input := drop n input in
    if 0 <? len input then
      let? out := w_chunk_state_finalize o s false in
      let? h := w_push_chunk_hash o h out (k_offset s) in
      access [Store PBuf 0 C_BLOCK_LEN] ;?
      let s := chunk_state_reset (c_chunk_of h)
                 ((k_offset (c_chunk_of h) + C_CHUNK_LEN) mod W64) in
      w_update_rest o e junk (CHasher s (c_stack_len h) (c_stack h)) input
    else vlift (Ok h)
  else w_update_rest o e junk h input.

(* c/baokeshed.c:280-292; the local array block is noted as PBlock *)
Fixpoint w_finalize_up (o : copts) (fuel : nat) (h : c_hasher) (working_hash : list N)
  (next_subtree_start : N) : vs (list N) :=
  let is_root := next_subtree_start =? 0 in
  let? subtree := ([Load PStack next_subtree_start C_OUT_LEN],
                   slice (c_stack h) next_subtree_start C_OUT_LEN) in
  let block := subtree ++ working_hash in
  let? working_hash :=
    w_hash_one_parent o (Call PBlock 0) block (k_key (c_chunk_of h)) is_root
      (k_flags (c_chunk_of h)) in
  if is_root then vlift (Ok working_hash)
  else
    match fuel with
    | O => vlift NoFuel
    | S fuel' => w_finalize_up o fuel' h working_hash (sub_size o next_subtree_start C_OUT_LEN)
    end.
(* c/baokeshed.c:258-293 *)
Definition w_hasher_finalize (o : copts) (h : c_hasher) : vs (list N) :=
  if c_stack_len h =? 0 then w_chunk_state_finalize o (c_chunk_of h) true
  else
    let? (working_hash, next_subtree_start) :=
      (if 0 <? chunk_state_len (c_chunk_of h) then
         let? w := w_chunk_state_finalize o (c_chunk_of h) false in
         vlift (Ok (w, (sub_size o (c_stack_len h) 1 * C_OUT_LEN) mod WS o))
       else
         let last_hash_start := (sub_size o (c_stack_len h) 1 * C_OUT_LEN) mod WS o in
         let? w := ([Load PStack last_hash_start C_OUT_LEN],
                    slice (c_stack h) last_hash_start C_OUT_LEN) in
         vlift (Ok (w, (sub_size o (c_stack_len h) 2 * C_OUT_LEN) mod WS o))) in
    w_finalize_up o (N.to_nat (c_stack_len h)) h working_hash next_subtree_start.

(* ---- programs ------------------------------------------------------------------ *)

(* CSession.c_step and c_run with these functions *)
Definition w_step (o : copts) (w : list c_hasher) (x : c_call)
  : vs (list c_hasher * list (list N)) :=
  let nth i := vlift match nth_error w i with Some h => Ok h | None => Panic end in
  match x with
  | DNew memory key flags => vlift (Ok (w ++ [hasher_init memory key flags], []))
  | DInit i key flags =>
      let? h := nth i in vlift (Ok (replace w i (hasher_init (c_stack h) key flags), []))
  | DCopy i => let? h := nth i in vlift (Ok (w ++ [h], []))
  | DAssign i j => let? _ := nth i in let? h := nth j in vlift (Ok (replace w i h, []))
  | DUpdate i input junk =>
      let? h := nth i in
      let? h := w_hasher_update o junk h input in
      vlift (Ok (replace w i h, []))
  | DFinalize i =>
      let? h := nth i in
      let? hash := w_hasher_finalize o h in
      vlift (Ok (w, [hash]))
  end.
Fixpoint w_run (o : copts) (w : list c_hasher) (xs : list c_call)
  : vs (list c_hasher * list (list N)) :=
  match xs with
  | [] => vlift (Ok (w, []))
  | x :: r =>
      let? (w, s) := w_step o w x in
      let? (w, ss) := w_run o w r in
      vlift (Ok (w, s ++ ss))
  end.
