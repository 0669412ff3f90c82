(* Hasher::update again, noting for each call of Platform::hash_many how many chunks it
   hashes side by side.  Definitions only.

   w_update_chunks and w_update are update_chunks and update of Lib.v, statement for
   statement, with a list of these numbers; theorem widths_are_of_update in Prop_Widths
   says that they return the same. *)
From Coq Require Import NArith List Bool.
From Verif Require Import Base Portable Platform Lib Session Io.
Import ListNotations.
Open Scope N_scope.

Definition wd (A : Type) : Type := (list N * res A)%type.
Definition wlift {A : Type} (r : res A) : wd A := ([], r).
Definition wbind {A B : Type} (m : wd A) (f : A -> wd B) : wd B :=
  match m with
  | (l, Ok x) => let (l', r) := f x in (l ++ l', r)
  | (l, Panic) => (l, Panic)
  | (l, NoFuel) => (l, NoFuel)
  end.
Notation "'let^' x ':=' e 'in' k" := (wbind e (fun x => k))
  (at level 200, x pattern, e at level 100, k at level 200, right associativity).
Notation "e ';^' k" := (wbind e (fun _ => k))
  (at level 199, right associativity).

(* src/lib.rs:875-901 *)
Fixpoint w_update_chunks (c : cfg) (fuel : nat) (h : hasher) (chunks : list (list N))
  (out_array : list N) : wd hasher :=
  let chunks_array := take (MAX_SIMD_DEGREE c) chunks in
  if len chunks_array =? 0 then wlift (Ok h)
  else
    match fuel with
    | O => wlift NoFuel
    | S fuel' =>
        let s := h_chunk h in
        let^ out_array :=
          ([len chunks_array],
           hash_many c (cs_platform s) CHUNK_LEN chunks_array (cs_key s) (cs_offset s) CHUNK_LEN
                     (cs_flags s) CHUNK_START CHUNK_END out_array) in
        let^ h := wlift (push_batch c h
                    (take (len chunks_array) (fst (chunks_exact OUT_LEN out_array)))) in
        w_update_chunks c fuel' h (drop (MAX_SIMD_DEGREE c) chunks) out_array
    end.

(* src/lib.rs:836-920 *)
Definition w_update (c : cfg) (h : hasher) (input : list N) : wd hasher :=
  let s := h_chunk h in
  let is_first_chunk := cs_offset s =? 0 in
  let maybe_root := is_first_chunk && (len input =? CHUNK_LEN) in
  let^ (h, input, return_now) :=
    wlift (if maybe_root || (0 <? cs_len s) then
       let* want := subU c CHUNK_LEN (cs_len s) in
       let take_n := N.min want (len input) in
       let* now := slice_to input take_n in
       let* s := cs_update c s now in
       let* input := slice_from input take_n in
       if negb (len input =? 0) then
         dassert c (cs_len s =? CHUNK_LEN) ;;
         let* o := cs_finalize c s NotRoot in
         let chunk_hash := to_hash o in
         let* h := push_chunk_hash c (Hasher (h_stack h) s) chunk_hash (cs_offset s) in
         let* off := add64 c (cs_offset s) CHUNK_LEN in
         let* s := cs_reset c s off in
         Ok (Hasher (h_stack h) s, input, false)
       else Ok (Hasher (h_stack h) s, input, true)
     else Ok (h, input, false)) in
  if return_now then wlift (Ok h)
  else
    let '(chunks, remainder) := chunks_exact CHUNK_LEN input in
    wlift (dassert c (cs_len (h_chunk h) =? 0)) ;^
    let^ h := w_update_chunks c (length chunks) h chunks
                (zeros (MAX_SIMD_DEGREE c * OUT_LEN)) in
    wlift (dassert c (cs_len (h_chunk h) =? 0)) ;^
    wlift (dassert c (len remainder <? CHUNK_LEN)) ;^
    if negb (len remainder =? 0) then
      let^ h := wlift (merge_loop c (length (h_stack h)) h (cs_offset (h_chunk h))) in
      let^ s := wlift (cs_update c (h_chunk h) remainder) in
      wlift (Ok (Hasher (h_stack h) s))
    else wlift (Ok h).

(* Several updates *)
Fixpoint w_feed (c : cfg) (h : hasher) (inputs : list (list N)) : wd hasher :=
  match inputs with
  | [] => wlift (Ok h)
  | x :: r => let^ h := w_update c h x in w_feed c h r
  end.

(* A Hasher as a writer for copy_wide, with the numbers noted so far: src/lib.rs:994-1003 *)
Definition w_write (c : cfg) (w : list N * hasher) (buf : list N)
  : res (write_result * (list N * hasher)) :=
  let (l, h) := w in
  let (l', r) := w_update c h buf in
  let* h := r in Ok (WriteOk (len buf), (l ++ l', h)).

(* &[u8] as a reader (std): fills the buffer as far as there is data. *)
Definition slice_read (r : list N) (n : N) : read_result * list N := (ReadOk (take n r), drop n r).
(* A reader that returns at most k bytes at a time, like a pipe. *)
Definition pipe_read (k : N) (r : list N) (n : N) : read_result * list N :=
  (ReadOk (take (N.min k n) r), drop (N.min k n) r).
