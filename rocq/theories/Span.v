(* The one-shot functions of /repo/src/lib.rs again, with the time they take when the two
   halves of every join run at the same time.  Definitions only.

   Time is counted in calls of the compression function.  jn says how long a join takes
   whose halves take a and b: N.max a b if they run at the same time (rayon with enough
   threads), a + b if they run one after the other (without rayon, or on one thread).
   The pieces without a join are taken from LibCalls.v, where every call is noted; their
   time is the number of their calls.  Theorems time_is_of_code and sequential_time in
   Prop_Span say that the results are those of Lib.v, and that the time with a + b is the
   number of calls. *)
From Coq Require Import NArith List Bool.
From Verif Require Import Base Spec Portable Platform Lib Session LibCalls.
Import ListNotations.
Open Scope N_scope.

Definition timed (A : Type) : Type := (N * res A)%type.
Definition at_once {A : Type} (r : res A) : timed A := (0, r).
Definition time_of {A : Type} (m : tr A) : timed A := let (s, r) := m [] in (len s, r).
Definition then_ {A B : Type} (m : timed A) (f : A -> timed B) : timed B :=
  match m with
  | (t, Ok x) => let (t', r) := f x in (t + t', r)
  | (t, Panic) => (t, Panic)
  | (t, NoFuel) => (t, NoFuel)
  end.
Notation "'let@' x ':=' e 'in' k" := (then_ e (fun x => k))
  (at level 200, x pattern, e at level 100, k at level 200, right associativity).
Notation "e ';@' k" := (then_ e (fun _ => k))
  (at level 199, right associativity).

(* src/lib.rs:436-447 *)
Definition s_join {A B : Type} (jn : N -> N -> N) (a : timed A) (b : timed B) : timed (A * B) :=
  match a with
  | (t, Ok x) =>
      match b with
      | (t', Ok y) => (jn t t', Ok (x, y))
      | (t', Panic) => (jn t t', Panic)
      | (t', NoFuel) => (jn t t', NoFuel)
      end
  | (t, Panic) => (t, Panic)
  | (t, NoFuel) => (t, NoFuel)
  end.

(* src/lib.rs:450-512 *)
Fixpoint s_hash_recurse (jn : N -> N -> N) (c : cfg) (p : platform) (fuel : nat)
  (input key : list N) (offset flags : N) (out : list N) : timed (list N * N) :=
  if len input <=? simd_degree p * CHUNK_LEN
  then time_of (t_hash_chunks_parallel c p input key offset flags out)
  else
    match fuel with
    | O => at_once NoFuel
    | S fuel' =>
        let@ ll := at_once (left_len c (len input)) in
        let@ (left_in, right_in) := at_once (split_at input ll) in
        let@ right_off := at_once (add64 c offset (len left_in)) in
        at_once (dassert c (popcount (simd_degree p) =? 1)) ;@
        let children_array := zeros (2 * MAX_SIMD_DEGREE_OR_2 c * OUT_LEN) in
        let degree := if len left_in =? CHUNK_LEN then 1 else N.max (simd_degree p) 2 in
        let@ (left_out, right_out) := at_once (split_at children_array (degree * OUT_LEN)) in
        let@ (x, y) :=
          s_join jn (s_hash_recurse jn c p fuel' left_in key offset flags left_out)
                    (s_hash_recurse jn c p fuel' right_in key right_off flags right_out) in
        let '(left_out, left_n) := x in
        let '(right_out, right_n) := y in
        let children_array := left_out ++ right_out in
        at_once (dassert c (left_n =? degree)) ;@
        at_once (dassert c ((1 <=? right_n) && (right_n <=? left_n))) ;@
        if left_n =? 1 then
          let@ dst := at_once (slice_to out (2 * OUT_LEN)) in
          let@ src := at_once (slice_to children_array (2 * OUT_LEN)) in
          let@ out := at_once (copy_at out 0 src) in
          at_once (Ok (out, 2))
        else
          let num_children := left_n + right_n in
          let@ children := at_once (slice_to children_array (num_children * OUT_LEN)) in
          time_of (t_hash_parents_parallel c p children key flags out)
    end.

(* src/lib.rs:538-552 *)
Definition s_hash_internal (jn : N -> N -> N) (c : cfg) (p : platform) (input key_words : list N)
  (flags : N) : timed output :=
  if len input <=? CHUNK_LEN
  then time_of (t_hash_one_chunk c p input key_words 0 Root flags)
  else
    let children_array := zeros (MAX_SIMD_DEGREE_OR_2 c * OUT_LEN) in
    let@ (children_array, num_children) :=
      s_hash_recurse jn c p (depth_fuel input) input key_words 0 flags children_array in
    let@ children := at_once (slice_to children_array (num_children * OUT_LEN)) in
    time_of (t_condense_root c p children key_words flags).

(* src/lib.rs:555-596 *)
Definition s_oneshot (jn : N -> N -> N) (c : cfg) (p : platform) (m : mode) (input : list N)
  : timed (list N) :=
  let@ o :=
    match m with
    | Hashing => s_hash_internal jn c p input IV 0
    | Keyed key => s_hash_internal jn c p input (words_from_key_bytes key) KEYED_HASH
    | Deriving key => s_hash_internal jn c p input (words_from_key_bytes key) DERIVE_KEY
    end in
  time_of (t_to_hash o).
