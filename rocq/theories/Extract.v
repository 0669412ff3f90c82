(* Reading an input off its hash, given a table of compression calls.  Definitions only.

   Somebody writes down calls of the compression function with their results.  Given such a
   table and a hash, extract looks for a mode and an input that have this hash and whose
   calls are all in the table.  It does not use the compression function.  Nothing here is code
   of the repository; the theorems in Prop_Extract say what it means for the hash. *)
From Coq Require Import NArith List Bool.
From Verif Require Import Base Spec SessionSpec Calls.
Import ListNotations.
Open Scope N_scope.

(* A call and the 16 words it returned. *)
Definition table : Type := list (node * list N).
Definition queries (F : cfun) (A : list node) : table :=
  map (fun x => (x, F (nd_cv x) (nd_block x) (nd_blen x) (nd_off x) (nd_flags x))) A.

Definition same (a b : list N) : bool := if list_eq_dec N.eq_dec a b then true else false.
Definition node_eqb (a b : node) : bool :=
  same (nd_cv a) (nd_cv b) && same (nd_block a) (nd_block b) && (nd_blen a =? nd_blen b)
  && (nd_off a =? nd_off b) && (nd_flags a =? nd_flags b).

(* The first call whose result begins with the 32 bytes h. *)
Definition lookup (t : table) (h : list N) : option node :=
  option_map fst (find (fun e => same (bytes_of_words (firstn 8 (snd e))) h) t).

(* The key and the input beneath a call: a parent's block is the results of two calls; a
   chunk's block that does not start the chunk continues from the call that gave its chaining
   value. *)
Fixpoint beneath (t : table) (fuel : nat) (x : node) : option (list N * list N) :=
  match fuel with
  | O => None
  | S fuel' =>
      let at_ h := match lookup t h with Some y => beneath t fuel' y | None => None end in
      if N.testbit (nd_flags x) 2 then
        match at_ (take 32 (nd_block x)), at_ (drop 32 (nd_block x)) with
        | Some (_, l), Some (_, r) => Some (nd_cv x, l ++ r)
        | _, _ => None
        end
      else
        let data := take (nd_blen x) (nd_block x) in
        if N.testbit (nd_flags x) 0 then Some (nd_cv x, data)
        else
          match at_ (bytes_of_words (nd_cv x)) with
          | Some (key, d) => Some (key, d ++ data)
          | None => None
          end
  end.

(* The mode with these flags and this key. *)
Definition mode_of (flags : N) (key : list N) : mode :=
  if N.testbit flags 4 then Keyed (bytes_of_words key)
  else if N.testbit flags 5 then Deriving (bytes_of_words key)
  else Hashing.

(* The table as a compression function, and the check that it contains a hash. *)
Definition table_fun (t : table) : cfun := fun cv block blen off flags =>
  match find (fun e => node_eqb (fst e) (Nd cv block blen off flags)) t with
  | Some e => snd e
  | None => []
  end.
Definition contains (t : table) (m : mode) (input h : list N) : bool :=
  mode_okb m
  && forallb (fun x => existsb (fun e => node_eqb (fst e) x) t) (calls (table_fun t) m input)
  && same (spec_hash (table_fun t) m input) h.

Definition extract (t : table) (h : list N) : option (mode * list N) :=
  match lookup t h with
  | None => None
  | Some root =>
      match beneath t (32 + length t) root with
      | None => None
      | Some (key, input) =>
          let m := mode_of (nd_flags root) key in
          if contains t m input h then Some (m, input) else None
      end
  end.
