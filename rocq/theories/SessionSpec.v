(* What a program that uses the public API of the library should see: an abstract
   machine over handles.  No reference to the model of the code.

   A hasher handle is a mode and the bytes fed to it so far.  An output handle is a
   mode, an input and the number of 64-byte blocks already read. *)
From Coq Require Import NArith List Bool.
From Verif Require Import Base Spec.
Import ListNotations.
Open Scope N_scope.

(* One call of the API.  Handles are numbered in order of creation. *)
Inductive call : Type :=
| CHash (m : mode) (input : list N)        (* hash / keyed_hash / derive_key *)
| CHashXof (m : mode) (input : list N)     (* the _xof variants: a new output handle *)
| CNew (m : mode)                          (* Hasher::new...: a new hasher handle *)
| CClone (i : nat)                         (* Hasher::clone: a new hasher handle *)
| CUpdate (i : nat) (input : list N)
| CWrite (i : nat) (input : list N)        (* io::Write::write *)
| CFlush (i : nat)                         (* io::Write::flush *)
| CFinalize (i : nat)
| CFinalizeXof (i : nat)                   (* a new output handle *)
| CCloneOutput (j : nat)                   (* Output::clone: a new output handle *)
| CRead (j : nat)                          (* Output::read *)
| CToHash (j : nat).                       (* Output::to_hash *)

(* What the caller sees. *)
Inductive seen : Type :=
| SNothing
| SCount (n : N)                           (* the number returned by write *)
| SBytes (bs : list N).                    (* a hash or a block of output *)

Record abstract : Type := Abstract
  { a_hashers : list (mode * list N); a_outputs : list (mode * list N * N) }.

Fixpoint replace {A : Type} (l : list A) (i : nat) (x : A) : list A :=
  match l, i with
  | [], _ => []
  | _ :: r, O => x :: r
  | y :: r, S j => y :: replace r j x
  end.

(* The 2^64 limit on the input of a hasher and on the output, and slice lengths. *)
Definition MAX_BYTES : N := 18446744073709551616.
Definition MAX_BLOCKS : N := 288230376151711744.      (* 2^58 blocks of 64 bytes *)

Definition bytesb (l : list N) : bool := forallb (fun b => b <? 256) l.
Definition mode_okb (m : mode) : bool :=
  match m with
  | Hashing => true
  | Keyed k | Deriving k => (len k =? 32) && bytesb k
  end.

(* None: the call is not one the limits allow, or uses a handle that does not exist.
   slice_max is the largest length of a slice. *)
Definition abstract_step (slice_max : N) (a : abstract) (x : call) : option (abstract * seen) :=
  let H := a_hashers a in
  let O := a_outputs a in
  let slice_ok input := bytesb input && (len input <=? slice_max) in
  let feed i input s :=
    match nth_error H i with
    | Some (m, data) =>
        if slice_ok input && (len data + len input <? MAX_BYTES)
        then Some (Abstract (replace H i (m, data ++ input)) O, s)
        else None
    | None => None
    end in
  match x with
  | CHash m input =>
      if mode_okb m && slice_ok input
      then Some (a, SBytes (spec_hash blake_compress m input)) else None
  | CHashXof m input =>
      if mode_okb m && slice_ok input
      then Some (Abstract H (O ++ [(m, input, 0)]), SNothing) else None
  | CNew m => if mode_okb m then Some (Abstract (H ++ [(m, [])]) O, SNothing) else None
  | CClone i =>
      match nth_error H i with
      | Some h => Some (Abstract (H ++ [h]) O, SNothing) | None => None
      end
  | CUpdate i input => feed i input SNothing
  | CWrite i input => feed i input (SCount (len input))
  | CFlush i => match nth_error H i with Some _ => Some (a, SNothing) | None => None end
  | CFinalize i =>
      match nth_error H i with
      | Some (m, data) => Some (a, SBytes (spec_hash blake_compress m data)) | None => None
      end
  | CFinalizeXof i =>
      match nth_error H i with
      | Some (m, data) => Some (Abstract H (O ++ [(m, data, 0)]), SNothing) | None => None
      end
  | CCloneOutput j =>
      match nth_error O j with
      | Some o => Some (Abstract H (O ++ [o]), SNothing) | None => None
      end
  | CRead j =>
      match nth_error O j with
      | Some (m, input, k) =>
          if k + 1 <? MAX_BLOCKS
          then Some (Abstract H (replace O j (m, input, k + 1)),
                     SBytes (spec_block blake_compress m input k))
          else None
      | None => None
      end
  | CToHash j =>
      match nth_error O j with
      | Some (m, input, k) => Some (a, SBytes (take 32 (spec_block blake_compress m input k)))
      | None => None
      end
  end.

Fixpoint abstract_run (slice_max : N) (a : abstract) (xs : list call)
  : option (abstract * list seen) :=
  match xs with
  | [] => Some (a, [])
  | x :: r =>
      match abstract_step slice_max a x with
      | Some (a', s) =>
          match abstract_run slice_max a' r with
          | Some (a'', ss) => Some (a'', s :: ss)
          | None => None
          end
      | None => None
      end
  end.

(* ---- one hasher ---------------------------------------------------------------- *)

(* What a program does with one hasher. *)
Inductive event : Type :=
| EUpdate (input : list N)
| EFinalize
| EXof (n : nat).                          (* finalize_xof, then n reads *)

(* What it should see: data is what was fed before. *)
Fixpoint expected (m : mode) (data : list N) (es : list event) : list (list N) :=
  match es with
  | [] => []
  | EUpdate input :: r => expected m (data ++ input) r
  | EFinalize :: r => spec_hash blake_compress m data :: expected m data r
  | EXof n :: r => spec_xof blake_compress m data (64 * N.of_nat n) :: expected m data r
  end.

(* All bytes fed, and whether the numbers of blocks read stay below the limit. *)
Definition fed (es : list event) : list N :=
  flat_map (fun e => match e with EUpdate input => input | _ => [] end) es.
Definition event_ok (e : event) : Prop :=
  match e with
  | EUpdate input => bytes input
  | EFinalize => True
  | EXof n => N.of_nat n < MAX_BLOCKS
  end.
