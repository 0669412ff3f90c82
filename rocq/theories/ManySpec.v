(* What hash_many should compute: every input is a whole number of blocks, chained from
   the key; the first block carries the flag fs, the last one fe.  Independent of the
   model. *)
From Coq Require Import NArith List Bool.
From Verif Require Import Base Spec.
Import ListNotations.
Open Scope N_scope.

(* The first t 64-byte blocks of l. *)
Fixpoint blks (t : nat) (l : list N) : list (list N) :=
  match t with
  | O => []
  | S t' => take 64 l :: blks t' (drop 64 l)
  end.

(* Chain blocks: bf are the flags of the first one. *)
Fixpoint many_blocks (F : cfun) (cv : list N) (off bf flags fend : N) (bs : list (list N)) : list N :=
  match bs with
  | [] => cv
  | b :: rest =>
      many_blocks F
        (firstn 8 (F cv b 64 off (match rest with [] => N.lor bf fend | _ => bf end)))
        off flags flags fend rest
  end.

(* The 32 bytes for one input at offset off. *)
Definition hash_one (F : cfun) (key : list N) (flags fs fe off : N) (input : list N) : list N :=
  bytes_of_words
    (many_blocks F key off (N.lor flags fs) flags fe (blks (N.to_nat (len input / 64)) input)).

(* The offset of the next input is larger by delta. *)
Fixpoint hash_all (F : cfun) (key : list N) (flags fs fe off delta : N) (inputs : list (list N))
  : list (list N) :=
  match inputs with
  | [] => []
  | i :: r => hash_one F key flags fs fe off i :: hash_all F key flags fs fe (off + delta) delta r
  end.
