(* Model of the printing in /repo/baokeshed_bin/src/main.rs: the same functions as in Cli.v,
   with every print! and println! a call that may fail.  Definitions only.

   Standard output is line buffered (std::io::Stdout, from its documentation): text waits in
   a buffer and is handed to the system in order, at the latest when a newline is written.
   When and how much is handed over early is arbitrary, and so is what the system does: it
   is a state machine of its own.  If it reports an error, part of the text may have
   been taken, and print! panics.  A closed standard output, for which std pretends that
   writing succeeds, is a system that takes everything. *)
From Coq Require Import NArith List Bool.
From Verif Require Import Base Portable Platform Lib Io Cli.
Import ListNotations.
Open Scope N_scope.

(* What became of the waiting text: its first n bytes were delivered and the rest still
   waits, or its first n bytes were delivered and then there was an error. *)
Inductive delivery : Type := Delivered (n : N) | Broken (n : N).

(* Nothing up to a newline waits after a successful call. *)
Definition line_buffered {Q : Type} (w : Q -> list N -> delivery * Q) : Prop :=
  forall q x n q', w q x = (Delivered n, q') -> ~ In 10 (drop n x).

(* No call ever fails. *)
Definition reliable {Q : Type} (w : Q -> list N -> delivery * Q) : Prop :=
  forall q x, exists n q', w q x = (Delivered n, q').

Section Out.
Context {Q : Type} (w : Q -> list N -> delivery * Q).

(* The state of standard output: the text delivered so far, the text waiting, the system's
   state, and whether a call has failed. *)
Record outs : Type := Outs { o_delivered : list N; o_waiting : list N; o_sys : Q; o_failed : bool }.

(* A computation that prints. *)
Definition outm (A : Type) : Type := outs -> res A * outs.
Definition lift {A : Type} (x : res A) : outm A := fun q => (x, q).
Definition bindo {A B : Type} (x : outm A) (k : A -> outm B) : outm B :=
  fun q => match x q with
           | (Ok a, q) => k a q
           | (Panic, q) => (Panic, q)
           | (NoFuel, q) => (NoFuel, q)
           end.

(* One string given to standard output. *)
Definition put (t : list N) : outm unit :=
  fun q =>
    let all := o_waiting q ++ t in
    match w (o_sys q) all with
    | (Delivered n, s) => (Ok tt, Outs (o_delivered q ++ take n all) (drop n all) s (o_failed q))
    | (Broken n, s) => (Panic, Outs (o_delivered q ++ take n all) (drop n all) s true)
    end.
(* Several strings: the pieces of one print! or println! *)
Fixpoint puts (ts : list (list N)) : outm unit :=
  match ts with
  | [] => lift (Ok tt)
  | t :: r => bindo (put t) (fun _ => puts r)
  end.

(* main.rs:73-87 *)
Fixpoint print_hex_loop_out (c : cfg) (fuel : nat) (o : output) (remaining : N) : outm output :=
  if 0 <? remaining then
    match fuel with
    | O => lift NoFuel
    | S fuel' =>
        bindo (lift (
          let* (bytes, o) := read c o in
          let* hash1 := slice bytes 0 OUT_LEN in
          let* hash2 := slice bytes OUT_LEN OUT_LEN in
          let* hex1 := to_hex (hash_from_bytes hash1) in
          let take1 := N.min remaining (len hex1) in
          let* s1 := slice_to hex1 (take1 mod WU c) in
          Ok (o, hash2, take1, s1))) (fun '(o, hash2, take1, s1) =>
        bindo (put s1) (fun _ =>
        bindo (lift (
          let* remaining := subw c W64 remaining take1 in
          let* hex2 := to_hex (hash_from_bytes hash2) in
          let take2 := N.min remaining (len hex2) in
          let* s2 := slice_to hex2 (take2 mod WU c) in
          Ok (remaining, take2, s2))) (fun '(remaining, take2, s2) =>
        bindo (put s2) (fun _ =>
        bindo (lift (subw c W64 remaining take2)) (fun remaining =>
        print_hex_loop_out c fuel' o remaining)))))
    end
  else lift (Ok o).
Definition print_hex_out (c : cfg) (fuel : nat) (o : output) (byte_length : N) : outm output :=
  bindo (lift (mul64 c 2 byte_length)) (fun remaining => print_hex_loop_out c fuel o remaining).

(* main.rs:110-129 *)
Fixpoint hash_inputs_out {S F : Type} (c : cfg) (p : platform) (o : os S F) (fuel wfuel : nat)
  (key : option (list N)) (derive : bool) (byte_length : N) (many : bool)
  (s : S) (did_error : bool) (inputs : list (list N)) : outm (bool * S) :=
  match inputs with
  | [] => lift (Ok (did_error, s))
  | path :: r =>
      let input_str := os_lossy o path in
      bindo (lift (hash_one c p o fuel wfuel s (Some path) key derive)) (fun '(x, s) =>
      match x with
      | IoOk output =>
          bindo (print_hex_out c fuel output byte_length) (fun _ =>
          bindo (puts (if many then [TWO_SPACES; input_str; NEWLINE] else [NEWLINE])) (fun _ =>
          hash_inputs_out c p o fuel wfuel key derive byte_length many s did_error r))
      | IoErr e =>
          bindo (puts [BAO; input_str; COLON; os_error o e; NEWLINE]) (fun _ =>
          hash_inputs_out c p o fuel wfuel key derive byte_length many s true r)
      end)
  end.

(* main.rs:89-140: the exit status and the state of the rest of the system *)
Definition cli_hash_out {S F : Type} (c : cfg) (p : platform) (o : os S F) (fuel wfuel : nat) (s : S)
  (a : args) : outm (N * S) :=
  let byte_length := match a_length a with Some n => n | None => OUT_LEN end in
  let derive := match a_derive_key a with Some _ => true | None => false end in
  match decode_key a with
  | None => lift (Ok (1, s))
  | Some key =>
      if negb (is_empty (a_inputs a)) then
        bindo (hash_inputs_out c p o fuel wfuel key derive byte_length (1 <? len (a_inputs a)) s false
                 (a_inputs a)) (fun '(did_error, s) =>
        lift (Ok (if did_error then 1 else 0, s)))
      else
        bindo (lift (hash_one c p o fuel wfuel s None key derive)) (fun '(x, s) =>
        match x with
        | IoErr e => lift (Ok (1, s))
        | IoOk output =>
            bindo (print_hex_out c fuel output byte_length) (fun _ =>
            bindo (put NEWLINE) (fun _ => lift (Ok (0, s))))
        end)
  end.

(* main.rs:26-39 *)
Definition cli_main_out {S F : Type} (usage version : list N) (c : cfg) (p : platform) (o : os S F)
  (fuel wfuel : nat) (s : S) (a : args) : outm (N * S) :=
  if a_help a then bindo (put usage) (fun _ => lift (Ok (0, s)))
  else if a_version a then bindo (puts [version; NEWLINE]) (fun _ => lift (Ok (0, s)))
  else cli_hash_out c p o fuel wfuel s a.

(* The whole process: it starts with nothing waiting, and when it ends, in whatever way, std
   hands over what still waits and ignores errors.  The result, the text delivered, and
   whether a call made by print! failed. *)
Definition process {A : Type} (m : outm A) (q : Q) : res A * list N * bool :=
  let (r, z) := m (Outs [] [] q false) in
  let n := match w (o_sys z) (o_waiting z) with (Delivered n, _) | (Broken n, _) => n end in
  (r, o_delivered z ++ take n (o_waiting z), o_failed z).

End Out.
