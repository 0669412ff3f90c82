(* Model of /repo/baokeshed_bin/src/main.rs.  Definitions only.

   The operating system is an arbitrary state machine (record os below): files may
   change between any two calls, reads may be short, interrupted or fail.  Standard
   output is the list of bytes printed (failures while printing are in CliOut.v), and
   what goes to standard error is not modelled.  A panic gives Panic, without the text
   printed before it.  Parsing of the arguments (docopt, lines 27-29) is not modelled:
   the functions take the parsed Args.  The memory map's content is what the system
   returned when the map was made: files truncated or changed while mapped are outside
   the model (as they are outside Rust's). *)
From Coq Require Import NArith List Bool.
From Verif Require Import Base Portable Platform Lib Io.
Import ListNotations.
Open Scope N_scope.

Record os (S F : Type) : Type := Os
  { os_open : S -> list N -> io_result F * S;         (* File::open *)
    os_stat : S -> F -> io_result (bool * N) * S;     (* metadata: is_file and len *)
    os_map : S -> F -> N -> io_result (list N) * S;   (* MmapOptions::new().len(n).map(&file) *)
    os_read : S -> F -> N -> read_result * S;         (* file.read(buf) *)
    os_stdin : S -> N -> read_result * S;             (* io::stdin().read(buf) *)
    os_error : N -> list N;                           (* an error's Display text *)
    os_lossy : list N -> list N }.                    (* Path::to_string_lossy *)
Arguments os_open {S F}. Arguments os_stat {S F}. Arguments os_map {S F}.
Arguments os_read {S F}. Arguments os_stdin {S F}. Arguments os_error {S F}.
Arguments os_lossy {S F}.

(* main.rs:16-24 *)
Record args : Type := Args
  { a_inputs : list (list N); a_help : bool; a_key : option (list N);
    a_derive_key : option (list N); a_length : option N; a_version : bool }.

(* main.rs:152-155 *)
Inductive input (F : Type) : Type := Stdin | File (f : F).
Arguments Stdin {F}.
Arguments File {F} f.

(* main.rs:157-164 *)
Definition input_read {S F : Type} (o : os S F) (i : input F) (s : S) (n : N) : read_result * S :=
  match i with
  | Stdin => os_stdin o s n
  | File f => os_read o s f n
  end.

(* std::path: equality of paths compares components.  On Unix a path is split at '/'
   (47); empty components are dropped, and so are components "." (46) except at the
   very beginning; a leading '/' makes the path absolute. *)
Fixpoint split_slash (cur : list N) (p : list N) : list (list N) :=
  match p with
  | [] => [cur]
  | ch :: r => if ch =? 47 then cur :: split_slash [] r else split_slash (cur ++ [ch]) r
  end.
Definition is_dot (x : list N) : bool := match x with [ch] => ch =? 46 | _ => false end.
Definition is_empty {A : Type} (x : list A) : bool := match x with [] => true | _ => false end.
Definition components (p : list N) : bool * list (list N) :=
  let parts := split_slash [] p in
  let keep := filter (fun x => negb (is_empty x) && negb (is_dot x)) in
  match parts with
  | first :: r =>
      if is_empty first then (negb (is_empty r), keep r)         (* absolute, or "" *)
      else (false, first :: keep r)                               (* also if it is "." *)
  | [] => (false, [])
  end.
Definition is_dash (p : list N) : bool :=
  match components p with
  | (false, [[ch]]) => ch =? 45
  | _ => false
  end.

(* main.rs:166-176 *)
Definition path_if_some_and_not_dash (maybe_path : option (list N)) : option (list N) :=
  match maybe_path with
  | Some path => if is_dash path then None else Some path
  | None => None
  end.

(* main.rs:142-150 *)
Definition open_input {S F : Type} (o : os S F) (s : S) (maybe_path : option (list N))
  : io_result (input F) * S :=
  match path_if_some_and_not_dash maybe_path with
  | Some path =>
      match os_open o s path with
      | (IoOk f, s) => (IoOk (File f), s)
      | (IoErr e, s) => (IoErr e, s)
      end
  | None => (IoOk Stdin, s)
  end.

(* isize::max_value() *)
Definition ISIZE_MAX (c : cfg) : N := WU c / 2 - 1.

(* main.rs:178-203 *)
Definition maybe_memmap_input {S F : Type} (c : cfg) (o : os S F) (s : S) (i : input F)
  : io_result (option (list N)) * S :=
  match i with
  | Stdin => (IoOk None, s)
  | File f =>
      match os_stat o s f with
      | (IoErr e, s) => (IoErr e, s)
      | (IoOk (is_file, n), s) =>
          if negb is_file then (IoOk None, s)
          else if ISIZE_MAX c <? n then (IoOk None, s)
          else if n =? 0 then (IoOk None, s)
          else
            match os_map o s f (n mod WU c) with
            | (IoErr e, s) => (IoErr e, s)
            | (IoOk map, s) => (IoOk (Some map), s)
            end
      end
  end.

(* main.rs:41-71.  fuel and wfuel are the fuel of copy_wide. *)
Definition hash_one {S F : Type} (c : cfg) (p : platform) (o : os S F) (fuel wfuel : nat) (s : S)
  (maybe_path : option (list N)) (key : option (list N)) (derive : bool)
  : res (io_result output * S) :=
  match open_input o s maybe_path with
  | (IoErr e, s) => Ok (IoErr e, s)
  | (IoOk i, s) =>
      match maybe_memmap_input c o s i with
      | (IoErr e, s) => Ok (IoErr e, s)
      | (IoOk (Some map), s) =>
          let* out :=
            match key with
            | Some key => if derive then derive_key_xof c p key map else keyed_hash_xof c p key map
            | None => hash_xof c p map
            end in
          Ok (IoOk out, s)
      | (IoOk None, s) =>
          let hasher :=
            match key with
            | Some key => if derive then hasher_new_derive_key p key else hasher_new_keyed p key
            | None => hasher_new p
            end in
          let* (x, s, hasher) := copy_wide c (input_read o i) (hasher_write c) fuel wfuel s hasher in
          match x with
          | IoErr e => Ok (IoErr e, s)
          | IoOk _ => let* out := finalize_xof c hasher in Ok (IoOk out, s)
          end
      end
  end.

(* main.rs:73-87.  out is the text printed so far. *)
Fixpoint print_hex_loop (c : cfg) (fuel : nat) (o : output) (remaining : N) (out : list N)
  : res (output * list N) :=
  if 0 <? remaining then
    match fuel with
    | O => NoFuel
    | S fuel' =>
        let* (bytes, o) := read c o in
        let* hash1 := slice bytes 0 OUT_LEN in
        let* hash2 := slice bytes OUT_LEN OUT_LEN in
        let* hex1 := to_hex (hash_from_bytes hash1) in
        let take1 := N.min remaining (len hex1) in
        let* s1 := slice_to hex1 (take1 mod WU c) in
        let* remaining := subw c W64 remaining take1 in
        let* hex2 := to_hex (hash_from_bytes hash2) in
        let take2 := N.min remaining (len hex2) in
        let* s2 := slice_to hex2 (take2 mod WU c) in
        let* remaining := subw c W64 remaining take2 in
        print_hex_loop c fuel' o remaining (out ++ s1 ++ s2)
    end
  else Ok (o, out).
Definition print_hex (c : cfg) (fuel : nat) (o : output) (byte_length : N) : res (output * list N) :=
  let* remaining := mul64 c 2 byte_length in
  print_hex_loop c fuel o remaining [].

(* hex::decode (a dependency, from its documentation): an odd number of characters is
   an error, then every pair of characters must be two hex digits. *)
Definition hex_val (ch : N) : option N :=
  if (65 <=? ch) && (ch <=? 70) then Some (ch - 65 + 10)
  else if (97 <=? ch) && (ch <=? 102) then Some (ch - 97 + 10)
  else if (48 <=? ch) && (ch <=? 57) then Some (ch - 48)
  else None.
Fixpoint hex_pairs (s : list N) : option (list N) :=
  match s with
  | hi :: lo :: r =>
      match hex_val hi with
      | None => None
      | Some a =>
          match hex_val lo with
          | None => None
          | Some b =>
              match hex_pairs r with
              | None => None
              | Some bs => Some (N.lor (N.shiftl a 4) b :: bs)
              end
          end
      end
  | _ => Some []
  end.
Definition hex_decode (s : list N) : option (list N) :=
  if len s mod 2 =? 0 then hex_pairs s else None.

(* main.rs:92-106.  None: the function returns an error. *)
Definition decode_key (a : args) : option (option (list N)) :=
  match (match a_key a with Some k => Some k | None => a_derive_key a end) with
  | Some key_str =>
      match hex_decode key_str with
      | None => None
      | Some key_bytes =>
          if negb (len key_bytes =? KEY_LEN) then None
          else
            match copy_at (zeros KEY_LEN) 0 key_bytes with
            | Ok key_array => Some (Some key_array)
            | _ => None
            end
      end
  | None => Some None
  end.

Definition NEWLINE : list N := [10].
(* "  " and "bao: " and ": " *)
Definition TWO_SPACES : list N := [32; 32].
Definition BAO : list N := [98; 97; 111; 58; 32].
Definition COLON : list N := [58; 32].

(* main.rs:110-129: the loop over the inputs, with the text printed and did_error *)
Fixpoint hash_inputs {S F : Type} (c : cfg) (p : platform) (o : os S F) (fuel wfuel : nat)
  (key : option (list N)) (derive : bool) (byte_length : N) (many : bool)
  (s : S) (out : list N) (did_error : bool) (inputs : list (list N))
  : res (list N * bool * S) :=
  match inputs with
  | [] => Ok (out, did_error, s)
  | path :: r =>
      let input_str := os_lossy o path in
      let* (x, s) := hash_one c p o fuel wfuel s (Some path) key derive in
      match x with
      | IoOk output =>
          let* (_, text) := print_hex c fuel output byte_length in
          let line := text ++ (if many then TWO_SPACES ++ input_str ++ NEWLINE else NEWLINE) in
          hash_inputs c p o fuel wfuel key derive byte_length many s (out ++ line) did_error r
      | IoErr e =>
          let line := BAO ++ input_str ++ COLON ++ os_error o e ++ NEWLINE in
          hash_inputs c p o fuel wfuel key derive byte_length many s (out ++ line) true r
      end
  end.

(* main.rs:89-140: the text on standard output, the exit status, the system's state.
   An error returned from main gives exit status 1. *)
Definition cli_hash {S F : Type} (c : cfg) (p : platform) (o : os S F) (fuel wfuel : nat) (s : S)
  (a : args) : res (list N * N * S) :=
  let byte_length := match a_length a with Some n => n | None => OUT_LEN end in
  let derive := match a_derive_key a with Some _ => true | None => false end in
  match decode_key a with
  | None => Ok ([], 1, s)
  | Some key =>
      if negb (is_empty (a_inputs a)) then
        let* (out, did_error, s) :=
          hash_inputs c p o fuel wfuel key derive byte_length (1 <? len (a_inputs a)) s [] false
            (a_inputs a) in
        Ok (out, if did_error then 1 else 0, s)
      else
        let* (x, s) := hash_one c p o fuel wfuel s None key derive in
        match x with
        | IoErr e => Ok ([], 1, s)
        | IoOk output =>
            let* (_, text) := print_hex c fuel output byte_length in
            Ok (text ++ NEWLINE, 0, s)
        end
  end.

(* main.rs:26-39; usage and version are the texts of lines 9-14 *)
Definition cli_main {S F : Type} (usage version : list N) (c : cfg) (p : platform) (o : os S F)
  (fuel wfuel : nat) (s : S) (a : args) : res (list N * N * S) :=
  if a_help a then Ok (usage, 0, s)
  else if a_version a then Ok (version ++ NEWLINE, 0, s)
  else cli_hash c p o fuel wfuel s a.
