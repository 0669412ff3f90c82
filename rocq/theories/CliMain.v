(* Model of main in /repo/baokeshed_bin/src/main.rs with the texts it prints.  Definitions
   only.  docopt, which may answer --help by itself before main goes on, is not modelled. *)
From Coq Require Import NArith List Bool String Ascii.
From Verif Require Import Base Portable Platform Lib Io Cli CliOut.
Import ListNotations.
Open Scope N_scope.

(* main.rs:11-14 *)
Definition USAGE : list N := text "
Usage: baokeshed [<inputs>...] [--length=<bytes>] [--key=<hex> | --derive-key=<hex>]
       baokeshed (--help | --version)
".
(* main.rs:9, baokeshed_bin/Cargo.toml:3 *)
Definition VERSION : list N := text "0.1.0".

(* main.rs:26-39, the text, the exit status and the system afterwards *)
Definition main_text {S F : Type} (c : cfg) (p : platform) (o : os S F) (fuel wfuel : nat) (s : S) (a : args)
  : res (list N * N * S) :=
  cli_main USAGE VERSION c p o fuel wfuel s a.
(* the same with an output that may fail *)
Definition main_out {S F Q : Type} (w : Q -> list N -> delivery * Q) (c : cfg) (p : platform) (o : os S F)
  (fuel wfuel : nat) (s : S) (a : args) : outm (N * S) :=
  cli_main_out w USAGE VERSION c p o fuel wfuel s a.
