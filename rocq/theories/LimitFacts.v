(* The input limits of the library, the reference implementation and the Python code. *)
From Coq Require Import NArith List Bool Lia.
From Coq Require Import ZifyBool ZifyNat ZifyN.
From Verif Require Import Base BaseFacts Spec Platform Lib SessionSpec Session WrapSpec BeyondFacts.
From Verif Require Import RefImpl RefFacts PyImpl PyFacts.
Import ListNotations.
Open Scope N_scope.

Lemma bytes_concat : forall inputs, Forall bytes inputs -> bytes (concat inputs).
Proof.
  intros inputs B. induction B as [|x l Hx Hl IH]; [constructor|]. cbn [concat]. apply bytes_app. auto.
Qed.

Lemma reference_limit : forall c m inputs out,
  mode_ok m -> Forall bytes inputs -> len out + 63 < 2 ^ 64 ->
  (let* h := r_feed c (r_start m) inputs in r_finalize c h out)
  = if len (concat inputs) <=? 2 ^ 64
    then Ok (spec_xof blake_compress m (concat inputs) (len out)) else Panic.
Proof.
  intros c m inputs out M B Lo. destruct (N.leb_spec (len (concat inputs)) (2 ^ 64)) as [H|H].
  - destruct (reference_ok c m inputs out M B H Lo) as (h & -> & E). exact E.
  - rewrite reference_beyond by assumption. reflexivity.
Qed.

Lemma limits_differ : forall c p m, platform_ok c p -> mode_ok m ->
  exists inputs, Forall bytes inputs /\ len (concat inputs) = 2 ^ 64 /\
    feed c (start p m) inputs = Panic /\
    (let* h := r_feed c (r_start m) inputs in r_finalize c h (zeros 32))
      = Ok (spec_xof blake_compress m (concat inputs) 32) /\
    y_run m (concat inputs) 32 = Ok (spec_xof blake_compress m (concat inputs) 32).
Proof.
  intros c p m P M. destruct (split_matters c p m P M) as (xs & ys & Bx & By & E & L & _ & X).
  exists ys. rewrite <- E. split; [exact By|]. split; [exact L|]. split; [exact X|]. split.
  - rewrite reference_limit by (auto; reflexivity). rewrite E in *. rewrite L. reflexivity.
  - apply python_run_small; auto; [now apply bytes_concat|rewrite L; discriminate|discriminate].
Qed.
