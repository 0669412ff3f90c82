(* The command line tool with inputs and a length of 2^63 or more. *)
From Coq Require Import NArith List Bool Lia ZArith.
From Coq Require Import ZifyBool ZifyNat ZifyN.
From Verif Require Import Base BaseFacts Spec HexSpec Portable Platform Lib Io IoSpec Cli CliSpec CliFacts.
Import ListNotations.
Open Scope N_scope.

Section Big.
Context {S F : Type} (c : cfg) (p : platform) (o : os S F) (P : platform_ok c p).
Variables (m : mode) (M : mode_ok m) (n : N) (Hn : 2 ^ 63 <= n < 2 ^ 64) (many : bool).

(* a release build: as if n - 2^63 bytes had been asked for *)
Lemma hash_inputs_wraps : dbg c = false -> forall fuel wfuel key derive inputs s out err,
  hash_inputs c p o fuel wfuel key derive n many s out err inputs
  = hash_inputs c p o fuel wfuel key derive (n - 2 ^ 63) many s out err inputs.
Proof.
  intros Hd fuel wfuel key derive. induction inputs as [|path r IH]; intros s out err; [reflexivity|].
  cbn [hash_inputs]. destruct (hash_one c p o fuel wfuel s (Some path) key derive) as [[[y|e] s1]| |]; cbn [bind];
    try reflexivity; [|apply IH].
  rewrite print_hex_big, Hd by exact Hn.
  destruct (print_hex c fuel y (n - 2 ^ 63)) as [[y' t]| |]; cbn [bind]; [apply IH|reflexivity|reflexivity].
Qed.

(* a debug build: a panic at the first input that can be read *)
Lemma hash_inputs_panics : dbg c = true -> forall s inputs xs s', reading c o s inputs xs s' ->
  exists fuel0, forall fuel wfuel, (fuel0 <= fuel)%nat -> (1 <= wfuel)%nat -> forall out err,
    hash_inputs c p o fuel wfuel (key_of m) (deriving m) n many s out err inputs
    = if forallb failed xs then
        Ok (out ++ concat (map (fun x => line o m (n - 2 ^ 63) many (fst x) (snd x)) (combine inputs xs)),
            err || existsb failed xs, s')
      else Panic.
Proof.
  intros Hd s inputs xs s' H.
  induction H as [s|s path bs s1 r xs s2 H1 H2 H3 H4 (f0 & IH)|s path e s1 r xs s2 H1 H4 (f0 & IH)].
  - exists 0%nat. intros. cbn [hash_inputs combine map concat existsb forallb].
    now rewrite app_nil_r, orb_false_r.
  - destruct (hash_one_sees c p o P m M _ _ _ _ H1 H2 H3) as (q & f1 & E).
    exists f1. intros fuel wfuel Hf Hw out err. cbn [hash_inputs forallb failed andb].
    rewrite E by auto. cbn [bind]. now rewrite print_hex_big, Hd by exact Hn.
  - destruct (hash_one_unreadable c p o P m M _ _ _ _ H1) as (f1 & E).
    exists (Nat.max f0 f1). intros fuel wfuel Hf Hw out err.
    cbn [hash_inputs]. rewrite E by (auto; lia). cbn [bind].
    rewrite IH by (auto; lia). cbn [combine map concat existsb forallb failed fst snd line orb andb].
    unfold BAO, COLON, NEWLINE. rewrite orb_true_r, <- !app_assoc. reflexivity.
Qed.

End Big.

Lemma cli_big_inputs : forall S F (o : os S F) c p a m s xs s' n,
  platform_ok c p -> asked_mode a m -> a_inputs a <> [] ->
  a_length a = Some n -> 2 ^ 63 <= n < 2 ^ 64 -> reading c o s (a_inputs a) xs s' ->
  exists fuel0, forall fuel wfuel, (fuel0 <= fuel)%nat -> (1 <= wfuel)%nat ->
    cli_hash c p o fuel wfuel s a
    = if dbg c && negb (forallb failed xs) then Panic
      else Ok (concat (map (fun x => line o m (n - 2 ^ 63) (1 <? len (a_inputs a)) (fst x) (snd x))
                           (combine (a_inputs a) xs)),
               if existsb failed xs then 1 else 0, s').
Proof.
  intros S F o c p a m s xs s' n P A Hi El Hn R. destruct (asked_ok a m A) as (M & K & D).
  assert (Ei : is_empty (a_inputs a) = false) by (destruct (a_inputs a); [congruence|reflexivity]).
  destruct (dbg c) eqn:Hd; cbn [andb].
  - destruct (hash_inputs_panics c p o P m M n Hn (1 <? len (a_inputs a)) Hd _ _ _ _ R) as (f0 & E).
    exists f0. intros fuel wfuel Hf Hw. unfold cli_hash. rewrite K, D, Ei, El. cbn [negb].
    rewrite E by auto. destruct (forallb failed xs); reflexivity.
  - destruct (hash_inputs_ok c p o P m M (n - 2 ^ 63) (1 <? len (a_inputs a)) ltac:(lia) _ _ _ _ R) as (f0 & E).
    exists f0. intros fuel wfuel Hf Hw. unfold cli_hash. rewrite K, D, Ei, El. cbn [negb].
    rewrite hash_inputs_wraps by auto. rewrite E by auto. reflexivity.
Qed.
