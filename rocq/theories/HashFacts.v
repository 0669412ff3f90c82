(* Hash values: hexadecimal form, comparison, key words. *)
From Coq Require Import NArith List Bool Lia ZArith.
From Coq Require Import ZifyBool ZifyNat ZifyN.
From Verif Require Import Base BaseFacts HexSpec Portable Lib.
Import ListNotations.
Open Scope N_scope.

(* a property of all numbers below n, by computation *)
Lemma below : forall (P : N -> bool) n, forallb P (map N.of_nat (seq 0 (N.to_nat n))) = true ->
  forall x, x < n -> P x = true.
Proof.
  intros P n H x Hx. rewrite forallb_forall in H. apply H. apply in_map_iff.
  exists (N.to_nat x). split; [lia|]. apply in_seq. lia.
Qed.

Lemma index_nth : forall A (l : list A) i d, i < len l -> index l i = Ok (nth (N.to_nat i) l d).
Proof.
  intros A l i d H. unfold index, len in *.
  rewrite (nth_error_nth' l d) by lia. reflexivity.
Qed.

Lemma hex_table_digit : forall n, n < 16 -> index hex_table n = Ok (hex_digit n).
Proof.
  intros n H. rewrite (index_nth _ _ _ 0) by exact H. f_equal.
  apply N.eqb_eq.
  apply (below (fun n => nth (N.to_nat n) hex_table 0 =? hex_digit n) 16); [reflexivity|auto].
Qed.

Lemma len_hex : forall bs, len (hex bs) = 2 * len bs.
Proof.
  induction bs as [|b bs IH]; [reflexivity|]. unfold hex in *. cbn [flat_map app].
  rewrite !len_cons, IH. lia.
Qed.

Lemma to_hex_loop_ok : forall bs s, bytes bs -> len s + 2 * len bs <= 64 ->
  to_hex_loop s bs = Ok (s ++ hex bs).
Proof.
  induction bs as [|b bs IH]; intros s B L; cbn [to_hex_loop].
  - unfold hex. cbn. now rewrite app_nil_r.
  - inversion B as [|b0 r0 Bb Br]; subst. rewrite len_cons in L. unfold byte in Bb.
    change (2 * OUT_LEN) with 64.
    replace (N.shiftr b 4) with (b / 16) by (now rewrite N.shiftr_div_pow2).
    replace (N.land b 15) with (b mod 16) by (change 15 with (N.ones 4); now rewrite N.land_ones).
    rewrite hex_table_digit by lia. cbn [bind]. rewrite push_cap_ok by lia. cbn [bind].
    rewrite hex_table_digit by lia. cbn [bind].
    rewrite push_cap_ok by (rewrite len_app, len_cons, len_nil; lia). cbn [bind].
    rewrite IH; auto.
    + unfold hex. cbn [flat_map]. now rewrite <- !app_assoc.
    + rewrite !len_app, !len_cons, len_nil. lia.
Qed.

Lemma to_hex_ok : forall h, bytes h -> len h = 32 -> to_hex h = Ok (hex h).
Proof. intros h B L. unfold to_hex. rewrite to_hex_loop_ok; auto. rewrite len_nil. lia. Qed.

Lemma hex_digit_lower : forall n, n < 16 -> lower_hex (hex_digit n).
Proof. intros n H. unfold lower_hex, hex_digit. destruct (N.ltb_spec n 10); lia. Qed.

Lemma hex_value_digit : forall n, n < 16 -> hex_value (hex_digit n) = Some n.
Proof.
  intros n H. unfold hex_value, hex_digit. destruct (N.ltb_spec n 10).
  - rewrite (proj2 (andb_true_iff _ _)) by (split; lia). f_equal. lia.
  - rewrite (proj2 (andb_false_iff _ _)) by (right; lia).
    rewrite (proj2 (andb_true_iff _ _)) by (split; lia). f_equal. lia.
Qed.

Lemma hex_lower : forall bs, bytes bs -> Forall lower_hex (hex bs).
Proof.
  induction 1 as [|b bs Hb _ IH]; [constructor|]. unfold hex, byte in *. cbn [flat_map app].
  constructor; [apply hex_digit_lower; lia|]. constructor; [apply hex_digit_lower; lia|auto].
Qed.

Lemma unhex_hex : forall bs, bytes bs -> unhex (hex bs) = Some bs.
Proof.
  induction 1 as [|b bs Hb _ IH]; [reflexivity|]. unfold hex, byte in *. cbn [flat_map app unhex].
  rewrite !hex_value_digit by lia. rewrite IH. do 2 f_equal. lia.
Qed.

Lemma hex_inj : forall a b, bytes a -> bytes b -> hex a = hex b -> a = b.
Proof.
  intros a b A B E. apply (f_equal unhex) in E. rewrite !unhex_hex in E by auto. congruence.
Qed.

(* ---- comparison ---- *)

Lemma fold_or_0 : forall l t,
  fold_left (fun tmp p => N.lor tmp (N.lxor (fst p) (snd p))) l t = 0
  <-> t = 0 /\ Forall (fun p : N * N => fst p = snd p) l.
Proof.
  induction l as [|x l IH]; intros t; cbn [fold_left].
  - intuition.
  - rewrite IH, N.lor_eq_0_iff, N.lxor_eq_0_iff. split.
    + intros [[-> E] F]. auto.
    + intros [-> F]. inversion F; auto.
Qed.

Lemma Forall_combine_eq : forall a b : list N, length a = length b ->
  (Forall (fun p => fst p = snd p) (combine a b) <-> a = b).
Proof.
  induction a as [|x a IH]; intros [|y b] L; cbn in *; try discriminate.
  - split; auto.
  - injection L as L. specialize (IH b L). split.
    + intros F. inversion F; subst. cbn in *. f_equal; tauto.
    + intros E. injection E as -> ->. constructor; [reflexivity|]. now apply IH.
Qed.

Lemma constant_time_eq_ok : forall a b, constant_time_eq a b = true <-> a = b.
Proof.
  intros a b. unfold constant_time_eq. destruct (N.eqb_spec (len a) (len b)) as [E|E].
  - rewrite N.eqb_eq, fold_or_0, Forall_combine_eq by (unfold len in E; lia). tauto.
  - split; [discriminate|]. intros ->. congruence.
Qed.

(* ---- keys ---- *)

Lemma key_words_back : forall k, bytes k -> len k = 32 ->
  bytes_from_state_words (words_from_key_bytes k) = k.
Proof.
  intros k B L. unfold bytes_from_state_words, words_from_key_bytes.
  apply bytes_of_words_of_bytes; auto. rewrite L. reflexivity.
Qed.

Lemma key_words_inj : forall a b, bytes a -> bytes b -> len a = 32 -> len b = 32 ->
  words_from_key_bytes a = words_from_key_bytes b -> a = b.
Proof.
  intros a b A B La Lb E. rewrite <- (key_words_back a), <- (key_words_back b) by auto.
  now rewrite E.
Qed.

(* ---- statements of Prop_Output.v ---- *)

Lemma hex_faithful : forall h, bytes h -> len h = 32 ->
  exists s, to_hex h = Ok s /\ len s = 64 /\ Forall lower_hex s /\ unhex s = Some h.
Proof.
  intros h B L. rewrite to_hex_ok by auto. eexists. split; [reflexivity|].
  split; [rewrite len_hex, L; reflexivity|]. split; [now apply hex_lower|now apply unhex_hex].
Qed.

Lemma to_hex_inj : forall a b, bytes a -> bytes b -> len a = 32 -> len b = 32 ->
  to_hex a = to_hex b -> a = b.
Proof.
  intros a b A B La Lb E. rewrite !to_hex_ok in E by auto. apply hex_inj; congruence.
Qed.

Lemma hash_eq_iff : forall a b,
  (hash_eq a b = true <-> a = b) /\ (hash_eq_bytes a b = true <-> a = b).
Proof. intros. split; apply constant_time_eq_ok. Qed.

Lemma hash_conversions : forall b,
  hash_as_bytes (hash_from_bytes b) = b /\ hash_from_bytes (hash_as_bytes b) = b.
Proof. split; reflexivity. Qed.

Lemma debug_constant : forall (o1 o2 : output) (h1 h2 : hasher),
  debug_output o1 = debug_output o2 /\ debug_hasher h1 = debug_hasher h2.
Proof. split; reflexivity. Qed.

Lemma debug_hash_ok : forall h, bytes h -> len h = 32 ->
  debug_hash h = Ok ([72; 97; 115; 104; 40; 48; 120] ++ hex h ++ [41]).
Proof. intros h B L. unfold debug_hash. rewrite to_hex_ok by auto. reflexivity. Qed.
