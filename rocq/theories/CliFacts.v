(* The command line tool. *)
From Coq Require Import NArith List Bool Lia ZArith.
From Coq Require Import ZifyBool ZifyNat ZifyN.
From Verif Require Import Base BaseFacts Spec HexSpec TreeFacts CompressFacts ManyFacts SpecFacts.
From Verif Require Import Portable Platform Lib SessionSpec Session Io IoSpec Cli CliSpec.
From Verif Require Import ChunkFacts LibFacts HasherFacts ApiFacts HashFacts OneShotFacts IoFacts.
Import ListNotations.
Open Scope N_scope.

(* ---- "-" ---- *)

Lemma split_join : forall p cur, exists x r, split_slash cur p = (cur ++ x) :: r /\
  p = x ++ concat (map (cons 47) r).
Proof.
  induction p as [|ch p IH]; intros cur; cbn [split_slash].
  - exists [], []. rewrite app_nil_r. auto.
  - destruct (N.eqb_spec ch 47) as [->|H].
    + destruct (IH []) as (x & r & E & P). rewrite E. exists [], (x :: r).
      rewrite app_nil_r. split; [reflexivity|]. cbn [app map concat]. now rewrite P.
    + destruct (IH (cur ++ [ch])) as (x & r & E & P). rewrite E. exists (ch :: x), r.
      rewrite <- app_assoc. split; [reflexivity|]. cbn [app]. now rewrite P.
Qed.

Lemma split_dots : forall ds cur, Forall (fun x => x = [47] \/ x = [47; 46]) ds ->
  split_slash cur (concat ds) = cur :: map (@tl N) ds.
Proof.
  induction ds as [|d ds IH]; intros cur H; [reflexivity|].
  inversion H as [|y r [->| ->] Hr]; subst; cbn [concat app split_slash map tl];
    rewrite N.eqb_refl; cbn [N.eqb Pos.eqb app]; now rewrite IH.
Qed.

Lemma is_dash_iff : forall p, is_dash p = true <-> means_stdin (Some p).
Proof.
  intros p. unfold is_dash, components, means_stdin. split.
  - destruct (split_join p []) as (x & r & E & P). rewrite E. cbn [app].
    destruct (is_empty x) eqn:Ex.
    + destruct x; [|discriminate]. destruct r as [|x r].
      * discriminate.
      * cbn [is_empty negb]. discriminate.
    + destruct x as [|ch [|y x]]; try discriminate.
      destruct (filter _ r) as [|z zs] eqn:Ef; [|discriminate].
      intros H. apply N.eqb_eq in H. subst ch. exists (map (cons 47) r). split; [exact P|].
      apply Forall_map, Forall_forall. intros y Hy.
      assert (Hn : ~ In y []) by auto. rewrite <- Ef, filter_In in Hn.
      destruct y as [|a [|b y]]; [now left| |]; cbn [is_empty is_dot negb andb] in Hn.
      * destruct (N.eqb_spec a 46); [subst; now right|]. exfalso. now apply Hn.
      * exfalso. now apply Hn.
  - intros (rest & -> & H). change (45 :: concat rest) with ([45] ++ concat rest).
    assert (E : split_slash [] ([45] ++ concat rest) = [45] :: map (@tl N) rest).
    { cbn [app split_slash N.eqb Pos.eqb]. now apply split_dots. }
    rewrite E. cbn [is_empty].
    replace (filter _ _) with (@nil (list N)); [reflexivity|]. symmetry. clear E.
    induction H as [|x r [->| ->] Hr IH]; [reflexivity| |]; cbn [map tl filter is_empty is_dot negb andb N.eqb Pos.eqb];
      exact IH.
Qed.

Lemma not_dash : forall p, ~ means_stdin (Some p) -> is_dash p = false.
Proof. intros p H. rewrite <- is_dash_iff in H. now destruct (is_dash p). Qed.

(* ---- print_hex ---- *)

Lemma hex_app : forall a b, hex (a ++ b) = hex a ++ hex b.
Proof. intros. apply flat_map_app. Qed.

Lemma hex_take : forall l n, hex (take n l) = take (2 * n) (hex l).
Proof.
  intros l n. destruct (N.le_gt_cases n (len l)) as [H|H].
  - rewrite <- (take_drop _ n l) at 2. rewrite hex_app, take_app_eq; auto.
    rewrite len_hex, len_take. lia.
  - rewrite !take_all; auto; rewrite ?len_hex; lia.
Qed.

(* the blocks from k on *)
Definition blocks (nd : node) (k : N) (n : nat) : list N :=
  flat_map (fun i => root_block blake_compress nd (k + N.of_nat i)) (seq 0 n).

Lemma blocks_S : forall nd k n, blocks nd k (S n) = root_block blake_compress nd k ++ blocks nd (k + 1) n.
Proof.
  intros nd k n. unfold blocks. cbn [seq flat_map]. rewrite N.add_0_r. f_equal.
  rewrite <- seq_shift, !flat_map_concat_map, map_map. f_equal. apply map_ext. intros i. f_equal. lia.
Qed.

Lemma print_hex_loop_ok : forall c p nd fuel k r out, nd_wf nd ->
  k + (r + 63) / 64 < MAX_BLOCKS -> (N.to_nat ((r + 63) / 64) <= fuel)%nat ->
  exists o, print_hex_loop c fuel (out_at p nd k) (2 * r) out
  = Ok (o, out ++ hex (take r (blocks nd k (N.to_nat ((r + 63) / 64))))).
Proof.
  intros c p nd. induction fuel as [|fuel IH]; intros k r out W Hk Hf; cbn [print_hex_loop].
  - assert (r = 0) by lia. subst r. cbn. eexists. now rewrite app_nil_r.
  - destruct (N.ltb_spec 0 (2 * r)) as [Hr|Hr].
    2:{ assert (r = 0) by lia. subst r. cbn. eexists. now rewrite app_nil_r. }
    rewrite read_ok by (auto; lia). cbn [bind].
    pose proof (root_block_len nd k W) as Lb.
    pose proof (root_block_bytes nd k) as Bb.
    set (b := root_block _ nd k) in *. unfold OUT_LEN.
    rewrite !slice_ok by lia. cbn [bind]. unfold hash_from_bytes.
    rewrite drop_0.
    rewrite !to_hex_ok by (rewrite ?len_take, ?len_drop; auto using bytes_take, bytes_drop; lia).
    cbn [bind]. rewrite !len_hex, !len_take, len_drop, Lb.
    change (2 * N.min 32 64) with 64. change (2 * N.min 32 (64 - 32)) with 64.
    pose proof (WU_W32 c) as HU. unfold W32 in HU.
    rewrite (N.mod_small (N.min (2 * r) 64)) by lia.
    rewrite slice_to_ok by (rewrite len_hex, len_take; lia). cbn [bind].
    rewrite subw_ok by lia. cbn [bind].
    rewrite (N.mod_small (N.min _ 64)) by lia.
    rewrite slice_to_ok by (rewrite len_hex, len_take, len_drop; lia). cbn [bind].
    rewrite subw_ok by lia. cbn [bind].
    replace (2 * r - N.min (2 * r) 64 - N.min (2 * r - N.min (2 * r) 64) 64)
      with (2 * (r - 64)) by lia.
    destruct (IH (k + 1) (r - 64)
      (out ++ take (N.min (2 * r) 64) (hex (take 32 b)) ++
       take (N.min (2 * r - N.min (2 * r) 64) 64) (hex (take 32 (drop 32 b))))) as (o & E); auto; [lia|lia|].
    exists o. rewrite E. do 2 f_equal. rewrite <- !app_assoc. f_equal.
    replace (N.to_nat ((r + 63) / 64)) with (S (N.to_nat ((r - 64 + 63) / 64))) by lia.
    rewrite blocks_S. fold b.
    replace (N.min (2 * r) 64) with (2 * N.min r 32) by lia.
    replace (N.min (2 * r - 2 * N.min r 32) 64) with (2 * N.min (r - 32) 32) by lia.
    rewrite <- !hex_take, <- !hex_app. f_equal. rewrite !take_take.
    replace (N.min (N.min r 32) 32) with (N.min r 32) by lia.
    replace (N.min (N.min (r - 32) 32) 32) with (N.min (r - 32) 32) by lia.
    assert (Tb : take r b = take (N.min r 32) b ++ take (N.min (r - 32) 32) (drop 32 b)).
    { destruct (N.le_gt_cases r 32).
      - replace (N.min r 32) with r by lia. replace (N.min (r - 32) 32) with 0 by lia.
        now rewrite take_0, app_nil_r.
      - replace (N.min r 32) with 32 by lia. rewrite <- take_split.
        destruct (N.le_gt_cases r 64).
        + f_equal. lia.
        + rewrite !take_all by lia. reflexivity. }
    rewrite app_assoc, <- Tb. destruct (N.le_gt_cases r 64) as [H|H].
    + rewrite take_app_le by lia. replace (r - 64) with 0 by lia. now rewrite take_0, app_nil_r.
    + rewrite take_app_ge by lia. rewrite Lb, (take_all _ r b) by lia. reflexivity.
Qed.

Lemma print_hex_ok : forall c p m input n fuel, mode_ok m -> bytes input -> n < 2 ^ 63 ->
  (N.to_nat ((n + 63) / 64) <= fuel)%nat ->
  exists o, print_hex c fuel (out_at p (spec_root blake_compress m input) 0) n
    = Ok (o, hex (spec_xof blake_compress m input n)).
Proof.
  intros c p m input n fuel M B Hn Hf. unfold print_hex.
  rewrite mul64_ok by (unfold W64; lia). cbn [bind].
  destruct (print_hex_loop_ok c p (spec_root blake_compress m input) fuel 0 n []) as (o & E).
  - now apply spec_root_wf.
  - unfold MAX_BLOCKS. lia.
  - exact Hf.
  - exists o. rewrite E. reflexivity.
Qed.

Lemma print_hex_big : forall c o n fuel, 2 ^ 63 <= n < 2 ^ 64 ->
  print_hex c fuel o n = if dbg c then Panic else print_hex c fuel o (n - 2 ^ 63).
Proof.
  intros c o n fuel H. unfold print_hex, mul64, mulw. destruct (dbg c); cbn [andb].
  - replace (W64 <=? 2 * n) with true by (unfold W64; lia). reflexivity.
  - cbn [bind]. f_equal. unfold W64.
    replace (2 * n) with (2 * (n - 2 ^ 63) + 1 * 18446744073709551616) by lia.
    apply N.mod_add. discriminate.
Qed.

(* ---- keys ---- *)

Lemma hex_val_value : forall ch, hex_val ch = hex_value ch.
Proof.
  intros ch. unfold hex_val, hex_value.
  destruct ((65 <=? ch) && (ch <=? 70)) eqn:A, ((97 <=? ch) && (ch <=? 102)) eqn:B,
    ((48 <=? ch) && (ch <=? 57)) eqn:C; try reflexivity; try lia; f_equal; lia.
Qed.
Lemma hex_value_16 : forall ch x, hex_value ch = Some x -> x < 16.
Proof.
  intros ch x. unfold hex_value.
  destruct ((48 <=? ch) && (ch <=? 57)) eqn:A; [intros E; injection E as <-; lia|].
  destruct ((97 <=? ch) && (ch <=? 102)) eqn:B; [intros E; injection E as <-; lia|].
  destruct ((65 <=? ch) && (ch <=? 70)) eqn:C; [intros E; injection E as <-; lia|discriminate].
Qed.
Lemma nibbles : forall a b, a < 16 -> b < 16 -> N.lor (N.shiftl a 4) b = 16 * a + b.
Proof.
  intros a b A B.
  assert (H : forallb (fun a => forallb (fun b => N.lor (N.shiftl a 4) b =? 16 * a + b)
    (map N.of_nat (seq 0 16))) (map N.of_nat (seq 0 16)) = true) by reflexivity.
  assert (I : forall x, x < 16 -> In x (map N.of_nat (seq 0 16))).
  { intros x Hx. apply in_map_iff. exists (N.to_nat x). split; [lia|]. apply in_seq. lia. }
  rewrite forallb_forall in H. specialize (H a (I a A)). rewrite forallb_forall in H.
  specialize (H b (I b B)). now apply N.eqb_eq.
Qed.

Lemma list2_ind : forall A (P : list A -> Prop), P [] -> (forall x, P [x]) ->
  (forall x y l, P l -> P (x :: y :: l)) -> forall l, P l.
Proof.
  intros A P H0 H1 H2 l. enough (H : P l /\ forall x, P (x :: l)) by apply H.
  induction l as [|a l [IH IH']]; [split; auto|]. split; auto.
Qed.

Lemma hex_decode_unhex : forall s, hex_decode s = unhex s.
Proof.
  apply (list2_ind N).
  - reflexivity.
  - reflexivity.
  - intros x y l IH. unfold hex_decode in *. cbn [unhex hex_pairs]. rewrite !len_cons, !hex_val_value.
    replace ((1 + (1 + len l)) mod 2) with (len l mod 2) by lia.
    destruct (hex_value x) as [a|] eqn:Ex, (hex_value y) as [b|] eqn:Ey;
      try (destruct (len l mod 2 =? 0); reflexivity).
    apply hex_value_16 in Ex. apply hex_value_16 in Ey. rewrite nibbles, <- IH by auto.
    destruct (len l mod 2 =? 0); [|reflexivity]. destruct (hex_pairs l); reflexivity.
Qed.

Lemma unhex_len : forall s k, unhex s = Some k -> len s = 2 * len k /\ bytes k.
Proof.
  apply (list2_ind N (fun s => forall k, unhex s = Some k -> len s = 2 * len k /\ bytes k)).
  - intros k E. injection E as <-. split; [reflexivity|constructor].
  - discriminate.
  - intros x y l IH k E. cbn [unhex] in E.
    destruct (hex_value x) as [a|] eqn:Ex; [|discriminate].
    destruct (hex_value y) as [b|] eqn:Ey; [|discriminate].
    destruct (unhex l) as [z|]; [|discriminate].
    assert (E' : k = 16 * a + b :: z) by congruence. subst k. clear E.
    destruct (IH z eq_refl) as [L B]. rewrite !len_cons, L. split; [lia|].
    apply hex_value_16 in Ex. apply hex_value_16 in Ey. constructor; [unfold byte; lia|auto].
Qed.

(* the key string in use *)
Definition key_arg (a : args) : option (list N) :=
  match a_key a with Some k => Some k | None => a_derive_key a end.

Lemma decode_key_ok : forall a k key, key_arg a = Some k -> len k = 64 -> unhex k = Some key ->
  decode_key a = Some (Some key).
Proof.
  intros a k key E L U. unfold decode_key. fold (key_arg a). rewrite E, hex_decode_unhex, U.
  destruct (unhex_len _ _ U) as [L2 _].
  replace (len key =? KEY_LEN) with true by (unfold KEY_LEN; lia). cbn [negb].
  rewrite copy_at_ok by (rewrite len_zeros; unfold KEY_LEN; lia).
  rewrite take_0, drop_all by (rewrite len_zeros; unfold KEY_LEN; lia).
  cbn [app]. now rewrite app_nil_r.
Qed.

Lemma decode_key_bad : forall a k, key_arg a = Some k -> (len k <> 64 \/ unhex k = None) ->
  decode_key a = None.
Proof.
  intros a k E H. unfold decode_key. fold (key_arg a). rewrite E, hex_decode_unhex.
  destruct (unhex k) as [key|] eqn:U; [|reflexivity]. destruct H as [H|H]; [|discriminate].
  destruct (unhex_len _ _ U) as [L2 _].
  replace (len key =? KEY_LEN) with false by (unfold KEY_LEN; lia). reflexivity.
Qed.

Definition key_of (m : mode) : option (list N) :=
  match m with Hashing => None | Keyed k => Some k | Deriving k => Some k end.
Definition deriving (m : mode) : bool := match m with Deriving _ => true | _ => false end.

Lemma asked_ok : forall a m, asked_mode a m ->
  mode_ok m /\ decode_key a = Some (key_of m) /\
  (match a_derive_key a with Some _ => true | None => false end) = deriving m.
Proof.
  intros a m H. unfold asked_mode in H.
  assert (K : forall k key, len k = 64 -> unhex k = Some key -> length key = 32%nat /\ bytes key).
  { intros k key L U. destruct (unhex_len _ _ U) as [L2 B]. split; auto. unfold len in *. lia. }
  destruct (a_key a) as [k|] eqn:Ek, (a_derive_key a) as [d|] eqn:Ed; try contradiction.
  - destruct H as (key & L & U & ->). split; [exact (K _ _ L U)|]. split; [|reflexivity].
    apply (decode_key_ok a k); auto. unfold key_arg. now rewrite Ek.
  - destruct H as (key & L & U & ->). split; [exact (K _ _ L U)|]. split; [|reflexivity].
    apply (decode_key_ok a d); auto. unfold key_arg. now rewrite Ek.
  - subst m. split; [exact I|]. split; [|reflexivity]. unfold decode_key. now rewrite Ek, Ed.
Qed.

(* ---- hash_one ---- *)

Section One.
Context {S F : Type} (c : cfg) (p : platform) (o : os S F) (P : platform_ok c p).
Variable m : mode.
Hypothesis M : mode_ok m.
Notation F0 := blake_compress.

Lemma mapped_mode : forall map, (match key_of m with
   | Some key => if deriving m then derive_key_xof c p key map else keyed_hash_xof c p key map
   | None => hash_xof c p map end) = oneshot_xof c p m map.
Proof. destruct m; reflexivity. Qed.
Lemma start_mode : (match key_of m with
   | Some key => if deriving m then hasher_new_derive_key p key else hasher_new_keyed p key
   | None => hasher_new p end) = start p m.
Proof. destruct m; reflexivity. Qed.

Lemma isize_WU : ISIZE_MAX c < WU c.
Proof. unfold ISIZE_MAX, WU, W64, W32. destruct (w64 c); reflexivity. Qed.

(* after a file was opened, or standard input chosen *)
Definition after_open (fuel wfuel : nat) (i : input F) (s : S) : res (io_result output * S) :=
  match maybe_memmap_input c o s i with
  | (IoErr e, s) => Ok (IoErr e, s)
  | (IoOk (Some map), s) => let* out := oneshot_xof c p m map in Ok (IoOk out, s)
  | (IoOk None, s) =>
      let* (x, s, hasher) := copy_wide c (input_read o i) (hasher_write c) fuel wfuel s (start p m) in
      match x with
      | IoErr e => Ok (IoErr e, s)
      | IoOk _ => let* out := finalize_xof c hasher in Ok (IoOk out, s)
      end
  end.

Lemma hash_one_split : forall fuel wfuel s path,
  hash_one c p o fuel wfuel s path (key_of m) (deriving m)
  = match open_input o s path with
    | (IoErr e, s) => Ok (IoErr e, s)
    | (IoOk i, s) => after_open fuel wfuel i s
    end.
Proof.
  intros. unfold hash_one, after_open. destruct (open_input o s path) as [[i|e] s1]; [|reflexivity].
  destruct (maybe_memmap_input c o s1 i) as [[[map|]|e] s2]; [|rewrite start_mode; reflexivity|reflexivity].
  now rewrite mapped_mode.
Qed.

Lemma open_named : forall s path, ~ means_stdin (Some path) ->
  open_input o s (Some path)
  = match os_open o s path with (IoOk f, s) => (IoOk (File f), s) | (IoErr e, s) => (IoErr e, s) end.
Proof. intros s path H. unfold open_input. cbn [path_if_some_and_not_dash]. now rewrite not_dash. Qed.
Lemma open_stdin : forall s path, means_stdin path -> open_input o s path = (IoOk Stdin, s).
Proof.
  intros s [path|] H; [|reflexivity]. unfold open_input. cbn [path_if_some_and_not_dash].
  now rewrite (proj2 (is_dash_iff path) H).
Qed.

(* no map *)
Lemma no_mapping : forall s f reg n s', os_stat o s f = (IoOk (reg, n), s') ->
  reg = false \/ n = 0 \/ ISIZE_MAX c < n ->
  maybe_memmap_input c o s (File f) = (IoOk None, s').
Proof.
  intros s f reg n s' E H. cbn [maybe_memmap_input]. rewrite E.
  destruct reg; [|reflexivity]. cbn [negb].
  destruct (N.ltb_spec (ISIZE_MAX c) n); [reflexivity|].
  destruct (N.eqb_spec n 0); [reflexivity|]. exfalso. destruct H as [H|[H|H]]; [discriminate|lia|lia].
Qed.
Lemma a_mapping : forall s f n s', os_stat o s f = (IoOk (true, n), s') -> 0 < n -> n <= ISIZE_MAX c ->
  maybe_memmap_input c o s (File f)
  = match os_map o s' f n with (IoErr e, s) => (IoErr e, s) | (IoOk map, s) => (IoOk (Some map), s) end.
Proof.
  intros s f n s' E H1 H2. cbn [maybe_memmap_input]. rewrite E. cbn [negb].
  destruct (N.ltb_spec (ISIZE_MAX c) n); [lia|].
  destruct (N.eqb_spec n 0); [lia|]. rewrite N.mod_small; [reflexivity|]. pose proof isize_WU. lia.
Qed.

Lemma streamed : forall i s s0 bs s1 s2 z,
  maybe_memmap_input c o s i = (IoOk None, s0) ->
  bytes bs -> len bs < 2 ^ 64 ->
  delivers (input_read o i) (COPY_BUF_LEN c) s0 bs s1 ->
  (at_eof (input_read o i) (COPY_BUF_LEN c) s1 s2 /\ z = None) \/
  (exists e, at_error (input_read o i) (COPY_BUF_LEN c) e s1 s2 /\ z = Some e) ->
  exists q fuel0, forall fuel wfuel, (fuel0 <= fuel)%nat -> (1 <= wfuel)%nat ->
    after_open fuel wfuel i s
    = Ok (match z with None => IoOk (out_at q (spec_root F0 m bs) 0) | Some e => IoErr e end, s2).
Proof.
  intros i s s0 bs s1 s2 z E B L D Z.
  destruct (copy_to_hasher S (input_read o i) c p m [] s0 bs s1 s2
    (match z with None => IoOk (len bs) | Some e => IoErr e end)) as (h & h' & f0 & E1 & E2 & _ & R); auto.
  { destruct Z as [[Z ->]|(e & Z & ->)]; eauto. }
  cbn [feed] in E1. injection E1 as <-. cbn [concat app] in R.
  destruct (finalize_rel c h' m bs R) as (q & _ & Ef).
  exists q, f0. intros fuel wfuel Hf Hw. unfold after_open. rewrite E, E2 by auto. cbn [bind].
  destruct z; [reflexivity|]. rewrite Ef. reflexivity.
Qed.

Lemma hash_one_sees : forall s path bs s', sees c o s path bs s' -> bytes bs -> len bs < 2 ^ 64 ->
  exists q fuel0, forall fuel wfuel, (fuel0 <= fuel)%nat -> (1 <= wfuel)%nat ->
    hash_one c p o fuel wfuel s path (key_of m) (deriving m)
    = Ok (IoOk (out_at q (spec_root F0 m bs) 0), s').
Proof.
  intros s path bs s' H B L.
  destruct H as [s path f s1 n s2 bs s3 H1 H2 H3 H4 H5 H6 H7
                |s path f s1 reg n s2 bs s3 s4 H1 H2 H3 H4 H5 H6
                |s path bs s1 s2 H1 H2 H3].
  - exists p, 0%nat. intros. rewrite hash_one_split, open_named, H2 by auto. unfold after_open.
    rewrite (a_mapping _ _ _ _ H3) by auto. rewrite H6.
    rewrite oneshot_xof_ok; auto. pose proof isize_WU. lia.
  - destruct (streamed (File f) s1 s2 bs s3 s4 None) as (q & f0 & E); auto.
    { now apply (no_mapping _ _ reg n). }
    exists q, f0. intros. rewrite hash_one_split, open_named, H2 by auto. now apply E.
  - destruct (streamed Stdin s s bs s1 s2 None) as (q & f0 & E); auto.
    exists q, f0. intros. rewrite hash_one_split, open_stdin by auto. now apply E.
Qed.

Lemma hash_one_unreadable : forall s path e s', unreadable c o s path e s' ->
  exists fuel0, forall fuel wfuel, (fuel0 <= fuel)%nat -> (1 <= wfuel)%nat ->
    hash_one c p o fuel wfuel s path (key_of m) (deriving m) = Ok (IoErr e, s').
Proof.
  intros s path e s' H.
  destruct H as [s path e s1 H1 H2
                |s path f s1 e s2 H1 H2 H3
                |s path f s1 n s2 e s3 H1 H2 H3 H4 H5 H6
                |s path f s1 reg n s2 bs s3 e s4 H1 H2 H3 H4 H5 H6 H7 H8
                |s path bs s1 e s2 H1 H2 H3 H4 H5].
  - exists 0%nat. intros. rewrite hash_one_split, open_named, H2 by auto. reflexivity.
  - exists 0%nat. intros. rewrite hash_one_split, open_named, H2 by auto. unfold after_open.
    cbn [maybe_memmap_input]. rewrite H3. reflexivity.
  - exists 0%nat. intros. rewrite hash_one_split, open_named, H2 by auto. unfold after_open.
    rewrite (a_mapping _ _ _ _ H3) by auto. rewrite H6. reflexivity.
  - destruct (streamed (File f) s1 s2 bs s3 s4 (Some e)) as (q & f0 & E); eauto 6.
    { now apply (no_mapping _ _ reg n). }
    exists f0. intros. rewrite hash_one_split, open_named, H2 by auto. now apply E.
  - destruct (streamed Stdin s s bs s1 s2 (Some e)) as (q & f0 & E); eauto 6.
    exists f0. intros. rewrite hash_one_split, open_stdin by auto. now apply E.
Qed.

(* ---- all inputs ---- *)

Lemma hash_inputs_ok : forall n many, n < 2 ^ 63 -> forall s inputs xs s', reading c o s inputs xs s' ->
  exists fuel0, forall fuel wfuel, (fuel0 <= fuel)%nat -> (1 <= wfuel)%nat -> forall out err,
    hash_inputs c p o fuel wfuel (key_of m) (deriving m) n many s out err inputs
    = Ok (out ++ concat (map (fun x => line o m n many (fst x) (snd x)) (combine inputs xs)),
          err || existsb failed xs, s').
Proof.
  intros n many Hn s inputs xs s' H.
  induction H as [s|s path bs s1 r xs s2 H1 H2 H3 H4 (f0 & IH)|s path e s1 r xs s2 H1 H4 (f0 & IH)].
  - exists 0%nat. intros. cbn [hash_inputs combine map concat existsb].
    now rewrite app_nil_r, orb_false_r.
  - destruct (hash_one_sees _ _ _ _ H1 H2 H3) as (q & f1 & E).
    exists (Nat.max (N.to_nat ((n + 63) / 64)) (Nat.max f0 f1)). intros fuel wfuel Hf Hw out err.
    cbn [hash_inputs]. rewrite E by (auto; lia). cbn [bind].
    destruct (print_hex_ok c q m bs n fuel) as (o' & Eo); auto; [lia|]. rewrite Eo. cbn [bind].
    rewrite IH by (auto; lia). cbn [combine map concat existsb failed fst snd line orb].
    rewrite <- !app_assoc. unfold TWO_SPACES, NEWLINE.
    destruct many; rewrite <- ?app_assoc; reflexivity.
  - destruct (hash_one_unreadable _ _ _ _ H1) as (f1 & E).
    exists (Nat.max f0 f1). intros fuel wfuel Hf Hw out err.
    cbn [hash_inputs]. rewrite E by (auto; lia). cbn [bind].
    rewrite IH by (auto; lia). cbn [combine map concat existsb failed fst snd line orb].
    unfold BAO, COLON, NEWLINE. rewrite orb_true_r, <- !app_assoc. reflexivity.
Qed.

End One.

(* ---- statements ---- *)

Lemma cli_inputs : forall S F (o : os S F) c p a m s xs s',
  platform_ok c p -> asked_mode a m -> asked_length a < 2 ^ 63 -> a_inputs a <> [] ->
  reading c o s (a_inputs a) xs s' ->
  exists fuel0, forall fuel wfuel, (fuel0 <= fuel)%nat -> (1 <= wfuel)%nat ->
    cli_hash c p o fuel wfuel s a
    = Ok (concat (map (fun x => line o m (asked_length a) (1 <? len (a_inputs a)) (fst x) (snd x))
                      (combine (a_inputs a) xs)),
          if existsb failed xs then 1 else 0, s').
Proof.
  intros S F o c p a m s xs s' P A Hn Hi R. destruct (asked_ok a m A) as (M & K & D).
  destruct (hash_inputs_ok c p o P m M (asked_length a) (1 <? len (a_inputs a)) Hn _ _ _ _ R) as (f0 & E).
  exists f0. intros fuel wfuel Hf Hw. unfold cli_hash. rewrite K, D.
  assert (Ei : is_empty (a_inputs a) = false) by (destruct (a_inputs a); [congruence|reflexivity]).
  rewrite Ei. cbn [negb].
  change (match a_length a with Some n => n | None => OUT_LEN end) with (asked_length a).
  rewrite E by auto. reflexivity.
Qed.

Lemma cli_stdin : forall S F (o : os S F) c p a m s bs s',
  platform_ok c p -> asked_mode a m -> asked_length a < 2 ^ 63 -> a_inputs a = [] ->
  sees c o s None bs s' -> bytes bs -> len bs < 2 ^ 64 ->
  exists fuel0, forall fuel wfuel, (fuel0 <= fuel)%nat -> (1 <= wfuel)%nat ->
    cli_hash c p o fuel wfuel s a
    = Ok (hex (spec_xof blake_compress m bs (asked_length a)) ++ [10], 0, s').
Proof.
  intros S F o c p a m s bs s' P A Hn Hi H B L. destruct (asked_ok a m A) as (M & K & D).
  destruct (hash_one_sees c p o P m M _ _ _ _ H B L) as (q & f0 & E).
  exists (Nat.max (N.to_nat ((asked_length a + 63) / 64)) f0). intros fuel wfuel Hf Hw.
  unfold cli_hash. rewrite K, D, Hi. cbn [is_empty negb].
  change (match a_length a with Some n => n | None => OUT_LEN end) with (asked_length a).
  rewrite E by (auto; lia). cbn [bind].
  destruct (print_hex_ok c q m bs (asked_length a) fuel) as (o' & Eo); auto; [lia|].
  rewrite Eo. reflexivity.
Qed.

Lemma cli_stdin_fails : forall S F (o : os S F) c p a m s e s',
  platform_ok c p -> asked_mode a m -> a_inputs a = [] -> unreadable c o s None e s' ->
  exists fuel0, forall fuel wfuel, (fuel0 <= fuel)%nat -> (1 <= wfuel)%nat ->
    cli_hash c p o fuel wfuel s a = Ok ([], 1, s').
Proof.
  intros S F o c p a m s e s' P A Hi H. destruct (asked_ok a m A) as (M & K & D).
  destruct (hash_one_unreadable c p o P m M _ _ _ _ H) as (f0 & E).
  exists f0. intros fuel wfuel Hf Hw.
  unfold cli_hash. rewrite K, D, Hi. cbn [is_empty negb]. rewrite E by auto. reflexivity.
Qed.

Lemma cli_bad_key : forall S F (o : os S F) c p a k s fuel wfuel,
  (a_key a = Some k \/ a_key a = None /\ a_derive_key a = Some k) ->
  ~ (len k = 64 /\ exists key, unhex k = Some key) ->
  cli_hash c p o fuel wfuel s a = Ok ([], 1, s).
Proof.
  intros S F o c p a k s fuel wfuel H K. unfold cli_hash.
  rewrite (decode_key_bad a k); [reflexivity| |].
  - unfold key_arg. destruct H as [->|[-> ->]]; reflexivity.
  - destruct (N.eq_dec (len k) 64) as [E|E]; [|now left]. right.
    destruct (unhex k) as [key|]; [|reflexivity]. exfalso. apply K. eauto.
Qed.

Lemma one_line : forall S F (o : os S F) S' F' (o' : os S' F') c c' p p' m n path s bs s1 t t1,
  platform_ok c p -> platform_ok c' p' -> mode_ok m -> n < 2 ^ 63 ->
  bytes bs -> len bs < 2 ^ 64 -> forall path',
  sees c o s path bs s1 -> sees c' o' t path' bs t1 ->
  exists out out' fuel0, forall fuel wfuel, (fuel0 <= fuel)%nat -> (1 <= wfuel)%nat ->
    hash_one c p o fuel wfuel s path (key_of m) (deriving m) = Ok (IoOk out, s1) /\
    hash_one c' p' o' fuel wfuel t path' (key_of m) (deriving m) = Ok (IoOk out', t1) /\
    exists x x', print_hex c fuel out n = Ok (x, hex (spec_xof blake_compress m bs n)) /\
                 print_hex c' fuel out' n = Ok (x', hex (spec_xof blake_compress m bs n)).
Proof.
  intros S F o S' F' o' c c' p p' m n path s bs s1 t t1 P P' M Hn B L path' H H'.
  destruct (hash_one_sees c p o P m M _ _ _ _ H B L) as (q & f0 & E).
  destruct (hash_one_sees c' p' o' P' m M _ _ _ _ H' B L) as (q' & f0' & E').
  do 2 eexists. exists (Nat.max (N.to_nat ((n + 63) / 64)) (Nat.max f0 f0')).
  intros fuel wfuel Hf Hw. split; [apply E; auto; lia|]. split; [apply E'; auto; lia|].
  destruct (print_hex_ok c q m bs n fuel) as (x & Ex); auto; [lia|].
  destruct (print_hex_ok c' q' m bs n fuel) as (x' & Ex'); auto; [lia|].
  exists x, x'. auto.
Qed.

Lemma print_hex_oneshot : forall c p m input n,
  platform_ok c p -> mode_ok m -> bytes input -> len input < WU c -> n < 2 ^ 63 ->
  exists o fuel0, oneshot_xof c p m input = Ok o /\
    forall fuel, (fuel0 <= fuel)%nat ->
      exists o', print_hex c fuel o n = Ok (o', hex (spec_xof blake_compress m input n)).
Proof.
  intros c p m input n P M B L Hn. rewrite oneshot_xof_ok by auto. eexists.
  exists (N.to_nat ((n + 63) / 64)). split; [reflexivity|]. intros fuel Hf. now apply print_hex_ok.
Qed.

Lemma xof_len : forall m input n, mode_ok m -> bytes input -> len (spec_xof blake_compress m input n) = n.
Proof.
  intros m input n M B. unfold spec_xof. rewrite len_take, flat_map_concat_map.
  rewrite (len_concat_const _ 64).
  - rewrite len_map. unfold len. rewrite seq_length. lia.
  - apply Forall_forall. intros x Hx. apply in_map_iff in Hx. destruct Hx as (i & <- & _).
    apply root_block_len. now apply spec_root_wf.
Qed.
Lemma xof_bytes : forall m input n, bytes (spec_xof blake_compress m input n).
Proof.
  intros m input n. apply bytes_take. apply Forall_flat_map, Forall_forall. intros x _.
  apply root_block_bytes.
Qed.
Lemma xof_text : forall m input n, mode_ok m -> bytes input ->
  len (hex (spec_xof blake_compress m input n)) = 2 * n /\
  Forall lower_hex (hex (spec_xof blake_compress m input n)) /\
  unhex (hex (spec_xof blake_compress m input n)) = Some (spec_xof blake_compress m input n).
Proof.
  intros m input n M B. rewrite len_hex, xof_len by auto. pose proof (xof_bytes m input n).
  split; [reflexivity|]. split; [now apply hex_lower|now apply unhex_hex].
Qed.

Lemma same_content : forall S F (o : os S F) S' F' (o' : os S' F') c c' p p' a m path path' s bs s1 t t1,
  platform_ok c p -> platform_ok c' p' -> asked_mode a m -> asked_length a < 2 ^ 63 ->
  bytes bs -> len bs < 2 ^ 64 ->
  sees c o s (Some path) bs s1 -> sees c' o' t (Some path') bs t1 ->
  exists fuel0, forall fuel wfuel, (fuel0 <= fuel)%nat -> (1 <= wfuel)%nat ->
    cli_hash c p o fuel wfuel s (with_inputs a [path])
    = Ok (hex (spec_xof blake_compress m bs (asked_length a)) ++ [10], 0, s1) /\
    cli_hash c' p' o' fuel wfuel t (with_inputs a [path'])
    = Ok (hex (spec_xof blake_compress m bs (asked_length a)) ++ [10], 0, t1).
Proof.
  intros S F o S' F' o' c c' p p' a m path path' s bs s1 t t1 P P' A Hn B L H H'.
  destruct (cli_inputs S F o c p (with_inputs a [path]) m s [Content bs] s1) as (f & E); auto; [discriminate| |].
  { eapply reading_content; eauto. constructor. }
  destruct (cli_inputs S' F' o' c' p' (with_inputs a [path']) m t [Content bs] t1) as (f' & E'); auto; [discriminate| |].
  { eapply reading_content; eauto. constructor. }
  exists (Nat.max f f'). intros fuel wfuel Hf Hw. rewrite E, E' by (auto; lia).
  cbn [with_inputs a_inputs combine map concat fst snd line len length N.of_nat existsb failed orb
       Pos.of_succ_nat N.ltb N.compare Pos.compare Pos.compare_cont].
  rewrite !app_nil_r. split; reflexivity.
Qed.

Lemma cli_big : forall S F (o : os S F) c p a m s bs s' n,
  platform_ok c p -> asked_mode a m -> a_inputs a = [] ->
  a_length a = Some n -> 2 ^ 63 <= n < 2 ^ 64 ->
  sees c o s None bs s' -> bytes bs -> len bs < 2 ^ 64 ->
  exists fuel0, forall fuel wfuel, (fuel0 <= fuel)%nat -> (1 <= wfuel)%nat ->
    cli_hash c p o fuel wfuel s a
    = if dbg c then Panic
      else Ok (hex (spec_xof blake_compress m bs (n - 2 ^ 63)) ++ [10], 0, s').
Proof.
  intros S F o c p a m s bs s' n P A Hi El Hn H B L. destruct (asked_ok a m A) as (M & K & D).
  destruct (hash_one_sees c p o P m M _ _ _ _ H B L) as (q & f0 & E).
  exists (Nat.max (N.to_nat ((n - 2 ^ 63 + 63) / 64)) f0). intros fuel wfuel Hf Hw.
  unfold cli_hash. rewrite K, D, Hi, El. cbn [is_empty negb].
  rewrite E by (auto; lia). cbn [bind]. rewrite print_hex_big by auto.
  destruct (dbg c); [reflexivity|].
  destruct (print_hex_ok c q m bs (n - 2 ^ 63) fuel) as (o' & Eo); auto; [lia|lia|].
  rewrite Eo. reflexivity.
Qed.

Lemma length_refuted :
  ~ (forall c p m input n o, platform_ok c p -> mode_ok m -> bytes input -> len input < WU c ->
       n < 2 ^ 64 -> oneshot_xof c p m input = Ok o ->
       exists fuel o', print_hex c fuel o n = Ok (o', hex (spec_xof blake_compress m input n))).
Proof.
  intros H. set (c := Cfg false true true).
  assert (P : platform_ok c PPortable) by (destruct c; exact I).
  pose proof (oneshot_xof_ok c PPortable Hashing [] P I (Forall_nil _) eq_refl) as Eo.
  destruct (H c PPortable Hashing [] (2 ^ 63) _ P I (Forall_nil _) eq_refl ltac:(reflexivity) Eo)
    as (fuel & o' & E).
  rewrite print_hex_big in E by (split; [apply N.le_refl|reflexivity]). cbn [dbg c] in E.
  assert (L : len (hex (spec_xof blake_compress Hashing [] (2 ^ 63))) = 2 * 2 ^ 63).
  { rewrite len_hex, xof_len; [reflexivity|exact I|constructor]. }
  assert (E0 : forall f o, print_hex c f o (2 ^ 63 - 2 ^ 63) = Ok (o, [])) by (intros [|f] o; reflexivity).
  rewrite E0 in E. assert (X : hex (spec_xof blake_compress Hashing [] (2 ^ 63)) = []) by congruence.
  rewrite X, len_nil in L. lia.
Qed.
