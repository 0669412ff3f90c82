(* hash_many of the 64-bit variant: every backend computes all64. *)
From Coq Require Import NArith List Bool Lia ZArith.
From Coq Require Import ZifyBool ZifyNat ZifyN.
From Verif Require Import Base BaseFacts Spec64 Simd64 Simd64Gen SimdFacts Compress64Facts Simd64Facts
  Row64Facts C64.
From Verif Require Import ManyFacts WrapFacts.
From Verif Require Import C64.
From Verif Require Portable64 CSimdFacts.
Import ListNotations.
Open Scope N_scope.
#[local] Opaque compress64.

Notation readable := CSimdFacts.readable.

Lemma compress64_length : forall cv block blen off flags, length cv = 4%nat ->
  length (firstn 4 (compress64 cv block blen off flags)) = 4%nat.
Proof.
  intros cv block blen off flags H.
  destruct (final64 cv block blen off flags _ H eq_refl) as (_ & <- & _). reflexivity.
Qed.

(* ---- the specification ---- *)

Lemma all64_app : forall key flags fs fe delta a b off,
  all64 key flags fs fe off delta (a ++ b)
  = all64 key flags fs fe off delta a ++ all64 key flags fs fe (off + len a * delta) delta b.
Proof.
  intros key flags fs fe delta a. induction a as [|x a IH]; intros b off; cbn [app all64].
  - rewrite len_nil, N.mul_0_l, N.add_0_r. reflexivity.
  - rewrite IH, len_cons. cbn [app]. do 3 f_equal. lia.
Qed.

Lemma all64_lanes : forall key flags fs fe delta n inputs off, length inputs = n ->
  all64 key flags fs fe off delta inputs
  = map (fun i => one64 key flags fs fe ((off + N.of_nat i * delta) mod W64) (nth i inputs [])) (seq 0 n).
Proof.
  intros key flags fs fe delta n. induction n; intros [|x inputs] off H; try discriminate H; [reflexivity|].
  cbn [all64 seq map nth]. change (N.of_nat 0) with 0. rewrite N.mul_0_l, N.add_0_r. f_equal.
  rewrite (IHn inputs) by (cbn in H; lia). rewrite <- seq_shift, map_map.
  apply map_ext. intros i. cbn [nth]. do 2 f_equal. lia.
Qed.

Lemma all64_mod : forall key flags fs fe delta inputs off,
  all64 key flags fs fe (off mod W64) delta inputs = all64 key flags fs fe off delta inputs.
Proof.
  intros key flags fs fe delta. induction inputs as [|i r IH]; intros off; cbn [all64]; [reflexivity|].
  change (2 ^ 64) with W64. rewrite N.mod_mod by discriminate. f_equal. rewrite <- IH, mod64_add. apply IH.
Qed.

Lemma chain64_length : forall bs cv off bf flags fe, length cv = 4%nat ->
  length (chain64 compress64 cv off bf flags fe bs) = 4%nat.
Proof.
  induction bs as [|b bs IH]; intros cv off bf flags fe H; [exact H|]. cbn [chain64].
  apply IH. now apply compress64_length.
Qed.

Lemma blks64_take : forall t l, blks64 t (take (128 * N.of_nat t) l) = blks64 t l.
Proof.
  induction t as [|t IH]; intros l; [reflexivity|]. cbn [blks64].
  replace (128 * N.of_nat (S t)) with (128 + 128 * N.of_nat t) by lia.
  rewrite take_take, N.min_l by lia. f_equal. rewrite drop_take. apply IH.
Qed.

(* ---- one input ---- *)

Definition comp64_ok (comp : list N -> list N -> N -> N -> N -> list N) : Prop :=
  forall cv block blen off flags,
  length cv = 4%nat -> length block = 128%nat -> bytes block ->
  comp cv block blen off flags = firstn 4 (compress64 cv block blen off flags).

Lemma hash_one_loop64_ok : forall comp, comp64_ok comp -> forall t input cv off bf flags fe,
  128 * N.of_nat t <= len input -> bytes input -> length cv = 4%nat ->
  hash_one_loop comp t cv input off bf flags fe
  = Ok (chain64 compress64 cv off bf flags fe (blks64 t input)).
Proof.
  intros comp C t. induction t as [|t IH]; intros input cv off bf flags fe L B Lcv; [reflexivity|].
  cbn [hash_one_loop]. unfold BLOCK_LEN. rewrite slice_ok by lia. cbn [bind]. rewrite drop_0.
  assert (L1 : length (take 128 input) = 128%nat) by (apply (len_length _ _ 128); lenlia).
  rewrite C by (auto; now apply bytes_take).
  rewrite IH; [|lenlia|now apply bytes_drop|now apply compress64_length].
  cbn [blks64 chain64]. destruct t; reflexivity.
Qed.

Lemma hash_one64_ok : forall comp ser, comp64_ok comp ->
  (forall st, length st = 4%nat -> ser st = bytes_of_words64 st) ->
  forall input blocks key off flags fs fe,
  128 * blocks <= len input -> bytes input -> length key = 4%nat ->
  (let* state := hash_one_loop comp (N.to_nat blocks) key input off (N.lor flags fs) flags fe in
   Ok (ser state))
  = Ok (one64 key flags fs fe off (take (128 * blocks) input)).
Proof.
  intros comp ser C S input blocks key off flags fs fe L B Lk.
  rewrite (hash_one_loop64_ok comp C) by (auto; lia). cbn [bind].
  rewrite S by now apply chain64_length. unfold one64.
  replace (len (take (128 * blocks) input) / 128) with blocks by (rewrite len_take, N.min_l by lia; lia).
  do 2 f_equal. rewrite <- (blks64_take (N.to_nat blocks) input).
  replace (128 * N.of_nat (N.to_nat blocks)) with (128 * blocks) by lia. reflexivity.
Qed.

(* ---- the table of offsets ---- *)

(* The first k entries of the table are 0, delta, ... *)
Definition table (k : nat) (delta : N) (deltas : list N) : Prop :=
  firstn k deltas = deltas64 k delta.

Lemma table_index : forall k delta deltas i, table k delta deltas -> (i < k)%nat ->
  index deltas (N.of_nat i) = Ok ((N.of_nat i * delta) mod W64).
Proof.
  intros k delta deltas i T Hi. unfold index. rewrite Nat2N.id.
  rewrite <- (firstn_skipn k deltas), T.
  assert (L : length (deltas64 k delta) = k) by (unfold deltas64; now rewrite map_length, seq_length).
  rewrite nth_error_app1 by lia. unfold deltas64.
  rewrite (map_nth_error (fun i => (N.of_nat i * delta) mod 2 ^ 64) i (seq 0 k) (d := i)); [reflexivity|].
  rewrite (nth_error_nth' _ 0%nat) by (rewrite seq_length; lia). now rewrite seq_nth by lia.
Qed.

Lemma table_slice : forall k delta deltas n, table k delta deltas -> (n <= k)%nat ->
  slice deltas 0 (N.of_nat n) = Ok (deltas64 n delta).
Proof.
  intros k delta deltas n T Hn.
  assert (Lk : length (deltas64 k delta) = k) by (unfold deltas64; now rewrite map_length, seq_length).
  assert (L : (k <= length deltas)%nat).
  { rewrite <- T in Lk. rewrite firstn_length in Lk. lia. }
  rewrite slice_ok by (unfold len; lia). rewrite drop_0. f_equal.
  unfold take. rewrite Nat2N.id.
  replace (firstn n deltas) with (firstn n (firstn k deltas)) by (rewrite firstn_firstn; f_equal; lia).
  rewrite T. unfold deltas64. rewrite firstn_map. f_equal.
  replace k with (n + (k - n))%nat by lia. rewrite seq_app.
  rewrite firstn_app, seq_length, Nat.sub_diag. cbn [firstn].
  rewrite app_nil_r. apply firstn_all2. rewrite seq_length. lia.
Qed.

Lemma table_less : forall k k' delta deltas, table k delta deltas -> (k' <= k)%nat ->
  table k' delta deltas.
Proof.
  intros k k' delta deltas T H. pose proof (table_slice _ _ _ _ T H) as S. unfold table.
  unfold slice in S. destruct (_ <=? _); [|discriminate S]. injection S as S.
  rewrite drop_0 in S. unfold take in S. now rewrite Nat2N.id in S.
Qed.

(* ---- many inputs ---- *)

Lemma many_loop64_ok : forall degree hashN rest key flags fs fe delta deltas cap,
  0 < degree -> table (N.to_nat degree + 1) delta deltas -> length key = 4%nat ->
  (forall inputs off, len inputs = degree -> Forall (readable cap) inputs ->
     off < W64 ->
     hashN inputs off
     = Ok (concat (all64 key flags fs fe off delta (map (take cap) inputs)))) ->
  (forall inputs off out, len inputs < degree -> Forall (readable cap) inputs ->
     32 * len inputs <= len out -> off < W64 ->
     rest inputs off out
     = Ok (concat (all64 key flags fs fe off delta (map (take cap) inputs))
           ++ drop (32 * len inputs) out)) ->
  forall fuel inputs off out, (length inputs <= fuel)%nat ->
  Forall (readable cap) inputs ->
  32 * len inputs <= len out -> off < W64 ->
  many_loop fuel degree hashN rest inputs off deltas out
  = Ok (concat (all64 key flags fs fe off delta (map (take cap) inputs))
        ++ drop (32 * len inputs) out).
Proof.
  intros degree hashN rest key flags fs fe delta deltas cap Hd Tab Lk HN HR.
  induction fuel as [|fuel IH]; intros inputs off out Hf Fi Lo Ho.
  - destruct inputs; [|cbn in Hf; lia]. cbn [many_loop].
    rewrite (proj2 (N.leb_gt _ _)) by (rewrite len_nil; lia). apply HR; auto.
  - cbn [many_loop].
    destruct (N.leb_spec degree (len inputs)) as [Hle|Hgt]; [|now apply HR].
    assert (T : len (take degree inputs) = degree) by lenlia.
    assert (D : len (drop degree inputs) = len inputs - degree) by lenlia.
    rewrite HN; [|exact T|now apply Forall_take|exact Ho]. cbn [bind].
    replace degree with (N.of_nat (N.to_nat degree)) at 1 by lia.
    rewrite (table_index _ _ _ _ Tab) by lia. cbn [bind]. rewrite N2Nat.id.
    unfold OUT_LEN. rewrite slice_from_ok by lia. cbn [bind].
    rewrite IH; [|unfold len in *; lia|now apply Forall_drop|lenlia|apply mod64].
    cbn [bind]. rewrite app_assoc, <- concat_app.
    rewrite drop_drop. rewrite D.
    replace (32 * (len inputs - degree) + degree * 32) with (32 * len inputs) by lia.
    do 3 f_equal. rewrite N.add_mod_idemp_r by discriminate. rewrite all64_mod.
    rewrite <- (take_drop _ degree inputs) at 3. rewrite map_app, all64_app.
    rewrite len_map, T. reflexivity.
Qed.

Lemma single_loop64_ok : forall h1 key flags fs fe delta deltas cap,
  table 2 delta deltas -> length key = 4%nat ->
  (forall i off, readable cap i ->
     h1 i off = Ok (one64 key flags fs fe off (take cap i))) ->
  forall inputs off out, Forall (readable cap) inputs ->
  32 * len inputs <= len out -> off < W64 ->
  single_loop h1 deltas inputs off out
  = Ok (concat (all64 key flags fs fe off delta (map (take cap) inputs))
        ++ drop (32 * len inputs) out).
Proof.
  intros h1 key flags fs fe delta deltas cap Tab Lk H1 inputs off out Fi Lo Ho. unfold single_loop.
  apply many_loop64_ok; auto; try lia.
  - intros ins o Li Fin O1. destruct ins as [|i [|? ?]]; try (rewrite ?len_cons, ?len_nil in Li; lia).
    cbn [index nth_error N.to_nat bind]. rewrite H1; [|now inversion Fin].
    cbn [map all64 concat]. change (2 ^ 64) with W64. rewrite N.mod_small by exact O1.
    now rewrite app_nil_r.
  - intros ins o ou Li Fin Lou Oo. assert (E : len ins = 0) by lia. apply len_0_nil in E. subst ins.
    reflexivity.
Qed.

(* ---- n inputs at once ---- *)

Lemma key_lanes64 : forall n key i, length key = 4%nat -> (i < n)%nat ->
  lanes i (map (fun k => set1_epi64 n (get key k)) (seq 0 4)) = key.
Proof.
  intros n key i L Hi. destruct (list4 _ key L) as (a0 & a1 & a2 & a3 & ->).
  unfold lanes. rewrite map_map. unfold lane_of, set1_epi64.
  rewrite (map_ext _ (fun k => get [a0; a1; a2; a3] k)); [reflexivity|].
  intros k. apply nth_repeat_lt; exact Hi.
Qed.

Lemma key_vn64 : forall n key, Forall (vn n) (map (fun k => set1_epi64 n (get key k)) (seq 0 4)).
Proof.
  intros. apply Forall_map, Forall_forall. intros x _. unfold vn, set1_epi64. apply repeat_length.
Qed.

Section VecLoop.
Variables (n : nat) (O : ops64 vec).
Hypotheses (LW : lanewise64 n O) (NPOS : (0 < n)%nat).
Variables (inputs : list (list N)) (load : N -> res (list vec)) (cap : N).
Hypothesis LOAD : forall bo, bo + 128 <= cap -> exists msg,
  load bo = Ok msg /\ length msg = 16%nat /\ Forall (vn n) msg /\
  forall i, (i < n)%nat -> lanes i msg = words64_of_bytes (take 128 (drop bo (nth i inputs []))).

Lemma vec_loop64_ok : forall todo block blocks h ov (off : nat -> N) bf flags fe,
  block + N.of_nat todo = blocks -> 128 * blocks <= cap ->
  length h = 4%nat -> Forall (vn n) h -> vn n ov ->
  (forall i, (i < n)%nat -> lane_of i ov = off i) ->
  exists h',
    vec_loop64 O sse41_code64 (set1_epi64 n) load todo block blocks h ov bf flags fe
    = Ok h' /\ length h' = 4%nat /\ Forall (vn n) h' /\
    forall i, (i < n)%nat ->
      lanes i h' = chain64 compress64 (lanes i h) (off i) bf flags fe
                     (blks64 todo (drop (128 * block) (nth i inputs []))).
Proof.
  induction todo as [|todo IH]; intros block blocks h ov off bf flags fe Hb Hc Lh Fh Vo Eo.
  - exists h. cbn [vec_loop64 blks64 chain64]. auto.
  - cbn [vec_loop64]. unfold BLOCK_LEN.
    destruct (LOAD (block * 128)) as (msg & Em & Lm & Fm & Lanes); [lia|].
    rewrite Em. cbn [bind].
    set (bf' := if block + 1 =? blocks then N.lor bf fe else bf).
    assert (V : forall i, (i < n)%nat ->
      lanes i (vec_compress64 O sse41_code64 (set1_epi64 n) h msg ov (set1_epi64 n 128) (set1_epi64 n bf'))
      = firstn 4 (compress64 (lanes i h) (take 128 (drop (block * 128) (nth i inputs []))) 128 (off i) bf') /\
      Forall (vn n) (vec_compress64 O sse41_code64 (set1_epi64 n) h msg ov (set1_epi64 n 128) (set1_epi64 n bf')) /\
      length (vec_compress64 O sse41_code64 (set1_epi64 n) h msg ov (set1_epi64 n 128) (set1_epi64 n bf')) = 4%nat).
    { intros i Hi. apply (lane_vec_compress64 n O LW (set1_epi64 n) (fun x => eq_refl)) with (off := off i); auto. }
    set (h1 := vec_compress64 _ _ _ h msg ov _ _) in *.
    destruct (V 0%nat NPOS) as (_ & F1 & L1).
    destruct (IH (block + 1) blocks h1 ov off flags flags fe) as (h' & E & L' & F' & X); auto; [lia|].
    exists h'. split; [exact E|]. split; [exact L'|]. split; [exact F'|].
    intros i Hi. rewrite (X i Hi). rewrite (proj1 (V i Hi)). cbn [blks64 chain64].
    rewrite drop_drop. replace (128 + 128 * block) with (128 * (block + 1)) by lia.
    replace (block * 128) with (128 * block) by lia. do 3 f_equal.
    subst bf'. destruct todo; cbn [blks64].
    + now rewrite (proj2 (N.eqb_eq _ _)) by lia.
    + now rewrite (proj2 (N.eqb_neq _ _)) by lia.
Qed.
End VecLoop.

Lemma lane_results64 : forall n inputs blocks key off delta flags fs fe h',
  length inputs = n -> Forall (fun i => len i = 128 * blocks) inputs -> length key = 4%nat ->
  (forall i, (i < n)%nat ->
      lanes i h' = chain64 compress64
                     (lanes i (map (fun k => set1_epi64 n (get key k)) (seq 0 4)))
                     ((off + N.of_nat i * delta) mod W64) (N.lor flags fs) flags fe
                     (blks64 (N.to_nat blocks) (drop (128 * 0) (nth i inputs [])))) ->
  concat (map (fun i => bytes_of_words64 (lanes i h')) (seq 0 n))
  = concat (all64 key flags fs fe off delta inputs).
Proof.
  intros n inputs blocks key off delta flags fs fe h' Li Fi Lk H. f_equal.
  rewrite (all64_lanes key flags fs fe delta n) by exact Li.
  apply map_ext_in. intros i Hi. apply in_seq in Hi. rewrite H by lia.
  rewrite key_lanes64 by (auto; lia). unfold one64. rewrite N.mul_0_r, drop_0.
  rewrite Forall_forall in Fi. rewrite (Fi (nth i inputs []) ltac:(apply nth_In; lia)).
  replace (128 * blocks / 128) with blocks by lia. reflexivity.
Qed.

(* ---- loading and transposing ---- *)

(* T transposes n vectors of n lanes. *)
Definition transposes (n : nat) (T : list vec -> list vec) : Prop :=
  forall v, length v = n -> Forall (vn n) v ->
  T v = map (fun j => map (lane_of j) v) (seq 0 n).

Ltac explicit v L F n :=
  repeat match type of L with
  | length ?w = S _ => destruct w as [|? w]; [discriminate L|cbn [length] in L; injection L as L]
  end.

Ltac lanes2 := repeat match goal with H : vn 2 ?a |- _ =>
  destruct (list2 _ a H) as (? & ? & ->); clear H end.
Ltac lanes4 := repeat match goal with H : vn 4 ?a |- _ =>
  destruct (list4 _ a H) as (? & ? & ? & ? & ->); clear H end.
Ltac lanes8 := repeat match goal with H : vn 8 ?a |- _ =>
  destruct (list8p _ a H) as (? & ? & ? & ? & ? & ? & ? & ? & ->); clear H end.
Ltac unforall := repeat match goal with
  | H : Forall _ (_ :: _) |- _ =>
      let H1 := fresh in pose proof (Forall_inv H) as H1; apply Forall_inv_tail in H
  | H : Forall _ [] |- _ => clear H end.

Lemma transpose2_ok : transposes 2 transpose2.
Proof.
  intros v L F. destruct (list2 _ v L) as (a & b & ->). clear L. unforall. lanes2. reflexivity.
Qed.
Lemma n_transpose2_ok : transposes 2 n_transpose2.
Proof.
  intros v L F. destruct (list2 _ v L) as (a & b & ->). clear L. unforall. lanes2. reflexivity.
Qed.
Lemma transpose4_ok : transposes 4 transpose4.
Proof.
  intros v L F. destruct (list4 _ v L) as (a & b & c & d & ->). clear L. unforall. lanes4. reflexivity.
Qed.
Lemma transpose8_ok : transposes 8 transpose8.
Proof.
  intros v L F. destruct (list8p _ v L) as (a & b & c & d & e & f & g & h & ->). clear L.
  unforall. lanes8. reflexivity.
Qed.

Lemma list_as_map : forall (a : list N) n, length a = n ->
  map (fun j => nth j a 0) (seq 0 n) = a.
Proof.
  induction a as [|x a IH]; intros n <-; [reflexivity|]. cbn [length seq map nth]. f_equal.
  rewrite <- seq_shift, map_map. now apply IH.
Qed.

Lemma transposes_lanes : forall n T v, transposes n T -> length v = n -> Forall (vn n) v ->
  length (T v) = n /\ Forall (vn n) (T v) /\
  forall i, (i < n)%nat -> lanes i (T v) = nth i v [].
Proof.
  intros n T v HT L F. specialize (HT v L F). rewrite HT. split; [now rewrite map_length, seq_length|]. split.
  - apply Forall_map, Forall_forall. intros j _. unfold vn. now rewrite map_length.
  - intros i Hi. unfold lanes. rewrite map_map.
    rewrite (map_ext _ (fun j => nth j (nth i v []) 0)).
    + apply list_as_map. rewrite Forall_forall in F. apply F, nth_In. lia.
    + intros j. unfold lane_of at 1.
      rewrite (nth_indep _ 0 (lane_of j [])) by (rewrite map_length; lia).
      rewrite (map_nth (lane_of j)). reflexivity.
Qed.

Lemma seq_ok_ok : forall A (l : list A), seq_ok (map Ok l) = Ok l.
Proof. induction l as [|a l IH]; [reflexivity|]. cbn [map seq_ok bind]. now rewrite IH. Qed.

(* p, p + w, ...: count positions. *)
Fixpoint cols (p w : N) (count : nat) : list N :=
  match count with O => [] | S c => p :: cols (p + w) w c end.

Lemma load_grid64_ok : forall w inputs bo cs l,
  (forall i col, In i inputs -> In col l -> col + w <= len i) ->
  map (fun col => bo + col) cs = l ->
  load_grid64 w inputs bo cs
  = Ok (flat_map (fun col => map (fun i => words64_of_bytes (take w (drop col i))) inputs) l).
Proof.
  intros w inputs bo cs l H <-. unfold load_grid64. rewrite <- seq_ok_ok. f_equal.
  induction cs as [|col cs IH]; [reflexivity|]. cbn [map flat_map] in *. rewrite map_app, map_map.
  f_equal.
  - apply map_ext_in. intros i Hi. unfold loadu64. rewrite slice_ok by (apply H; [auto|now left]).
    reflexivity.
  - apply IH. intros. apply H; [auto|now right].
Qed.

Lemma groups_ok : forall n T inputs, transposes n T -> length inputs = n -> forall count p,
  (forall i, In i inputs -> p + 8 * N.of_nat n * N.of_nat count <= len i) ->
  let msg := groups count n T
    (flat_map (fun col => map (fun i => words64_of_bytes (take (8 * N.of_nat n) (drop col i))) inputs)
       (cols p (8 * N.of_nat n) count)) in
  length msg = (count * n)%nat /\ Forall (vn n) msg /\
  forall i, (i < n)%nat ->
    lanes i msg = words64_of_bytes (take (8 * N.of_nat n * N.of_nat count) (drop p (nth i inputs []))).
Proof.
  intros n T inputs HT Li. induction count as [|count IH]; intros p H; cbv zeta.
  - split; [reflexivity|]. split; [constructor|]. intros i Hi. rewrite N.mul_0_r. reflexivity.
  - cbn [cols flat_map groups].
    set (w := 8 * N.of_nat n) in *.
    set (v := map (fun i => words64_of_bytes (take w (drop p i))) inputs).
    assert (Lv : length v = n) by (subst v; now rewrite map_length).
    rewrite firstn_app, skipn_app, Lv, Nat.sub_diag.
    rewrite (firstn_all2 v) by lia. rewrite (skipn_all2 v) by lia.
    cbn [firstn skipn app]. rewrite app_nil_r.
    assert (Fv : Forall (vn n) v).
    { apply Forall_map, Forall_forall. intros i Hi. specialize (H i Hi). unfold vn.
      apply words64_count. rewrite len_take, len_drop. subst w. nia. }
    destruct (transposes_lanes n T v HT Lv Fv) as (L1 & F1 & X1).
    destruct (IH (p + w)) as (L2 & F2 & X2).
    { intros i Hi. specialize (H i Hi). nia. }
    split; [rewrite app_length, L1, L2; lia|]. split; [now apply Forall_app|].
    intros i Hi. rewrite lanes_app, X1, X2 by auto.
    assert (Hn : In (nth i inputs []) inputs) by (apply nth_In; lia).
    specialize (H _ Hn). set (inp := nth i inputs []) in *.
    replace (w * N.of_nat (S count)) with (w + w * N.of_nat count) by lia.
    rewrite take_split, (words64_app n) by (rewrite len_take, len_drop; subst w; nia).
    rewrite drop_drop. replace (w + p) with (p + w) by lia. f_equal.
    subst v. rewrite (nth_indep _ [] (words64_of_bytes (take w (drop p [])))) by (rewrite map_length; lia).
    now rewrite (map_nth (fun i => words64_of_bytes (take w (drop p i)))).
Qed.

Lemma nth_map_take : forall i cap (inputs : list (list N)), nth i (map (take cap) inputs) [] = take cap (nth i inputs []).
Proof.
  intros. rewrite <- (map_nth (take cap)). f_equal. unfold take. now destruct (N.to_nat cap).
Qed.

(* The message vectors, from the loads of the code. *)
Lemma msg_ok : forall n count T cs inputs blocks, transposes n T -> length inputs = n ->
  (count * n = 16)%nat -> 
  (forall bo, map (fun col => bo + col) cs = cols bo (8 * N.of_nat n) count) ->
  Forall (readable (128 * blocks)) inputs ->
  forall bo, bo + 128 <= 128 * blocks -> exists msg,
  (let* v := load_grid64 (8 * N.of_nat n) inputs bo cs in Ok (groups count n T v)) = Ok msg /\
  length msg = 16%nat /\ Forall (vn n) msg /\
  forall i, (i < n)%nat ->
    lanes i msg = words64_of_bytes (take 128 (drop bo (nth i (map (take (128 * blocks)) inputs) []))).
Proof.
  intros n count T cs inputs blocks HT Li Hn Hcs Fi bo Hbo.
  assert (C : forall c p w x, In x (cols p w c) -> x + w <= p + w * N.of_nat c).
  { induction c as [|c IH]; intros p w x Hx; [destruct Hx|]. cbn [cols] in Hx. destruct Hx as [<-|Hx].
    - nia.
    - specialize (IH _ _ _ Hx). nia. }
  assert (R : forall i, In i inputs -> 128 * blocks <= len i).
  { intros i Hi. rewrite Forall_forall in Fi. now apply Fi. }
  assert (E16 : 8 * N.of_nat n * N.of_nat count = 128) by nia.
  rewrite (load_grid64_ok _ _ _ _ (cols bo (8 * N.of_nat n) count)); [|
    intros i col Hi Hcol; apply C in Hcol; specialize (R i Hi); lia | apply Hcs].
  cbn [bind].
  destruct (groups_ok n T inputs HT Li count bo) as (L & F & X).
  { intros i Hi. specialize (R i Hi). lia. }
  eexists. split; [reflexivity|]. split; [lia|]. split; [exact F|].
  intros i Hi. rewrite X by exact Hi. rewrite E16, nth_map_take.
  f_equal. assert (Hin : In (nth i inputs []) inputs) by (apply nth_In; lia).
  specialize (R _ Hin). set (inp := nth i inputs []) in *.
  rewrite <- (take_drop _ (128 * blocks) inp) at 1.
  rewrite drop_app_le by lenlia. rewrite take_app_le by lenlia. reflexivity.
Qed.

(* ---- storing ---- *)

Lemma store2_ok : forall T h, transposes 2 T -> length h = 4%nat -> Forall (vn 2) h ->
  store2 T h = concat (map (fun i => bytes_of_words64 (lanes i h)) (seq 0 2)).
Proof.
  intros T h HT L F. destruct (list4 _ h L) as (a & b & c & d & ->). clear L. unforall.
  unfold store2. cbn [firstn skipn].
  rewrite !HT by (reflexivity || (repeat constructor; assumption)).
  lanes2. reflexivity.
Qed.
Lemma store4_ok64 : forall h, length h = 4%nat -> Forall (vn 4) h ->
  store4 h = concat (map (fun i => bytes_of_words64 (lanes i h)) (seq 0 4)).
Proof.
  intros h L F. destruct (list4 _ h L) as (a & b & c & d & ->). clear L. unforall. lanes4. reflexivity.
Qed.
Lemma store8_ok64 : forall h, length h = 4%nat -> Forall (vn 8) h ->
  store8 h = concat (map (fun i => bytes_of_words64 (lanes i h)) (seq 0 8)).
Proof.
  intros h L F. destruct (list4 _ h L) as (a & b & c & d & ->). clear L. unforall. lanes8. reflexivity.
Qed.

(* ---- offsets ---- *)

Lemma load_offsets_ok : forall n k off delta deltas, (n <= k)%nat ->
  table k delta deltas ->
  load_offsets n off deltas = Ok (map (fun i => (off + N.of_nat i * delta) mod W64) (seq 0 n)).
Proof.
  intros n k off delta deltas Hn T.
  unfold load_offsets. rewrite (table_slice _ _ _ _ T Hn). cbn [bind]. f_equal.
  unfold add_epi64, set1_epi64, deltas64, map2. change (2 ^ 64) with W64.
  assert (G : forall m s,
    map (fun p => plus64 (fst p) (snd p))
        (combine (repeat off m) (map (fun i => (N.of_nat i * delta) mod W64) (seq s m)))
    = map (fun i => (off + N.of_nat i * delta) mod W64) (seq s m)).
  { induction m as [|m IH]; intros s; [reflexivity|]. cbn [repeat seq map combine fst snd]. f_equal.
    - unfold plus64. apply N.add_mod_idemp_r. discriminate.
    - apply IH. }
  apply G.
Qed.

Lemma n_load_offsets_ok : forall k off delta deltas, (2 <= k)%nat ->
  table k delta deltas ->
  n_load_offsets off deltas = Ok (map (fun i => (off + N.of_nat i * delta) mod W64) (seq 0 2)).
Proof.
  intros k off delta deltas Hk T. unfold n_load_offsets.
  change 0 with (N.of_nat 0). rewrite (table_index _ _ _ _ T) by lia. cbn [bind].
  change 1 with (N.of_nat 1). rewrite (table_index _ _ _ _ T) by lia. cbn [bind seq map].
  unfold plus64. now rewrite !N.add_mod_idemp_r by discriminate.
Qed.

Lemma hashN_ok : forall n O load lo st inputs blocks key off delta deltas flags fs fe,
  lanewise64 n O -> (0 < n)%nat -> length inputs = n -> Forall (readable (128 * blocks)) inputs ->
  length key = 4%nat ->
  (forall bo, bo + 128 <= 128 * blocks -> exists msg,
     load inputs bo = Ok msg /\ length msg = 16%nat /\ Forall (vn n) msg /\
     forall i, (i < n)%nat ->
       lanes i msg = words64_of_bytes (take 128 (drop bo (nth i (map (take (128 * blocks)) inputs) [])))) ->
  (forall h, length h = 4%nat -> Forall (vn n) h ->
     st h = concat (map (fun i => bytes_of_words64 (lanes i h)) (seq 0 n))) ->
  lo off deltas = Ok (map (fun i => (off + N.of_nat i * delta) mod W64) (seq 0 n)) ->
  (let* h := hashN_loop O sse41_code64 n load lo inputs blocks key off deltas flags fs fe in
   Ok (st h))
  = Ok (concat (all64 key flags fs fe off delta (map (take (128 * blocks)) inputs))).
Proof.
  intros n O load lo st inputs blocks key off delta deltas flags fs fe LW NP Li Fi Lk LOAD ST Elo.
  unfold hashN_loop. rewrite Elo. cbn [bind].
  destruct (vec_loop64_ok n O LW NP (map (take (128 * blocks)) inputs) (load inputs) (128 * blocks) LOAD)
    with (todo := N.to_nat blocks) (block := 0) (blocks := blocks)
         (h := map (fun i => set1_epi64 n (get key i)) (seq 0 4))
         (ov := map (fun i => (off + N.of_nat i * delta) mod W64) (seq 0 n))
         (off := fun i => (off + N.of_nat i * delta) mod W64)
         (bf := N.lor flags fs) (flags := flags) (fe := fe)
    as (h' & E & L' & F' & X).
  - lia.
  - lia.
  - now rewrite map_length, seq_length.
  - apply key_vn64.
  - unfold vn. rewrite map_length. apply seq_length.
  - intros i Hi. unfold lane_of.
    rewrite (nth_indep _ 0 ((off + N.of_nat 0 * delta) mod W64)) by (rewrite map_length, seq_length; exact Hi).
    rewrite (map_nth (fun i => (off + N.of_nat i * delta) mod W64)). now rewrite seq_nth.
  - rewrite E. cbn [bind]. rewrite ST by auto. f_equal.
    apply (lane_results64 n (map (take (128 * blocks)) inputs) blocks); auto.
    + now rewrite map_length.
    + apply Forall_map. eapply Forall_impl; [|exact Fi]. cbn. intros i [R B]. lenlia.
Qed.

Section Hash.
Variables (inputs : list (list N)) (blocks : N) (key : list N) (off delta : N) (deltas : list N)
          (flags fs fe : N).
Hypotheses (Fi : Forall (readable (128 * blocks)) inputs) (Lk : length key = 4%nat).

Lemma cols16 : forall bo,
  map (fun col => bo + col) [0 * 16; 1 * 16; 2 * 16; 3 * 16; 4 * 16; 5 * 16; 6 * 16; 7 * 16]
  = cols bo (8 * N.of_nat 2) 8.
Proof. intros. cbn [map cols]. repeat (apply f_equal2; [lia|]). reflexivity. Qed.
Lemma cols32 : forall bo,
  map (fun col => bo + col) [0 * 32; 1 * 32; 2 * 32; 3 * 32] = cols bo (8 * N.of_nat 4) 4.
Proof. intros. cbn [map cols]. repeat (apply f_equal2; [lia|]). reflexivity. Qed.
Lemma cols64 : forall bo,
  map (fun col => bo + col) [0 * 64; 1 * 64] = cols bo (8 * N.of_nat 8) 2.
Proof. intros. cbn [map cols]. repeat (apply f_equal2; [lia|]). reflexivity. Qed.

Lemma hash2_sse41_ok : len inputs = 2 -> table 2 delta deltas -> off < W64 ->
  hash2_sse41 inputs blocks key off deltas flags fs fe
  = Ok (concat (all64 key flags fs fe off delta (map (take (128 * blocks)) inputs))).
Proof.
  intros Li T Ho. apply (len_length _ _ 2) in Li. unfold hash2_sse41.
  apply (hashN_ok 2 s_ops); auto.
  - exact s_lanewise64.
  - apply (msg_ok 2 8 transpose2 _ inputs blocks transpose2_ok Li eq_refl cols16 Fi).
  - intros. apply store2_ok; auto. exact transpose2_ok.
  - now apply (load_offsets_ok 2 2); auto.
Qed.

Lemma hash2_avx512_ok : len inputs = 2 -> table 2 delta deltas -> off < W64 ->
  hash2_avx512 inputs blocks key off deltas flags fs fe
  = Ok (concat (all64 key flags fs fe off delta (map (take (128 * blocks)) inputs))).
Proof.
  intros Li T Ho. apply (len_length _ _ 2) in Li. unfold hash2_avx512.
  change avx512_code64_2 with sse41_code64. apply (hashN_ok 2 z_ops); auto.
  - exact (z_lanewise64 2).
  - apply (msg_ok 2 8 transpose2 _ inputs blocks transpose2_ok Li eq_refl cols16 Fi).
  - intros. apply store2_ok; auto. exact transpose2_ok.
  - now apply (load_offsets_ok 2 2); auto.
Qed.

Lemma hash2_neon_ok : len inputs = 2 -> table 2 delta deltas -> off < W64 ->
  hash2_neon inputs blocks key off deltas flags fs fe
  = Ok (concat (all64 key flags fs fe off delta (map (take (128 * blocks)) inputs))).
Proof.
  intros Li T Ho. apply (len_length _ _ 2) in Li. unfold hash2_neon.
  change neon_code64 with sse41_code64. apply (hashN_ok 2 n_ops); auto.
  - exact (n_lanewise64 2).
  - apply (msg_ok 2 8 n_transpose2 _ inputs blocks n_transpose2_ok Li eq_refl cols16 Fi).
  - intros. apply store2_ok; auto. exact n_transpose2_ok.
  - now apply (n_load_offsets_ok 2); auto.
Qed.

Lemma hash4_avx2_ok : len inputs = 4 -> table 4 delta deltas -> off < W64 ->
  hash4_avx2 inputs blocks key off deltas flags fs fe
  = Ok (concat (all64 key flags fs fe off delta (map (take (128 * blocks)) inputs))).
Proof.
  intros Li T Ho. apply (len_length _ _ 4) in Li. unfold hash4_avx2.
  change avx2_code64 with sse41_code64. apply (hashN_ok 4 a_ops); auto; try lia.
  - exact a_lanewise64.
  - apply (msg_ok 4 4 transpose4 _ inputs blocks transpose4_ok Li eq_refl cols32 Fi).
  - intros. apply store4_ok64; auto.
  - apply (load_offsets_ok 4 4); auto; lia.
Qed.

Lemma hash4_avx512_ok : len inputs = 4 -> table 4 delta deltas -> off < W64 ->
  hash4_avx512 inputs blocks key off deltas flags fs fe
  = Ok (concat (all64 key flags fs fe off delta (map (take (128 * blocks)) inputs))).
Proof.
  intros Li T Ho. apply (len_length _ _ 4) in Li. unfold hash4_avx512.
  change avx512_code64_4 with sse41_code64. apply (hashN_ok 4 z_ops); auto; try lia.
  - exact (z_lanewise64 4).
  - apply (msg_ok 4 4 transpose4 _ inputs blocks transpose4_ok Li eq_refl cols32 Fi).
  - intros. apply store4_ok64; auto.
  - apply (load_offsets_ok 4 4); auto; lia.
Qed.

Lemma hash8_avx512_ok : len inputs = 8 -> table 8 delta deltas -> off < W64 ->
  hash8_avx512 inputs blocks key off deltas flags fs fe
  = Ok (concat (all64 key flags fs fe off delta (map (take (128 * blocks)) inputs))).
Proof.
  intros Li T Ho. apply (len_length _ _ 8) in Li. unfold hash8_avx512.
  change avx512_code64_8 with sse41_code64. apply (hashN_ok 8 z_ops); auto; try lia.
  - exact (z_lanewise64 8).
  - apply (msg_ok 8 2 transpose8 _ inputs blocks transpose8_ok Li eq_refl cols64 Fi).
  - intros. apply store8_ok64; auto.
  - apply (load_offsets_ok 8 8); auto; lia.
Qed.
End Hash.

(* ---- hash_many ---- *)

Section Many.
Variables (blocks : N) (key : list N) (delta : N) (deltas : list N) (flags fs fe : N).
Hypotheses (Lk : length key = 4%nat).

Definition many64_ok (k : nat)
  (hm : list (list N) -> N -> list N -> N -> list N -> N -> N -> N -> list N -> res (list N)) : Prop :=
  table k delta deltas ->
  forall inputs off out, Forall (readable (128 * blocks)) inputs ->
  32 * len inputs <= len out -> off < W64 ->
  hm inputs blocks key off deltas flags fs fe out
  = Ok (concat (all64 key flags fs fe off delta (map (take (128 * blocks)) inputs))
        ++ drop (32 * len inputs) out).

Lemma hash_many_portable64_ok : many64_ok 2 hash_many_portable.
Proof.
  intros T inputs off out Fi Lo Ho. unfold hash_many_portable.
  apply single_loop64_ok; auto. intros i o [R B].
  apply hash_one64_ok; auto. { exact c64_compress. } exact c64_write_state.
Qed.

Lemma hash_many_sse41_ok64 : many64_ok 3 hash_many_sse41.
Proof.
  intros T inputs off out Fi Lo Ho. unfold hash_many_sse41.
  assert (T2 : table 2 delta deltas) by (apply (table_less 3); auto).
  apply many_loop64_ok; auto; try lia.
  - intros ins o Li F O1. apply hash2_sse41_ok; auto.
  - intros ins o ou Li F Lou Oo. apply hash_many_portable64_ok; auto.
Qed.

Lemma hash_many_avx2_ok64 : many64_ok 5 hash_many_avx2.
Proof.
  intros T inputs off out Fi Lo Ho. unfold hash_many_avx2.
  assert (T3 : table 3 delta deltas) by (apply (table_less 5); auto; lia).
  assert (T4 : table 4 delta deltas) by (apply (table_less 5); auto; lia).
  apply many_loop64_ok; auto; try lia.
  - intros ins o Li F O1. apply hash4_avx2_ok; auto.
  - intros ins o ou Li F Lou Oo. apply hash_many_sse41_ok64; auto.
Qed.

Lemma hash_many_avx512_ok64 : many64_ok 9 hash_many_avx512.
Proof.
  intros T inputs off out Fi Lo Ho. unfold hash_many_avx512.
  assert (T2 : table 2 delta deltas) by (apply (table_less 9); auto; lia).
  assert (T3 : table 3 delta deltas) by (apply (table_less 9); auto; lia).
  assert (T4 : table 4 delta deltas) by (apply (table_less 9); auto; lia).
  assert (T5 : table 5 delta deltas) by (apply (table_less 9); auto; lia).
  assert (T8 : table 8 delta deltas) by (apply (table_less 9); auto; lia).
  apply many_loop64_ok; auto; try lia.
  - intros ins o Li F O1. apply hash8_avx512_ok; auto.
  - clear inputs off out Fi Lo Ho. intros inputs off out _ Fi Lo Ho.
    apply many_loop64_ok; auto; try lia.
    + intros ins o Li F O1. apply hash4_avx512_ok; auto.
    + clear inputs off out Fi Lo Ho. intros inputs off out _ Fi Lo Ho.
      apply many_loop64_ok; auto; try lia.
      * intros ins o Li F O1. apply hash2_avx512_ok; auto.
      * intros ins o ou Li F Lou Oo. apply single_loop64_ok; auto. intros i o' [R B].
        apply hash_one64_ok; auto. exact compress_avx512_ok.
Qed.

Lemma hash_many_neon_ok64 : many64_ok 3 hash_many_neon.
Proof.
  intros T inputs off out Fi Lo Ho. unfold hash_many_neon.
  assert (T2 : table 2 delta deltas) by (apply (table_less 3); auto).
  apply many_loop64_ok; auto; try lia.
  - intros ins o Li F O1. apply hash2_neon_ok; auto.
  - intros ins o ou Li F Lou Oo. apply single_loop64_ok; auto. intros i o' [R B].
    apply hash_one64_ok; auto. exact c64_compress.
Qed.
End Many.

(* ---- Rust ---- *)

Lemma hash1_loop64_ok : forall t slice fuel cv off bf flags fe,
  len slice = 128 * N.of_nat t -> (t <= fuel)%nat -> length cv = 4%nat ->
  Portable64.hash1_loop Portable64.compress fuel cv slice off bf flags fe
  = Ok (chain64 compress64 cv off bf flags fe (blks64 t slice)).
Proof.
  induction t as [|t IH]; intros slice fuel cv off bf flags fe L Hf Lcv.
  - destruct fuel; cbn [Portable64.hash1_loop]; unfold Portable64.BLOCK_LEN;
      rewrite (proj2 (N.leb_gt _ _)) by lia; reflexivity.
  - destruct fuel as [|fuel]; [lia|]. cbn [Portable64.hash1_loop]. unfold Portable64.BLOCK_LEN.
    rewrite (proj2 (N.leb_le _ _)) by lia.
    assert (L1 : length (take 128 slice) = 128%nat).
    { apply (len_length _ _ 128). lenlia. }
    rewrite portable64_compress by auto.
    rewrite IH; [|lenlia|lia|now apply compress64_length].
    cbn [blks64 chain64]. do 4 f_equal.
    destruct t; cbn [blks64].
    + now rewrite (proj2 (N.eqb_eq _ _)) by lia.
    + now rewrite (proj2 (N.eqb_neq _ _)) by lia.
Qed.

Lemma hash1_64_ok : forall c input key off flags fs fe,
  len input mod 128 = 0 -> length key = 4%nat ->
  Portable64.hash1 c input key off flags fs fe = Ok (one64 key flags fs fe off input).
Proof.
  intros c input key off flags fs fe L Lk. unfold Portable64.hash1, Portable64.BLOCK_LEN.
  rewrite L. unfold dassert. cbn [N.eqb negb andb bind]. rewrite ?Bool.andb_false_r. cbn [bind].
  rewrite (hash1_loop64_ok (N.to_nat (len input / 128))); auto.
  - lia.
  - unfold len in *. lia.
Qed.

Lemma hash_each64_ok : forall c key flags fs fe delta inputs off out,
  length key = 4%nat -> Forall (fun i => len i mod 128 = 0) inputs ->
  32 * len inputs <= len out -> off < W64 ->
  Portable64.hash_each c (fun input off => Portable64.hash1 c input key off flags fs fe)
    inputs off delta out
  = if dbg c && (W64 <=? off + len inputs * delta) then Panic
    else Ok (concat (all64 key flags fs fe off delta inputs) ++ drop (32 * len inputs) out).
Proof.
  intros c key flags fs fe delta inputs.
  induction inputs as [|i r IH]; intros off out Lk F Ho Hoff; cbn [Portable64.hash_each].
  - rewrite len_nil, N.mul_0_l, N.add_0_r, (proj2 (N.leb_gt _ _)) by exact Hoff.
    now rewrite Bool.andb_false_r.
  - rewrite len_cons in *. unfold Portable64.OUT_LEN.
    rewrite (proj2 (N.leb_le _ _)) by lia.
    rewrite hash1_64_ok; [|now apply Forall_inv in F|auto]. cbn [bind].
    destruct (add64_any c off delta) as [[E L]|(E & D & L)]; rewrite E; cbn [bind].
    + rewrite IH; [|auto|now apply Forall_inv_tail in F|lenlia|apply mod64].
      rewrite all64_mod.
      replace (dbg c && (W64 <=? (off + delta) mod W64 + len r * delta))
        with (dbg c && (W64 <=? off + (1 + len r) * delta)).
      2: { destruct (dbg c); [|reflexivity]. cbn [andb]. rewrite N.mod_small by auto. f_equal. lia. }
      destruct (dbg c && _); cbn [bind]; [reflexivity|].
      cbn [all64 concat]. change (2 ^ 64) with W64. rewrite (N.mod_small off) by exact Hoff.
      rewrite <- app_assoc. do 3 f_equal.
      rewrite drop_drop. f_equal. lia.
    + rewrite D. cbn [andb]. rewrite (proj2 (N.leb_le _ _)) by nia. reflexivity.
Qed.

Lemma rust64_hash_many : forall c inputs key off delta flags fs fe out,
  length key = 4%nat -> Forall (fun i => len i mod 128 = 0) inputs ->
  32 * len inputs <= len out -> off < 2 ^ 64 ->
  Portable64.hash_many c inputs key off delta flags fs fe out
  = if dbg c && (2 ^ 64 <=? off + len inputs * delta) then Panic
    else Ok (concat (all64 key flags fs fe off delta inputs) ++ drop (32 * len inputs) out).
Proof.
  intros c inputs key off delta flags fs fe out Lk F Lo Ho. unfold Portable64.hash_many.
  unfold Portable64.OUT_LEN, dassert.
  rewrite (proj2 (N.leb_le _ _)) by lia. cbn [negb]. rewrite ?Bool.andb_false_r. cbn [bind].
  now apply hash_each64_ok.
Qed.

(* ---- statements ---- *)

Lemma c64_compress_all : forall cv block block_len offset flags,
  length cv = 4%nat -> length block = 128%nat -> bytes block ->
  let spec := compress64 cv block block_len offset flags in
  compress_portable cv block block_len offset flags = firstn 4 spec /\
  compress_avx2 cv block block_len offset flags = firstn 4 spec /\
  compress_avx512 cv block block_len offset flags = firstn 4 spec /\
  Portable64.compress cv block block_len offset flags = firstn 4 spec /\
  Portable64.compress_xof cv block block_len offset flags = bytes_of_words64 spec.
Proof.
  intros cv block bl off fl Hcv Hb Bb. cbv zeta.
  split; [now apply c64_compress|]. split; [now apply compress_avx2_ok|].
  split; [now apply compress_avx512_ok|]. split; [now apply portable64_compress|].
  now apply portable64_compress_xof.
Qed.

Lemma c64_hash_many_all : forall inputs blocks key offset delta deltas flags fs fe out,
  length key = 4%nat ->
  Forall (fun i => 128 * blocks <= len i /\ bytes i) inputs ->
  32 * len inputs <= len out ->
  offset < 2 ^ 64 ->
  let table k := firstn k deltas = deltas64 k delta in
  let result := concat (all64 key flags fs fe offset delta (map (take (128 * blocks)) inputs))
                ++ drop (32 * len inputs) out in
  (table 2%nat -> hash_many_portable inputs blocks key offset deltas flags fs fe out = Ok result) /\
  (table 3%nat -> hash_many_sse41 inputs blocks key offset deltas flags fs fe out = Ok result) /\
  (table 5%nat -> hash_many_avx2 inputs blocks key offset deltas flags fs fe out = Ok result) /\
  (table 9%nat -> hash_many_avx512 inputs blocks key offset deltas flags fs fe out = Ok result) /\
  (table 3%nat -> hash_many_neon inputs blocks key offset deltas flags fs fe out = Ok result).
Proof.
  intros inputs blocks key off delta deltas flags fs fe out Lk Fi Lo Ho. cbv zeta.
  split; [|split; [|split; [|split]]]; intros T.
  - now apply hash_many_portable64_ok.
  - now apply hash_many_sse41_ok64.
  - now apply hash_many_avx2_ok64.
  - now apply hash_many_avx512_ok64.
  - now apply hash_many_neon_ok64.
Qed.

Lemma c64_chunk_deltas : CHUNK_OFFSET_DELTAS = deltas64 17 4096.
Proof. reflexivity. Qed.

Lemma c64_hash_many_rust : forall c f inputs blocks key offset delta deltas flags fs fe out,
  In f [hash_many_portable; hash_many_sse41; hash_many_avx2; hash_many_avx512; hash_many_neon] ->
  length key = 4%nat -> Forall (fun i => len i = 128 * blocks /\ bytes i) inputs ->
  32 * len inputs <= len out -> offset < 2 ^ 64 ->
  firstn 9 deltas = deltas64 9 delta ->
  (dbg c = true -> offset + len inputs * delta < 2 ^ 64) ->
  f inputs blocks key offset deltas flags fs fe out
  = Portable64.hash_many c inputs key offset delta flags fs fe out.
Proof.
  intros c f inputs blocks key off delta deltas flags fs fe out I Lk Fi Lo Ho T D.
  rewrite rust64_hash_many; auto.
  2: { eapply Forall_impl; [|exact Fi]. cbn beta. intros i [E _]. lia. }
  destruct (c64_hash_many_all inputs blocks key off delta deltas flags fs fe out)
    as (E1 & E2 & E3 & E4 & E5); auto.
  { eapply Forall_impl; [|exact Fi]. cbn beta. intros i [E B]. split; [lia|auto]. }
  specialize (E1 (table_less 9 2 delta deltas T ltac:(lia))).
  specialize (E2 (table_less 9 3 delta deltas T ltac:(lia))).
  specialize (E3 (table_less 9 5 delta deltas T ltac:(lia))).
  specialize (E4 T). specialize (E5 (table_less 9 3 delta deltas T ltac:(lia))).
  transitivity (Ok (concat (all64 key flags fs fe off delta (map (take (128 * blocks)) inputs))
                    ++ drop (32 * len inputs) out)).
  { cbn [In] in I. destruct I as [<-|[<-|[<-|[<-|[<-|[]]]]]]; assumption. }
  replace (dbg c && (2 ^ 64 <=? off + len inputs * delta)) with false.
  2: { destruct (dbg c); [|reflexivity]. specialize (D eq_refl). cbn [andb]. symmetry. now apply N.leb_gt. }
  do 4 f_equal. rewrite <- (map_id inputs) at 2. apply map_ext_in.
  intros i Hi. rewrite Forall_forall in Fi. apply take_all. destruct (Fi i Hi). lia.
Qed.
