(* General lemmas about Base.v. *)
From Coq Require Import NArith List Bool Lia ZArith.
From Coq Require Import ZifyBool ZifyNat ZifyN.
From Verif Require Import Base.
Import ListNotations.
Open Scope N_scope.

Ltac Zify.zify_post_hook ::= Z.div_mod_to_equations.

Lemma len_nil : forall A, len (@nil A) = 0.
Proof. reflexivity. Qed.
Lemma len_cons : forall A (x : A) l, len (x :: l) = 1 + len l.
Proof. intros. unfold len. cbn [length]. lia. Qed.
Lemma len_app : forall A (a b : list A), len (a ++ b) = len a + len b.
Proof. intros. unfold len. rewrite app_length. lia. Qed.
Lemma len_take : forall A n (l : list A), len (take n l) = N.min n (len l).
Proof. intros. unfold len, take. rewrite firstn_length. lia. Qed.
Lemma len_drop : forall A n (l : list A), len (drop n l) = len l - n.
Proof. intros. unfold len, drop. rewrite skipn_length. lia. Qed.
Lemma len_zeros : forall n, len (zeros n) = n.
Proof. intros. unfold len, zeros. rewrite repeat_length. lia. Qed.
Lemma len_map : forall A B (f : A -> B) l, len (map f l) = len l.
Proof. intros. unfold len. now rewrite map_length. Qed.
Lemma len_0_nil : forall A (l : list A), len l = 0 -> l = [].
Proof. intros A [|x l] H; [reflexivity | rewrite len_cons in H; lia]. Qed.
Lemma len_length : forall A (l : list A) n, len l = n -> length l = N.to_nat n.
Proof. intros. unfold len in H. lia. Qed.
Lemma length_len : forall A (l : list A) n, length l = n -> len l = N.of_nat n.
Proof. intros. unfold len. lia. Qed.

#[export] Hint Rewrite len_nil len_cons len_app len_take len_drop len_zeros len_map : len.
Ltac lenlia := autorewrite with len in *; lia.

Lemma take_drop : forall A n (l : list A), take n l ++ drop n l = l.
Proof. intros. apply firstn_skipn. Qed.
Lemma take_all : forall A n (l : list A), len l <= n -> take n l = l.
Proof. intros. unfold take. apply firstn_all2. unfold len in H. lia. Qed.
Lemma drop_all : forall A n (l : list A), len l <= n -> drop n l = [].
Proof. intros. unfold drop. apply skipn_all2. unfold len in H. lia. Qed.
Lemma take_0 : forall A (l : list A), take 0 l = [].
Proof. reflexivity. Qed.
Lemma drop_0 : forall A (l : list A), drop 0 l = l.
Proof. reflexivity. Qed.
Lemma take_app_le : forall A n (a b : list A), n <= len a -> take n (a ++ b) = take n a.
Proof.
  intros. unfold take, len in *. rewrite firstn_app.
  replace (N.to_nat n - length a)%nat with 0%nat by lia. cbn. now rewrite app_nil_r.
Qed.
Lemma take_app_ge : forall A n (a b : list A),
  len a <= n -> take n (a ++ b) = a ++ take (n - len a) b.
Proof.
  intros. unfold take, len in *. rewrite firstn_app.
  rewrite firstn_all2 by lia. do 2 f_equal. lia.
Qed.
Lemma drop_app_le : forall A n (a b : list A), n <= len a -> drop n (a ++ b) = drop n a ++ b.
Proof.
  intros. unfold drop, len in *. rewrite skipn_app.
  replace (N.to_nat n - length a)%nat with 0%nat by lia. reflexivity.
Qed.
Lemma drop_app_ge : forall A n (a b : list A),
  len a <= n -> drop n (a ++ b) = drop (n - len a) b.
Proof.
  intros. unfold drop, len in *. rewrite skipn_app.
  rewrite skipn_all2 by lia. cbn. f_equal. lia.
Qed.
Lemma take_app_eq : forall A n (a b : list A), len a = n -> take n (a ++ b) = a.
Proof. intros. rewrite take_app_le by lia. apply take_all. lia. Qed.
Lemma drop_app_eq : forall A n (a b : list A), len a = n -> drop n (a ++ b) = b.
Proof. intros. rewrite drop_app_ge by lia. rewrite H. now rewrite N.sub_diag. Qed.
Lemma drop_drop : forall A a b (l : list A), drop a (drop b l) = drop (a + b) l.
Proof.
  intros. unfold drop. rewrite N2Nat.inj_add, Nat.add_comm.
  generalize (N.to_nat b) as n, (N.to_nat a) as m. clear. intros n m. revert l.
  induction n; intros; [reflexivity|]. destruct l; cbn; [now rewrite skipn_nil | apply IHn].
Qed.
Lemma take_take : forall A a b (l : list A), take a (take b l) = take (N.min a b) l.
Proof. intros. unfold take. rewrite firstn_firstn. f_equal. lia. Qed.
Lemma drop_take : forall A a b (l : list A), drop a (take (a + b) l) = take b (drop a l).
Proof.
  intros. unfold take, drop. rewrite N2Nat.inj_add. rewrite firstn_skipn_comm. reflexivity.
Qed.
Lemma take_drop_comm : forall A a b (l : list A), take b (drop a l) = drop a (take (a + b) l).
Proof. intros. now rewrite drop_take. Qed.
Lemma map_take : forall A B (f : A -> B) n l, map f (take n l) = take n (map f l).
Proof. intros. unfold take. now rewrite firstn_map. Qed.
Lemma map_drop : forall A B (f : A -> B) n l, map f (drop n l) = drop n (map f l).
Proof.
  intros A B f n l. unfold drop. generalize (N.to_nat n) as k. clear n. intros k. revert l.
  induction k; intros [|x l]; cbn; auto.
Qed.
Lemma take_split : forall A a b (l : list A), take (a + b) l = take a l ++ take b (drop a l).
Proof.
  intros. rewrite <- (take_drop A a (take (a + b) l)) at 1.
  rewrite take_take, drop_take. f_equal. f_equal. lia.
Qed.

Lemma Forall_take : forall A (P : A -> Prop) n l, Forall P l -> Forall P (take n l).
Proof.
  intros. rewrite <- (take_drop A n l) in H. apply Forall_app in H. tauto.
Qed.
Lemma Forall_drop : forall A (P : A -> Prop) n l, Forall P l -> Forall P (drop n l).
Proof.
  intros. rewrite <- (take_drop A n l) in H. apply Forall_app in H. tauto.
Qed.
Lemma bytes_app : forall a b, bytes (a ++ b) <-> bytes a /\ bytes b.
Proof. intros. apply Forall_app. Qed.
Lemma bytes_take : forall n l, bytes l -> bytes (take n l).
Proof. intros. now apply Forall_take. Qed.
Lemma bytes_drop : forall n l, bytes l -> bytes (drop n l).
Proof. intros. now apply Forall_drop. Qed.
Lemma bytes_zeros : forall n, bytes (zeros n).
Proof.
  intros. unfold bytes, zeros. apply Forall_forall. intros x H. apply repeat_spec in H. subst.
  unfold byte. lia.
Qed.

(* ---- checked arithmetic when it does not overflow ---- *)
Lemma addw_ok : forall c w a b, a + b < w -> addw c w a b = Ok (a + b).
Proof.
  intros. unfold addw. rewrite (proj2 (N.leb_gt _ _) H), andb_false_r.
  rewrite N.mod_small; auto.
Qed.
Lemma mulw_ok : forall c w a b, a * b < w -> mulw c w a b = Ok (a * b).
Proof.
  intros. unfold mulw. rewrite (proj2 (N.leb_gt _ _) H), andb_false_r.
  rewrite N.mod_small; auto.
Qed.
Lemma subw_ok : forall c w a b, b <= a -> subw c w a b = Ok (a - b).
Proof. intros. unfold subw. now rewrite (proj2 (N.leb_le _ _) H). Qed.
Lemma add64_ok : forall c a b, a + b < W64 -> add64 c a b = Ok (a + b).
Proof. intros. now apply addw_ok. Qed.
Lemma mul64_ok : forall c a b, a * b < W64 -> mul64 c a b = Ok (a * b).
Proof. intros. now apply mulw_ok. Qed.
Lemma addU_ok : forall c a b, a + b < WU c -> addU c a b = Ok (a + b).
Proof. intros. now apply addw_ok. Qed.
Lemma mulU_ok : forall c a b, a * b < WU c -> mulU c a b = Ok (a * b).
Proof. intros. now apply mulw_ok. Qed.
Lemma subU_ok : forall c a b, b <= a -> subU c a b = Ok (a - b).
Proof. intros. now apply subw_ok. Qed.
Lemma dassert_ok : forall c b, b = true -> dassert c b = Ok tt.
Proof. intros. subst. unfold dassert. cbn. now rewrite andb_false_r. Qed.
Lemma assert_ok : forall b, b = true -> assert_ b = Ok tt.
Proof. intros. now subst. Qed.
Lemma WU_W32 : forall c, W32 <= WU c.
Proof. intros. unfold WU. destruct (w64 c); unfold W32, W64; lia. Qed.

(* ---- slices ---- *)
Lemma slice_to_ok : forall A (l : list A) n, n <= len l -> slice_to l n = Ok (take n l).
Proof. intros. unfold slice_to. now rewrite (proj2 (N.leb_le _ _) H). Qed.
Lemma slice_from_ok : forall A (l : list A) n, n <= len l -> slice_from l n = Ok (drop n l).
Proof. intros. unfold slice_from. now rewrite (proj2 (N.leb_le _ _) H). Qed.
Lemma slice_ok : forall A (l : list A) o n,
  o + n <= len l -> slice l o n = Ok (take n (drop o l)).
Proof. intros. unfold slice. now rewrite (proj2 (N.leb_le _ _) H). Qed.
Lemma copy_at_ok : forall dst o src, o + len src <= len dst ->
  copy_at dst o src = Ok (take o dst ++ src ++ drop (o + len src) dst).
Proof. intros. unfold copy_at. now rewrite (proj2 (N.leb_le _ _) H). Qed.
Lemma push_cap_ok : forall A cap (l : list A) x, len l < cap -> push_cap cap l x = Ok (l ++ [x]).
Proof. intros. unfold push_cap. now rewrite (proj2 (N.ltb_lt _ _) H). Qed.
Lemma index_app : forall A (a b : list A) x, index (a ++ x :: b) (len a) = Ok x.
Proof.
  intros. unfold index, len. rewrite Nat2N.id, nth_error_app2 by lia.
  now rewrite Nat.sub_diag.
Qed.
Lemma set_nth_app : forall A (a b : list A) x y,
  set_nth (a ++ x :: b) (length a) y = a ++ y :: b.
Proof. induction a; intros; cbn; [reflexivity | now rewrite IHa]. Qed.
Lemma length_set_nth : forall A (l : list A) i v, length (set_nth l i v) = length l.
Proof. induction l; intros [|i] v; cbn; auto. Qed.
Lemma nth_set_nth_eq : forall A (l : list A) i v d,
  (i < length l)%nat -> nth i (set_nth l i v) d = v.
Proof. induction l; intros [|i] v d H; cbn in *; try lia; auto. apply IHl. lia. Qed.
Lemma nth_set_nth_neq : forall A (l : list A) i j v d,
  i <> j -> nth i (set_nth l j v) d = nth i l d.
Proof. induction l; intros [|i] [|j] v d H; cbn; auto; try congruence. Qed.

(* ---- induction by pieces ---- *)

(* Strong induction on the length of a list. *)
Lemma list_len_ind : forall A (P : list A -> Prop),
  (forall l, (forall l', len l' < len l -> P l') -> P l) -> forall l, P l.
Proof.
  intros A P H l. remember (length l) as n eqn:E. revert l E.
  induction n as [n IH] using lt_wf_ind. intros l E. apply H. intros l' Hl.
  apply (IH (length l')); auto. unfold len in Hl. lia.
Qed.

Lemma chunks_exact_fuel_enough : forall A n, 0 < n -> forall f g (l : list A),
  (length l <= f)%nat -> (length l <= g)%nat ->
  chunks_exact_fuel f n l = chunks_exact_fuel g n l.
Proof.
  intros A n Hn. induction f; intros g l Hf Hg.
  - destruct l; cbn in Hf; [|lia]. destruct g; cbn [chunks_exact_fuel]; [reflexivity|].
    rewrite len_nil. now rewrite (proj2 (N.leb_gt n 0)) by lia.
  - cbn [chunks_exact_fuel]. destruct (N.leb_spec n (len l)) as [H|H].
    + destruct g.
      * destruct l; cbn in Hg; [|lia]. rewrite len_nil in H. lia.
      * cbn [chunks_exact_fuel]. rewrite (proj2 (N.leb_le _ _) H).
        rewrite (IHf g); [reflexivity| |];
          unfold drop; rewrite skipn_length; unfold len in H; lia.
    + destruct g; cbn [chunks_exact_fuel]; [reflexivity|].
      now rewrite (proj2 (N.leb_gt _ _) H).
Qed.

Lemma chunks_exact_step : forall A n (l : list A), 0 < n -> n <= len l ->
  chunks_exact n l = (take n l :: fst (chunks_exact n (drop n l)), snd (chunks_exact n (drop n l))).
Proof.
  intros A n l Hn H. unfold chunks_exact at 1.
  destruct l as [|x l']; [rewrite len_nil in H; lia|].
  remember (x :: l') as l eqn:El. replace (length l) with (S (length l')) by now subst.
  cbn [chunks_exact_fuel]. rewrite (proj2 (N.leb_le _ _) H).
  rewrite (chunks_exact_fuel_enough A n Hn (length l') (length (drop n l))); auto.
  - fold (chunks_exact n (drop n l)). destruct (chunks_exact n (drop n l)). reflexivity.
  - unfold drop. rewrite skipn_length. subst. cbn [length]. lia.
Qed.

Lemma chunks_exact_short : forall A n (l : list A), len l < n -> chunks_exact n l = ([], l).
Proof.
  intros A n l H. unfold chunks_exact. destruct (length l) eqn:E; cbn [chunks_exact_fuel]; auto.
  now rewrite (proj2 (N.leb_gt _ _) H).
Qed.

(* The pieces are full, and together with the remainder they are the list. *)
Lemma chunks_exact_spec : forall A n (l : list A), 0 < n ->
  let '(cs, r) := chunks_exact n l in
  concat cs ++ r = l /\ Forall (fun x => len x = n) cs /\ len r < n /\ len cs = len l / n.
Proof.
  intros A n l Hn. induction l as [l IH] using list_len_ind.
  destruct (N.le_gt_cases n (len l)) as [H|H].
  - rewrite chunks_exact_step by auto.
    specialize (IH (drop n l)). destruct (chunks_exact n (drop n l)) as [cs r]. cbn [fst snd].
    destruct IH as (E & F & R & C); [rewrite len_drop; lia|]. repeat split; auto.
    + cbn [concat]. rewrite <- app_assoc, E. apply take_drop.
    + constructor; auto. rewrite len_take. lia.
    + rewrite len_cons, C, len_drop.
      replace (len l) with ((len l - n) + 1 * n) at 2 by lia.
      rewrite N.div_add by lia. lia.
  - rewrite chunks_exact_short by auto. repeat split; auto.
    rewrite N.div_small by auto. reflexivity.
Qed.

(* ---- bytes and words ---- *)

Lemma word32_bytes32 : forall w, word w ->
  word32 (w mod 256) ((w / 256) mod 256) ((w / 65536) mod 256) ((w / 16777216) mod 256) = w.
Proof. intros w H. unfold word, W32 in H. unfold word32. lia. Qed.

Lemma word32_word : forall b0 b1 b2 b3, byte b0 -> byte b1 -> byte b2 -> byte b3 ->
  word (word32 b0 b1 b2 b3).
Proof. unfold byte, word, word32, W32. intros. lia. Qed.

Lemma bytes32_word32 : forall b0 b1 b2 b3, byte b0 -> byte b1 -> byte b2 -> byte b3 ->
  bytes32 (word32 b0 b1 b2 b3) = [b0; b1; b2; b3].
Proof.
  unfold byte, word32, bytes32. intros b0 b1 b2 b3 H0 H1 H2 H3.
  repeat f_equal; lia.
Qed.

Lemma bytes32_bytes : forall w, bytes (bytes32 w).
Proof.
  intros. unfold bytes32, bytes, byte. repeat constructor; apply N.mod_upper_bound; lia.
Qed.

Lemma words_of_bytes_of_words : forall ws, words ws -> words_of_bytes (bytes_of_words ws) = ws.
Proof.
  induction ws as [|w ws IH]; intros H; [reflexivity|].
  inversion H; subst. cbn [bytes_of_words flat_map bytes32 app words_of_bytes].
  rewrite word32_bytes32 by auto. f_equal. now apply IH.
Qed.

Lemma bytes_of_words_bytes : forall ws, bytes (bytes_of_words ws).
Proof.
  induction ws; cbn [bytes_of_words flat_map]; [constructor|].
  apply bytes_app. split; [apply bytes32_bytes | exact IHws].
Qed.

Lemma len_bytes_of_words : forall ws, len (bytes_of_words ws) = 4 * len ws.
Proof.
  induction ws; [reflexivity|]. cbn [bytes_of_words flat_map].
  rewrite len_app, len_cons. change (len (bytes32 a)) with 4.
  change (flat_map bytes32 ws) with (bytes_of_words ws). lia.
Qed.

Lemma list4_ind : forall A (P : list A -> Prop),
  (forall l, (length l < 4)%nat -> P l) ->
  (forall a b c d r, P r -> P (a :: b :: c :: d :: r)) -> forall l, P l.
Proof.
  intros A P H0 H1 l. induction l as [l IH] using list_len_ind.
  destruct l as [|a [|b [|c [|d r]]]]; try (apply H0; cbn; lia).
  apply H1. apply IH. repeat rewrite len_cons. lia.
Qed.

Lemma words_of_bytes_words : forall bs, bytes bs -> words (words_of_bytes bs).
Proof.
  intros bs. induction bs as [l Hl|a b c d r IH] using list4_ind; intros H.
  - destruct l as [|a [|b [|c [|d r]]]]; cbn in Hl |- *; try constructor; lia.
  - cbn [words_of_bytes]. inversion H as [|? ? Ha H1]; subst. inversion H1 as [|? ? Hb H2]; subst.
    inversion H2 as [|? ? Hc H3]; subst. inversion H3 as [|? ? Hd H4]; subst.
    constructor; [now apply word32_word | now apply IH].
Qed.

Lemma len_words_of_bytes : forall bs, len (words_of_bytes bs) = len bs / 4.
Proof.
  intros bs. induction bs as [l Hl|a b c d r IH] using list4_ind.
  - destruct l as [|a [|b [|c [|d r]]]]; cbn in Hl |- *; try reflexivity; lia.
  - cbn [words_of_bytes]. rewrite !len_cons, IH. lia.
Qed.

Lemma bytes_of_words_of_bytes : forall bs, bytes bs -> len bs mod 4 = 0 ->
  bytes_of_words (words_of_bytes bs) = bs.
Proof.
  intros bs. induction bs as [l Hl|a b c d r IH] using list4_ind; intros H E.
  - destruct l as [|x [|y [|z [|t r]]]]; cbn in Hl, E; try reflexivity; try lia; discriminate.
  - inversion H as [|? ? Ha H1]; subst. inversion H1 as [|? ? Hb H2]; subst.
    inversion H2 as [|? ? Hc H3]; subst. inversion H3 as [|? ? Hd H4]; subst.
    cbn [words_of_bytes bytes_of_words flat_map].
    rewrite bytes32_word32 by auto. cbn [app]. do 4 f_equal. apply IH; auto.
    rewrite !len_cons in E. lia.
Qed.

Lemma words_of_bytes_app : forall a b, len a mod 4 = 0 ->
  words_of_bytes (a ++ b) = words_of_bytes a ++ words_of_bytes b.
Proof.
  intros a b. induction a as [l Hl|x y z t r IH] using list4_ind; intros E.
  - destruct l as [|x [|y [|z [|t r]]]]; cbn in Hl, E; try reflexivity; try lia; discriminate.
  - cbn [app words_of_bytes]. f_equal. apply IH. rewrite !len_cons in E. lia.
Qed.

Lemma bytes_of_words_app : forall a b,
  bytes_of_words (a ++ b) = bytes_of_words a ++ bytes_of_words b.
Proof. intros. unfold bytes_of_words. apply flat_map_app. Qed.

Lemma take_bytes_of_words : forall n ws, take (4 * n) (bytes_of_words ws) = bytes_of_words (take n ws).
Proof.
  intros n ws. destruct (N.le_gt_cases n (len ws)) as [H|H].
  - rewrite <- (take_drop _ n ws) at 1. rewrite bytes_of_words_app.
    apply take_app_eq. rewrite len_bytes_of_words, len_take. lia.
  - rewrite take_all by (rewrite len_bytes_of_words; lia). now rewrite take_all by lia.
Qed.

Lemma len_concat_const : forall A n (l : list (list A)),
  Forall (fun x => len x = n) l -> len (concat l) = n * len l.
Proof.
  intros A n l H. induction H as [|x l Hx Hl IH]; cbn [concat]; [rewrite !len_nil; lia|].
  rewrite len_app, IH, len_cons, Hx. lia.
Qed.

(* lor / add32 *)
Lemma add32_word : forall a b, word (add32 a b).
Proof. intros. unfold add32, word, W32. apply N.mod_upper_bound. lia. Qed.
Lemma add32_swap : forall a m b, add32 (add32 a m) b = add32 (add32 a b) m.
Proof. intros. unfold add32, W32. lia. Qed.
Lemma add32_assoc : forall a b c, add32 a (add32 b c) = add32 (add32 a b) c.
Proof. intros. unfold add32, W32. lia. Qed.

Lemma popcount_le_size : forall n, popcount n <= N.size n.
Proof.
  intros [|p]; [reflexivity|]. cbn. induction p; cbn [popcount_pos Pos.size]; try lia.
Qed.
