(* Every call ends: the fuel of each loop of the model is enough, in any state. *)
From Coq Require Import NArith List Bool Lia ZifyBool ZifyNat ZifyN.
From Verif Require Import Base BaseFacts Spec SpecFacts Portable Simd SimdHash Sse41 Avx2 Platform Lib.
From Verif Require Import SessionSpec Session LibFacts RefImpl PyImpl PyFacts EndSpec.
Import ListNotations.
Open Scope N_scope.

Definition nf {A : Type} (r : res A) : Prop := r <> NoFuel.

Lemma nf_ends : forall A (r : res A), nf r -> ends r.
Proof. intros A [a| |] H; [left; eauto|right; auto|now elim H]. Qed.

Lemma nf_ok : forall A (a : A), nf (Ok a).
Proof. discriminate. Qed.
Lemma nf_panic : forall A, nf (@Panic A).
Proof. discriminate. Qed.
Lemma nf_bind : forall A B (m : res A) (f : A -> res B),
  nf m -> (forall a, m = Ok a -> nf (f a)) -> nf (bind m f).
Proof. intros A B [a| |] f H1 H2; cbn [bind]; [now apply H2|discriminate|now elim H1]. Qed.

Lemma nf_dassert : forall c b, nf (dassert c b).
Proof. intros c b. unfold dassert. destruct (dbg c && negb b); discriminate. Qed.
Lemma nf_assert : forall b, nf (assert_ b).
Proof. intros []; discriminate. Qed.
Lemma nf_addw : forall c w a b, nf (addw c w a b).
Proof. intros. unfold addw. destruct (_ && _); discriminate. Qed.
Lemma nf_mulw : forall c w a b, nf (mulw c w a b).
Proof. intros. unfold mulw. destruct (_ && _); discriminate. Qed.
Lemma nf_subw : forall c w a b, nf (subw c w a b).
Proof. intros. unfold subw. destruct (_ <=? _); [discriminate|]. destruct (dbg c); discriminate. Qed.
Lemma nf_index : forall A (l : list A) i, nf (index l i).
Proof. intros. unfold index. destruct (nth_error _ _); discriminate. Qed.
Lemma nf_slice_to : forall A (l : list A) i, nf (slice_to l i).
Proof. intros. unfold slice_to. destruct (_ <=? _); discriminate. Qed.
Lemma nf_slice_from : forall A (l : list A) i, nf (slice_from l i).
Proof. intros. unfold slice_from. destruct (_ <=? _); discriminate. Qed.
Lemma nf_slice : forall A (l : list A) i n, nf (slice l i n).
Proof. intros. unfold slice. destruct (_ <=? _); discriminate. Qed.
Lemma nf_copy_at : forall d i s, nf (copy_at d i s).
Proof. intros. unfold copy_at. destruct (_ <=? _); discriminate. Qed.
Lemma nf_push_cap : forall A n (l : list A) x, nf (push_cap n l x).
Proof. intros. unfold push_cap. destruct (_ <? _); discriminate. Qed.
Lemma nf_split_at : forall A (l : list A) n, nf (split_at l n).
Proof. intros. unfold split_at. destruct (_ <=? _); discriminate. Qed.
Lemma nf_nth : forall A (l : list A) i,
  nf (match nth_error l i with Some a => Ok a | None => Panic end).
Proof. intros. destruct (nth_error _ _); discriminate. Qed.

Ltac prim :=
  lazymatch goal with
  | |- nf (Ok _) => apply nf_ok
  | |- nf Panic => apply nf_panic
  | |- nf (dassert _ _) => apply nf_dassert
  | |- nf (assert_ _) => apply nf_assert
  | |- nf (addw _ _ _ _) => apply nf_addw
  | |- nf (add64 _ _ _) => apply nf_addw
  | |- nf (addU _ _ _) => apply nf_addw
  | |- nf (mul64 _ _ _) => apply nf_mulw
  | |- nf (mulU _ _ _) => apply nf_mulw
  | |- nf (subw _ _ _ _) => apply nf_subw
  | |- nf (subU _ _ _) => apply nf_subw
  | |- nf (index _ _) => apply nf_index
  | |- nf (slice_to _ _) => apply nf_slice_to
  | |- nf (slice_from _ _) => apply nf_slice_from
  | |- nf (slice _ _ _) => apply nf_slice
  | |- nf (copy_at _ _ _) => apply nf_copy_at
  | |- nf (push_cap _ _ _) => apply nf_push_cap
  | |- nf (split_at _ _) => apply nf_split_at
  | |- nf (match nth_error _ _ with _ => _ end) => apply nf_nth
  end.
Ltac nf1 :=
  first [ prim
        | assumption
        | lazymatch goal with
          | |- nf (bind _ _) => apply nf_bind; [|let x := fresh "x" in let E := fresh "E" in intros x E]
          | |- nf (let '(_, _) := ?x in _) => destruct x eqn:?
          | |- nf (if ?b then _ else _) => destruct b eqn:?
          | |- nf (match ?x with _ => _ end) => is_var x; destruct x
          end ].
Ltac nfs := repeat nf1.

(* ---- the vector code --------------------------------------------------------- *)

Lemma nf_hash1_loop : forall comp fuel cv s off bf fl fe, (length s <= fuel)%nat ->
  nf (hash1_loop comp fuel cv s off bf fl fe).
Proof.
  intros comp. induction fuel; intros cv s off bf fl fe H; cbn [hash1_loop];
    change BLOCK_LEN with 64; destruct (64 <=? len s) eqn:E; try apply nf_ok.
  - unfold len in E. lia.
  - apply IHfuel. unfold drop. rewrite skipn_length. unfold len in E. lia.
Qed.

Lemma nf_hash_each : forall c h1 inputs off d out, (forall i o, nf (h1 i o)) ->
  nf (hash_each c h1 inputs off d out).
Proof.
  intros c h1 inputs off d out H. revert off out.
  induction inputs; intros off out; cbn [hash_each]; nfs; auto.
Qed.

Lemma nf_seq_res : forall A (l : list (res A)), Forall nf l -> nf (seq_res l).
Proof. induction 1; cbn [seq_res]; nfs. Qed.

Lemma nf_load_grid : forall b inputs o cols, nf (load_grid b inputs o cols).
Proof.
  intros. apply nf_seq_res, Forall_forall. intros x Hx. apply in_flat_map in Hx.
  destruct Hx as (k & _ & Hx). apply in_map_iff in Hx. destruct Hx as (i & <- & _).
  unfold loadu. nfs.
Qed.

Lemma nf_lane_offsets : forall c n o d, nf (lane_offsets c n o d).
Proof.
  intros. apply nf_seq_res, Forall_forall. intros x Hx. apply in_map_iff in Hx.
  destruct Hx as (i & <- & _). nfs.
Qed.

Lemma nf_vec_hash_loop : forall V (O : vops V) code set1 ld n k b h ol oh bf fl fe,
  (forall i, nf (ld i)) -> nf (vec_hash_loop O code set1 ld n k b h ol oh bf fl fe).
Proof.
  intros V O code set1 ld n k b h ol oh bf fl fe H. revert k h bf.
  induction n; intros k h bf; cbn [vec_hash_loop]; nfs; auto.
Qed.

Lemma nf_batch_loop : forall c deg hN rest fuel inputs o d out, 0 < deg ->
  (forall i x, nf (hN i x)) -> (forall i x y, nf (rest i x y)) -> (length inputs <= fuel)%nat ->
  nf (batch_loop c fuel deg hN rest inputs o d out).
Proof.
  intros c deg hN rest fuel inputs o d out D H1 H2. revert inputs o out.
  induction fuel; intros inputs o out H; cbn [batch_loop];
    destruct ((deg <=? len inputs) && _) eqn:E; auto.
  - unfold len in E. lia.
  - nfs; auto. apply IHfuel. unfold drop. rewrite skipn_length. unfold len in E. lia.
Qed.

Lemma nf_sse41_many : forall c cap inputs key o d fl fs fe out,
  nf (Sse41.hash_many c cap inputs key o d fl fs fe out).
Proof.
  intros. unfold Sse41.hash_many. nfs. apply nf_batch_loop; [reflexivity| | |lia].
  - intros i x0. unfold Sse41.hash4. apply nf_bind; [|intros [ol oh] _].
    + unfold Sse41.load_offsets. nfs. apply nf_lane_offsets.
    + nfs. apply nf_vec_hash_loop. intros j. unfold Sse41.transpose_msg_vecs. nfs.
      apply nf_load_grid.
  - intros. apply nf_hash_each. intros. unfold Sse41.hash1. nfs. now apply nf_hash1_loop.
Qed.

Lemma nf_avx2_many : forall c cap inputs key o d fl fs fe out,
  nf (Avx2.hash_many c cap inputs key o d fl fs fe out).
Proof.
  intros. unfold Avx2.hash_many. nfs. apply nf_batch_loop; [reflexivity| | |lia].
  - intros i x0. unfold Avx2.hash8. apply nf_bind; [|intros [ol oh] _].
    + unfold Avx2.load_offsets. nfs. apply nf_lane_offsets.
    + nfs. apply nf_vec_hash_loop. intros j. unfold Avx2.transpose_msg_vecs. nfs.
      apply nf_load_grid.
  - intros. apply nf_sse41_many.
Qed.

Lemma nf_hash_many : forall c p cap inputs key o d fl fs fe out,
  nf (Platform.hash_many c p cap inputs key o d fl fs fe out).
Proof.
  intros c [] *; cbn [Platform.hash_many]; auto using nf_sse41_many, nf_avx2_many.
  unfold Portable.hash_many. nfs. apply nf_hash_each. intros. unfold Portable.hash1. nfs.
  now apply nf_hash1_loop.
Qed.

(* ---- the one-shot functions ---------------------------------------------------- *)

Lemma WU_big : forall c, 4294967296 <= WU c.
Proof. intros c. unfold WU, W64, W32. destruct (w64 c); lia. Qed.

Lemma addU_small : forall c a b x, a + b < 4294967296 -> addU c a b = Ok x -> x = a + b.
Proof.
  intros c a b x H E. pose proof (WU_big c). unfold addU, addw in E.
  destruct (dbg c && _); [discriminate|]. rewrite N.mod_small in E by lia. congruence.
Qed.

Lemma nf_one_chunk_loop : forall c p fuel chunk cv off r fl bf bo, len chunk <= 2048 ->
  bo <= len chunk -> len chunk < bo + 64 * N.of_nat fuel + 64 ->
  nf (hash_one_chunk_loop c p fuel chunk cv off r fl bf bo).
Proof.
  intros c p. induction fuel; intros chunk cv off r fl bf bo L B F; cbn [hash_one_chunk_loop];
    apply nf_bind; try prim; intros e E; change BLOCK_LEN with 64 in *;
    apply addU_small in E; try lia; subst e; destruct (bo + 64 <=? len chunk) eqn:G;
    try apply nf_ok.
  - lia.
  - apply nf_bind; [prim|]. intros e E. apply addU_small in E; [|lia]. subst e.
    destruct (_ =? _) eqn:Q; nfs. apply addU_small in E0; [|lia]. subst x0. apply IHfuel; lia.
Qed.

Lemma nf_one_chunk : forall c p chunk key off r fl, len chunk <= 2048 ->
  nf (hash_one_chunk c p chunk key off r fl).
Proof.
  intros c p chunk key off r fl L. unfold hash_one_chunk. nfs.
  apply nf_one_chunk_loop; unfold len in *; lia.
Qed.

Lemma nf_push_all : forall A cap (l acc : list A), nf (push_all cap acc l).
Proof. induction l; intros acc; cbn [push_all]; nfs; auto. Qed.

Lemma nf_chunks_parallel : forall c p input key off fl out,
  nf (hash_chunks_parallel c p input key off fl out).
Proof.
  intros. unfold hash_chunks_parallel. nfs; auto using nf_push_all, nf_hash_many.
  apply nf_one_chunk. change CHUNK_LEN with 2048 in *.
  pose proof (chunks_exact_spec N 2048 input eq_refl) as S0.
  destruct (chunks_exact 2048 input) as [u v]. match goal with H : (_, _) = (_, _) |- _ => injection H as -> -> end.
  lia.
Qed.

Lemma nf_parents_parallel : forall c p ch key fl out,
  nf (hash_parents_parallel c p ch key fl out).
Proof.
  intros. unfold hash_parents_parallel. nfs; auto using nf_push_all, nf_hash_many.
Qed.

Lemma parents_count : forall c p ch key fl out out' n, 64 < len ch ->
  hash_parents_parallel c p ch key fl out = Ok (out', n) -> n * 32 < len ch.
Proof.
  intros c p ch key fl out out' n L E. unfold hash_parents_parallel in E.
  change BLOCK_LEN with 64 in E. change OUT_LEN with 32 in E.
  pose proof (chunks_exact_spec N 64 ch eq_refl) as S0.
  destruct (dassert _ _); try discriminate; cbn [bind] in E.
  destruct (dassert _ _); try discriminate; cbn [bind] in E.
  destruct (dassert _ _); try discriminate; cbn [bind] in E.
  destruct (chunks_exact 64 ch) as [ps r]. destruct S0 as (_ & _ & _ & S0).
  destruct (push_all _ [] ps) as [arr| |] eqn:P; try discriminate; cbn [bind] in E.
  assert (A : len arr = len ps).
  { clear - P. change (len ps) with (len (@nil (list N)) + len ps).
    revert P. generalize (@nil (list N)). induction ps as [|x ps IH]; intros acc P; cbn [push_all] in P.
    - replace acc with arr by congruence. rewrite len_nil. lia.
    - unfold push_cap in P. destruct (_ <? _); try discriminate; cbn [bind] in P.
      apply IH in P. rewrite P, len_app, !len_cons, len_nil. lia. }
  destruct (Platform.hash_many _ _ _ _ _ _ _ _ _ _ _) as [o1| |]; try discriminate; cbn [bind] in E.
  assert (n <= len arr + 1).
  { destruct (negb _).
    - destruct (slice_from _ _); try discriminate; cbn [bind] in E.
      destruct (slice_to _ _); try discriminate; cbn [bind] in E.
      destruct (assert_ _); try discriminate; cbn [bind] in E.
      destruct (copy_at _ _ _); try discriminate; cbn [bind] in E.
      replace n with (len arr + 1) by congruence. lia.
    - replace n with (len arr) by congruence. lia. }
  lia.
Qed.

Lemma nf_condense_loop : forall c p fuel ch key fl out, (length ch <= fuel)%nat ->
  nf (condense_loop c p fuel ch key fl out).
Proof.
  intros c p. induction fuel; intros ch key fl out H; cbn [condense_loop];
    change BLOCK_LEN with 64; destruct (64 <? len ch) eqn:G; try apply nf_ok.
  - unfold len in G. lia.
  - apply nf_bind; [apply nf_parents_parallel|]. intros [out' n] E.
    apply parents_count in E; [|lia]. nfs. apply IHfuel.
    unfold slice_to in *. change OUT_LEN with 32 in *.
    match goal with H : (if ?b then Ok (take ?k ?l) else Panic) = Ok ?x |- (length ?x <= _)%nat =>
      destruct b eqn:?; [|discriminate]; replace x with (take k l) by congruence end.
    unfold take. rewrite firstn_length. unfold len in *. lia.
Qed.

Lemma nf_condense_root : forall c p ch key fl, nf (condense_root c p ch key fl).
Proof. intros. unfold condense_root. nfs. now apply nf_condense_loop. Qed.

Lemma degree_pos : forall p, 1 <= simd_degree p.
Proof. intros []; cbn [simd_degree]; lia. Qed.

Lemma nf_left_len : forall c n, nf (left_len c n).
Proof.
  intros. unfold left_len, largest_power_of_two_leq, next_power_of_two. nfs.
Qed.

Lemma nf_recurse : forall c p fuel input key off fl out, len input < WU c ->
  len input <= 2048 * 2 ^ N.of_nat fuel -> nf (hash_recurse c p fuel input key off fl out).
Proof.
  intros c p. induction fuel; intros input key off fl out W F; cbn [hash_recurse];
    pose proof (degree_pos p) as D; change CHUNK_LEN with 2048;
    destruct (len input <=? simd_degree p * 2048) eqn:G; try apply nf_chunks_parallel.
  - change (2 ^ N.of_nat 0) with 1 in F. lia.
  - assert (L : 2048 < len input) by lia. clear G.
    destruct (left_chunks_spec (len input) L) as (A1 & A2 & A3).
    rewrite left_len_ok by auto. cbn [bind].
    assert (B : left_chunks (len input) <= 2 ^ N.of_nat fuel).
    { unfold left_chunks in *. apply N.pow_le_mono_r; [lia|].
      rewrite Nat2N.inj_succ, N.pow_succ_r' in F.
      enough (Q : N.log2 ((len input - 1) / 2048) < N.succ (N.of_nat fuel)) by lia.
      apply (N.pow_lt_mono_r_iff 2); [lia|]. rewrite N.pow_succ_r'. lia. }
    set (n := 2048 * left_chunks (len input)) in *.
    unfold split_at at 1. destruct (n <=? len input) eqn:G; [|apply nf_panic]. cbn [bind].
    assert (T : len (take n input) = n) by (rewrite len_take; lia).
    assert (U : len (drop n input) = len input - n) by (rewrite len_drop; lia).
    nfs; auto using nf_parents_parallel.
    + apply IHfuel; rewrite ?T; subst n; lia.
    + apply IHfuel; rewrite ?U; subst n; lia.
Qed.

Lemma nf_internal : forall c p input key fl, len input < WU c ->
  nf (hash_internal c p input key fl).
Proof.
  intros c p input key fl W. unfold hash_internal. change CHUNK_LEN with 2048.
  destruct (len input <=? 2048) eqn:G; [apply nf_one_chunk; lia|].
  apply nf_bind; [|intros [a b] _; nfs; apply nf_condense_root].
  apply nf_recurse; [exact W|]. unfold depth_fuel. rewrite N2Nat.id.
  pose proof (N.size_gt (len input)). lia.
Qed.

Lemma nf_oneshot_xof : forall c p m input, len input < WU c -> nf (oneshot_xof c p m input).
Proof. intros c p [|k|k] input W; cbn [oneshot_xof]; now apply nf_internal. Qed.

Lemma nf_oneshot : forall c p m input, len input < WU c -> nf (oneshot c p m input).
Proof.
  intros c p [|k|k] input W; cbn [oneshot]; unfold hash, keyed_hash, derive_key;
    apply nf_bind; try (intros; apply nf_ok); now apply nf_internal.
Qed.

(* ---- the Hasher ------------------------------------------------------------------ *)

Lemma nf_fill_buf : forall c s input, nf (cs_fill_buf c s input).
Proof. intros. unfold cs_fill_buf. nfs. Qed.

Lemma nf_cs_compress : forall c s b, nf (cs_compress c s b).
Proof. intros. unfold cs_compress. nfs. Qed.

Lemma nf_cs_loop : forall c fuel s input, (length input <= fuel)%nat ->
  nf (cs_update_loop c fuel s input).
Proof.
  intros c. induction fuel; intros s input H; cbn [cs_update_loop]; change BLOCK_LEN with 64;
    destruct (64 <? len input) eqn:G; try apply nf_ok.
  - unfold len in G. lia.
  - nfs; auto using nf_cs_compress. apply IHfuel. unfold slice_from in *.
    match goal with H : (if ?b then Ok (drop ?k ?l) else Panic) = Ok ?x |- (length ?x <= _)%nat =>
      destruct b eqn:?; [|discriminate]; replace x with (drop k l) by congruence end.
    unfold drop. rewrite skipn_length. unfold len in *. lia.
Qed.

Lemma nf_cs_update : forall c s input, nf (cs_update c s input).
Proof.
  intros. unfold cs_update. nfs; auto using nf_fill_buf, nf_cs_compress, nf_cs_loop.
Qed.

Lemma nf_cs_finalize : forall c s r, nf (cs_finalize c s r).
Proof. intros. unfold cs_finalize. nfs. Qed.

Lemma merge_parent_shorter : forall c h h', merge_parent c h = Ok h' ->
  length (h_stack h') = (length (h_stack h) - 1)%nat /\ (1 <= length (h_stack h))%nat.
Proof.
  intros c h h' E. unfold merge_parent in E.
  destruct (dassert _ _); try discriminate; cbn [bind] in E.
  destruct (subU _ _ 2) as [i2| |]; try discriminate; cbn [bind] in E.
  destruct (subU _ _ 1) as [i1| |] eqn:E1; try discriminate; cbn [bind] in E.
  destruct (index _ i2); try discriminate; cbn [bind] in E.
  destruct (index _ i1) eqn:I1; try discriminate; cbn [bind] in E.
  match type of E with Ok ?v = _ => replace h' with v by congruence end. clear E. cbn [h_stack].
  unfold index in I1. destruct (nth_error _ _) eqn:N1; [|discriminate].
  assert (L1 : (N.to_nat i1 < length (h_stack h))%nat) by (apply nth_error_Some; congruence).
  assert (1 <= length (h_stack h))%nat by lia. split; [|assumption].
  unfold subU, subw in E1. destruct (1 <=? len (h_stack h)) eqn:G; [|unfold len in G; lia].
  assert (Q : i1 = len (h_stack h) - 1) by congruence. rewrite Q.
  unfold take. rewrite firstn_length, length_set_nth. unfold len. lia.
Qed.

Lemma nf_merge_parent : forall c h, nf (merge_parent c h).
Proof. intros. unfold merge_parent. nfs. Qed.

Lemma nf_merge_loop : forall c off fuel h, (length (h_stack h) <= fuel)%nat ->
  nf (merge_loop c fuel h off).
Proof.
  intros c off. induction fuel; intros h H; cbn [merge_loop];
    destruct (needs_merge h off) eqn:G; try apply nf_ok.
  - unfold needs_merge, len in G. lia.
  - apply nf_bind; [apply nf_merge_parent|]. intros h' E. apply merge_parent_shorter in E.
    apply IHfuel. lia.
Qed.

Lemma nf_push_chunk_hash : forall c h x off, nf (push_chunk_hash c h x off).
Proof. intros. unfold push_chunk_hash. nfs. now apply nf_merge_loop. Qed.

Lemma nf_push_batch : forall c l h, nf (push_batch c h l).
Proof. intros c. induction l; intros h; cbn [push_batch]; nfs; auto using nf_push_chunk_hash. Qed.

Lemma nf_update_chunks : forall c fuel h l out, (length l <= fuel)%nat ->
  nf (update_chunks c fuel h l out).
Proof.
  intros c. induction fuel; intros h l out H; cbn [update_chunks]; destruct (_ =? 0) eqn:G;
    try apply nf_ok.
  - destruct l; [|cbn [length] in H; lia]. unfold take in G. rewrite firstn_nil in G. discriminate.
  - nfs; auto using nf_hash_many, nf_push_batch. apply IHfuel.
    unfold drop. rewrite skipn_length. destruct l as [|y l].
    + cbn [length]. lia.
    + cbn [length] in *. unfold MAX_SIMD_DEGREE. destruct (x86 c); lia.
Qed.

Lemma nf_update : forall c h input, nf (update c h input).
Proof.
  intros. unfold update, cs_reset.
  nfs; auto using nf_cs_update, nf_cs_finalize, nf_push_chunk_hash, nf_update_chunks, nf_merge_loop.
Qed.

Lemma nf_finalize_loop : forall c fuel h w i,
  (length (h_stack h) <= fuel)%nat \/ i <= N.of_nat fuel ->
  nf (finalize_loop c fuel h w i).
Proof.
  intros c. induction fuel; intros h w i H; cbn [finalize_loop]; apply nf_bind; try prim;
    intros lc E; destruct (i =? 0) eqn:G; try apply nf_ok.
  - unfold index in E. destruct (nth_error _ _) eqn:N1; [|discriminate].
    assert (N.to_nat i < length (h_stack h))%nat by (apply nth_error_Some; congruence). lia.
  - unfold index in E. destruct (nth_error _ _) eqn:N1; [|discriminate].
    assert (N.to_nat i < length (h_stack h))%nat by (apply nth_error_Some; congruence).
    apply nf_bind; [prim|]. intros j J. apply IHfuel. right.
    unfold subU, subw in J. destruct (1 <=? i) eqn:?; [|lia].
    assert (j = i - 1) by congruence. lia.
Qed.

Lemma nf_finalize_xof : forall c h, nf (finalize_xof c h).
Proof.
  intros. unfold finalize_xof. nfs; auto using nf_cs_finalize, nf_finalize_loop.
Qed.

Lemma nf_read : forall c o, nf (Lib.read c o).
Proof. intros. unfold Lib.read. nfs. Qed.

Lemma nf_reads : forall c n o, nf (reads c n o).
Proof. intros c. induction n; intros o; cbn [reads]; nfs; auto using nf_read. Qed.

(* every call of a program that uses any number of hashers and outputs *)
Definition call_fits (c : cfg) (x : call) : Prop :=
  match x with CHash _ input | CHashXof _ input => len input < WU c | _ => True end.

Lemma nf_step : forall c p w x, call_fits c x -> nf (step c p w x).
Proof.
  intros c p w x F. destruct x; cbn [call_fits] in F; unfold step; cbv zeta; unfold write, flush, finalize;
    nfs; auto using nf_oneshot, nf_oneshot_xof, nf_update, nf_finalize_xof, nf_read.
Qed.

Lemma nf_run : forall c xs ps w, Forall (call_fits c) xs -> nf (run c ps w xs).
Proof.
  intros c. induction xs as [|x xs IH]; intros ps w F; cbn [run]; [apply nf_ok|].
  inversion F; subst. nfs; auto using nf_step.
Qed.

Lemma lib_calls_end : forall c,
  (forall p m input, len input < WU c ->
     ends (oneshot c p m input) /\ ends (oneshot_xof c p m input)) /\
  (forall h input, ends (update c h input)) /\
  (forall h, ends (finalize c h) /\ ends (finalize_xof c h)) /\
  (forall n o, ends (reads c n o)).
Proof.
  intros c. repeat split; intros; apply nf_ends;
    auto using nf_oneshot, nf_oneshot_xof, nf_update, nf_finalize_xof, nf_reads.
  unfold finalize. nfs. apply nf_finalize_xof.
Qed.

Lemma lib_program_ends : forall c ps w xs,
  Forall (fun x => match x with CHash _ input | CHashXof _ input => len input < WU c
                   | _ => True end) xs ->
  ends (run c ps w xs).
Proof. intros. apply nf_ends, nf_run. assumption. Qed.

(* ---- the reference implementation -------------------------------------------------- *)

Lemma nf_root_loop : forall c fuel o off out, (length out <= fuel)%nat ->
  nf (r_root_loop c fuel o off out).
Proof.
  intros c. induction fuel; intros o off out H; destruct out as [|b out]; cbn [r_root_loop];
    try apply nf_ok; [cbn [length] in H; lia|].
  nfs. apply IHfuel. unfold drop. rewrite skipn_length. unfold len. change (2 * r_OUT_LEN) with 64.
  cbn [length] in *. lia.
Qed.

Definition chunk_typed (s : r_chunk) : Prop :=
  len (rc_block s) = 64 /\ rc_block_len s < 256 /\ rc_blocks_compressed s < 256.

Lemma addw8_lt : forall c a b x, addw c W8 a b = Ok x -> x < 256.
Proof.
  intros c a b x E. unfold addw in E. destruct (_ && _); [discriminate|].
  assert (Q : x = (a + b) mod W8) by congruence. rewrite Q. apply N.mod_lt. discriminate.
Qed.

Lemma slice_to_inv : forall A (l : list A) n x, slice_to l n = Ok x -> x = take n l /\ n <= len l.
Proof. intros A l n x E. unfold slice_to in E. destruct (n <=? len l) eqn:G; [|discriminate]. split; [congruence|lia]. Qed.
Lemma slice_from_inv : forall A (l : list A) n x, slice_from l n = Ok x -> x = drop n l /\ n <= len l.
Proof. intros A l n x E. unfold slice_from in E. destruct (n <=? len l) eqn:G; [|discriminate]. split; [congruence|lia]. Qed.
Lemma copy_at_len : forall d i s x, copy_at d i s = Ok x -> len x = len d /\ i + len s <= len d.
Proof.
  intros d i s x E. unfold copy_at in E. destruct (_ <=? _) eqn:G; [|discriminate].
  split; [|lia]. assert (Q : x = take i d ++ s ++ drop (i + len s) d) by congruence. rewrite Q.
  rewrite !len_app, len_take, len_drop. lia.
Qed.

(* u wraps around only when n is too large *)
Lemma want_pos : forall c n u x, u <> n -> u < 4294967296 -> n < 4294967296 ->
  subU c n u = Ok x -> 0 < x.
Proof.
  intros c n u x D U M E. pose proof (WU_big c). unfold subU, subw in E.
  destruct (u <=? n) eqn:G; [assert (x = n - u) by congruence; lia|].
  destruct (dbg c); [discriminate|]. assert (Q : x = (n + WU c - u) mod WU c) by congruence.
  rewrite N.mod_small in Q by lia. lia.
Qed.

Lemma nf_chunk_update : forall c fuel s input, chunk_typed s -> (length input <= fuel)%nat ->
  nf (r_chunk_update c fuel s input) /\
  forall s', r_chunk_update c fuel s input = Ok s' -> chunk_typed s'.
Proof.
  intros c. induction fuel; intros s input T H; destruct input as [|b0 input]; cbn [r_chunk_update].
  - split; [apply nf_ok|]. intros s' E. replace s' with s by congruence. exact T.
  - cbn [length] in H. lia.
  - split; [apply nf_ok|]. intros s' E. replace s' with s by congruence. exact T.
  - match goal with |- context [bind ?m _] => set (m0 := m) end.
    assert (M : nf m0 /\ forall s1, m0 = Ok s1 -> chunk_typed s1 /\ rc_block_len s1 <> 64).
    { subst m0. change r_BLOCK_LEN with 64. destruct (rc_block_len s =? 64) eqn:G.
      - split; [nfs|]. intros s1 E.
        destruct (addw c W8 _ 1) as [n| |] eqn:A; try discriminate. cbn [bind] in E.
        match type of E with Ok ?v = _ => replace s1 with v by congruence end.
        unfold chunk_typed. cbn [rc_block rc_block_len rc_blocks_compressed].
        apply addw8_lt in A. repeat split; try lia; reflexivity.
      - split; [nfs|]. intros s1 E. replace s1 with s by congruence. split; [exact T|lia]. }
    destruct M as [M1 M2]. destruct m0 as [s1| |]; cbn [bind];
      [|split; [apply nf_panic|discriminate]|now elim M1].
    destruct (M2 s1 eq_refl) as [(T1 & T2 & T3) T4]. clear M1 M2. change r_BLOCK_LEN with 64.
    destruct (subU c 64 _) as [want| |] eqn:W; cbn [bind];
      [|split; [apply nf_panic|discriminate]|now elim (nf_subw _ _ _ _ W)].
    apply want_pos in W; try lia. clear T4.
    set (n := N.min want (len (b0 :: input))).
    destruct (slice_to _ n) as [hd| |] eqn:S1; cbn [bind];
      [|split; [apply nf_panic|discriminate]|now elim (nf_slice_to _ _ _ S1)].
    destruct (copy_at _ _ hd) as [blk| |] eqn:S2; cbn [bind];
      [|split; [apply nf_panic|discriminate]|now elim (nf_copy_at _ _ _ S2)].
    destruct (addw c W8 _ _) as [bl| |] eqn:S3; cbn [bind];
      [|split; [apply nf_panic|discriminate]|now elim (nf_addw _ _ _ _ S3)].
    destruct (slice_from _ n) as [tl| |] eqn:S4; cbn [bind];
      [|split; [apply nf_panic|discriminate]|now elim (nf_slice_from _ _ _ S4)].
    apply slice_from_inv in S4. apply copy_at_len in S2. apply addw8_lt in S3.
    apply IHfuel.
    + unfold chunk_typed. cbn [rc_block rc_block_len rc_blocks_compressed]. lia.
    + destruct S4 as [-> _]. unfold drop. rewrite skipn_length.
      assert (1 <= n) by (subst n; rewrite len_cons; lia). cbn [length] in *. lia.
Qed.

Definition stack_typed (h : r_hasher) : Prop := len (rh_stack h) = 53 /\ rh_stack_len h < 256.

Lemma nf_ref_merge : forall c k fuel h cv, stack_typed h -> rh_stack_len h < N.of_nat fuel ->
  nf (r_merge_loop c fuel h cv k) /\
  forall cv' h', r_merge_loop c fuel h cv k = Ok (cv', h') ->
    stack_typed h' /\ rh_chunk h' = rh_chunk h.
Proof.
  intros c k. induction fuel; intros h cv T H; [lia|]. cbn [r_merge_loop].
  destruct (k <=? rh_stack_len h) eqn:G.
  - destruct T as [T1 T2]. unfold r_pop_stack.
    destruct (subw c W8 (rh_stack_len h) 1) as [n| |] eqn:S1; cbn [bind];
      [|split; [apply nf_panic|discriminate]|now elim (nf_subw _ _ _ _ S1)].
    destruct (index (rh_stack h) n) as [top| |] eqn:S2; cbn [bind];
      [|split; [apply nf_panic|discriminate]|now elim (nf_index _ _ _ S2)].
    assert (B : n < 53).
    { unfold index in S2. destruct (nth_error _ _) eqn:N1; [|discriminate].
      assert (N.to_nat n < length (rh_stack h))%nat by (apply nth_error_Some; congruence).
      unfold len in T1. lia. }
    assert (Q : n + 1 = rh_stack_len h).
    { unfold subw in S1. destruct (1 <=? rh_stack_len h) eqn:G1.
      - assert (n = rh_stack_len h - 1) by congruence. lia.
      - destruct (dbg c); [discriminate|]. assert (rh_stack_len h = 0) as Z by lia.
        rewrite Z in S1. assert (n = 255) by (change ((0 + W8 - 1) mod W8) with 255 in S1; congruence). lia. }
    match goal with |- nf (r_merge_loop _ _ ?h1 ?cv1 _) /\ _ => destruct (IHfuel h1 cv1) as [I1 I2] end.
    + unfold stack_typed. cbn [rh_stack rh_stack_len]. lia.
    + cbn [rh_stack_len]. lia.
    + split; [exact I1|]. exact I2.
  - split; [apply nf_ok|]. intros cv' h' E. replace h' with h by congruence. auto.
Qed.

Lemma nf_ref_push : forall c h cv t, stack_typed h ->
  nf (r_push_chunk_chaining_value c h cv t) /\
  forall h', r_push_chunk_chaining_value c h cv t = Ok h' -> stack_typed h'.
Proof.
  intros c h cv t T. unfold r_push_chunk_chaining_value.
  destruct (nf_ref_merge c (popcount t mod W8) (S (N.to_nat (rh_stack_len h))) h cv T ltac:(lia)) as [M1 M2].
  destruct (r_merge_loop _ _ _ _ _) as [[cv' h1]| |]; cbn [bind];
    [|split; [apply nf_panic|discriminate]|now elim M1].
  destruct (M2 cv' h1 eq_refl) as [[T1 T2] _]. unfold r_push_stack.
  destruct (_ <? _) eqn:G; [|split; [apply nf_panic|discriminate]].
  split; [nfs|]. intros h' E. destruct (addw c W8 _ 1) as [n| |] eqn:A; try discriminate.
  cbn [bind] in E. match type of E with Ok ?v = _ => replace h' with v by congruence end.
  apply addw8_lt in A. unfold stack_typed. cbn [rh_stack rh_stack_len].
  unfold len in *. rewrite length_set_nth. lia.
Qed.

Lemma nf_ref_update_loop : forall c fuel h input, r_typed h -> (length input <= fuel)%nat ->
  nf (r_update_loop c fuel h input) /\
  forall h', r_update_loop c fuel h input = Ok h' -> r_typed h'.
Proof.
  intros c. induction fuel; intros h input T H; destruct input as [|b0 input]; cbn [r_update_loop].
  - split; [apply nf_ok|]. intros s' E. replace s' with h by congruence. exact T.
  - cbn [length] in H. lia.
  - split; [apply nf_ok|]. intros s' E. replace s' with h by congruence. exact T.
  - match goal with |- context [bind ?m _] => set (m0 := m) end.
    assert (M : nf m0 /\ forall h1, m0 = Ok h1 -> r_typed h1 /\ r_chunk_len (rh_chunk h1) <> 2048).
    { subst m0. change r_CHUNK_LEN with 2048. destruct (r_chunk_len (rh_chunk h) =? 2048) eqn:G.
      - destruct T as (_ & _ & _ & T4 & T5).
        destruct (add64 c _ 2048) as [no| |] eqn:A; cbn [bind];
          [|split; [apply nf_panic|discriminate]|now elim (nf_addw _ _ _ _ A)].
        match goal with |- context [r_push_chunk_chaining_value c h ?cv no] =>
          destruct (nf_ref_push c h cv no (conj T4 T5)) as [P1 P2] end.
        destruct (r_push_chunk_chaining_value _ _ _ _) as [h1| |]; cbn [bind];
          [|split; [apply nf_panic|discriminate]|now elim P1].
        split; [apply nf_ok|]. intros h2 E.
        match type of E with Ok ?v = _ => replace h2 with v by congruence end.
        destruct (P2 h1 eq_refl) as [P3 P4]. unfold r_typed, r_chunk_len, r_chunk_new.
        cbn [rh_chunk rh_stack rh_stack_len rc_block rc_block_len rc_blocks_compressed].
        repeat split; try assumption; try reflexivity. change r_BLOCK_LEN with 64. lia.
      - split; [apply nf_ok|]. intros h1 E. replace h1 with h by congruence. split; [exact T|lia]. }
    destruct M as [M1 M2]. destruct m0 as [h1| |]; cbn [bind];
      [|split; [apply nf_panic|discriminate]|now elim M1].
    destruct (M2 h1 eq_refl) as [(T1 & T2 & T3 & T5 & T6) T4]. clear M1 M2. change r_CHUNK_LEN with 2048.
    destruct (subU c 2048 _) as [want| |] eqn:W; cbn [bind];
      [|split; [apply nf_panic|discriminate]|now elim (nf_subw _ _ _ _ W)].
    apply want_pos in W; try lia; [|unfold r_chunk_len; change r_BLOCK_LEN with 64; lia]. clear T4.
    set (n := N.min want (len (b0 :: input))).
    destruct (slice_to _ n) as [hd| |] eqn:S1; cbn [bind];
      [|split; [apply nf_panic|discriminate]|now elim (nf_slice_to _ _ _ S1)].
    destruct (nf_chunk_update c (length hd) (rh_chunk h1) hd (conj T1 (conj T2 T3)) (le_n _)) as [C1 C2].
    destruct (r_chunk_update _ _ _ _) as [s| |]; cbn [bind];
      [|split; [apply nf_panic|discriminate]|now elim C1].
    destruct (slice_from _ n) as [tl| |] eqn:S4; cbn [bind];
      [|split; [apply nf_panic|discriminate]|now elim (nf_slice_from _ _ _ S4)].
    apply slice_from_inv in S4. destruct (C2 s eq_refl) as (U1 & U2 & U3).
    apply IHfuel.
    + unfold r_typed. cbn [rh_chunk rh_stack rh_stack_len]. repeat split; assumption.
    + destruct S4 as [-> _]. unfold drop. rewrite skipn_length.
      assert (1 <= n) by (subst n; rewrite len_cons; lia). cbn [length] in *. lia.
Qed.

Lemma ref_calls_end : forall c h, r_typed h ->
  (forall input, ends (r_update c h input) /\
     forall h', r_update c h input = Ok h' -> r_typed h') /\
  (forall out, ends (r_finalize c h out)).
Proof.
  intros c h T. split.
  - intros input. unfold r_update.
    destruct (nf_ref_update_loop c (length input) h input T (le_n _)) as [U1 U2].
    split; [now apply nf_ends|exact U2].
  - intros out. apply nf_ends. unfold r_finalize. apply nf_bind.
    + generalize (r_chunk_output (rh_chunk h)). induction (N.to_nat (rh_stack_len h)); intros o;
        cbn [r_finalize_loop]; nfs; auto.
    + intros o _. now apply nf_root_loop.
Qed.

Lemma ref_start_typed : forall m, r_typed (r_start m).
Proof. intros [|k|k]; repeat split. Qed.

(* ---- the Python code ------------------------------------------------------------------- *)

Lemma nf_y_compress : forall cv b bl off fl, nf (y_compress cv b bl off fl).
Proof. intros. unfold y_compress. cbv zeta. nfs. Qed.

Lemma nf_y_bytes : forall l, nf (y_bytes_from_words l).
Proof. induction l; cbn [y_bytes_from_words]; nfs. Qed.

Lemma y_bytes_pos : forall l b, y_bytes_from_words l = Ok b -> len b = 4 * len l.
Proof.
  induction l as [|w l IH]; intros b E; cbn [y_bytes_from_words] in E.
  - replace b with (@nil N) by congruence. reflexivity.
  - destruct (_ <? _); [|discriminate]. destruct (y_bytes_from_words l) as [t| |] eqn:T; try discriminate.
    cbn [bind] in E. assert (Q : b = bytes32 w ++ t) by congruence. rewrite Q, len_app, len_cons.
    rewrite (IH t eq_refl). change (len (bytes32 w)) with 4. lia.
Qed.

Lemma y_g_len : forall s a b c d x y, length (y_g s a b c d x y) = length s.
Proof. intros. unfold y_g. cbv zeta. now rewrite !length_set_nth. Qed.
Lemma y_compress_len : forall cv b bl off fl w, y_compress cv b bl off fl = Ok w -> len w = 16.
Proof.
  intros cv b bl off fl w E. unfold y_compress in E. cbv zeta in E.
  destruct (_ <? _); [discriminate|]. destruct (_ <? _); [discriminate|].
  match type of E with Ok ?v = _ => replace w with v by congruence end. clear E.
  assert (F : forall (A : Type) (f : list N -> A -> list N) l s,
    (forall s a, length (f s a) = length s) -> length (fold_left f l s) = length s).
  { intros A f l s Hf. revert s. induction l; intros s; cbn [fold_left]; [reflexivity|].
    now rewrite IHl, Hf. }
  unfold len. rewrite F by (intros; now rewrite !length_set_nth).
  rewrite F by (intros; unfold y_round; cbv zeta; now rewrite !y_g_len). reflexivity.
Qed.

Lemma nf_y_root : forall fuel o n buf off, n <= off + N.of_nat fuel ->
  nf (y_root_loop fuel o n buf off).
Proof.
  induction fuel; intros o n buf off H; cbn [y_root_loop]; destruct (off <? n) eqn:G;
    try apply nf_ok; [lia|].
  apply nf_bind; [apply nf_y_compress|]. intros w E. apply y_compress_len in E.
  apply nf_bind; [apply nf_y_bytes|]. intros b E2. apply y_bytes_pos in E2.
  apply IHfuel. lia.
Qed.

Lemma nf_y_chunk_loop : forall fuel ch cv off fl bf pos, len ch <= pos + 64 * N.of_nat fuel + 64 ->
  nf (y_chunk_loop fuel ch cv off fl bf pos).
Proof.
  induction fuel; intros ch cv off fl bf pos H; cbn [y_chunk_loop]; change y_BLOCK_LEN with 64;
    destruct (64 <? _) eqn:G; try apply nf_ok; [lia|].
  apply nf_bind; [apply nf_y_compress|]. intros w _. apply IHfuel. lia.
Qed.

Lemma nf_y_chunk : forall ch key off fl, nf (y_hash_chunk ch key off fl).
Proof.
  intros. unfold y_hash_chunk. nfs. apply nf_y_chunk_loop. unfold len. lia.
Qed.

Lemma nf_y_parent : forall a b key fl, nf (y_hash_parent a b key fl).
Proof.
  intros. unfold y_hash_parent, y_chaining_value. nfs; auto using nf_y_compress, nf_y_bytes.
Qed.

Lemma nf_y_recurse : forall fuel input key off fl, (length input <= fuel)%nat ->
  nf (y_hash_recurse fuel input key off fl).
Proof.
  induction fuel; intros input key off fl H; cbn [y_hash_recurse]; change y_CHUNK_LEN with 2048;
    destruct (len input <=? 2048) eqn:G; try apply nf_y_chunk; [unfold len in G; lia|].
  rewrite y_left_ok by lia. cbn [bind].
  destruct (left_chunks_spec (len input) ltac:(lia)) as (A1 & A2 & A3).
  set (n := 2048 * left_chunks (len input)) in *.
  nfs; auto using nf_y_parent; apply IHfuel.
  - unfold take. rewrite firstn_length. unfold len in *. lia.
  - unfold drop. rewrite skipn_length, len_take. unfold len in *. lia.
Qed.

Lemma py_calls_end : forall m input n, ends (y_run m input n).
Proof.
  intros m input n. apply nf_ends.
  assert (I : forall key fl, nf (y_hash_internal input key fl n)).
  { intros. unfold y_hash_internal, y_root_output_bytes. nfs.
    - now apply nf_y_recurse.
    - apply nf_y_root. lia. }
  destruct m; cbn [y_run]; apply I.
Qed.
