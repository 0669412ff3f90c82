(* The calls made by the C hasher are those of the specification. *)
From Coq Require Import NArith List Bool Lia ZArith Permutation.
From Coq Require Import ZifyBool ZifyNat ZifyN.
From Verif Require Import Base BaseFacts Spec SpecFacts CompressFacts ChunkFacts Portable Platform HasherFacts ApiFacts.
From Verif Require Import CSimd CImpl CImplFacts CSpec CImplProps.
From Verif Require Import Calls SecurityFacts LibCalls TraceFacts WeightFacts StreamWeights CallFacts.
From Verif Require Import CCalls CTraceFacts CWeights Extract ExtractFacts.
Import ListNotations.
Open Scope N_scope.

Lemma root_call_spec : forall m input,
  root_call_of (root_node F (mode_key m) (mode_flags m) input) = root_call F m input 0.
Proof. reflexivity. Qed.

Lemma n_hash_ok : forall o memory m us,
  mode_ok m -> c_updates_ok us -> limit o (len memory) (len (c_data us)) ->
  exists l, fst (n_hash o memory (bytes_of_words (mode_key m)) (mode_flags m) us [])
    = l ++ [root_call F m (c_data us) 0] /\ Permutation l (interior_calls F m (c_data us)).
Proof.
  intros o memory m us M U Lim.
  assert (K : length (mode_key m) = 8%nat /\ words (mode_key m)) by now apply mode_key_ok.
  destruct K as [K1 K2]. set (key := bytes_of_words (mode_key m)).
  assert (Lk : length key = 32%nat).
  { unfold key. destruct (list8 _ K1) as (a & b & c & d & e & f & g & h & ->). reflexivity. }
  assert (Bk : bytes key) by now apply bytes_of_words_bytes.
  destruct (key_words key Lk Bk) as (Ek & _ & _).
  assert (Ew : words_of_bytes key = mode_key m) by now apply words_of_bytes_of_words.
  assert (X : forall w, exists l, fst (n_hash o memory key (mode_flags m) us [])
      = l ++ [root_call F m (c_data us) 0] /\
      W w l = below w (mode_key m) (mode_flags m) (c_data us)).
  { intros w. unfold n_hash, hasher_init. rewrite Ek, Ew.
    pose proof (n_init_holds w (mode_key m) (mode_flags m) K1 K2 (len memory) memory eq_refl) as H.
    destruct (n_updates_ok w o _ (mode_flags m) K1 K2 (len memory) us _ [] 0 [] H U)
      as (h & n & lg & E1 & H1 & W1).
    { eapply (limit_le o _ K1); [|exact Lim]. rewrite len_nil. lia. }
    cbn [app] in H1. erewrite tbind_eq by exact E1.
    destruct (n_finalize_ok w o _ (mode_flags m) K1 K2 (len memory) h (c_data us) n lg H1) as (l & E2 & W2).
    { apply Lim. }
    exists l. rewrite E2. split; [reflexivity|]. rewrite W_nil in W1. lia. }
  destruct (X (fun _ => 0)) as (l & E & _). exists l. split; [exact E|].
  apply weights_permutation. intros w. destruct (X w) as (l' & E' & Hw).
  rewrite E in E'. apply app_inj_tail in E'. destruct E' as [<- _]. exact Hw.
Qed.

Lemma limit_63 : forall o (memory : list N) n, len memory = 53 * 32 -> n <= 2 ^ 63 -> limit o (len memory) n.
Proof.
  intros o memory n Lm L. change (2 ^ 63) with 9223372036854775808 in L.
  split; [unfold W64; lia|]. split; [right; change (2 ^ 63) with 9223372036854775808; lia|left; lia].
Qed.

Lemma limit_ndebug : forall o (memory : list N) n, ndebug o = true -> len memory = 53 * 32 -> n < 2 ^ 64 ->
  limit o (len memory) n.
Proof. intros o memory n N Lm L. split; [exact L|]. split; [now left|left; lia]. Qed.

Lemma c_calls_limit : forall o memory m us,
  mode_ok m -> c_updates_ok us -> limit o (len memory) (len (c_data us)) ->
  Permutation (fst (n_hash o memory (bytes_of_words (mode_key m)) (mode_flags m) us []))
              (calls F m (c_data us)).
Proof.
  intros o memory m us M U Lim. destruct (n_hash_ok o memory m us M U Lim) as (l & E & P).
  rewrite E. now apply Permutation_app_tail.
Qed.

Lemma c_calls : forall o memory m us,
  mode_ok m -> c_updates_ok us -> len memory = 53 * 32 ->
  (len (c_data us) <= 2 ^ 63 \/ ndebug o = true /\ len (c_data us) < 2 ^ 64) ->
  Permutation (fst (n_hash o memory (bytes_of_words (mode_key m)) (mode_flags m) us []))
              (calls F m (c_data us)).
Proof.
  intros o memory m us M U Lm [L|[N L]]; apply c_calls_limit; auto.
  - now apply limit_63.
  - now apply limit_ndebug.
Qed.

Lemma c_erased : forall o memory key flags us s,
  snd (n_hash o memory key flags us s) = c_hash o memory key flags us.
Proof. intros. apply ret_n_hash. Qed.

Lemma c_calls_library : forall o memory m us c p g,
  mode_ok m -> c_updates_ok us -> len memory = 53 * 32 ->
  (len (c_data us) <= 2 ^ 63 \/ ndebug o = true /\ len (c_data us) < 2 ^ 64) ->
  platform_ok c p -> fits c g -> data g = c_data us ->
  Permutation (fst (n_hash o memory (bytes_of_words (mode_key m)) (mode_flags m) us []))
              (fst (t_hash c p m g [])).
Proof.
  intros o memory m us c p g M U Lm L P Fi E.
  rewrite c_calls by auto. rewrite <- E. symmetry.
  apply (program_calls c p m g 0 P M Fi). reflexivity.
Qed.

Lemma c_count : forall o memory m us,
  mode_ok m -> c_updates_ok us -> len memory = 53 * 32 ->
  (len (c_data us) <= 2 ^ 63 \/ ndebug o = true /\ len (c_data us) < 2 ^ 64) ->
  len (fst (n_hash o memory (bytes_of_words (mode_key m)) (mode_flags m) us []))
  = N.max 1 ((len (c_data us) + 63) / 64) + (N.max 1 ((len (c_data us) + 2047) / 2048) - 1).
Proof.
  intros o memory m us M U Lm L.
  rewrite (perm_len _ _ _ (c_calls o memory m us M U Lm L)). apply calls_len.
Qed.

Lemma c_root : forall o memory m us,
  mode_ok m -> c_updates_ok us -> len memory = 53 * 32 ->
  (len (c_data us) <= 2 ^ 63 \/ ndebug o = true /\ len (c_data us) < 2 ^ 64) ->
  exists l last, fst (n_hash o memory (bytes_of_words (mode_key m)) (mode_flags m) us []) = l ++ [last] /\
    (forall x, In x l -> N.land (nd_flags x) Spec.ROOT = 0) /\
    N.land (nd_flags last) Spec.ROOT = Spec.ROOT /\ nd_off last = 0.
Proof.
  intros o memory m us M U Lm L. destruct (root_only F m (c_data us)) as [R1 R2].
  assert (Lim : limit o (len memory) (len (c_data us)))
    by (destruct L as [L|[N L]]; [now apply limit_63|now apply limit_ndebug]).
  destruct (n_hash_ok o memory m us M U Lim) as (l & E & P).
  exists l, (root_call F m (c_data us) 0). split; [exact E|]. split; [|split; [apply R2|reflexivity]].
  intros x Hx. apply R1. now apply (Permutation_in _ P).
Qed.

Lemma c_mode : forall o memory m us,
  mode_ok m -> c_updates_ok us -> len memory = 53 * 32 ->
  (len (c_data us) <= 2 ^ 63 \/ ndebug o = true /\ len (c_data us) < 2 ^ 64) ->
  forall x, In x (fst (n_hash o memory (bytes_of_words (mode_key m)) (mode_flags m) us [])) ->
  N.land (nd_flags x) (N.lor Spec.KEYED_HASH Spec.DERIVE_KEY) = mode_flags m.
Proof.
  intros o memory m us M U Lm L x H.
  apply (Permutation_in _ (c_calls o memory m us M U Lm L)) in H.
  now apply (call_mode F m (c_data us) 1).
Qed.

Lemma c_extract : forall o memory m us A h,
  mode_ok m -> c_updates_ok us -> len memory = 53 * 32 ->
  (len (c_data us) <= 2 ^ 63 \/ ndebug o = true /\ len (c_data us) < 2 ^ 64) ->
  snd (n_hash o memory (bytes_of_words (mode_key m)) (mode_flags m) us []) = Ok h ->
  incl (fst (n_hash o memory (bytes_of_words (mode_key m)) (mode_flags m) us [])) A ->
  ~ collision F A A ->
  extract (queries F A) h = Some (m, c_data us).
Proof.
  intros o memory m us A h M U Lm L R I NC.
  rewrite c_erased in R.
  assert (E : c_hash o memory (bytes_of_words (mode_key m)) (mode_flags m) us
              = Ok (spec_hash F m (c_data us))).
  { destruct L as [L|[N L]]; [now apply c_hasher_ok|now apply c_hasher_no_assertions]. }
  rewrite E in R. injection R as <-. apply extract_complete; auto using blake_ok.
  intros x Hx. apply I. apply (Permutation_in _ (Permutation_sym (c_calls o memory m us M U Lm L))).
  exact Hx.
Qed.
