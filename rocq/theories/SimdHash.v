(* The parts that /repo/src/sse41.rs, /repo/src/avx2.rs and the C SIMD files have in
   common: execution of a vectorised round, and the loop of hash4/hash8/hash16.
   Definitions only. *)
From Coq Require Import NArith List Bool.
From Verif Require Import Base Portable Simd SimdGen.
Import ListNotations.
Open Scope N_scope.

(* One statement of a vectorised round; see SimdGen.v *)
Definition exec_instr {V : Type} (O : vops V) (m : list V) (r : nat) (v : list V) (i : instr)
  : list V :=
  let at_ k := nth k v (v_nil O) in
  match i with
  | AddM d k => set_nth v d (v_add O (at_ d) (nth (sched r k) m (v_nil O)))
  | AddV d s => set_nth v d (v_add O (at_ d) (at_ s))
  | XorV d s => set_nth v d (v_xor O (at_ d) (at_ s))
  | Rot16 d => set_nth v d (v_rot16 O (at_ d))
  | Rot12 d => set_nth v d (v_rot12 O (at_ d))
  | Rot8 d => set_nth v d (v_rot8 O (at_ d))
  | Rot7 d => set_nth v d (v_rot7 O (at_ d))
  end.

(* round(v, m, r) *)
Definition run_round {V : Type} (O : vops V) (code : list instr) (v m : list V) (r : nat)
  : list V := fold_left (exec_instr O m r) code v.

(* The body of the loop of hash4/hash8 from `let mut v = [` to the assignments of
   h_vecs: src/sse41.rs:560-592, src/avx2.rs:335-367. *)
Definition vec_compress {V : Type} (O : vops V) (code : list instr) (set1 : N -> V)
  (h msg : list V) (offset_low_vec offset_high_vec block_len_vec block_flags_vec : V) : list V :=
  let at_ (l : list V) k := nth k l (v_nil O) in
  let v :=
    [at_ h 0%nat; at_ h 1%nat; at_ h 2%nat; at_ h 3%nat;
     at_ h 4%nat; at_ h 5%nat; at_ h 6%nat; at_ h 7%nat;
     set1 (get IV 0); set1 (get IV 1); set1 (get IV 2); set1 (get IV 3);
     offset_low_vec; offset_high_vec; block_len_vec; block_flags_vec] in
  let v := run_round O code v msg 0 in
  let v := run_round O code v msg 1 in
  let v := run_round O code v msg 2 in
  let v := run_round O code v msg 3 in
  let v := run_round O code v msg 4 in
  let v := run_round O code v msg 5 in
  let v := run_round O code v msg 6 in
  map (fun i => v_xor O (at_ v i) (at_ v (i + 8)%nat)) (seq 0 8).

(* The loop `for block in 0..blocks` of hash4/hash8: src/sse41.rs:548-595,
   src/avx2.rs:323-370. todo is the number of iterations left, block the loop
   variable; load_msgs models transpose_msg_vecs(inputs, _). *)
Fixpoint vec_hash_loop {V : Type} (O : vops V) (code : list instr) (set1 : N -> V)
  (load_msgs : N -> res (list V)) (todo : nat) (block blocks : N) (h : list V)
  (offset_low_vec offset_high_vec : V) (block_flags flags flags_end : N) : res (list V) :=
  match todo with
  | O => Ok h
  | S todo' =>
      let block_flags :=
        if block + 1 =? blocks then N.lor block_flags flags_end else block_flags in
      let block_len_vec := set1 BLOCK_LEN in
      let block_flags_vec := set1 block_flags in
      let* msg := load_msgs (block * BLOCK_LEN) in
      let h := vec_compress O code set1 h msg offset_low_vec offset_high_vec
                            block_len_vec block_flags_vec in
      vec_hash_loop O code set1 load_msgs todo' (block + 1) blocks h
                    offset_low_vec offset_high_vec flags flags flags_end
  end.

(* Evaluate a list of checked computations in order. *)
Fixpoint seq_res {A : Type} (l : list (res A)) : res (list A) :=
  match l with
  | [] => Ok []
  | x :: r => let* a := x in let* t := seq_res r in Ok (a :: t)
  end.

(* The loads of transpose_msg_vecs: for each of the given byte positions, one
   vector of `bytes` bytes from each input, in the order of the code. *)
Definition load_grid (bytes : N) (inputs : list (list N)) (block_offset : N) (cols : list N)
  : res (list vec) :=
  seq_res (flat_map (fun col => map (fun inp => loadu bytes inp (block_offset + col)) inputs) cols).

(* offset + i * offset_delta for i = 0 .. n-1, with Rust's overflow checks
   (src/sse41.rs:506-521, src/avx2.rs:273-296) *)
Definition lane_offsets (c : cfg) (n : nat) (offset offset_delta : N) : res (list N) :=
  seq_res (map (fun i => let* d := mul64 c (N.of_nat i) offset_delta in add64 c offset d) (seq 0 n)).

(* The `while inputs.len() >= DEGREE && out.len() >= DEGREE * OUT_LEN` loop of
   hash_many: src/sse41.rs:655-674, src/avx2.rs:395-414.  hashN is hash4 or hash8, rest the
   code after the loop. fuel bounds the number of iterations. *)
Fixpoint batch_loop (c : cfg) (fuel : nat) (degree : N)
  (hashN : list (list N) -> N -> res (list N))
  (rest : list (list N) -> N -> list N -> res (list N))
  (inputs : list (list N)) (offset offset_delta : N) (out : list N) : res (list N) :=
  if (degree <=? len inputs) && (degree * OUT_LEN <=? len out) then
    match fuel with
    | O => NoFuel
    | S fuel' =>
        let* hs := hashN (take degree inputs) offset in
        let* d := mul64 c degree offset_delta in
        let* offset := add64 c offset d in
        let* out' := batch_loop c fuel' degree hashN rest (drop degree inputs) offset
                       offset_delta (drop (degree * OUT_LEN) out) in
        Ok (hs ++ out')
    end
  else rest inputs offset out.
