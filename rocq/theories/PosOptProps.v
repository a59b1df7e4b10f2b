(* C68: the optimised Poseidon hashes against the textbook ones. *)
From Verif Require Import Base ListAux HashModel PosModel PosRing PosOpt ZqField PosBnModel BlsTab PosBn PosBls.
Open Scope nat_scope.

(* Over any commutative ring and for any function as S-box, when the equations between the tables
   hold (PosOpt.obligations: the constants of the full rounds, the sparse rows and columns, the
   transposed matrix, the pre-sparse matrix, the constants of the partial rounds), the optimised
   permutation is the textbook one, and neither indexes outside its tables. *)
Theorem C68_any_ring : forall A (zero one : A) add mul sub opp, ring_theory zero one add mul sub opp eq ->
  forall (sb : A -> A) h np n c m C S Mo P, 1 <= h -> 1 <= np ->
  (h + 1) * (1 + n) + np + (h - 1) * (1 + n) <= length C -> ((1 + n) * 2 - 1) * np <= length S -> (h + np + h) * (1 + n) <= length c ->
  square_m A (1 + n) m -> square_m A (1 + n) Mo -> square_m A (1 + n) P ->
  Forall (fun p => fst p = snd p) (obligations A zero add mul sub (fun x => x) h np (1 + n) c m C S Mo P) ->
  forall st, length st = 1 + n ->
  permute_opt A zero add mul sb (2 * h) np C S Mo P st = permute_ref A zero add mul sb (2 * h) np c m st /\
  exists r, permute_ref A zero add mul sb (2 * h) np c m st = Ok r /\ length r = 1 + n.
Proof. exact opt_is_ref. Qed.
Print Assumptions C68_any_ring.

(* With the tables of the source for BN254 the two hashes agree on every input, initial value and
   number of output words, errors and panics included. *)
Theorem C68_bn128 : forall (inp : list (Zq bn_r)) (init : Zq bn_r),
  (forall out, bn_opt_hash_ex inp init out = bn_hash_ex inp init out) /\ bn_opt_hash inp init = bn_hash inp init.
Proof. exact (fun inp init => conj (bn_opt_is_ref inp init) (bn_hash_eq inp init)). Qed.
Print Assumptions C68_bn128.

Theorem C68_bn128_outcomes : forall (inp : list (Zq bn_r)) (init : Zq bn_r) out,
  ((inp = [] \/ 16 < length inp) -> bn_hash_ex inp init out = Err) /\
  (1 <= length inp <= 16 -> out <= 1 + length inp -> exists r, bn_hash_ex inp init out = Ok r /\ length r = out) /\
  (1 <= length inp <= 16 -> 1 + length inp < out -> bn_hash_ex inp init out = Panic).
Proof. exact bn_outcomes. Qed.
Print Assumptions C68_bn128_outcomes.

(* the values of poseidon_bn128_opt.rs:241-251 *)
Example C68_nonvacuous_one : bn_hash (map (zq_of bn_r) [1%Z]) (zq_of bn_r 0)
  = Ok (zq_of bn_r 0x29176100eaa962bdc1fe6c654d6a3c130e96a4d1168b33848b897dc502820133).
Proof. exact test1. Qed.
Example C68_nonvacuous_two : bn_hash (map (zq_of bn_r) [1%Z; 2%Z]) (zq_of bn_r 0)
  = Ok (zq_of bn_r 0x115cc0f5e7d690413df64c6b9662e9cf2a3617f2743245519e19607a4417189a).
Proof. exact test2. Qed.

(* The BLS12-381 pair does not agree: whatever the other tables hold, with the source's tables for
   the width 2 the two hashes of the single input 1 differ, and so do the first output words. *)
Theorem C68_bls12381_refuted : forall k k' : pconsts (Zq bls_r), bls_ref_at2 k -> bls_opt_at2 k' ->
  (exists a b, bls_hash k [zq_of bls_r 1] (zq_of bls_r 0) = Ok a /\ bls_opt_hash k' [zq_of bls_r 1] (zq_of bls_r 0) = Ok b /\ a <> b) /\
  hash_ref (Zq bls_r) (zq_of bls_r 0) q_add q_mul (pow5 q_mul) k [zq_of bls_r 1] (zq_of bls_r 0) 1
  <> hash_opt (Zq bls_r) (zq_of bls_r 0) q_add q_mul (pow5 q_mul) k' [zq_of bls_r 1] (zq_of bls_r 0) 1.
Proof. exact bls_differ. Qed.
Print Assumptions C68_bls12381_refuted.
Example C68_nonvacuous_bls : bls_ref_at2 bls_k /\ bls_opt_at2 bls_k'.
Proof. exact bls_k_at2. Qed.
