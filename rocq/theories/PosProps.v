(* Properties C65 and C66: the vectorised Goldilocks Poseidon hashes against the scalar one,
   with the constants of the source. *)
From Verif Require Import Base FrField HashModel PosModel PosConst PosTables.
Open Scope nat_scope.

(* up to four words of output the AVX2 hash is the scalar hash, errors included *)
Theorem C65_avx2_poseidon : forall inp init out, out <= 4 -> poseidon_avx2 inp init out = poseidon_gl inp init out.
Proof. exact avx2_agrees. Qed.
Print Assumptions C65_avx2_poseidon.

(* and the scalar hash of eight inputs over four capacity words is defined for every length up to twelve *)
Theorem C65_scalar_total : forall inp init out, length inp = 8 -> length init = 4 -> out <= 12 ->
  exists v, poseidon_gl inp init out = Ok v /\ length v = out.
Proof. exact poseidon_gl_total. Qed.
Print Assumptions C65_scalar_total.

Example C65_nonvacuous : exists v,
  poseidon_avx2 (map fof [1; 2; 3; 4; 5; 6; 7; 8]%Z) (map fof [9; 10; 11; 18446744069414584320]%Z) 4 = Ok v /\ length v = 4.
Proof.
  destruct (C65_scalar_total (map fof [1; 2; 3; 4; 5; 6; 7; 8]%Z) (map fof [9; 10; 11; 18446744069414584320]%Z) 4 eq_refl eq_refl) as (v & E & L);
    [repeat constructor|]. exists v. split; [|exact L]. rewrite C65_avx2_poseidon by repeat constructor. exact E.
Qed.

(* asked for more than four words the AVX2 hash panics where the scalar one answers *)
Theorem C65_long_output_refuted : forall inp init out, length inp = 8 -> length init = 4 -> 4 < out ->
  poseidon_avx2 inp init out = Panic /\
  (out <= 12 -> exists v, poseidon_gl inp init out = Ok v /\ length v = out).
Proof. exact avx2_long. Qed.
Print Assumptions C65_long_output_refuted.

Example C65_nonvacuous_long : poseidon_avx2 (repeat f1 8) (repeat f0 4) 12 = Panic.
Proof. apply (C65_long_output_refuted (repeat f1 8) (repeat f0 4) 12 eq_refl eq_refl). repeat constructor. Qed.

(* the word function over which the linear hash, the Merkle tree and the transcript are modelled
   can be taken to be the permutation of the source *)
Theorem C65_hash_layer : exists perm : list Fr -> list Fr -> list Fr,
  (forall inp init, length (perm inp init) = 12) /\
  forall inp init out, out <= 12 -> poseidon_hash perm inp init out = poseidon_gl inp init out.
Proof. exact (ex_intro _ gl_words (conj gl_words_len poseidon_hash_inst)). Qed.
Print Assumptions C65_hash_layer.

(* the AVX-512 hash is two scalar hashes: the messages a0 a1 and b0 b1 go in interleaved by fours *)
Theorem C66_avx512_pair : forall a0 a1 b0 b1 ca cb out,
  length a0 = 4 -> length a1 = 4 -> length b0 = 4 -> length b1 = 4 -> length ca = 4 -> length cb = 4 ->
  exists x y, poseidon_gl (a0 ++ a1) ca 4 = Ok x /\ poseidon_gl (b0 ++ b1) cb 4 = Ok y /\ length x = 4 /\ length y = 4 /\
    poseidon_avx512 (a0 ++ b0 ++ a1 ++ b1) (ca ++ cb) out = (if out <=? 8 then Ok (firstn out (x ++ y)) else Panic).
Proof. exact avx512_pair. Qed.
Print Assumptions C66_avx512_pair.

Theorem C66_lengths : forall inp init out, (length inp <> 16 \/ length init <> 8) -> poseidon_avx512 inp init out = Err.
Proof. exact avx512_lengths. Qed.
Print Assumptions C66_lengths.

Example C66_nonvacuous : exists v, poseidon_avx512 (map fof [1; 2; 3; 4; 5; 6; 7; 8; 9; 10; 11; 12; 13; 14; 15; 16]%Z) (repeat f0 8) 8 = Ok v /\ length v = 8.
Proof.
  destruct (C66_avx512_pair (map fof [1; 2; 3; 4]%Z) (map fof [9; 10; 11; 12]%Z) (map fof [5; 6; 7; 8]%Z) (map fof [13; 14; 15; 16]%Z)
    (repeat f0 4) (repeat f0 4) 8 eq_refl eq_refl eq_refl eq_refl eq_refl eq_refl) as (x & y & _ & _ & Lx & Ly & E).
  exists (firstn 8 (x ++ y)). split; [exact E|]. rewrite firstn_length, app_length, Lx, Ly. reflexivity.
Qed.
