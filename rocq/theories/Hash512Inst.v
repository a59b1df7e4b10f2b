(* The pair property of the AVX-512 hash for any word function giving the scalar hash. *)
From Verif Require Import Base ListAux FrField HashModel HashProof MerkleProof Hash512Model Hash512Proof PosConst PosTables.
Open Scope nat_scope.

Section Inst.
Variable perm : list Fr -> list Fr -> list Fr.
Hypothesis perm_len : forall i s, length (perm i s) = 12.
Hypothesis perm_gl : forall inp init out, out <= 12 -> poseidon_hash perm inp init out = poseidon_gl inp init out.

Lemma perm4 inp init x : length inp = 8 -> length init = 4 -> poseidon_gl inp init 4 = Ok x -> x = firstn 4 (perm inp init).
Proof.
  intros A B E. rewrite <- perm_gl in E by lia. unfold poseidon_hash in E. rewrite A, B in E. cbn [Nat.eqb negb Nat.leb] in E. congruence.
Qed.
Lemma pair_inst a0 a1 b0 b1 ca cb :
  length a0 = 4 -> length a1 = 4 -> length b0 = 4 -> length b1 = 4 -> length ca = 4 -> length cb = 4 ->
  poseidon_avx512 (a0 ++ b0 ++ a1 ++ b1) (ca ++ cb) 8 = Ok (firstn 4 (perm (a0 ++ a1) ca) ++ firstn 4 (perm (b0 ++ b1) cb)).
Proof.
  intros A0 A1 B0 B1 CA CB. destruct (avx512_pair a0 a1 b0 b1 ca cb 8 A0 A1 B0 B1 CA CB) as (x & y & Ex & Ey & Lx & Ly & E).
  apply perm4 in Ex; [|rewrite app_length; lia|exact CA]. apply perm4 in Ey; [|rewrite app_length; lia|exact CB]. subst x y.
  rewrite E. change (8 <=? 8) with true. cbv iota. rewrite firstn_all2 by (rewrite app_length; lia). reflexivity.
Qed.

Lemma linear512 a b bs : length a = length b ->
  lin512 poseidon_avx512 (a ++ b) bs = bind (lin_hash perm a bs) (fun x => bind (lin_hash perm b bs) (fun y => Ok (x, y))).
Proof. apply (lin512_scalar poseidon_avx512 perm perm_len pair_inst). Qed.
Lemma element_matrix512 vals bs : hash_element_matrix512 poseidon_avx512 vals bs = hash_element_matrix perm vals bs.
Proof. apply (matrix512 poseidon_avx512 perm perm_len pair_inst). Qed.
Lemma tree512 workers buff w h : length buff = h * w -> merkelize512 poseidon_avx512 workers buff w h = merkelize perm workers buff w h.
Proof. apply (merkelize512_eq poseidon_avx512 perm perm_len pair_inst). Qed.
Lemma opening512 root mp idx vals : verify_group_proof512 poseidon_avx512 perm root mp idx vals = verify_group_proof perm root mp idx vals.
Proof. apply (verify512 poseidon_avx512 perm perm_len pair_inst). Qed.
End Inst.

Lemma tree512_exists : exists perm t, (forall i s, length (perm i s) = 12) /\
  merkelize512 poseidon_avx512 3 (map fof [1; 2; 3; 4; 5; 6]%Z) 2 3 = Ok t /\ merkelize perm 3 (map fof [1; 2; 3; 4; 5; 6]%Z) 2 3 = Ok t /\
  t_height t = 3.
Proof.
  destruct (merkelize_total gl_words gl_words_len 3 (map fof [1; 2; 3; 4; 5; 6]%Z) 2 3) as (t & E); [lia|lia|reflexivity|apply Nat.le_0_l|].
  exists gl_words, t. split; [exact gl_words_len|]. rewrite (tree512 gl_words gl_words_len poseidon_hash_inst) by reflexivity.
  split; [exact E|]. split; [exact E|].
  rewrite (merkelize_eq gl_words gl_words_len) in E; [|lia|lia|reflexivity|apply Nat.eqb_neq; vm_compute; reflexivity].
  apply (f_equal (fun x => match x with Ok y => t_height y | _ => 0 end)) in E. cbv beta iota in E. cbn [t_height] in E. congruence.
Qed.
