(* Property C67: the AVX-512 linear hash and Merkle tree are the scalar ones.
   [perm] is any word function that gives the scalar Poseidon of the source; PosProps.C65_hash_layer
   shows there is one. *)
From Verif Require Import Base FrField HashModel PosConst PosTables Hash512Model Hash512Inst.
Open Scope nat_scope.

(* two rows of one length, hashed together, are hashed as the scalar code hashes each of them *)
Theorem C67_linear_hash : forall perm, (forall i s, length (perm i s) = 12) ->
  (forall inp init out, out <= 12 -> poseidon_hash perm inp init out = poseidon_gl inp init out) ->
  forall a b batch, length a = length b ->
  lin512 poseidon_avx512 (a ++ b) batch = bind (lin_hash perm a batch) (fun x => bind (lin_hash perm b batch) (fun y => Ok (x, y))).
Proof. exact linear512. Qed.
Print Assumptions C67_linear_hash.

Theorem C67_element_matrix : forall perm, (forall i s, length (perm i s) = 12) ->
  (forall inp init out, out <= 12 -> poseidon_hash perm inp init out = poseidon_gl inp init out) ->
  forall vals batch, hash_element_matrix512 poseidon_avx512 vals batch = hash_element_matrix perm vals batch.
Proof. exact element_matrix512. Qed.
Print Assumptions C67_element_matrix.

(* the trees are equal node by node, for every number of threads, also where the scalar code fails *)
Theorem C67_merkle_tree : forall perm, (forall i s, length (perm i s) = 12) ->
  (forall inp init out, out <= 12 -> poseidon_hash perm inp init out = poseidon_gl inp init out) ->
  forall workers buff w h, length buff = h * w ->
  merkelize512 poseidon_avx512 workers buff w h = merkelize perm workers buff w h.
Proof. exact tree512. Qed.
Print Assumptions C67_merkle_tree.

Theorem C67_openings : forall perm, (forall i s, length (perm i s) = 12) ->
  (forall inp init out, out <= 12 -> poseidon_hash perm inp init out = poseidon_gl inp init out) ->
  forall root mp idx vals, verify_group_proof512 poseidon_avx512 perm root mp idx vals = verify_group_proof perm root mp idx vals.
Proof. exact opening512. Qed.
Print Assumptions C67_openings.

Example C67_nonvacuous : exists perm t, (forall i s, length (perm i s) = 12) /\
  merkelize512 poseidon_avx512 3 (map fof [1; 2; 3; 4; 5; 6]%Z) 2 3 = Ok t /\ merkelize perm 3 (map fof [1; 2; 3; 4; 5; 6]%Z) 2 3 = Ok t /\
  t_height t = 3.
Proof. exact tree512_exists. Qed.
