(* Properties of the FRI prover and verifier. *)
From Verif Require Import Base GlModel FrField F3gModel Cubic F3gProof PolyModel Roots PolyProof FftProof FftTop
  HashModel TranscriptProof ToyHash FriModel FriMath FriProof.
Open Scope nat_scope.
Open Scope res_scope.

(* C26 *)
(* [coset s B p]: the values of p at s * w^i, i < 2^B; [kfold R M x p]: see C26_folding *)
Theorem C26_prover_verifier_agree : forall (first : bool) pol s B b p shift sinv x,
  b <= B -> B <= 31 -> (first = true -> b = B) -> length p = 2 ^ B ->
  map val pol = coset s B p -> Forall dim3 pol -> s <> kzero -> val shift = s -> kmul s (val sinv) = kone ->
  exists l, fold_layer first pol B b sinv x = Ok l /\ length l = 2 ^ b /\
    forall g, g < 2 ^ b -> exists v opened w,
      nth_error l g = Some v /\
      mapM (fun i => vget pol (i * 2 ^ b + g)) (seq 0 (2 ^ (B - b))) = Ok opened /\
      fold_check opened B g shift x = Ok w /\ e__eq w v = true /\
      val v = peval (kfold (2 ^ (B - b)) (2 ^ b) (val x) p) (kmul (kpow s (2 ^ (B - b))) (kpow (kroot b) g)).
Proof. exact fold_agree. Qed.
Print Assumptions C26_prover_verifier_agree.

Theorem C26_folding : forall R M p x, length p = M * R ->
  (forall y, peval p y = ksum R (fun j => kmul (kpow y j) (part R M p j (kpow y R)))) /\
  (forall z, peval (kfold R M x p) z = ksum R (fun j => kmul (kpow x j) (part R M p j z))).
Proof. exact kfold_spec. Qed.
Print Assumptions C26_folding.

(* four values folded to two *)
Example C26_nonvacuous :
  map val (toy_pol [3; 1; 4; 1]%Z) = coset K_shift 2 (map (fun c => val (e_new (fof c) (fof (c * c)) f0)) [3; 1; 4; 1]%Z) /\
  forallb d3 (toy_pol [3; 1; 4; 1]%Z) = true /\
  match fold_layer false (toy_pol [3; 1; 4; 1]%Z) 2 1 (e_from SHIFT_INV) (e_new (fof 7) (fof 8) (fof 9)) with
  | Ok l => length l = 2 /\ nth_error l 0 <> nth_error l 1 | _ => False end.
Proof.
  split; [vm_compute; reflexivity|]. split; [vm_compute; reflexivity|].
  vm_compute. split; [reflexivity|discriminate].
Qed.

(* C27 *)
(* The bound is inclusive: one coefficient more than the property allows. *)
Theorem C27_final_degree_partial : forall perm check_query b0 md nq steps t pf k, k <= 31 -> length (fp_last pf) = 2 ^ k ->
  fri_verify perm check_query b0 md nq steps t pf = Ok true ->
  exists p, length p = 2 ^ k /\ (forall i, i < 2 ^ k -> val (nth i (fp_last pf) e_ZERO) = peval p (kpow (kroot k) i)) /\
    forall i, (if last steps b0 <? b0 - md then 0 else 2 ^ (last steps b0 - (b0 - md))) < i -> nth i p kzero = kzero.
Proof. exact accepted_degree. Qed.
Print Assumptions C27_final_degree_partial.

(* the polynomial X^(2^md), whose degree is not below 2^md, has an accepted proof *)
Theorem C27_off_by_one_refuted : forall perm, (forall i s, length (perm i s) = 12) ->
  forall check_query query_pol workers b0 rest md nq t,
  workers <> 0 -> b0 <= 31 -> steps_ok b0 rest -> 0 < nq * b0 -> md < b0 -> b0 - md <= last rest b0 -> TranscriptProof.wf t ->
  exists p, length p = 2 ^ b0 /\ nth (2 ^ md) p kzero = kone /\
    forall pol, map val pol = coset K_shift b0 p -> Forall dim3 pol ->
      (forall y, y < 2 ^ b0 -> check_query (query_pol y) y = Ok [nth y pol e_ZERO]) ->
      exists pf t', fri_prove perm workers b0 nq (b0 :: rest) t pol query_pol = Ok (pf, t') /\
        fri_verify perm check_query b0 md nq (b0 :: rest) t pf = Ok true.
Proof. exact degree_off_by_one. Qed.
Print Assumptions C27_off_by_one_refuted.

(* degree below 2 intended: 1 + 2X + 3X^2 is accepted; with the bound 1 for four coefficients it is not *)
Example C27_nonvacuous : steps_ok 2 [1] /\ 2 - 1 <= last [1] 2 /\
  toy_verify 1 [1; 2; 1; 2]%Z = Ok true /\ toy_verify 1 [1; 2; 3; 4]%Z = Ok false.
Proof.
  split; [exact steps_2_1|]. split; [cbn; lia|].
  split; vm_compute; reflexivity.
Qed.

(* C48 *)
(* every query equals the one without openings, and paths may differ by a suffix *)
Theorem C48_no_openings_refuted : forall a, query_eqb a (mkQ [] (q_root a)) = true /\ query_eqb (mkQ [] (q_root a)) a = true.
Proof. exact query_eq_empty. Qed.
Print Assumptions C48_no_openings_refuted.

Theorem C48_longer_path_refuted : forall r v mp root, query_eqb (mkQ [[(v, mp)]] root) (mkQ [[(v, mp ++ r)]] root) = true.
Proof. exact query_eq_path. Qed.
Print Assumptions C48_longer_path_refuted.

Theorem C48_same_shape_partial : forall a b, same_lengths a b -> query_eqb a b = true -> a = b.
Proof. exact query_eq_same. Qed.
Print Assumptions C48_same_shape_partial.

Theorem C48_reflexive : forall a, query_eqb a a = true.
Proof. exact query_eq_refl. Qed.
Print Assumptions C48_reflexive.

Example C48_nonvacuous :
  let a := mkQ [[([f1], [[f1; f0]])]] [f1] in let b := mkQ [[([f1], [[f1; f1]])]] [f1] in
  same_lengths a b /\ query_eqb a b = false /\ query_eqb a (mkQ [[([f1], [[f1]; [f0]])]] [f1]) = true.
Proof. cbv zeta. split; [repeat constructor|]. split; vm_compute; reflexivity. Qed.

(* C63 *)
Theorem C63_honest_proofs_accepted : forall perm, (forall i s, length (perm i s) = 12) ->
  forall check_query query_pol workers b0 rest md nq t pol p,
  workers <> 0 -> b0 <= 31 -> steps_ok b0 rest -> 0 < nq * b0 -> md <= b0 -> TranscriptProof.wf t ->
  map val pol = coset K_shift b0 p -> length p = 2 ^ b0 -> Forall dim3 pol ->
  (forall y, y < 2 ^ b0 -> check_query (query_pol y) y = Ok [nth y pol e_ZERO]) ->
  (forall i, 2 ^ md <= i -> nth i p kzero = kzero) ->
  exists pf t', fri_prove perm workers b0 nq (b0 :: rest) t pol query_pol = Ok (pf, t') /\
    fri_verify perm check_query b0 md nq (b0 :: rest) t pf = Ok true.
Proof. exact complete_fri. Qed.
Print Assumptions C63_honest_proofs_accepted.

Example C63_nonvacuous : (forall i s, length (mix i s) = 12) /\ steps_ok 2 [1] /\ TranscriptProof.wf tr_new /\
  map val (toy_pol [5; 6]%Z) = coset K_shift 2 (map (fun c => val (e_new (fof c) (fof (c * c)) f0)) [5; 6; 0; 0]%Z) /\
  Forall dim3 (toy_pol [5; 6]%Z) /\
  (forall y, y < 2 ^ 2 -> toy_check (toy_open (toy_pol [5; 6]%Z) y) y = Ok [nth y (toy_pol [5; 6]%Z) e_ZERO]).
Proof.
  split; [exact mix_len|]. split; [exact steps_2_1|]. split; [exact new_wf|]. split; [vm_compute; reflexivity|].
  assert (D : Forall dim3 (toy_pol [5; 6]%Z)) by (repeat constructor; vm_compute; reflexivity).
  split; [exact D|]. exact (toy_opens _ D).
Qed.
