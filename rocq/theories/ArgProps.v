(* The lookup, permutation and connection arguments. *)
From Coq Require Import Permutation.
From Verif Require Import Base GlModel FrField F3gModel Cubic F3gProof PolyModel Roots ProverModel ProverProof CodegenModel CodegenProof StarkMath
  ArgModel ArgMath ArgSound ArgRows ArgGen ArgTop ArgToy.
Open Scope nat_scope.
Open Scope list_scope.
Open Scope res_scope.

(* C76: the constraints generated for a lookup, on a trace of n rows with rows F to be looked up in T, selected by
   sF and sT. If they can be satisfied for enough values of the challenges u, defVal, beta and gamma (h1 and h2 may
   depend on u and defVal, z on all of them), then every selected row of F is a selected row of T. *)
Theorem C76_lookup_sound : forall fl l1 s ls s2 pu code2 ps cs out, generate_step2 fl s ls = Ok (s2, pu, code2) -> generate_step3 fl l1 s2 pu ps cs = Ok out ->
  forall k pi, nth_error ls k = Some pi -> exists q, nth_error (o_pu out) k = Some q /\
    forall tbl n m w F T sF sT, pre (a_exps (o_state out)) tbl ->
      (forall i, i < n -> length (F i) = m /\ length (T i) = m /\ bit (sF i) /\ bit (sT i)) ->
      many (n * n * (m - 1)) (fun u => many n (fun d => exists h1 h2, many (1 + 4 * n * n) (fun b => many (2 * n) (fun g =>
        lookup_passes l1 pi q tbl n w F T sF sT u d h1 h2 b g)))) ->
      forall i, i < n -> sF i = kone -> exists j, j < n /\ sT j = kone /\ T j = F i.
Proof. exact lookup_secure. Qed.
Print Assumptions C76_lookup_sound.
Example C76_nonvacuous : generate_step2 20 ay_s [ay_look] = Ok (ay_s2, ay_pu, ay_code) /\ generate_step3 20 (Some 0) ay_s2 ay_pu [ay_perm] [ay_conn] = Ok ay_out /\
  o_pu ay_out = [ay_q1] /\ (forall i, i < 2 -> length (ay_F i) = 2 /\ length (ay_T i) = 2 /\ bit (ay_one i) /\ bit (ay_one i)) /\
  many (2 * 2 * (2 - 1)) (fun u => many 2 (fun d => exists h1 h2, many (1 + 4 * 2 * 2) (fun b => many (2 * 2) (fun g =>
    lookup_passes (Some 0) ay_look ay_q1 ay_tbl 2 ay_w ay_F ay_T ay_one ay_one u d h1 h2 b g)))).
Proof. exact (conj (proj1 ay_run) (conj (proj2 ay_run) (conj (proj1 ay_qs) (conj ay_lookup_shape ay_lookup_many)))). Qed.
(* An honest prover computes f, t, num and den from the generated expressions, h1 and h2 with calculate_H1H2 and z with
   calculate_Z. The last succeeds unless a denominator is zero, and then both constraints hold in every row. *)
Theorem C76_lookup_complete : forall fl l1 s ls s2 pu code2 ps cs out, generate_step2 fl s ls = Ok (s2, pu, code2) -> generate_step3 fl l1 s2 pu ps cs = Ok out ->
  forall k pi, nth_error ls k = Some pi -> exists q, nth_error (o_pu out) k = Some q /\
    forall tbl n w ch rho F T sF sT, pre (a_exps (o_state out)) tbl -> lookup_trace l1 pi tbl n w ch rho F T sF sT ->
    forall f t h1 h2 num den : list F3G, length f = n -> length t = n -> length num = n -> length den = n ->
      (forall i, i < n -> va tbl (rho i) false (E_exp (q_f q) false) (val (nth i f e_ZERO)) /\ va tbl (rho i) false (E_exp (q_t q) false) (val (nth i t e_ZERO)) /\
        va tbl (rho i) false (E_exp (q_num q) false) (val (nth i num e_ZERO)) /\ va tbl (rho i) false (E_exp (q_den q) false) (val (nth i den e_ZERO)) /\
        cmcol rho (q_h1 q) i = val (nth i h1 e_ZERO) /\ cmcol rho (q_h2 q) i = val (nth i h2 e_ZERO)) ->
      calculate_H1H2 f t = Ok (h1, h2) ->
      ((exists z, calculate_Z num den = Ok z) <-> (forall i, i < n -> val (nth i den e_ZERO) <> kzero)) /\
      forall z, calculate_Z num den = Ok z -> (forall i, i < n -> cmcol rho (q_z q) i = val (nth i z e_ZERO)) ->
        vanishes tbl rho n (q_c1 q) /\ vanishes tbl rho n (q_c2 q).
Proof. exact lookup_honest. Qed.
Print Assumptions C76_lookup_complete.
Example C76_nonvacuous_complete : lookup_trace (Some 0) ay_look ay_tbl 2 ay_w (ay_ch ay_5 ay_5 ay_5 ay_5) ay_r5 ay_F ay_T ay_one ay_one /\
  exists f t h1 h2 num den : list F3G, length f = 2 /\ length t = 2 /\ length num = 2 /\ length den = 2 /\
  (forall i, i < 2 -> va ay_tbl (ay_r5 i) false (E_exp (q_f ay_q1) false) (val (nth i f e_ZERO)) /\ va ay_tbl (ay_r5 i) false (E_exp (q_t ay_q1) false) (val (nth i t e_ZERO)) /\
    va ay_tbl (ay_r5 i) false (E_exp (q_num ay_q1) false) (val (nth i num e_ZERO)) /\ va ay_tbl (ay_r5 i) false (E_exp (q_den ay_q1) false) (val (nth i den e_ZERO)) /\
    cmcol ay_r5 (q_h1 ay_q1) i = val (nth i h1 e_ZERO) /\ cmcol ay_r5 (q_h2 ay_q1) i = val (nth i h2 e_ZERO)) /\
  calculate_H1H2 f t = Ok (h1, h2).
Proof. exact (conj (ay_lookup_trace ay_5 ay_5 ay_5 ay_5) ay_lookup_honest). Qed.
(* Both constraints are among the identities, and the columns added for all arguments are new and distinct. *)
Theorem C76_columns : forall fl l1 s ls s2 pu code2 ps cs out, generate_step2 fl s ls = Ok (s2, pu, code2) -> generate_step3 fl l1 s2 pu ps cs = Ok out ->
  length (o_pu out) = length ls /\ length (o_pe out) = length ps /\ length (o_ci out) = length cs /\
  (forall q, In q (o_pu out ++ o_pe out ++ o_ci out) -> In (q_c1 q) (a_ids (o_state out)) /\ In (q_c2 q) (a_ids (o_state out))) /\
  pre (a_exps s) (a_exps (o_state out)) /\ pre (a_ids s) (a_ids (o_state out)) /\
  flat_map (fun q => [q_h1 q; q_h2 q]) (o_pu out) ++ map q_z (o_pu out ++ o_pe out ++ o_ci out) = seq (a_ncm s) (3 * length ls + length ps + length cs).
Proof. exact columns. Qed.
Print Assumptions C76_columns.
Example C76_nonvacuous_columns : generate_step2 20 ay_s [ay_look] = Ok (ay_s2, ay_pu, ay_code) /\ generate_step3 20 (Some 0) ay_s2 ay_pu [ay_perm] [ay_conn] = Ok ay_out.
Proof. exact ay_run. Qed.

(* C77: the constraints generated for a permutation. If they can be satisfied for enough values of the challenges u,
   defVal and beta, the selected rows of F are a rearrangement of the selected rows of T. *)
Theorem C77_permutation_sound : forall fl l1 s ls s2 pu code2 ps cs out, generate_step2 fl s ls = Ok (s2, pu, code2) -> generate_step3 fl l1 s2 pu ps cs = Ok out ->
  forall k pi, nth_error ps k = Some pi -> exists q, nth_error (o_pe out) k = Some q /\
    forall tbl n m w F T sF sT, pre (a_exps (o_state out)) tbl ->
      (forall i, i < n -> length (F i) = m /\ length (T i) = m /\ bit (sF i) /\ bit (sT i)) ->
      many (n * n * (m - 1)) (fun u => many (2 * n) (fun d => many n (fun b => perm_passes l1 pi q tbl n w F T sF sT u d b))) ->
      Permutation (map F (filter (fun i => isone (sF i)) (seq 0 n))) (map T (filter (fun i => isone (sT i)) (seq 0 n))).
Proof. exact perm_secure. Qed.
Print Assumptions C77_permutation_sound.
Example C77_nonvacuous : generate_step2 20 ay_s [ay_look] = Ok (ay_s2, ay_pu, ay_code) /\ generate_step3 20 (Some 0) ay_s2 ay_pu [ay_perm] [ay_conn] = Ok ay_out /\
  o_pe ay_out = [ay_q2] /\ (forall i, i < 2 -> length (ay_T i) = 2 /\ length (ay_R i) = 2 /\ bit (ay_one i) /\ bit (ay_one i)) /\
  many (2 * 2 * (2 - 1)) (fun u => many (2 * 2) (fun d => many 2 (fun b =>
    perm_passes (Some 0) ay_perm ay_q2 ay_tbl 2 ay_w ay_T ay_R ay_one ay_one u d b))).
Proof. exact (conj (proj1 ay_run) (conj (proj2 ay_run) (conj (proj1 (proj2 ay_qs)) (conj ay_perm_shape ay_perm_many)))). Qed.
Theorem C77_permutation_complete : forall fl l1 s ls s2 pu code2 ps cs out, generate_step2 fl s ls = Ok (s2, pu, code2) -> generate_step3 fl l1 s2 pu ps cs = Ok out ->
  forall k pi, nth_error ps k = Some pi -> exists q, nth_error (o_pe out) k = Some q /\
    forall tbl n w ch rho F T sF sT, pre (a_exps (o_state out)) tbl -> perm_trace l1 pi tbl n w ch rho F T sF sT ->
      (forall i, i < n -> bit (sF i) /\ bit (sT i)) ->
      Permutation (map F (filter (fun i => isone (sF i)) (seq 0 n))) (map T (filter (fun i => isone (sT i)) (seq 0 n))) ->
    forall num den : list F3G, length num = n -> length den = n ->
      (forall i, i < n -> va tbl (rho i) false (E_exp (q_num q) false) (val (nth i num e_ZERO)) /\ va tbl (rho i) false (E_exp (q_den q) false) (val (nth i den e_ZERO))) ->
      ((exists z, calculate_Z num den = Ok z) <-> (forall i, i < n -> val (nth i den e_ZERO) <> kzero)) /\
      forall z, calculate_Z num den = Ok z -> (forall i, i < n -> cmcol rho (q_z q) i = val (nth i z e_ZERO)) ->
        vanishes tbl rho n (q_c1 q) /\ vanishes tbl rho n (q_c2 q).
Proof. exact perm_honest. Qed.
Print Assumptions C77_permutation_complete.
Example C77_nonvacuous_complete : perm_trace (Some 0) ay_perm ay_tbl 2 ay_w (ay_ch ay_5 ay_5 ay_5 ay_5) ay_r5 ay_T ay_R ay_one ay_one /\
  (forall i, i < 2 -> bit (ay_one i) /\ bit (ay_one i)) /\
  Permutation (map ay_T (filter (fun i => isone (ay_one i)) (seq 0 2))) (map ay_R (filter (fun i => isone (ay_one i)) (seq 0 2))) /\
  exists num den : list F3G, length num = 2 /\ length den = 2 /\
  (forall i, i < 2 -> va ay_tbl (ay_r5 i) false (E_exp (q_num ay_q2) false) (val (nth i num e_ZERO)) /\ va ay_tbl (ay_r5 i) false (E_exp (q_den ay_q2) false) (val (nth i den e_ZERO))).
Proof. exact (conj (ay_perm_trace ay_5 ay_5 ay_5 ay_5) ay_perm_honest). Qed.

(* C78: the constraints generated for a connection of kc columns p with label columns con. If they can be satisfied for
   enough values of beta and gamma, a cell labelled with the label of another cell holds the value of that cell. *)
Theorem C78_connection_sound_partial : forall fl l1 s ls s2 pu code2 ps cs out, generate_step2 fl s ls = Ok (s2, pu, code2) -> generate_step3 fl l1 s2 pu ps cs = Ok out ->
  forall k ci, nth_error cs k = Some ci -> exists q, nth_error (o_ci out) k = Some q /\
    forall tbl e kc p con, pre (a_exps (o_state out)) tbl -> e <= 32 -> (Z.of_nat kc <= 4294967295)%Z ->
      let n := 2 ^ e in let w := kconst (root e) in
      many (n * kc * (n * kc)) (fun b => many (n * kc) (fun g => conn_passes l1 ci q tbl n kc w p con b g)) ->
      forall c d i j, c < kc -> d < kc -> i < n -> j < n -> con c i = lbl w d j -> p c i = p d j.
Proof. exact conn_secure. Qed.
Print Assumptions C78_connection_sound_partial.
Example C78_nonvacuous : generate_step2 20 ay_s [ay_look] = Ok (ay_s2, ay_pu, ay_code) /\ generate_step3 20 (Some 0) ay_s2 ay_pu [ay_perm] [ay_conn] = Ok ay_out /\
  o_ci ay_out = [ay_q3] /\
  many (2 * 2 * (2 * 2)) (fun b => many (2 * 2) (fun g => conn_passes (Some 0) ay_conn ay_q3 ay_tbl 2 2 ay_w ay_p ay_con b g)) /\
  ay_con 0 1 = lbl ay_w 1 1.
Proof. exact (conj (proj1 ay_run) (conj (proj2 ay_run) (conj (proj2 (proj2 ay_qs)) (conj ay_conn_many eq_refl)))). Qed.
Theorem C78_connection_complete_partial : forall fl l1 s ls s2 pu code2 ps cs out, generate_step2 fl s ls = Ok (s2, pu, code2) -> generate_step3 fl l1 s2 pu ps cs = Ok out ->
  forall k ci, nth_error cs k = Some ci -> exists q, nth_error (o_ci out) k = Some q /\
    forall tbl n kc w ch rho p con (sg : nat * nat -> nat * nat), pre (a_exps (o_state out)) tbl -> conn_trace l1 ci tbl n kc w ch rho p con ->
      (forall x, fst x < kc /\ snd x < n -> fst (sg x) < kc /\ snd (sg x) < n) ->
      (forall x y, fst x < kc /\ snd x < n -> fst y < kc /\ snd y < n -> sg x = sg y -> x = y) ->
      (forall c i, c < kc -> i < n -> con c i = lbl w (fst (sg (c, i))) (snd (sg (c, i))) /\ p c i = p (fst (sg (c, i))) (snd (sg (c, i)))) ->
    forall num den : list F3G, length num = n -> length den = n ->
      (forall i, i < n -> va tbl (rho i) false (E_exp (q_num q) false) (val (nth i num e_ZERO)) /\ va tbl (rho i) false (E_exp (q_den q) false) (val (nth i den e_ZERO))) ->
      ((exists z, calculate_Z num den = Ok z) <-> (forall i, i < n -> val (nth i den e_ZERO) <> kzero)) /\
      forall z, calculate_Z num den = Ok z -> (forall i, i < n -> cmcol rho (q_z q) i = val (nth i z e_ZERO)) ->
        vanishes tbl rho n (q_c1 q) /\ vanishes tbl rho n (q_c2 q).
Proof. exact conn_honest. Qed.
Print Assumptions C78_connection_complete_partial.
Example C78_nonvacuous_complete : conn_trace (Some 0) ay_conn ay_tbl 2 2 ay_w (ay_ch ay_5 ay_5 ay_5 ay_5) ay_r5 ay_p ay_con /\
  (forall x, fst x < 2 /\ snd x < 2 -> fst (ay_sg x) < 2 /\ snd (ay_sg x) < 2) /\
  (forall x y, fst x < 2 /\ snd x < 2 -> fst y < 2 /\ snd y < 2 -> ay_sg x = ay_sg y -> x = y) /\
  (forall c i, c < 2 -> i < 2 -> ay_con c i = lbl ay_w (fst (ay_sg (c, i))) (snd (ay_sg (c, i))) /\ ay_p c i = ay_p (fst (ay_sg (c, i))) (snd (ay_sg (c, i)))) /\
  exists num den : list F3G, length num = 2 /\ length den = 2 /\
  (forall i, i < 2 -> va ay_tbl (ay_r5 i) false (E_exp (q_num ay_q3) false) (val (nth i num e_ZERO)) /\ va ay_tbl (ay_r5 i) false (E_exp (q_den ay_q3) false) (val (nth i den e_ZERO))).
Proof. exact (conj (ay_conn_trace ay_5 ay_5 ay_5 ay_5) ay_conn_honest). Qed.
(* A connection of a single column cannot be generated: get_ks is called with 0 and panics. *)
Theorem C78_refuted : forall fl l1 s p c, conn_z_one fl l1 s (mkCI (Some [p]) (Some [c])) = Panic.
Proof. exact conn_single. Qed.
Print Assumptions C78_refuted.
