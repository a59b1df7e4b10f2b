(* The quotient, the evaluations and the proof of the STARK prover. *)
From Verif Require Import Base GlModel FrField F3gModel Cubic F3gProof ListAux PolyModel Roots PolyProof FriMath CodegenModel CodegenProof
  InterpModel VerifierModel ImModel HashModel FftpModel FftpProof BrProof FriModel FriProof ProverModel ParModel
  StarkMath StarkModel StarkRow StarkQuot StarkEval StarkTop StarkDone StarkToy.
Open Scope nat_scope.
Open Scope res_scope.

(* C69: the quotient Q on the shifted extended domain becomes deg columns, the p-th holding the coefficients
   p N .. p N + N - 1 of Q on that domain; the columns together are Q. *)
Theorem C69_quotient_columns : forall workers d deg e nb Sq cm4 Q br,
  0 < workers -> 1 <= e <= 31 -> nb <= e -> d = 1 \/ d = 3 -> 0 < deg -> deg * 2 ^ nb <= 2 ^ e ->
  length Sq = 2 ^ e * d -> length cm4 = 2 ^ e * (d * deg) -> Forall vbase Sq -> Forall vbase cm4 -> nice br -> length Q <= deg * 2 ^ nb ->
  (forall i, i < 2 ^ e -> val (elem Sq d 0 d i) = peval Q (cpt e i)) ->
  exists qq1 br1 qq2 cm4' br2, p_fft workers true Sq d e (repeat e_ZERO (length Sq)) br = (Ok qq1, br1) /\
    split_q d deg (2 ^ nb) (e_exp (e_inv (e_from SHIFT)) (Z.of_nat (2 ^ nb))) qq1 (repeat e_ZERO (d * 2 ^ e * deg)) = Ok qq2 /\
    p_fft workers false qq2 (d * deg) e cm4 br1 = (Ok cm4', br2) /\ nice br2 /\ length cm4' = 2 ^ e * (d * deg) /\ Forall vbase cm4' /\
    forall p r, p < deg -> r < 2 ^ e -> val (elem cm4' (d * deg) (d * p) d r) = peval (qpart (2 ^ nb) p Q) (cpt e r).
Proof. exact quotient_columns. Qed.
Print Assumptions C69_quotient_columns.
Theorem C69_parts_join : forall N q c x, length c <= q * N ->
  peval c x = ksum q (fun p => kmul (kpow (kpow x N) p) (peval (map (fun i => nth (p * N + i) c kzero) (seq 0 N)) x)).
Proof. exact split_eval. Qed.
Print Assumptions C69_parts_join.
Example C69_nonvacuous : exists Sq cm4 Q, length Q = 2 /\ Q <> [kzero; kzero] /\
  0 < 3 /\ 1 <= 2 <= 31 /\ 1 <= 2 /\ (1 = 1 \/ 1 = 3) /\ 0 < 2 /\ 2 * 2 ^ 1 <= 2 ^ 2 /\
  length Sq = 2 ^ 2 * 1 /\ length cm4 = 2 ^ 2 * (1 * 2) /\ Forall vbase Sq /\ Forall vbase cm4 /\ nice br_new /\ length Q <= 2 * 2 ^ 1 /\
  (forall i, i < 2 ^ 2 -> val (elem Sq 1 0 1 i) = peval Q (cpt 2 i)).
Proof. exact toy_quotient. Qed.

(* C70: the evaluations in the proof are those of the committed polynomials at the challenge point, or at
   the challenge point times the generator of the trace domain. *)
Theorem C70_evaluations : forall si m k buf off size dim P xi g,
  si_nbits si <= si_nbits_ext si -> si_nbits_ext si <= 31 -> MG (si_nbits si) = Ok g ->
  get_ev si m k = Ok (buf, off, size, dim) -> column (si_nbits_ext si) buf size off dim P -> length P = 2 ^ si_nbits si ->
  exists LEv LpEv v,
    ifft (F := opsE) (lev (2 ^ si_nbits si) (e_div xi (e_from SHIFT)) (e_from (fof 1))) = Ok LEv /\
    ifft (F := opsE) (lev (2 ^ si_nbits si) (e_div (e_mul xi (e_from g)) (e_from SHIFT)) (e_from (fof 1))) = Ok LpEv /\
    eval_at si m LEv LpEv k = Ok v /\
    val v = peval P (if snd (fst k) then kmul (val xi) (kconst g) else val xi).
Proof. exact evaluations. Qed.
Print Assumptions C70_evaluations.
Example C70_nonvacuous : exists buf P, si_nbits t_si <= si_nbits_ext t_si /\ si_nbits_ext t_si <= 31 /\ MG (si_nbits t_si) = Ok (root 1) /\
  get_ev t_si t_m (true, true, 0) = Ok (buf, 0, 1, 1) /\ column (si_nbits_ext t_si) buf 1 0 1 P /\ length P = 2 ^ si_nbits t_si /\ P = [kone; kneg kone].
Proof. exact toy_evaluations. Qed.

(* C71: a prover whose trace satisfies every identity, and whose intermediate columns are what they stand for,
   makes a proof that the verifier accepts. *)
Theorem C71_completeness : forall perm fuel gfuel workers si tbl ids ncm md ce pg m pcm pconst t1 t2 t3 tc r1 r2 r3 rc tr br rest nq,
  (forall i s, length (perm i s) = 12) ->
  stark_cfg fuel gfuel si tbl ids ncm md ce pg (length (m_sec m Spublics)) ->
  stark_mem si (ncm + length (ce_im ce)) pcm pconst m ->
  trace_ok si tbl ids ce (ncm + length (ce_im ce)) pcm pconst m ->
  workers <> 0 -> chunks_ok si workers -> si_width si Scm4_2ns / 8 <= MAX_OPS ->
  tree_of perm si m Scm1_2ns t1 r1 -> tree_of perm si m Scm2_2ns t2 r2 -> tree_of perm si m Scm3_2ns t3 r3 -> tree_of perm si m Sconst_2ns tc rc ->
  first_rounds perm (m_sec m Spublics) r1 r2 r3 (m_sec m Schallenge) tr -> nice br ->
  steps_ok (si_nbits_ext si) rest -> 0 < nq ->
  exists m4 t4 root4 xi tr4, quotient_phase perm workers si pg m tr br = Ok (m4, t4, root4, xi, tr4) /\
    ((forall r, r < 2 ^ si_nbits_ext si -> val xi <> cpt (si_nbits_ext si) r) ->
     exists p, stark_prove perm workers si pg (si_nbits_ext si :: rest) nq t1 t2 t3 tc m tr br = Ok p /\
       sp_publics p = m_sec m Spublics /\
       stark_verify perm si pg (si_nbits_ext si :: rest) nq rc p = Ok true).
Proof. exact stark_complete. Qed.
Print Assumptions C71_completeness.
Example C71_nonvacuous : exists t1 t2 t3 tc r1 r2 r3 rc tr,
  (forall i s, length (ones i s) = 12) /\
  stark_cfg 10 20 t_si t_tbl [0; 1; 2] 1 2 t_ce t_pg (length (m_sec t_m Spublics)) /\
  stark_mem t_si (1 + length (ce_im t_ce)) t_pcm t_pconst t_m /\
  trace_ok t_si t_tbl [0; 1; 2] t_ce (1 + length (ce_im t_ce)) t_pcm t_pconst t_m /\
  2 <> 0 /\ chunks_ok t_si 2 /\ si_width t_si Scm4_2ns / 8 <= MAX_OPS /\
  tree_of ones t_si t_m Scm1_2ns t1 r1 /\ tree_of ones t_si t_m Scm2_2ns t2 r2 /\ tree_of ones t_si t_m Scm3_2ns t3 r3 /\ tree_of ones t_si t_m Sconst_2ns tc rc /\
  first_rounds ones (m_sec t_m Spublics) r1 r2 r3 (m_sec t_m Schallenge) tr /\ nice br_new /\
  steps_ok (si_nbits_ext t_si) [1] /\ 0 < 3 /\
  exists p, stark_prove ones 2 t_si t_pg [2; 1] 3 t1 t2 t3 tc t_m tr br_new = Ok p /\ stark_verify ones t_si t_pg [2; 1] 3 rc p = Ok true.
Proof. exact toy_stark. Qed.
