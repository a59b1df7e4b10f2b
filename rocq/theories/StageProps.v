(* The three first stages of the STARK prover and the whole prover. *)
From Verif Require Import Base GlModel FrField F3gModel Cubic F3gProof PolyModel Roots PolyProof FriMath CodegenModel CodegenProof
  InterpModel VerifierModel ImModel HashModel FftpModel BrProof FriModel FriProof PolsModel PolsProof ProverModel ParModel
  StarkMath StarkModel StarkRow StarkQuot StarkTop StarkDone StageModel StarkExtend StarkStages StarkPlain StarkToy StageToy.
From Verif Require TranscriptProof.
Open Scope nat_scope.
Open Scope list_scope.
Open Scope res_scope.

(* C72: a stage extends every column of its section to the larger shifted domain, makes the Merkle tree of the
   extended section, and absorbs its root; nothing else changes. The setup does the same to the constants. *)
Theorem C72_commitment : forall perm workers si sn s2 m result tr br, (forall i s, length (perm i s) = 12) ->
  workers <> 0 -> si_width si sn <= MAX_OPS -> 1 <= si_nbits si <= si_nbits_ext si -> si_nbits_ext si <= 24 ->
  length (m_sec m sn) = 2 ^ si_nbits si * si_width si sn -> Forall vbase (m_sec m sn) -> length (m_sec m s2) = 2 ^ si_nbits_ext si * si_width si sn ->
  Forall vbase result -> nice br -> TranscriptProof.wf tr ->
  exists m' out t r tr' br', commit_stage perm workers si sn s2 m result tr br = Ok (m', out, t, tr', br') /\
    (forall s, s <> s2 -> m_sec m' s = m_sec m s) /\ (forall pos dim, dim = 1 \/ dim = 3 -> pos + dim <= si_width si sn ->
      extends (si_nbits si) (si_nbits_ext si) (si_width si sn) (m_sec m sn) (m_sec m' s2) pos dim) /\
    (exists k, merkelize perm k (map c0 (m_sec m' s2)) (si_width si sn) (2 ^ si_nbits_ext si) = Ok t) /\ tree_root t = Ok r /\ put perm tr [r] = Ok tr'.
Proof. exact commit_extends. Qed.
Print Assumptions C72_commitment.
Theorem C72_setup : forall perm workers nb e ncon cp br, (forall i s, length (perm i s) = 12) -> workers <> 0 -> 1 <= nb <= e -> e <= 31 -> ncon <= MAX_OPS ->
  shaped cp -> 0 < nPols cp -> p_n cp = 2 ^ nb -> nPols cp = ncon -> nice br ->
  exists tc br' rc, setup_consts perm workers nb e ncon cp br = (Ok tc, br') /\ nice br' /\ tree_root tc = Ok rc /\
    merkelize perm workers (t_elements tc) ncon (2 ^ e) = Ok tc /\ length (t_elements tc) = 2 ^ e * ncon /\
    forall c, c < ncon -> exists P, length P = 2 ^ nb /\ (forall i, i < 2 ^ nb -> peval P (kpow (kroot nb) i) = kconst (cellv (p_array cp) c i)) /\
      (forall r, r < 2 ^ e -> kconst (nth (c + r * ncon) (t_elements tc) f0) = peval P (cpt e r)).
Proof. exact setup_extends. Qed.
Print Assumptions C72_setup.
Example C72_nonvacuous : (forall i s, length (ones i s) = 12) /\ 3 <> 0 /\ si_width g_si Scm1_n <= MAX_OPS /\ 1 <= si_nbits g_si <= si_nbits_ext g_si /\ si_nbits_ext g_si <= 24 /\
  length (m_sec g_m Scm1_n) = 2 ^ si_nbits g_si * si_width g_si Scm1_n /\ Forall vbase (m_sec g_m Scm1_n) /\ length (m_sec g_m Scm1_2ns) = 2 ^ si_nbits_ext g_si * si_width g_si Scm1_n /\
  Forall vbase [e_ZERO] /\ nice br_new /\ TranscriptProof.wf tr_new.
Proof. exact toy_commit. Qed.
Example C72_nonvacuous_setup : (forall i s, length (ones i s) = 12) /\ 3 <> 0 /\ 1 <= 1 <= 2 /\ 2 <= 31 /\ 1 <= MAX_OPS /\
  shaped g_cp /\ 0 < nPols g_cp /\ p_n g_cp = 2 ^ 1 /\ nPols g_cp = 1 /\ nice br_new.
Proof. exact toy_setup. Qed.

(* C73: if the three stages end, the trace they leave satisfies the identities and the intermediate columns are what
   they stand for, the verifier accepts the proof. On a machine whose columns are all in the committed table this
   holds of every table that satisfies the identities, from the tables alone. *)
Theorem C73_prover : forall perm, (forall i s, length (perm i s) = 12) -> forall fuel gfuel workers w0 si sg tbl ids ncm md ce pg cp kp tc br0 br m0 m t1 t2 t3 tr br' rest nq,
  workers <> 0 -> w0 <> 0 -> machine fuel gfuel si sg tbl ids ncm md ce pg -> inputs perm w0 si cp kp tc br0 br -> start_mem si cp kp tc = Ok m0 ->
  stages perm workers si sg m0 br = Ok (m, t1, t2, t3, tr, br') -> full si m Scm2_n -> full si m Scm3_n ->
  Forall F3gProof.wf (m_sec m Spublics) -> (si_qdim si = 1 -> Forall (fun v => d3 v = false) (m_sec m Spublics)) ->
  rows_ok si tbl ids ce (ncm + length (ce_im ce)) m -> chunks_ok si workers -> steps_ok (si_nbits_ext si) rest -> 0 < nq ->
  exists rc m4 t4 root4 xi tr4, tree_root tc = Ok rc /\ quotient_phase perm workers si pg m tr br' = Ok (m4, t4, root4, xi, tr4) /\
    ((forall r, r < 2 ^ si_nbits_ext si -> val xi <> cpt (si_nbits_ext si) r) ->
     exists p, stark_gen perm workers si sg pg (si_nbits_ext si :: rest) nq cp kp tc br = Ok p /\ sp_publics p = m_sec m Spublics /\
       stark_verify perm si pg (si_nbits_ext si :: rest) nq rc p = Ok true).
Proof. exact gen_complete. Qed.
Print Assumptions C73_prover.
Theorem C73_from_tables : forall perm fuel gfuel workers w0 si sg tbl ids ncm md ce pg cp kp tc br0 br rest nq, (forall i s, length (perm i s) = 12) -> workers <> 0 -> w0 <> 0 ->
  machine fuel gfuel si sg tbl ids ncm md ce pg -> inputs perm w0 si cp kp tc br0 br -> plain si sg ncm ce -> table_ok si sg tbl ids cp kp ->
  chunks_ok si workers -> steps_ok (si_nbits_ext si) rest -> 0 < nq ->
  exists rc m0 m t1 t2 t3 tr br' m4 t4 root4 xi tr4, tree_root tc = Ok rc /\ start_mem si cp kp tc = Ok m0 /\ stages perm workers si sg m0 br = Ok (m, t1, t2, t3, tr, br') /\
    quotient_phase perm workers si pg m tr br' = Ok (m4, t4, root4, xi, tr4) /\
    ((forall r, r < 2 ^ si_nbits_ext si -> val xi <> cpt (si_nbits_ext si) r) ->
     exists p, stark_gen perm workers si sg pg (si_nbits_ext si :: rest) nq cp kp tc br = Ok p /\ sp_publics p = map (pub_value cp) (st_publics sg) /\
       stark_verify perm si pg (si_nbits_ext si :: rest) nq rc p = Ok true).
Proof. exact plain_complete. Qed.
Print Assumptions C73_from_tables.
Example C73_nonvacuous : exists tc br rc p, machine 10 20 g_si g_sg t_tbl [0; 1; 2] 1 2 t_ce g_pg /\ inputs ones 3 g_si g_cp g_kp tc br_new br /\ plain g_si g_sg 1 t_ce /\
  table_ok g_si g_sg t_tbl [0; 1; 2] g_cp g_kp /\ chunks_ok g_si 2 /\ steps_ok (si_nbits_ext g_si) [1] /\
  tree_root tc = Ok rc /\ stark_gen ones 2 g_si g_sg g_pg [2; 1] 3 g_cp g_kp tc br = Ok p /\ sp_publics p = [e_from t_two] /\ stark_verify ones g_si g_pg [2; 1] 3 rc p = Ok true.
Proof. exact toy_gen. Qed.
