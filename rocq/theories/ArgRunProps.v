(* The whole prover with lookups, permutations, connections and intermediate columns. *)
From Verif Require Import Base GlModel FrField F3gModel Cubic F3gProof PolyModel FriMath CodegenModel CodegenProof
  InterpModel VerifierModel ImModel HashModel FftpModel FriModel PolsModel ProverModel ParModel StarkMath StarkModel StarkGen StarkQuot StarkEval StarkTop FriProof FftpProof BrProof ParProof ProverProof StarkDone StarkToy StageModel StarkExtend StarkStages StarkPlain
  StageToy NTop ArgStages ArgRunToy.
Open Scope nat_scope.
Open Scope list_scope.

(* C80: after the three stages of the prover every identity holds in every row, those of the arguments included, and every intermediate
   column is its expression, provided the committed table satisfies the identities that do not belong to an argument *)
Theorem C80_stages_satisfy_identities : forall perm : list Fr -> list Fr -> list Fr, (forall i s, length (perm i s) = 12) ->
  forall fuel gfuel workers w0 si sg tbl ids ncm md ce pg cp kp tc br0 br texp td2 td3 td4 fl ids2 ids3 ids4 s2 s3 s4 c2 c3 c4 R2 R3 R4 RA RT pids l1 zp ac,
  workers <> 0 -> w0 <> 0 -> machine fuel gfuel si sg tbl ids ncm md ce pg -> inputs perm w0 si cp kp tc br0 br ->
  argmachine si sg tbl ids ce texp td2 td3 td4 fl ids2 ids3 ids4 s2 s3 s4 c2 c3 c4 R2 R3 R4 RA RT pids l1 zp ac -> table_ok si sg tbl pids cp kp -> first_row_column si sg kp l1 ->
  forall m0 m t1 t2 t3 tr br', start_mem si cp kp tc = Ok m0 -> stages perm workers si sg m0 br = Ok (m, t1, t2, t3, tr, br') ->
  full si m Scm2_n /\ full si m Scm3_n /\ m_sec m Spublics = map (pub_value cp) (st_publics sg) /\ rows_ok si tbl ids ce (ncm + length (ce_im ce)) m.
Proof. exact arg_stages. Qed.
Print Assumptions C80_stages_satisfy_identities.

(* so a proof that the prover returns is accepted, with the publics of the table, unless the challenge point lies on the extended domain *)
Theorem C80_returned_proofs_verify : forall (perm : list Fr -> list Fr -> list Fr)
  fuel gfuel workers w0 si sg tbl ids ncm md ce pg cp kp tc br0 br texp td2 td3 td4 fl ids2 ids3 ids4 s2 s3 s4 c2 c3 c4 R2 R3 R4 RA RT pids l1 zp ac rest nq p,
  (forall i s, length (perm i s) = 12) -> workers <> 0 -> w0 <> 0 -> machine fuel gfuel si sg tbl ids ncm md ce pg -> inputs perm w0 si cp kp tc br0 br ->
  argmachine si sg tbl ids ce texp td2 td3 td4 fl ids2 ids3 ids4 s2 s3 s4 c2 c3 c4 R2 R3 R4 RA RT pids l1 zp ac -> table_ok si sg tbl pids cp kp -> first_row_column si sg kp l1 ->
  chunks_ok si workers -> steps_ok (si_nbits_ext si) rest -> 0 < nq -> stark_gen perm workers si sg pg (si_nbits_ext si :: rest) nq cp kp tc br = Ok p ->
  exists rc m0 m t1 t2 t3 tr br' m4 t4 root4 xi tr4, tree_root tc = Ok rc /\ start_mem si cp kp tc = Ok m0 /\ stages perm workers si sg m0 br = Ok (m, t1, t2, t3, tr, br') /\
    quotient_phase perm workers si pg m tr br' = Ok (m4, t4, root4, xi, tr4) /\
    ((forall r, r < 2 ^ si_nbits_ext si -> val xi <> cpt (si_nbits_ext si) r) ->
      sp_publics p = map (pub_value cp) (st_publics sg) /\ stark_verify perm si pg (si_nbits_ext si :: rest) nq rc p = Ok true).
Proof. exact returned_verifies. Qed.
Print Assumptions C80_returned_proofs_verify.

(* a machine with a lookup whose numerator and denominator are intermediate columns: the prover returns a proof and it is accepted *)
Example C80_nonvacuous : exists tc br m0 m t1 t2 t3 tr br' rc p, machine 40 40 h_si h_sg h_tbl h_ids 4 2 h_ce h_pg /\ inputs ones 3 h_si h_cp h_kp tc br_new br /\
  argmachine h_si h_sg h_tbl h_ids h_ce h_texp (fun _ => true) (fun _ => true) (fun _ => true) 40 [1; 0] [2; 3] [2; 3] 0 0 0 h_c2 h_c3 h_c3 h_R2 h_R3 h_R3 h_RA h_RT [6] 0 (fun _ => 0) (fun _ => (4, 5)) /\
  table_ok h_si h_sg h_tbl [6] h_cp h_kp /\ first_row_column h_si h_sg h_kp 0 /\ start_mem h_si h_cp h_kp tc = Ok m0 /\ stages ones 2 h_si h_sg m0 br = Ok (m, t1, t2, t3, tr, br') /\
  chunks_ok h_si 2 /\ steps_ok (si_nbits_ext h_si) [1] /\
  tree_root tc = Ok rc /\ stark_gen ones 2 h_si h_sg h_pg [2; 1] 3 h_cp h_kp tc br = Ok p /\ sp_publics p = [e_from t_two] /\ stark_verify ones h_si h_pg [2; 1] 3 rc p = Ok true.
Proof. exact toy_arg. Qed.
