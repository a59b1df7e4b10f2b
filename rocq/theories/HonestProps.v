(* When the prover of a machine with lookups, permutations and connections ends. *)
From Verif Require Import Base GlModel FrField F3gModel Cubic F3gProof PolyModel Roots StarkSrc HashModel CodegenModel InterpModel FftpModel FftpBase BrProof FriModel FriProof PolsModel PolsProof ProverModel ProverProof VerifierModel
  StarkMath StarkModel StarkGen StarkQuot StarkStep4 StarkTop StarkDone StageModel StarkExtend StarkStages StarkPlain StarkToy StageToy NStep NGen NTop ZStage ArgStages ArgRunToy MapModel ArgHonest MixToy.
From Verif Require ArgModel ArgGen.
Open Scope nat_scope.
Open Scope list_scope.
Open Scope res_scope.

(* C82: a table that satisfies the identities that are not of an argument. The first stage always ends. The second ends exactly if in every
   lookup each value of f is a value of t. The third ends exactly if in every argument no denominator is zero and numerators and denominators
   have the same product. Then a proof is returned and accepted, unless the challenge point lies on the extended domain. *)
Theorem C82_honest_prover_ends_partial : forall perm : list Fr -> list Fr -> list Fr, (forall i s, length (perm i s) = 12) ->
  forall fuel gfuel workers w0 si sg tbl ids ncm md ce pg cp kp tc br0 br texp td2 td3 td4 fl ids2 ids3 ids4 s2 s3 s4 c2 c3 c4 R2 R3 R4 RA RT pids l1 zp ac,
  workers <> 0 -> w0 <> 0 -> machine fuel gfuel si sg tbl ids ncm md ce pg -> inputs perm w0 si cp kp tc br0 br ->
  argmachine si sg tbl ids ce texp td2 td3 td4 fl ids2 ids3 ids4 s2 s3 s4 c2 c3 c4 R2 R3 R4 RA RT pids l1 zp ac -> argends si sg ce texp ids2 ->
  forall rest nq, (forall pu, In pu (st_pu sg) -> same_dims si ce texp pu) -> table_ok si sg tbl pids cp kp -> first_row_column si sg kp l1 ->
  chunks_ok si workers -> steps_ok (si_nbits_ext si) rest -> 0 < nq ->
  exists m0 ma ra t1 tra bra, start_mem si cp kp tc = Ok m0 /\ stage1 perm workers si sg m0 br = Ok (ma, ra, t1, tra, bra) /\
    ((exists x, stage2 perm workers si sg ma ra tra bra = Ok x) <-> forall pu, In pu (st_pu sg) ->
       forall i, i < 2 ^ si_nbits si -> exists j x, j < 2 ^ si_nbits si /\
         ArgGen.va tbl (row_of si ma i) false (E_exp (pc_f pu) false) x /\ ArgGen.va tbl (row_of si ma j) false (E_exp (pc_t pu) false) x) /\
    forall mb k rb t2 trb brb, stage2 perm workers si sg ma ra tra bra = Ok (mb, k, rb, t2, trb, brb) ->
      ((exists x, stage3 perm workers si sg mb k rb trb brb = Ok x) <-> forall o, In o (st_pu sg ++ st_pe sg ++ st_ci sg) -> exists a d : nat -> K,
         (forall i, i < 2 ^ si_nbits si -> ArgGen.va tbl (row_of si mb i) false (E_exp (pc_num o) false) (a i) /\ ArgGen.va tbl (row_of si mb i) false (E_exp (pc_den o) false) (d i) /\ d i <> kzero) /\
         kprod (map a (seq 0 (2 ^ si_nbits si))) = kprod (map d (seq 0 (2 ^ si_nbits si)))) /\
      forall m t3 tr br', stage3 perm workers si sg mb k rb trb brb = Ok (m, t3, tr, br') ->
        exists rc m4 t4 root4 xi tr4, tree_root tc = Ok rc /\ quotient_phase perm workers si pg m tr br' = Ok (m4, t4, root4, xi, tr4) /\
          ((forall r, r < 2 ^ si_nbits_ext si -> val xi <> cpt (si_nbits_ext si) r) ->
           exists p, stark_gen perm workers si sg pg (si_nbits_ext si :: rest) nq cp kp tc br = Ok p /\ sp_publics p = map (pub_value cp) (st_publics sg) /\
             stark_verify perm si pg (si_nbits_ext si :: rest) nq rc p = Ok true).
Proof. exact honest_prover. Qed.
Print Assumptions C82_honest_prover_ends_partial.
Example C82_nonvacuous : exists tc br, machine 40 40 h_si h_sg h_tbl h_ids 4 2 h_ce h_pg /\ inputs ones 3 h_si h_cp h_kp tc br_new br /\
  argmachine h_si h_sg h_tbl h_ids h_ce h_texp (fun _ => true) (fun _ => true) (fun _ => true) 40 [1; 0] [2; 3] [2; 3] 0 0 0 h_c2 h_c3 h_c3 h_R2 h_R3 h_R3 h_RA h_RT [6] 0 (fun _ => 0) (fun _ => (4, 5)) /\
  argends h_si h_sg h_ce h_texp [1; 0] /\ (forall pu, In pu (st_pu h_sg) -> same_dims h_si h_ce h_texp pu) /\ table_ok h_si h_sg h_tbl [6] h_cp h_kp /\ first_row_column h_si h_sg h_kp 0 /\
  chunks_ok h_si 2 /\ steps_ok (si_nbits_ext h_si) [1] /\
  exists p, stark_gen ones 2 h_si h_sg h_pg [2; 1] 3 h_cp h_kp tc br = Ok p.
Proof. exact toy_honest. Qed.

(* If f and t of a lookup are kept with different numbers of components, no table is ever proved. *)
Theorem C82_mixed_components_refuted : forall perm : list Fr -> list Fr -> list Fr, (forall i s, length (perm i s) = 12) ->
  forall fuel gfuel workers w0 si sg tbl ids ncm md ce pg cp kp tc br0 br texp td2 td3 td4 fl ids2 ids3 ids4 s2 s3 s4 c2 c3 c4 R2 R3 R4 RA RT pids l1 zp ac,
  workers <> 0 -> w0 <> 0 -> machine fuel gfuel si sg tbl ids ncm md ce pg -> inputs perm w0 si cp kp tc br0 br ->
  argmachine si sg tbl ids ce texp td2 td3 td4 fl ids2 ids3 ids4 s2 s3 s4 c2 c3 c4 R2 R3 R4 RA RT pids l1 zp ac -> argends si sg ce texp ids2 ->
  forall pu s pos dim s' pos' dim' steps nq, In pu (st_pu sg) -> kcol si (ce_im ce) texp (pc_f pu) = Some (s, pos, dim) -> kcol si (ce_im ce) texp (pc_t pu) = Some (s', pos', dim') ->
  dim <> dim' -> forall p, stark_gen perm workers si sg pg steps nq cp kp tc br <> Ok p.
Proof. exact mixed_never. Qed.
Print Assumptions C82_mixed_components_refuted.
(* The lookup of a product a b in a column t where a selector s is one: the code generated for it keeps f in an intermediate column of one
   component and t in a column of three. The lookup holds in the table. *)
Example C82_nonvacuous_refuted : (exists s2 pu code o, ArgModel.generate_step2 60 x_start [x_look] = Ok (s2, pu, code) /\ ArgModel.generate_step3 60 (Some 0) s2 pu [] [] = Ok o /\
    ArgModel.a_exps (ArgModel.o_state o) = x_tbl /\ ArgModel.a_ids (ArgModel.o_state o) = x_ids /\ map (fun q => (ArgModel.q_f q, ArgModel.q_t q, ArgModel.q_num q, ArgModel.q_den q)) (ArgModel.o_pu o) = [(4, 3, 6, 7)]) /\
  (get_exp_dim 60 x_tbl [1; 1; 3; 3; 3] [] (E_exp 4 false) = Ok 1 /\ get_exp_dim 60 x_tbl [1; 1; 3; 3; 3] [] (E_exp 3 false) = Ok 3) /\
  (forall i, i < 2 -> exists j, j < 2 /\ fmul (cellv (p_array x_cp) 0 i) (cellv (p_array x_cp) 1 i) = cellv (p_array x_kp) 1 j /\ cellv (p_array x_kp) 2 j = f1) /\
  exists tc br, machine 60 60 x_si x_sg x_tbl x_ids 5 3 x_ce x_pg /\ inputs ones 3 x_si x_cp x_kp tc br_new br /\
    argmachine x_si x_sg x_tbl x_ids x_ce x_texp x_td2 x_td3 x_td4 60 [4; 3] [6; 7] [4; 6] 0 0 0 x_c2 x_c3 x_c4 x_R2 x_R3 x_R4 x_RA x_RT [] 0 (fun _ => 0) (fun _ => (5, 8)) /\
    argends x_si x_sg x_ce x_texp [4; 3] /\ table_ok x_si x_sg x_tbl [] x_cp x_kp /\ first_row_column x_si x_sg x_kp 0 /\ In x_pu (st_pu x_sg) /\
    kcol x_si (ce_im x_ce) x_texp (pc_f x_pu) = Some (Scm3_n, 3, 1) /\ kcol x_si (ce_im x_ce) x_texp (pc_t x_pu) = Some (Stmpexp_n, 0, 3).
Proof. exact (conj x_generated (conj x_dims (conj x_holds toy_mixed))). Qed.
