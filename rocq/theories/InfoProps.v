(* The machine that StarkInfo::new builds from a PIL. *)
From Coq Require Import String.
From Verif Require Import Base GlModel FrField F3gModel Cubic F3gProof ListAux PolyModel Roots PolyProof CodegenModel CodegenProof
  InterpModel VerifierModel ImModel HashModel FftpModel FftpProof BrProof FriModel FriProof PolsModel PolsProof ProverModel ProverProof
  ParModel StarkMath StarkModel StarkSrc StarkRow StarkQuot StarkEval StarkStep4 StarkTop StarkToy StageModel StarkExtend StarkStages StarkPlain StageToy.
From Verif Require Import SoundFri SoundQuery SoundCheck SoundTop PubModel MapModel InfoModel InfoLayout InfoCols InfoPlace InfoTop InfoRun InfoToy InfoSound.
Open Scope nat_scope.
Open Scope list_scope.
Open Scope res_scope.

(* C87: from the PIL to an accepted proof.  StarkInfo::new of a PIL without arguments, whose table satisfies the
   identities, gives programs with which the prover ends in a proof that the verifier accepts, unless the challenge
   point is in the evaluation domain. *)
Theorem C87_pil_is_proved : forall perm : list Fr -> list Fr -> list Fr, (forall i s, List.length (perm i s) = 12) ->
  forall fuel workers w0 p ss si sg pg nq cp kp tc br0 br, plain_pil p -> starkinfo_new fuel p ss = Ok (si, sg, pg) -> pg_qs pg <> [] ->
  1 <= ss_nbits ss -> ss_nbits_ext ss <= 24 -> (forall s, si_width si s <= MAX_OPS) -> pil_nconst p <= MAX_OPS -> workers <> 0 -> w0 <> 0 ->
  inputs perm w0 si cp kp tc br0 br -> table_ok si sg (pil_exps p) (pil_ids p) cp kp -> chunks_ok si workers -> steps_ok (ss_nbits_ext ss) (tl (ss_steps ss)) -> 0 < nq ->
  exists m0 m t1 t2 t3 tr br' rc m4 t4 root4 xi tr4, start_mem si cp kp tc = Ok m0 /\ stages perm workers si sg m0 br = Ok (m, t1, t2, t3, tr, br') /\
    tree_root tc = Ok rc /\ quotient_phase perm workers si pg m tr br' = Ok (m4, t4, root4, xi, tr4) /\
    ((forall r, r < 2 ^ ss_nbits_ext ss -> val xi <> cpt (ss_nbits_ext ss) r) ->
     exists pf, stark_gen perm workers si sg pg (ss_steps ss) nq cp kp tc br = Ok pf /\ sp_publics pf = map (pub_value cp) (pil_publics p) /\
       stark_verify perm si pg (ss_steps ss) nq rc pf = Ok true).
Proof. exact pil_proved. Qed.
Print Assumptions C87_pil_is_proved.
(* where the columns go: the PIL's columns in the first commitment, the intermediate ones in the third, the parts of
   the quotient in the fourth, each in the order of its number *)
Theorem C87_layout : forall fuel p ss si sg pg, plain_pil p -> starkinfo_new fuel p ss = Ok (si, sg, pg) -> exists nim,
  (forall c, c < pil_ncm p -> place si c = Some (Scm1_n, c, 1) /\ exists k, nth_error (si_cm_2ns si) c = Some k /\ nth_error (si_map si) k = Some (Scm1_2ns, c, 1)) /\
  (forall c, c < nim -> place si (pil_ncm p + c) = Some (Scm3_n, c, 1) /\ exists k, nth_error (si_cm_2ns si) (pil_ncm p + c) = Some k /\ nth_error (si_map si) k = Some (Scm3_2ns, c, 1)) /\
  (forall c, c < List.length (pg_qs pg) -> nth_error (pg_qs pg) c = Some (pil_ncm p + nim + c) /\
     exists k, nth_error (si_cm_2ns si) (pil_ncm p + nim + c) = Some k /\ nth_error (si_map si) k = Some (Scm4_2ns, si_qdim si * c, si_qdim si)) /\
  si_width si Scm1_n = pil_ncm p /\ si_width si Scm2_n = 0 /\ si_width si Scm3_n = nim /\ si_width si Scm4_2ns = si_qdim si * List.length (pg_qs pg) /\ si_width si Stmpexp_n = 0 /\
  si_nconst si = pil_nconst p /\ si_nbits si = ss_nbits ss /\ si_nbits_ext si = ss_nbits_ext ss /\ (si_qdim si = 1 \/ si_qdim si = 3) /\ List.length (pg_qs pg) <= 2 ^ (ss_nbits_ext ss - ss_nbits ss).
Proof. exact pil_layout. Qed.
Print Assumptions C87_layout.
(* a StarkStruct whose row count is not the PIL's, or whose first step is not the extended domain, is refused *)
Theorem C87_refused : forall fuel p ss, (exists d, pil_deg p = Some d /\ d <> 2 ^ ss_nbits ss) \/
  (pil_deg p = Some (2 ^ ss_nbits ss) /\ exists s rest, ss_steps ss = s :: rest /\ s <> ss_nbits_ext ss) -> starkinfo_new fuel p ss = Err.
Proof. exact pil_refused. Qed.
Print Assumptions C87_refused.
Example C87_nonvacuous : exists tc br, plain_pil j_pil /\ starkinfo_new 40 j_pil j_ss = Ok (j_si, j_sg, j_pg) /\ pg_qs j_pg <> [] /\ 1 <= ss_nbits j_ss /\ ss_nbits_ext j_ss <= 24 /\
  (forall s, si_width j_si s <= MAX_OPS) /\ pil_nconst j_pil <= MAX_OPS /\ inputs StarkToy.ones 3 j_si g_cp g_kp tc br_new br /\ table_ok j_si j_sg (pil_exps j_pil) (pil_ids j_pil) g_cp g_kp /\
  chunks_ok j_si 2 /\ steps_ok (ss_nbits_ext j_ss) (tl (ss_steps j_ss)) /\ si_width j_si Scm3_n = 1.
Proof. exact toy_pil. Qed.

(* C88: what acceptance means for the PIL itself.  If the verifier, run with the programs StarkInfo::new made from the
   PIL, accepts, then the values claimed at the challenge point satisfy the PIL's identities there, and the openings
   and the FRI layers are tied to the roots. *)
Theorem C88_pil_accepted : forall perm fuel p ss si sg pg nq rc pf, plain_pil p -> starkinfo_new fuel p ss = Ok (si, sg, pg) -> pg_qs pg <> [] ->
  1 <= ss_nbits ss -> ss_nbits_ext ss <= 24 -> (forall s, si_width si s <= MAX_OPS) -> pil_nconst p <= MAX_OPS ->
  List.length (sp_publics pf) = List.length (pil_publics p) -> Forall F3gProof.wf (sp_evals pf) -> Forall F3gProof.wf (sp_publics pf) ->
  stark_verify perm si pg (ss_steps ss) nq rc pf = Ok true ->
  exists ce ch tr, gen_constraint fuel (pil_exps p) (pil_ids p) (pil_ncm p) (2 ^ (ss_nbits_ext ss - ss_nbits ss) + 1) = Ok ce /\
    v_transcript perm pf = Ok (ch, tr) /\ holds_at_xi si (pil_exps p) (pil_ids p) ce (ev_map (pg_ev pg)) (sp_evals pf) (sp_publics pf) ch /\
    let fp := sp_fri pf in
    exists xs t1 zs t2, List.length (fp_queries fp) = List.length (ss_steps ss) /\
      v_challenges perm (ss_steps ss) tr (fp_queries fp) (fp_last fp) = Ok (xs, t1) /\ get_permutations perm t1 nq (ss_nbits_ext ss) = Ok (zs, t2) /\
      layers perm (opened_rows perm si (pil_ncm p + List.length (ce_im ce) + List.length (ce_qs ce)) (ev_map (pg_ev pg)) rc pf ch) true (ss_steps ss) (fp_queries fp) xs (map Z.to_nat zs)
        (fp_last fp) (ss_nbits_ext ss) FriProof.K_shift /\
      exists k P, k <= 31 /\ List.length (fp_last fp) = 2 ^ k /\ List.length P = 2 ^ k /\ (forall i, i < 2 ^ k -> val (nth i (fp_last fp) e_ZERO) = peval P (kpow (kroot k) i)) /\
        forall i, (if last (ss_steps ss) (ss_nbits_ext ss) <? ss_nbits_ext ss - ss_nbits ss then 0
                   else 2 ^ (last (ss_steps ss) (ss_nbits_ext ss) - (ss_nbits_ext ss - ss_nbits ss))) < i -> nth i P kzero = kzero.
Proof. exact pil_accepted. Qed.
Print Assumptions C88_pil_accepted.
Example C88_nonvacuous : exists rc pf, plain_pil j_pil /\ starkinfo_new 40 j_pil j_ss = Ok (j_si, j_sg, j_pg) /\ pg_qs j_pg <> [] /\ 1 <= ss_nbits j_ss /\ ss_nbits_ext j_ss <= 24 /\
  (forall s, si_width j_si s <= MAX_OPS) /\ pil_nconst j_pil <= MAX_OPS /\ List.length (sp_publics pf) = List.length (pil_publics j_pil) /\ Forall F3gProof.wf (sp_evals pf) /\ Forall F3gProof.wf (sp_publics pf) /\
  stark_verify StarkToy.ones j_si j_pg (ss_steps j_ss) 3 rc pf = Ok true.
Proof. exact toy_pil_accepted. Qed.
