(* Properties of the query template in the generated recursive verifier circuit. *)
From Verif Require Import Base GlModel FrField Cubic F3gModel F3gProof CodegenModel InterpModel VerifierModel
  HashModel StarkModel UnrollModel UnrollProof VqueryModel VqueryProof VqueryToy.
Open Scope nat_scope.
Open Scope res_scope.

(* C108: with the same openings, evaluations, challenges and publics, and with the query position in bits, the value that VerifyQuery
   passes to the FRI steps is the value that stark_verify.rs computes for that position *)
Theorem C108_same : forall perm si pg croot p challenge q idx env ms n1 n2 n3 ys prog t l,
  layout_ok si ms n1 n2 n3 -> (forall c r, In c (pg_query pg) -> In r (i_src c) -> q_src si r) ->
  inputs_ok env (mkV [] [] [] [] (fst (nth 4 q ([], []))) (sp_evals p) (sp_publics p) challenge [] [] e_ZERO e_ZERO) ->
  env TZ = [f0; f0; f0] -> 0 < si_nbits_ext si <= 32 -> idx = bitsum ys (si_nbits_ext si) ->
  unroll n1 n2 n3 (pg_query pg) = Ok (prog, t) ->
  vq_body env (si_map si) ms (fun t => fst (nth (t - 1) q ([], []))) (si_nbits si) (si_nbits_ext si) ys prog ->
  check_query perm si pg croot p challenge q idx = Ok l -> forall o, t_three env t = Some o ->
  exists v, l = [v] /\ F3gProof.wf v /\ val v = o.
Proof. exact vq_ok. Qed.
Print Assumptions C108_same.
Example C108_nonvacuous : layout_ok vy_si vy_ms 1 0 0 /\ (forall c r, In c (pg_query vy_pg) -> In r (i_src c) -> q_src vy_si r) /\
  inputs_ok vy_env (mkV [] [] [] [] (fst (nth 4 vy_q ([], []))) (sp_evals vy_p) (sp_publics vy_p) vy_ch [] [] e_ZERO e_ZERO) /\
  vy_env TZ = [f0; f0; f0] /\ 0 < si_nbits_ext vy_si <= 32 /\ 2 = bitsum vy_ys (si_nbits_ext vy_si) /\
  unroll 1 0 0 (pg_query vy_pg) = Ok (vy_prog, TTmp 2) /\
  vq_body vy_env (si_map vy_si) vy_ms (fun t => fst (nth (t - 1) vy_q ([], []))) (si_nbits vy_si) (si_nbits_ext vy_si) vy_ys vy_prog /\
  (exists l, check_query vy_perm vy_si vy_pg (vy_root 4) vy_p vy_ch vy_q 2 = Ok l) /\ exists o, t_three vy_env (TTmp 2) = Some o.
Proof.
  split; [exact vy_layout|]. split; [exact vy_src|]. split; [exact vy_in|]. split; [reflexivity|].
  split; [split; cbn [vy_si si_nbits_ext]; repeat constructor|]. split; [reflexivity|]. split; [reflexivity|]. split; [exact vy_body|].
  split; [exact vy_ran|]. eexists. reflexivity.
Qed.
