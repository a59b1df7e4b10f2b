(* Properties of the query template in the generated on-chain verifier circuit. *)
From Verif Require Import Base GlModel FrField Cubic F3gModel F3gProof CodegenModel InterpModel VerifierModel
  HashModel StarkModel UnrollModel UnrollProof VqueryModel VqueryProof VqueryToy BnModel CircModel CircProof CircToy OnchModel OnchProof OnchEval
  OqueryModel OqueryProof OqueryToy.
Open Scope nat_scope.
Open Scope res_scope.

(* C111: in every assignment over the curve's field that satisfies the on-chain VerifyQuery, the value passed to the FRI steps is the one
   that stark_verify.rs computes for the position given by the bits *)
Theorem C111_sound : forall r perm si pg croot p challenge q idx env ms vals n1 n2 n3 ys prog t l out,
  big r -> centred r env -> words_in env ->
  layout_ok si ms n1 n2 n3 -> (forall c s, In c (pg_query pg) -> In s (i_src c) -> q_src si s) -> (forall c, In c (pg_query pg) -> o_ok c) ->
  inputs_ok (gl_env env) (mkV [] [] [] [] (fst (nth 4 q ([], []))) (sp_evals p) (sp_publics p) challenge [] [] e_ZERO e_ZERO) ->
  env TZ = [0; 0; 0]%Z -> 0 < si_nbits_ext si <= 32 -> si_nbits si <= 32 -> idx = bitsum ys (si_nbits_ext si) ->
  (forall t, 1 <= t <= 4 -> map fof (vals t) = fst (nth (t - 1) q ([], []))) ->
  o_unroll n1 n2 n3 (pg_query pg) = Ok (prog, t) -> mags [] prog = true ->
  oq_body r env (si_map si) ms vals (si_nbits si) (si_nbits_ext si) ys prog t out ->
  check_query perm si pg croot p challenge q idx = Ok l ->
  exists v, l = [v] /\ F3gProof.wf v /\ val v = kof out.
Proof. exact oq_ok. Qed.
Print Assumptions C111_sound.
Example C111_nonvacuous : big bls_q /\ centred bls_q qy_env /\ words_in qy_env /\ layout_ok vy_si vy_ms 1 0 0 /\
  (forall c s, In c (pg_query vy_pg) -> In s (i_src c) -> q_src vy_si s) /\ (forall c, In c (pg_query vy_pg) -> o_ok c) /\
  inputs_ok (gl_env qy_env) (mkV [] [] [] [] (fst (nth 4 vy_q ([], []))) (sp_evals vy_p) (sp_publics vy_p) vy_ch [] [] e_ZERO e_ZERO) /\
  qy_env TZ = [0; 0; 0]%Z /\ 0 < si_nbits_ext vy_si <= 32 /\ si_nbits vy_si <= 32 /\ 2 = bitsum vy_ys (si_nbits_ext vy_si) /\
  (forall t, 1 <= t <= 4 -> map fof (qy_vals t) = fst (nth (t - 1) vy_q ([], []))) /\
  o_unroll 1 0 0 (pg_query vy_pg) = Ok (qy_prog, TTmp 2) /\ mags [] qy_prog = true /\
  oq_body bls_q qy_env (si_map vy_si) vy_ms qy_vals (si_nbits vy_si) (si_nbits_ext vy_si) vy_ys qy_prog (TTmp 2) qy_out /\
  exists l, check_query vy_perm vy_si vy_pg (vy_root 4) vy_p vy_ch vy_q 2 = Ok l.
Proof.
  split; [exact bls_big|]. split; [exact qy_centred|]. split; [exact qy_words|]. split; [exact vy_layout|]. split; [exact vy_src|].
  split; [exact qy_ok|]. split; [exact qy_in|]. split; [reflexivity|]. split; [split; cbn [vy_si si_nbits_ext]; repeat constructor|].
  split; [cbn [vy_si si_nbits]; repeat constructor|]. split; [reflexivity|]. split; [exact qy_v|]. split; [reflexivity|].
  split; [vm_compute; reflexivity|]. split; [exact qy_body|exact vy_ran].
Qed.
