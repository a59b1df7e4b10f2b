(* Properties of the arithmetic in the generated on-chain verifier circuit. *)
From Verif Require Import Base GlModel FrField Cubic F3gModel F3gProof CodegenModel InterpModel VerifierModel BnModel
  UnrollModel UnrollProof CircModel CircProof CircToy OnchModel OnchProof OnchEval OnchToy.
Open Scope nat_scope.
Open Scope res_scope.

(* C109: in every assignment over the curve's field that satisfies the statements of the on-chain unrollCode on the verifier's inputs,
   the result is the element execute_code computes, if the magnitudes that can be read off the text stay below 2^119 *)
Theorem C109_sound_partial : forall r env x n1 n2 n3 code lo t v, big r -> centred r env -> words env -> inputs_ok (gl_env env) x ->
  relv (v_Z x) (gl_env env TZ) -> (forall c s, In c code -> In s (i_src c) -> src_ok (gl_env env) x n1 n2 n3 s) ->
  (forall c, In c code -> o_ok c) -> o_unroll n1 n2 n3 code = Ok (lo, t) -> mags [] lo = true -> Forall (o_holds r env) lo ->
  execute_code x code = Ok v -> relv v (t_val (gl_env env) t).
Proof. exact onch_ok. Qed.
Print Assumptions C109_sound_partial.
(* refuted for sums and products of two base elements, and for a*b+c with c alone in the extension: no assignment satisfies the text *)
Theorem C109_base_refuted : forall r env n1 n2 n3 c a b rest d o, (i_op c = CAdd \/ i_op c = CMul) -> i_src c = a :: b :: rest ->
  n_dim a = 1 -> n_dim b = 1 -> (forall t, u_ref n1 n2 n3 a = Ok t -> List.length (oz env t) = 1) ->
  o_stm n1 n2 n3 c = Ok (d, o) -> ~ o_holds r env (d, o).
Proof. exact base_dead. Qed.
Print Assumptions C109_base_refuted.
Theorem C109_muladd_refuted : forall r env n1 n2 n3 c a b e rest d o, i_op c = CMuladd -> i_src c = a :: b :: e :: rest ->
  n_dim a = 1 -> n_dim b = 1 -> n_dim e = 3 -> o_stm n1 n2 n3 c = Ok (d, o) -> ~ o_holds r env (d, o).
Proof. exact muladd_dead. Qed.
Print Assumptions C109_muladd_refuted.
(* and sums are never reduced: after eleven doublings of -1 the final comparison has no solution, whatever the quotient, so that
   an honest proof is rejected *)
Theorem C109_norm_refuted : o_unroll 0 0 0 (doubles 10) = Ok (dtext 10, TTmp 10) /\
  forall r env a b c y0 y1 y2 q0 q1 q2 out, big r -> env (TEval 0) = [a; b; c] -> a = (gl_p - 1)%Z ->
  Forall (o_holds r env) (dtext 10) -> env (TTmp 10) = [y0; y1; y2] -> (0 <= q0 < 2 ^ 64)%Z ->
  ~ GLCNorm r (y0 - q0, y1 - q1, y2 - q2)%Z out.
Proof. exact (conj doubles_text doubles_dead). Qed.
Print Assumptions C109_norm_refuted.
Example C109_nonvacuous : big bls_q /\ centred bls_q oy_env /\ words oy_env /\ inputs_ok (gl_env oy_env) oy_ctx /\
  relv (v_Z oy_ctx) (gl_env oy_env TZ) /\ (forall c s, In c oy_code -> In s (i_src c) -> src_ok (gl_env oy_env) oy_ctx 0 0 0 s) /\
  (forall c, In c oy_code -> o_ok c) /\ o_unroll 0 0 0 oy_code = Ok (oy_text, TTmp 1) /\ mags [] oy_text = true /\
  Forall (o_holds bls_q oy_env) oy_text /\ exists v, execute_code oy_ctx oy_code = Ok v.
Proof.
  split; [exact bls_big|]. split; [exact oy_centred|]. split; [exact oy_words|]. split; [exact oy_in|].
  split; [split; [apply wf_new|reflexivity]|]. split; [exact oy_src|]. split; [exact oy_ok|]. split; [reflexivity|].
  split; [vm_compute; reflexivity|]. split; [exact oy_holds|]. eexists. reflexivity.
Qed.
Example C109_nonvacuous_base : let a := mkN Npublic 0 None 1 false 0 in
  exists d o, o_stm 0 0 0 (mkI CAdd (tmpn 0) [a; a]) = Ok (d, o) /\ (forall t, u_ref 0 0 0 a = Ok t -> List.length (oz oy_env t) = 1).
Proof. eexists _, _. split; [reflexivity|]. intros t [= <-]. reflexivity. Qed.
Example C109_nonvacuous_muladd : let a := mkN Npublic 0 None 1 false 0 in
  exists d o, o_stm 0 0 0 (mkI CMuladd (tmpn 0) [a; a; ev0]) = Ok (d, o).
Proof. eexists _, _. reflexivity. Qed.
Example C109_nonvacuous_norm : Forall (o_holds bls_q dy_env) (dtext 10) /\ exists y0 y1 y2, dy_env (TTmp 10) = [y0; y1; y2].
Proof. split; [apply dy_holds|eexists _, _, _; reflexivity]. Qed.

(* C110: if the on-chain VerifyEvaluations accepts (enabled), the verifier's check of the constraint at the evaluation point succeeds *)
Theorem C110_sound : forall r env x n1 n2 n3 nbits base qs e code lo t zmul xacc qstep qacc qz b enable,
  big r -> centred r env -> words_in env -> inputs_ok (gl_env env) x ->
  (forall c s, In c code -> In s (i_src c) -> src_ok (gl_env env) x n1 n2 n3 s) -> (forall c, In c code -> o_ok c) ->
  (forall i q, nth_error qs i = Some q -> ev_get e (true, false, q) = Some (base + i)) -> qs <> [] -> 0 < nbits ->
  o_unroll n1 n2 n3 code = Ok (lo, t) -> mags [] lo = true -> (forall i, centred3 r (qacc i)) -> (Z.of_nat (List.length qs) <= 2 ^ 50)%Z ->
  oe_body r env lo nbits (List.length qs) base zmul xacc qstep qacc qz -> ~ eqr r enable 0 -> oe_final r env t enable qz ->
  check_constraint x code e qs nbits = Ok b -> b = true.
Proof. exact onch_eval. Qed.
Print Assumptions C110_sound.
Example C110_nonvacuous : big bls_q /\ centred bls_q ey_env /\ words_in ey_env /\ inputs_ok (gl_env ey_env) ey_ctx /\
  (forall c s, In c ey_code -> In s (i_src c) -> src_ok (gl_env ey_env) ey_ctx 0 0 0 s) /\ (forall c, In c ey_code -> o_ok c) /\
  (forall i q, nth_error [4] i = Some q -> ev_get ey_ev (true, false, q) = Some (0 + i)) /\
  o_unroll 0 0 0 ey_code = Ok (ey_text, TTmp 0) /\ mags [] ey_text = true /\ centred3 bls_q (1, 2, 0)%Z /\
  oe_body bls_q ey_env ey_text 1 1 0 (fun _ => (4, 0, 0)%Z) (fun _ => (1, 0, 0)%Z) (fun _ => (0, 0, 0)%Z) (fun _ => (1, 2, 0)%Z) (3, 6, 0)%Z /\
  ~ eqr bls_q 1 0 /\ oe_final bls_q ey_env (TTmp 0) 1 (3, 6, 0)%Z /\ check_constraint ey_ctx ey_code ey_ev [4] 1 = Ok true.
Proof.
  split; [exact bls_big|]. split; [exact ey_centred|]. split; [exact ey_words|]. split; [exact ey_in|]. split; [exact ey_src|]. split; [exact ey_ok|].
  split; [intros [|[|i]] q; try discriminate; intros [= <-]; reflexivity|]. split; [reflexivity|]. split; [vm_compute; reflexivity|].
  split; [split; [|split]; reflexivity|]. split; [exact ey_body|]. split; [vm_compute; discriminate|]. split; [exact ey_final|]. vm_compute. reflexivity.
Qed.
