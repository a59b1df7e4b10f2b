(* The proof of the small machine of StageToy is an accepted proof in the sense of SoundTop. *)
From Verif Require Import Base GlModel FrField F3gModel Cubic F3gProof ListAux PolyModel Roots PolyProof FriMath CodegenModel CodegenProof
  InterpModel VerifierModel ImModel HashModel FftpModel BrProof FriModel FriProof PolsModel PolsProof ProverModel ParModel
  StarkMath StarkModel StarkRow StarkCheck StarkQuot StarkTop StarkDone StageModel StarkExtend StarkStages StarkPlain StarkToy StageToy.
From Verif Require Import SoundFri SoundQuery SoundCheck SoundTop.
From Verif Require BnProof.
Open Scope nat_scope.
Open Scope list_scope.
Open Scope res_scope.
Lemma gen_evals_wf perm workers si sg pg steps nq cp kp tc br p : stark_gen perm workers si sg pg steps nq cp kp tc br = Ok p -> Forall F3gProof.wf (sp_evals p).
Proof.
  unfold stark_gen. intros E. apply bind_ok in E. destruct E as [m0 [_ E]]. apply bind_ok in E. destruct E as [[[[[[m t1] t2] t3] tr] br'] [_ E]].
  unfold stark_prove in E. apply bind_ok in E. destruct E as [[[[[m4 t4] root4] xi] tr4] [_ E]]. apply bind_ok in E. destruct E as [[[m5 evals] tr5] [Ee E]].
  apply bind_ok in E. destruct E as [[m6 fp] [_ E]]. apply bind_ok in E. destruct E as [fr [_ E]]. apply bind_ok in E. destruct E as [r1 [_ E]]. apply bind_ok in E. destruct E as [r2 [_ E]].
  apply bind_ok in E. destruct E as [r3 [_ E]]. apply ok_inj in E. subst p. cbn [sp_evals].
  unfold evals_phase in Ee. cbv zeta in Ee. apply bind_ok in Ee. destruct Ee as [g [_ Ee]]. apply bind_ok in Ee. destruct Ee as [L1 [_ Ee]]. apply bind_ok in Ee. destruct Ee as [L2 [_ Ee]].
  apply bind_ok in Ee. destruct Ee as [ev [Hev Ee]]. apply bind_ok in Ee. destruct Ee as [tr6 [_ Ee]]. apply bind_ok in Ee. destruct Ee as [[v1 tr7] [_ Ee]].
  apply bind_ok in Ee. destruct Ee as [m7 [_ Ee]]. apply bind_ok in Ee. destruct Ee as [[v2 tr8] [_ Ee]]. apply bind_ok in Ee. destruct Ee as [m8 [_ Ee]]. apply ok_inj in Ee.
  apply pair_equal_spec in Ee. destruct Ee as [Ee _]. apply pair_equal_spec in Ee. destruct Ee as [_ <-].
  apply Forall_forall. intros v Hv. apply In_nth_error in Hv. destruct Hv as [i Hi].
  assert (Li : i < length (ev_map (pg_ev pg))) by (rewrite <- (BnProof.mapM_len _ _ _ Hev); apply nth_error_Some; congruence).
  destruct (nth_error (ev_map (pg_ev pg)) i) as [k|] eqn:Ek; [|apply nth_error_None in Ek; clear -Ek Li; lia].
  destruct (BnProof.mapM_nth _ _ _ _ _ Hev Ek) as [u [U1 U2]]. assert (u = v) by congruence. subst u. exact (eval_at_wf _ _ _ _ k v U1).
Qed.
Lemma toy_accepted : exists rc p, stark_cfg 10 20 g_si t_tbl [0; 1; 2] 1 2 t_ce g_pg (length (sp_publics p)) /\ Forall F3gProof.wf (sp_evals p) /\ Forall F3gProof.wf (sp_publics p) /\
  stark_verify ones g_si g_pg [2; 1] 3 rc p = Ok true.
Proof.
  destruct toy_gen as [tc [br [rc [p [A1 [A2 [A3 [A4 [A5 [A6 [A7 [A8 [A9 A10]]]]]]]]]]]]]. exists rc, p. rewrite A9.
  split; [exact (mc_cfg _ _ _ _ _ _ _ _ _ _ A1)|]. split; [exact (gen_evals_wf _ _ _ _ _ _ _ _ _ _ _ _ A8)|]. split; [constructor; [apply wf_from | constructor] | exact A10].
Qed.
