(* What an accepted proof means for a PIL given to StarkInfo::new, and an accepted proof for the example. *)
From Coq Require Import String.
From Verif Require Import Base GlModel FrField F3gModel Cubic F3gProof ListAux PolyModel Roots PolyProof CodegenModel CodegenProof
  InterpModel VerifierModel ImModel HashModel FftpModel FftpProof BrProof FriModel FriProof PolsModel PolsProof ProverModel ProverProof
  ParModel StarkMath StarkModel StarkSrc StarkRow StarkQuot StarkStep4 StarkTop StarkToy StageModel StarkExtend StarkStages StarkPlain StageToy.
From Verif Require Import SoundFri SoundQuery SoundCheck SoundTop SoundToy PubModel MapModel InfoModel InfoLayout InfoCols InfoPlace InfoTop InfoRun InfoToy.
Open Scope nat_scope.
Open Scope list_scope.
Open Scope res_scope.

Theorem pil_accepted : forall perm fuel p ss si sg pg nq rc pf, plain_pil p -> starkinfo_new fuel p ss = Ok (si, sg, pg) -> pg_qs pg <> [] ->
  1 <= ss_nbits ss -> ss_nbits_ext ss <= 24 -> (forall s, si_width si s <= MAX_OPS) -> pil_nconst p <= MAX_OPS ->
  List.length (sp_publics pf) = List.length (pil_publics p) -> Forall F3gProof.wf (sp_evals pf) -> Forall F3gProof.wf (sp_publics pf) ->
  stark_verify perm si pg (ss_steps ss) nq rc pf = Ok true ->
  exists ce ch tr, gen_constraint fuel (pil_exps p) (pil_ids p) (pil_ncm p) (2 ^ (ss_nbits_ext ss - ss_nbits ss) + 1) = Ok ce /\
    v_transcript perm pf = Ok (ch, tr) /\ holds_at_xi si (pil_exps p) (pil_ids p) ce (ev_map (pg_ev pg)) (sp_evals pf) (sp_publics pf) ch /\
    let fp := sp_fri pf in
    exists xs t1 zs t2, List.length (fp_queries fp) = List.length (ss_steps ss) /\
      v_challenges perm (ss_steps ss) tr (fp_queries fp) (fp_last fp) = Ok (xs, t1) /\ get_permutations perm t1 nq (ss_nbits_ext ss) = Ok (zs, t2) /\
      layers perm (opened_rows perm si (pil_ncm p + List.length (ce_im ce) + List.length (ce_qs ce)) (ev_map (pg_ev pg)) rc pf ch) true (ss_steps ss) (fp_queries fp) xs (map Z.to_nat zs)
        (fp_last fp) (ss_nbits_ext ss) FriProof.K_shift /\
      exists k P, k <= 31 /\ List.length (fp_last fp) = 2 ^ k /\ List.length P = 2 ^ k /\ (forall i, i < 2 ^ k -> val (nth i (fp_last fp) e_ZERO) = peval P (kpow (kroot k) i)) /\
        forall i, (if last (ss_steps ss) (ss_nbits_ext ss) <? ss_nbits_ext ss - ss_nbits ss then 0
                   else 2 ^ (last (ss_steps ss) (ss_nbits_ext ss) - (ss_nbits_ext ss - ss_nbits ss))) < i -> nth i P kzero = kzero.
Proof.
  intros perm fuel p ss si sg pg nq rc pf HP H Hq Hb1 Hb2 Hw Hk Hpl We Wp Hv.
  destruct (new_layout _ _ _ _ _ _ HP H) as [ce [c4 [q [rest [Hl [Hqd [D1 [D2 [D3 [Hce [Hc4 [H3 [Hg [X1 [X2 [X3 [X4 [X6 [X7 [X8 X9]]]]]]]]]]]]]]]]]]]].
  rewrite (program_qs _ _ _ _ Hg) in Hq. destruct (pa_rest _ _ _ _ _ _ _ _ Hl) as [_ [_ [R3 R4]]].
  pose proof (mc_cfg _ _ _ _ _ _ _ _ _ _ (the_machine fuel _ _ q p si ce HP Hce Hl sg pg X1 X2 X6 X7 X8 X9 Hg Hqd Hq (conj Hb1 D3) Hb2 Hw Hk)) as HC.
  rewrite X1, <- Hpl in HC. destruct (accepted perm _ _ _ _ _ _ _ _ _ _ nq rc pf HC We Wp Hv) as [ch [tr [A1 [A2 [b [r [xs [t1 [zs [t2 [B1 [B2 [B3 [B4 [B5 B6]]]]]]]]]]]]]]].
  rewrite R3, R4 in B6. rewrite R4 in B5. assert (Eb : b = ss_nbits_ext ss) by congruence. subst b.
  exists ce, ch, tr. split; [exact Hce|]. split; [exact A1|]. split; [exact A2|]. exists xs, t1, zs, t2. split; [exact B2|]. split; [exact B3|]. split; [exact B4|]. split; [exact B5 | exact B6].
Qed.

Lemma commit1 workers si a b m l tr br m' l' t tr' br' : all1 tr -> commit_stage StarkToy.ones workers si a b m l tr br = Ok (m', l', t, tr', br') -> all1 tr'.
Proof.
  unfold commit_stage. intros A H. apply bind_ok in H. destruct H as [[[x1 x2] x3] [_ H]]. apply bind_ok in H. destruct H as [y [_ H]]. apply bind_ok in H. destruct H as [r [_ H]]. apply bind_ok in H. destruct H as [tr1 [E H]].
  apply ok_inj in H. injection H as _ _ _ <- _. exact (put1 _ _ _ A E).
Qed.
Lemma stages1 workers si sg m br m' t1 t2 t3 tr br' : stages StarkToy.ones workers si sg m br = Ok (m', t1, t2, t3, tr, br') -> all1 tr.
Proof.
  unfold stages. intros H. apply bind_ok in H. destruct H as [[[[[ma ra] ta] tra] bra] [H1 H]]. apply bind_ok in H. destruct H as [[[[[[mb kb] rb] tb] trb] brb] [H2 H]].
  apply bind_ok in H. destruct H as [[[[mc tc] trc] brc] [H3 H]]. apply ok_inj in H. injection H as _ _ _ _ <- _.
  assert (A1 : all1 tra).
  { unfold stage1 in H1. apply bind_ok in H1. destruct H1 as [m1 [_ H1]]. apply bind_ok in H1. destruct H1 as [u0 [E0 H1]]. cbv zeta in H1. apply bind_ok in H1. destruct H1 as [[[[[m2 r2] v2] u1] b2] [E1 H1]].
    apply bind_ok in H1. destruct H1 as [[x3 u3] [E3 H1]]. apply bind_ok in H1. destruct H1 as [m3 [_ H1]]. apply bind_ok in H1. destruct H1 as [[x4 u4] [E4 H1]]. apply bind_ok in H1. destruct H1 as [m4 [_ H1]].
    apply ok_inj in H1. injection H1 as _ _ _ <- _. assert (B0 : all1 u0) by (refine (elems1 _ tr_new u0 _ E0); constructor). pose proof (commit1 _ _ _ _ _ _ _ _ _ _ _ _ _ B0 E1) as B1.
    destruct (challenge1 _ _ _ B1 E3) as [_ B3]. exact (proj2 (challenge1 _ _ _ B3 E4)). }
  assert (A2 : all1 trb).
  { unfold stage2 in H2. apply bind_ok in H2. destruct H2 as [m1 [_ H2]]. apply bind_ok in H2. destruct H2 as [[m5 k5] [_ H2]]. apply bind_ok in H2. destruct H2 as [[[[[m2 r2] v2] u1] b2] [E1 H2]].
    apply bind_ok in H2. destruct H2 as [[x3 u3] [E3 H2]]. apply bind_ok in H2. destruct H2 as [m3 [_ H2]]. apply bind_ok in H2. destruct H2 as [[x4 u4] [E4 H2]]. apply bind_ok in H2. destruct H2 as [m4 [_ H2]].
    apply ok_inj in H2. injection H2 as _ _ _ _ <- _. pose proof (commit1 _ _ _ _ _ _ _ _ _ _ _ _ _ A1 E1) as B1.
    destruct (challenge1 _ _ _ B1 E3) as [_ B3]. exact (proj2 (challenge1 _ _ _ B3 E4)). }
  unfold stage3 in H3. apply bind_ok in H3. destruct H3 as [m1 [_ H3]]. apply bind_ok in H3. destruct H3 as [[m5 k5] [_ H3]]. apply bind_ok in H3. destruct H3 as [m6 [_ H3]].
  apply bind_ok in H3. destruct H3 as [[[[[m2 r2] v2] u1] b2] [E1 H3]]. apply ok_inj in H3. injection H3 as _ _ <- _. exact (commit1 _ _ _ _ _ _ _ _ _ _ _ _ _ A2 E1).
Qed.
Theorem toy_pil_accepted : exists rc pf, plain_pil j_pil /\ starkinfo_new 40 j_pil j_ss = Ok (j_si, j_sg, j_pg) /\ pg_qs j_pg <> [] /\ 1 <= ss_nbits j_ss /\ ss_nbits_ext j_ss <= 24 /\
  (forall s, si_width j_si s <= MAX_OPS) /\ pil_nconst j_pil <= MAX_OPS /\ List.length (sp_publics pf) = List.length (pil_publics j_pil) /\ Forall F3gProof.wf (sp_evals pf) /\ Forall F3gProof.wf (sp_publics pf) /\
  stark_verify StarkToy.ones j_si j_pg (ss_steps j_ss) 3 rc pf = Ok true.
Proof.
  destruct toy_pil as [tc [br [A1 [A2 [A3 [A4 [A5 [A6 [A7 [A8 [A9 [A10 [A11 A12]]]]]]]]]]]]].
  destruct (pil_proved StarkToy.ones ones_len 40 2 3 j_pil j_ss j_si j_sg j_pg 3 g_cp g_kp tc br_new br A1 A2 A3 A4 A5 A6 A7 ltac:(discriminate) ltac:(discriminate) A8 A9 A10 A11 ltac:(lia))
    as [m0 [m [t1 [t2 [t3 [tr [br' [rc [m4 [t4 [root4 [xi [tr4 [R1 [R2 [R3 [R4 R5]]]]]]]]]]]]]]]]].
  pose proof (t_xi _ _ _ _ _ _ _ _ _ _ _ (stages1 _ _ _ _ _ _ _ _ _ _ _ R2) R4). subst xi. destruct (R5 (fun r _ => t_out r)) as [pf [P1 [P2 P3]]].
  exists rc, pf. split; [exact A1|]. split; [exact A2|]. split; [exact A3|]. split; [exact A4|]. split; [exact A5|]. split; [exact A6|]. split; [exact A7|].
  split; [rewrite P2, map_length; reflexivity|]. split; [exact (gen_evals_wf _ _ _ _ _ _ _ _ _ _ _ _ P1)|]. split; [|exact P3].
  rewrite P2. apply Forall_forall. intros x Hx. apply in_map_iff in Hx. destruct Hx as [u [<- _]]. unfold pub_value. apply wf_from.
Qed.
