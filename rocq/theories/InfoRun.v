(* From the PIL to the verifier: the machine of StarkInfo::new proves every table in which the identities hold. *)
From Coq Require Import String.
From Verif Require Import Base GlModel FrField F3gModel Cubic F3gProof ListAux PolyModel Roots PolyProof CodegenModel CodegenProof
  InterpModel InterpProof BnProof VerifierModel VerifierProof ImModel ImProof HashModel FftpModel FriModel FriProof PolsModel PolsProof ProverModel ProverProof
  ParModel ParProof StarkMath StarkModel StarkGen StarkSrc StarkPoly StarkRow StarkQuot StarkEval StarkStep4 StarkTop StageModel StarkExtend StarkStages StarkPlain NStep NGen NTop DenRel ArgStages PubModel MapModel InfoModel InfoLayout InfoCols InfoPlace InfoTop.
From Verif Require ArgModel ArgHonest.
Open Scope nat_scope.
Open Scope list_scope.
Open Scope res_scope.

Lemma program_qs fuel si ce pg : gen_program fuel si ce = Ok pg -> pg_qs pg = ce_qs ce.
Proof.
  unfold gen_program. intros H. apply bind_ok in H. destruct H as [[[code4 tmp4] ctx] [_ H]]. apply bind_ok in H. destruct H as [[ver ev] [_ H]]. apply bind_ok in H. destruct H as [fe [_ H]]. cbv zeta in H.
  apply bind_ok in H. destruct H as [s5 [_ H]]. apply bind_ok in H. destruct H as [qc [_ H]]. apply bind_ok in H. destruct H as [seg4 [_ H]]. apply bind_ok in H. destruct H as [seg5 [_ H]]. apply bind_ok in H. destruct H as [segq [_ H]].
  apply bind_ok in H. destruct H as [q [_ H]]. apply ok_inj in H. rewrite <- H. reflexivity.
Qed.
(* the layout of the PIL *)
Lemma new_layout fuel p ss si sg pg : plain_pil p -> starkinfo_new fuel p ss = Ok (si, sg, pg) ->
  exists ce c4 q rest, plain_layout (pil_ncm p) (List.length (ce_im ce)) q (List.length (ce_qs ce)) (pil_nconst p) (ss_nbits ss) (ss_nbits_ext ss) si /\
    (q = 3 \/ q = 1 /\ List.length (pil_ids p) + List.length (ce_im ce) <= 1) /\
    pil_deg p = Some (2 ^ ss_nbits ss) /\ ss_steps ss = ss_nbits_ext ss :: rest /\ ss_nbits ss <= ss_nbits_ext ss /\
    gen_constraint fuel (pil_exps p) (pil_ids p) (pil_ncm p) (2 ^ (ss_nbits_ext ss - ss_nbits ss) + 1) = Ok ce /\
    gens (pil_exps p) fuel (map fst (ce_im ce)) (mkCtx 0 [] []) = Ok c4 /\
    fix_prover_code si (ce_im ce) [] true (linear_code c4) (x_tmp c4) = Ok (st_step3 sg) /\ gen_program fuel si ce = Ok pg /\
    st_publics sg = pil_publics p /\ st_pubcode sg = [] /\ st_step2prev sg = mkSeg [] 0 /\ st_step3prev sg = mkSeg [] 0 /\
    st_pu sg = [] /\ st_pe sg = [] /\ st_ci sg = [] /\ st_ncm1 sg = pil_ncm p.
Proof.
  intros HP H. destruct (new_inv _ _ _ _ _ _ HP H) as [ce [c4 [k [q [seg3 [rest [D1 [D2 [D3 [Hce [Hc4 [Hk [Hl [Hg [H3 [X1 [X2 [X3 [X4 [X5 [X6 [X7 [X8 X9]]]]]]]]]]]]]]]]]]]]]]].
  destruct (im_facts _ _ _ _ _ _ Hce) as [I1 [I2 [I3 _]]]. destruct (gen_constraint_inv _ _ _ _ _ _ Hce) as [s [qq [c [_ [_ [J1 [J2 [J3 _]]]]]]]].
  rewrite J2 in Hc4, Hk. rewrite J3 in Hk.
  assert (Hrefs : forall i e, nth_error (pil_exps p) i = Some e -> forall pr k, In k (exp_refs pr e) -> snd k < List.length (pil_exps p)).
  { intros i e He pr k0 Hk0. exact (pe_refs _ _ _ _ _ (exps_all p HP i e He) pr k0 Hk0). }
  rewrite (gens_prefix (pil_exps p) [c] Hrefs fuel _ _ I2) in Hc4.
  destruct (map_plain (pil_exps p) [c] (pil_ncm p) (pil_nconst p) (List.length (pil_publics p)) (pp_exps _ HP) fuel (pil_ids p) (ce_im ce) c _ k q eq_refl (pp_ids _ HP) J1 I3 I2 Hk) as [M1 [_ [M2 [M3 [M4 M5]]]]].
  rewrite M2 in H3. exists ce, c4, q, rest. split.
  { apply (place_ok _ _ _ _ _ _ _ k); [destruct M1 as [-> | [-> _]]; [right | left]; reflexivity | exact M3 | exact M4 | exact M5 | exact Hl]. }
  split; [exact M1|]. split; [exact D1|]. split; [exact D2|]. split; [exact D3|]. split; [exact Hce|]. split; [exact Hc4|]. split; [rewrite X5; exact H3|]. split; [exact Hg|].
  split; [exact X1|]. split; [exact X2|]. split; [exact X3|]. split; [exact X4|]. split; [exact X6|]. split; [exact X7|]. split; [exact X8 | exact X9].
Qed.
Theorem pil_proved : forall perm : list Fr -> list Fr -> list Fr, (forall i s, List.length (perm i s) = 12) ->
  forall fuel workers w0 p ss si sg pg nq cp kp tc br0 br, plain_pil p -> starkinfo_new fuel p ss = Ok (si, sg, pg) -> pg_qs pg <> [] ->
  1 <= ss_nbits ss -> ss_nbits_ext ss <= 24 -> (forall s, si_width si s <= MAX_OPS) -> pil_nconst p <= MAX_OPS -> workers <> 0 -> w0 <> 0 ->
  inputs perm w0 si cp kp tc br0 br -> table_ok si sg (pil_exps p) (pil_ids p) cp kp -> chunks_ok si workers -> steps_ok (ss_nbits_ext ss) (tl (ss_steps ss)) -> 0 < nq ->
  exists m0 m t1 t2 t3 tr br' rc m4 t4 root4 xi tr4, start_mem si cp kp tc = Ok m0 /\ stages perm workers si sg m0 br = Ok (m, t1, t2, t3, tr, br') /\
    tree_root tc = Ok rc /\ quotient_phase perm workers si pg m tr br' = Ok (m4, t4, root4, xi, tr4) /\
    ((forall r, r < 2 ^ ss_nbits_ext ss -> val xi <> cpt (ss_nbits_ext ss) r) ->
     exists pf, stark_gen perm workers si sg pg (ss_steps ss) nq cp kp tc br = Ok pf /\ sp_publics pf = map (pub_value cp) (pil_publics p) /\
       stark_verify perm si pg (ss_steps ss) nq rc pf = Ok true).
Proof.
  intros perm perm_len fuel workers w0 p ss si sg pg nq cp kp tc br0 br HP H Hq Hb1 Hb2 Hw Hk Hw1 Hw0 HI HT Hc Hs Hnq.
  destruct (new_layout _ _ _ _ _ _ HP H) as [ce [c4 [q [rest [Hl [Hqd [D1 [D2 [D3 [Hce [Hc4 [H3 [Hg [X1 [X2 [X3 [X4 [X6 [X7 [X8 X9]]]]]]]]]]]]]]]]]]]].
  rewrite (program_qs _ _ _ _ Hg) in Hq. rewrite D2 in Hs. cbn [tl] in Hs. destruct (pa_rest _ _ _ _ _ _ _ _ Hl) as [_ [_ [_ R4]]].
  pose proof (the_machine fuel _ _ q p si ce HP Hce Hl sg pg X1 X2 X6 X7 X8 X9 Hg Hqd Hq (conj Hb1 D3) Hb2 Hw Hk) as HM.
  pose proof (the_arguments fuel _ _ q p si ce c4 _ HP Hce Hl Hc4 H3 sg D1 X1 X3 X4 eq_refl X6 X7 X8 X9 Hqd (conj Hb1 D3) Hb2 Hk) as HA.
  pose proof (the_ends fuel _ _ q p si ce c4 _ HP Hce Hl Hc4 H3 sg X3 X4 eq_refl X6) as HE.
  destruct (ArgHonest.honest_prover perm perm_len fuel fuel workers w0 si sg _ _ _ _ ce pg cp kp tc br0 br _ _ _ _ _ _ _ _ _ _ _ _ _ _ _ _ _ _ _ _ _ _ _ Hw1 Hw0 HM HI HA HE rest nq) as [m0 [ma [ra [t1 [tra [bra [E0 [E1 [E2 E3]]]]]]]]].
  { rewrite X6. intros pu []. } { exact HT. } { intros C. exfalso. apply C. rewrite X6, X7, X8. reflexivity. } { exact Hc. } { rewrite R4. exact Hs. } { exact Hnq. }
  destruct (proj2 E2) as [[[[[[mb k] rb] t2] trb] brb] E2']; [rewrite X6; intros pu []|]. destruct (E3 _ _ _ _ _ _ E2') as [E4 E5].
  destruct (proj2 E4) as [[[[m t3] tr] br'] E4']; [rewrite X6, X7, X8; intros o []|]. destruct (E5 _ _ _ _ E4') as [rc [m4 [t4 [root4 [xi [tr4 [F1 [F2 F3]]]]]]]].
  exists m0, m, t1, t2, t3, tr, br', rc, m4, t4, root4, xi, tr4. split; [exact E0|]. split.
  { unfold stages. rewrite E1, bindE. cbv beta iota. rewrite E2', bindE. cbv beta iota. rewrite E4', bindE. reflexivity. }
  split; [exact F1|]. split; [exact F2|]. intros Hx. rewrite R4 in F3. destruct (F3 Hx) as [pf [G1 [G2 G3]]]. exists pf. rewrite D2. split; [exact G1|]. split; [rewrite G2, X1; reflexivity | exact G3].
Qed.

(* where StarkInfo::new puts the columns of the PIL *)
Theorem pil_layout fuel p ss si sg pg : plain_pil p -> starkinfo_new fuel p ss = Ok (si, sg, pg) -> exists nim,
  (forall c, c < pil_ncm p -> place si c = Some (Scm1_n, c, 1) /\ exists k, nth_error (si_cm_2ns si) c = Some k /\ nth_error (si_map si) k = Some (Scm1_2ns, c, 1)) /\
  (forall c, c < nim -> place si (pil_ncm p + c) = Some (Scm3_n, c, 1) /\ exists k, nth_error (si_cm_2ns si) (pil_ncm p + c) = Some k /\ nth_error (si_map si) k = Some (Scm3_2ns, c, 1)) /\
  (forall c, c < List.length (pg_qs pg) -> nth_error (pg_qs pg) c = Some (pil_ncm p + nim + c) /\
     exists k, nth_error (si_cm_2ns si) (pil_ncm p + nim + c) = Some k /\ nth_error (si_map si) k = Some (Scm4_2ns, si_qdim si * c, si_qdim si)) /\
  si_width si Scm1_n = pil_ncm p /\ si_width si Scm2_n = 0 /\ si_width si Scm3_n = nim /\ si_width si Scm4_2ns = si_qdim si * List.length (pg_qs pg) /\ si_width si Stmpexp_n = 0 /\
  si_nconst si = pil_nconst p /\ si_nbits si = ss_nbits ss /\ si_nbits_ext si = ss_nbits_ext ss /\ (si_qdim si = 1 \/ si_qdim si = 3) /\ List.length (pg_qs pg) <= 2 ^ (ss_nbits_ext ss - ss_nbits ss).
Proof.
  intros HP H. destruct (new_layout _ _ _ _ _ _ HP H) as [ce [c4 [q [rest [Hl [Hqd [D1 [D2 [D3 [Hce [Hc4 [H3 [Hg _]]]]]]]]]]]]].
  destruct (pa_rest _ _ _ _ _ _ _ _ Hl) as [R1 [R2 [R3 R4]]]. destruct (pa_width _ _ _ _ _ _ _ _ Hl) as [W1 [W2 [W3 [W4 [W5 [W6 [W7 [W8 [W9 [W10 W11]]]]]]]]]].
  rewrite (program_qs _ _ _ _ Hg), R2. exists (List.length (ce_im ce)). destruct (im_facts _ _ _ _ _ _ Hce) as [_ [_ [_ Eq]]].
  split; [intros c Hc; destruct (pa_cm1 _ _ _ _ _ _ _ _ Hl c Hc) as [A [B [C D]]]; split; [unfold place; rewrite A; exact B | eexists; split; [exact C | exact D]]|].
  split; [intros c Hc; destruct (pa_cm3 _ _ _ _ _ _ _ _ Hl c Hc) as [A [B [C D]]]; split; [unfold place; rewrite A; exact B | eexists; split; [exact C | exact D]]|].
  split. { intros c Hc. destruct (pa_cm4 _ _ _ _ _ _ _ _ Hl c Hc) as [C D]. split; [|eexists; split; [exact C | exact D]]. rewrite Eq, (nth_error_nth' _ 0) by (rewrite seq_length; exact Hc). rewrite seq_nth by exact Hc. reflexivity. }
  split; [exact W1|]. split; [exact W3|]. split; [exact W5|]. split; [exact W8|]. split; [exact W11|]. split; [exact R1|]. split; [exact R3|]. split; [exact R4|].
  split; [destruct Hqd as [-> | [-> _]]; [right | left]; reflexivity|].
  destruct (ce_qs ce) as [|x l] eqn:E; [apply Nat.le_0_l|]. rewrite <- E.
  destruct (constraint_deg fuel (pil_exps p) (pil_ids p) (pil_ncm p) _ ce 1 (fun _ _ => kzero) Hce ltac:(rewrite E; discriminate) (le_n 1)) as [_ [_ [Hd _]]]; [intros r; exists []; split; [apply Nat.le_0_l | intros y; reflexivity]|].
  set (z := 2 ^ (ss_nbits_ext ss - ss_nbits ss)) in *. clearbody z. lia.
Qed.
(* a trace of another length than the PIL's, or steps that do not start at the extended domain, are refused *)
Theorem pil_refused fuel p ss : (exists d, pil_deg p = Some d /\ d <> 2 ^ ss_nbits ss) \/
  (pil_deg p = Some (2 ^ ss_nbits ss) /\ exists s rest, ss_steps ss = s :: rest /\ s <> ss_nbits_ext ss) -> starkinfo_new fuel p ss = Err.
Proof.
  unfold starkinfo_new. intros [[d [E H]]|[E [s [rest [E2 H]]]]]; rewrite E; cbn [CodegenModel.unwrap]; rewrite bindE.
  - destruct (Nat.eqb_spec (2 ^ ss_nbits ss) d); [congruence | reflexivity].
  - rewrite Nat.eqb_refl. cbn [negb]. rewrite E2. unfold vget. cbn [nth_error]. rewrite bindE. destruct (Nat.eqb_spec (ss_nbits_ext ss) s); [congruence | reflexivity].
Qed.
