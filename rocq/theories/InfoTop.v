(* StarkInfo::new on a PIL without lookups, permutations and connections: what it generates is a machine that the
   prover proves and the verifier accepts. *)
From Coq Require Import String.
From Verif Require Import Base GlModel FrField F3gModel Cubic F3gProof ListAux PolyModel Roots PolyProof CodegenModel CodegenProof
  InterpModel InterpProof BnProof VerifierModel VerifierProof ImModel ImProof HashModel FriModel PolsModel ProverModel ProverProof
  ParModel ParProof StarkModel StarkGen StarkSrc StarkPoly StarkRow StarkStep4 StarkTop StageModel StarkExtend StarkStages StarkPlain NStep NGen NTop DenRel ArgStages PubModel MapModel InfoModel InfoLayout InfoCols InfoPlace.
From Verif Require ArgModel ArgHonest.
Open Scope nat_scope.
Open Scope list_scope.
Open Scope res_scope.

(** ** the PIL *)
(* an expression that does not refer to the next row *)
Inductive flat_expr (e : expr) : Prop := FE : e_next e = false -> Forall flat_expr (e_values e) -> flat_expr e.
(* the expressions whose value in the next row is referred to *)
Inductive primed (tbl : list expr) : nat -> Prop :=
| PR_ref i e j : nth_error tbl i = Some e -> In (true, j) (exp_refs false e) -> primed tbl j
| PR_sub i e p j : primed tbl i -> nth_error tbl i = Some e -> In (p, j) (exp_refs true e) -> primed tbl j.
(* no arguments; references are in bounds; publics are cells of the table; what is referred to in the next row does
   not refer to its next row *)
Record plain_pil (p : pil) : Prop := {
  pp_args : pil_lookups p = [] /\ pil_perms p = [] /\ pil_conns p = [];
  pp_exps : Forall (pil_expr (List.length (pil_exps p)) (pil_ncm p) (pil_nconst p) (List.length (pil_publics p))) (pil_exps p);
  pp_ids : Forall (fun i => i < List.length (pil_exps p)) (pil_ids p);
  pp_pub : Forall (fun b => pb_kind b = PcmP /\ pb_pol b < pil_ncm p /\ forall d, pil_deg p = Some d -> pb_idx b < d) (pil_publics p);
  pp_flat : forall j e, primed (pil_exps p) j -> nth_error (pil_exps p) j = Some e -> flat_expr e }.

Lemma flat_labs n m c b e : pil_expr n m c b e -> flat_expr e -> labs flat_node false false e.
Proof.
  induction e as [op id next value values k kp IH] using expr_ind'. intros [Ho Hv] [Fn Fv]. constructor.
  - unfold lab. unfold pil_op in Ho. cbn [e_op e_next e_id e_const e_value] in *. subst next. unfold flat_node.
    destruct op; try exact Coq.Init.Logic.I; try (destruct Ho; fail); intros; (split; [reflexivity | discriminate]).
  - cbn [e_values] in *. clear -IH Hv Fv. induction IH as [|x l Hx _ IHl]; constructor; [apply Hx; [exact (Forall_inv Hv) | exact (Forall_inv Fv)] | apply IHl; [exact (Forall_inv_tail Hv) | exact (Forall_inv_tail Fv)]].
Qed.

(** ** what StarkInfo::new does *)
Lemma no_imp fuel tbl l : Forall (fun b => pb_kind b = PcmP) l -> public_codes fuel tbl l = Ok [].
Proof.
  intros H. unfold public_codes. replace (filter is_imP l) with (@nil public); [reflexivity|]. symmetry. induction H as [|b l Hb _ IH]; [reflexivity|]. cbn [filter]. unfold is_imP at 1. rewrite Hb. exact IH.
Qed.
Lemma empty_step2 fuel exps ids ncm : ArgModel.generate_step2 fuel (ArgModel.mkA exps ids ncm (mkCtx 0 [] [])) [] = Ok (ArgModel.mkA exps ids ncm (mkCtx 0 [] []), [], ([], 0)).
Proof. reflexivity. Qed.
Lemma empty_step3 fuel l1 exps ids ncm : ArgModel.generate_step3 fuel l1 (ArgModel.mkA exps ids ncm (mkCtx 0 [] [])) [] [] [] =
  Ok (ArgModel.mkS3 (ArgModel.mkA exps ids ncm (mkCtx 0 [] [])) [] [] [] ([], 0)).
Proof. reflexivity. Qed.
Lemma new_inv fuel p ss si sg pg : plain_pil p -> starkinfo_new fuel p ss = Ok (si, sg, pg) ->
  exists ce c4 k q seg3 rest, pil_deg p = Some (2 ^ ss_nbits ss) /\ ss_steps ss = ss_nbits_ext ss :: rest /\ ss_nbits ss <= ss_nbits_ext ss /\
    gen_constraint fuel (pil_exps p) (pil_ids p) (pil_ncm p) (2 ^ (ss_nbits_ext ss - ss_nbits ss) + 1) = Ok ce /\
    gens (ce_tbl ce) fuel (map fst (ce_im ce)) (mkCtx 0 [] []) = Ok c4 /\
    map_cols fuel (ce_tbl ce) (ce_im ce) (pil_ncm p) [] [] [] (ce_id ce) (List.length (ce_qs ce)) = Ok (k, q) /\
    layout_of k q (pil_nconst p) (ss_nbits ss) (ss_nbits_ext ss) = Ok si /\ gen_program fuel si ce = Ok pg /\
    fix_prover_code si (ce_im ce) (co_texp k) true (linear_code c4) (x_tmp c4) = Ok seg3 /\
    st_publics sg = pil_publics p /\ st_pubcode sg = [] /\ st_step2prev sg = mkSeg [] 0 /\ st_step3prev sg = mkSeg [] 0 /\ st_step3 sg = seg3 /\
    st_pu sg = [] /\ st_pe sg = [] /\ st_ci sg = [] /\ st_ncm1 sg = pil_ncm p.
Proof.
  intros [[A1 [A2 A3]] _ _ HP _] H. unfold starkinfo_new in H. apply bind_ok in H. destruct H as [deg [Hd H]].
  destruct (Nat.eqb_spec (2 ^ ss_nbits ss) deg) as [Ed|]; cbn [negb] in H; [|discriminate H]. apply bind_ok in H. destruct H as [s0 [Hs H]].
  destruct (Nat.eqb_spec (ss_nbits_ext ss) s0) as [Es|]; cbn [negb] in H; [|discriminate H].
  rewrite no_imp in H by (eapply Forall_impl; [|exact HP]; cbv beta; tauto). rewrite bindE in H. rewrite A1, A2, A3, empty_step2, bindE in H. cbv beta iota zeta in H. rewrite empty_step3, bindE in H.
  cbn [ArgModel.o_state ArgModel.o_pu ArgModel.o_pe ArgModel.o_ci ArgModel.o_code ArgModel.a_exps ArgModel.a_ids ArgModel.a_ncm ArgModel.a_ctx map fst snd] in H.
  destruct (Nat.ltb_spec (ss_nbits_ext ss) (ss_nbits ss)) as [|Hle]; [discriminate H|].
  apply bind_ok in H. destruct H as [ce [Hce H]]. apply bind_ok in H. destruct H as [code3 [H3 H]]. apply bind_ok in H. destruct H as [[k q] [Hk H]]. apply bind_ok in H. destruct H as [si' [Hl H]].
  apply bind_ok in H. destruct H as [pg' [Hg H]]. apply bind_ok in H. destruct H as [pubs [Hpb H]]. apply bind_ok in H. destruct H as [s2 [E2 H]]. apply bind_ok in H. destruct H as [s3p [E3 H]]. apply bind_ok in H. destruct H as [s3 [E4 H]].
  unfold step3_code in H3. apply bind_ok in H3. destruct H3 as [c4 [Hc4 H3]]. cbn [build_code fst] in H3. apply ok_inj in H3. subst code3. cbn [fst snd] in E4.
  unfold map_publics in Hpb. cbn [mapM] in Hpb. apply ok_inj in Hpb. subst pubs. unfold fix_prover_code in E2, E3. cbn [iter_code bind fst snd f_tmp] in E2, E3. apply ok_inj in E2. apply ok_inj in E3. subst s2 s3p.
  apply ok_inj in H. pose proof (f_equal (fun x => fst (fst x)) H) as X1. pose proof (f_equal (fun x => snd (fst x)) H) as X2. pose proof (f_equal snd H) as X3. cbn [fst snd] in X1, X2, X3. subst si' sg pg'.
  exists ce, c4, k, q, s3. destruct (ss_steps ss) as [|s0' rest] eqn:Ess; [discriminate Hs|]. exists rest.
  cbn [st_publics st_pubcode st_step2prev st_step3prev st_step3 st_pu st_pe st_ci st_ncm1].
  split. { unfold CodegenModel.unwrap in Hd. destruct (pil_deg p) as [d|]; [|discriminate Hd]. apply ok_inj in Hd. congruence. }
  split. { unfold vget in Hs. cbn [nth_error] in Hs. apply ok_inj in Hs. congruence. }
  split; [exact Hle|]. split; [exact Hce|]. split; [exact Hc4|]. split; [exact Hk|]. split; [exact Hl|]. split; [exact Hg|]. split; [exact E4|].
  repeat (split; [reflexivity|]). reflexivity.
Qed.

(** ** fixing code *)
Lemma refs_each g l : forall f l' f', iter_refs g f l = Ok (l', f') -> Forall2 (fun r r' => exists f f', g f r = Ok (r', f')) l l'.
Proof.
  induction l as [|r l IH]; intros f l' f' E; cbn [iter_refs] in E; [apply ok_inj in E; injection E as <- _; constructor|].
  apply bind_ok in E. destruct E as [[a fa] [Ea E]]. apply bind_ok in E. destruct E as [[b fb] [Eb E]]. cbn [fst snd] in *. apply ok_inj in E. injection E as <- _.
  constructor; [exists f, fa; exact Ea | exact (IH _ _ _ Eb)].
Qed.
Definition fixed (g : fstate -> node -> res (node * fstate)) (c c' : instr) : Prop :=
  i_op c' = i_op c /\ Forall2 (fun r r' => exists f f', g f r = Ok (r', f')) (i_src c) (i_src c') /\ exists f f', g f (i_dest c) = Ok (i_dest c', f').
Lemma code_each g l : forall f l' f', iter_code g f l = Ok (l', f') -> Forall2 (fixed g) l l'.
Proof.
  induction l as [|c l IH]; intros f l' f' E; cbn [iter_code] in E; [apply ok_inj in E; injection E as <- _; constructor|].
  apply bind_ok in E. destruct E as [[a fa] [Ea E]]. apply bind_ok in E. destruct E as [[d fd] [Ed E]]. apply bind_ok in E. destruct E as [[b fb] [Eb E]]. cbn [fst snd] in *. apply ok_inj in E. injection E as <- _.
  constructor; [|exact (IH _ _ _ Eb)]. split; [reflexivity|]. cbn [i_src i_dest]. split; [exact (refs_each _ _ _ _ _ Ea) | exists fa, fd; exact Ed].
Qed.
Lemma rds_len rho s l vs : rds rho s l = Some vs -> List.length vs = List.length l.
Proof.
  revert vs. induction l as [|r l IH]; intros vs E; cbn [rds] in E; [injection E as <-; reflexivity|]. destruct (rd rho s r); [|discriminate E]. destruct (rds rho s l) as [ws|]; [|discriminate E]. injection E as <-.
  cbn [List.length]. rewrite (IH ws eq_refl). reflexivity.
Qed.

(** ** the layout and the code of step 3 *)
Section Build.
  Variables (fuel nb nbe q : nat) (p : pil) (si : sinfo) (ce : cexp) (c4 : context) (seg3 : segment).
  Local Notation tbl := (pil_exps p).
  Local Notation ids := (pil_ids p).
  Local Notation ncm := (pil_ncm p).
  Local Notation im := (ce_im ce).
  Local Notation nim := (List.length (ce_im ce)).
  Local Notation npub := (List.length (pil_publics p)).
  Hypothesis HP : plain_pil p.
  Hypothesis Hce : gen_constraint fuel tbl ids ncm (2 ^ (nbe - nb) + 1) = Ok ce.
  Hypothesis Hpl : plain_layout ncm nim q (List.length (ce_qs ce)) (pil_nconst p) nb nbe si.
  Hypothesis Hgen : gens tbl fuel (map fst im) (mkCtx 0 [] []) = Ok c4.
  Hypothesis Hseg : fix_prover_code si im [] true (linear_code c4) (x_tmp c4) = Ok seg3.
  Local Notation pnode := (plain_node (List.length tbl) ncm (pil_nconst p) npub).
  Definition RP (k : bool * nat) : Prop := snd k < List.length tbl /\ (fst k = true -> primed tbl (snd k)).

  Lemma im_col i c : assoc Nat.eqb im i = Some c -> exists j, c = ncm + j /\ j < nim /\ nth_error im j = Some (i, c).
  Proof.
    intros H. apply assoc_some in H. apply In_nth_error in H. destruct H as [j Hj]. assert (Lj : j < nim) by (apply nth_error_Some; congruence).
    exists j. split; [|split; [exact Lj | exact Hj]]. destruct (im_facts _ _ _ _ _ _ Hce) as [_ [_ [E _]]].
    assert (A : nth_error (map snd im) j = Some c) by (rewrite nth_error_map, Hj; reflexivity). rewrite E in A. apply (nth_error_nth _ _ 0) in A. rewrite seq_nth in A by exact Lj. congruence.
  Qed.
  Lemma im_same i j c : assoc Nat.eqb im i = Some c -> assoc Nat.eqb im j = Some c -> i = j.
  Proof.
    intros A B. destruct (im_col _ _ A) as [a [A1 [_ A2]]]. destruct (im_col _ _ B) as [b [B1 [_ B2]]]. assert (a = b) by lia. subst b. rewrite A2 in B2. congruence.
  Qed.
  Lemma col1 c : c < ncm -> ncol si Ncm c = Some (Scm1_n, c, 1).
  Proof. intros H. destruct (pa_cm1 _ _ _ _ _ _ _ _ Hpl c H) as [A [B _]]. unfold ncol. rewrite A. exact B. Qed.
  Lemma col3 c : c < nim -> ncol si Ncm (ncm + c) = Some (Scm3_n, c, 1).
  Proof. intros H. destruct (pa_cm3 _ _ _ _ _ _ _ _ Hpl c H) as [A [B _]]. unfold ncol. rewrite A. exact B. Qed.
  Lemma kcol_im i s pos dim : kcol si im [] i = Some (s, pos, dim) -> s = Scm3_n /\ dim = 1 /\ pos < nim /\ assoc Nat.eqb im i = Some (ncm + pos).
  Proof.
    unfold kcol, kept. destruct (assoc Nat.eqb im i) as [c|] eqn:E; [|discriminate]. destruct (im_col _ _ E) as [j [-> [Hj _]]]. rewrite col3 by exact Hj. intros H. injection H as <- <- <-. auto.
  Qed.
  Lemma kw_other s c : s <> Scm3_n -> kwrites si im [] c4 s c = false.
  Proof.
    intros H. unfold kwrites. destruct (existsb _ _) eqn:E; [|reflexivity]. apply existsb_exists in E. destruct E as [k [_ E]]. unfold covers in E. destruct (kcol si im [] (snd k)) as [[[s' pos] dim]|] eqn:Ek; [|discriminate E].
    destruct (kcol_im _ _ _ _ Ek) as [-> _]. destruct (sec_dec s Scm3_n); [contradiction | discriminate E].
  Qed.
  Lemma sizes1 : si_width si Scm1_n = ncm /\ si_width si Scm3_n = nim.
  Proof. destruct (pa_width _ _ _ _ _ _ _ _ Hpl) as [A [_ [_ [_ [B _]]]]]. auto. Qed.
  Lemma src_lsrc sg m r : st_publics sg = pil_publics p -> drawn sg 4 m -> pnode r -> lsrc si Step3 m (kwrites si im [] c4) r.
  Proof.
    intros Hs [D1 _] H. unfold plain_node in H. unfold lsrc, lread. destruct (n_ty r) eqn:Et; try contradiction; try (right; left; reflexivity); right; right.
    - exists Scm1_n, (n_id r), 1. split; [exact (col1 _ H)|]. split; [|split; [left; reflexivity | intros c _; apply kw_other; discriminate]].
      split; [left; reflexivity|]. split; [left; reflexivity|]. split; [reflexivity|]. cbn [sec_width]. rewrite (proj1 sizes1). lia.
    - rewrite (proj1 (pa_rest _ _ _ _ _ _ _ _ Hpl)). split; [exact H|]. split; [right; right; right; left; reflexivity | intros c; apply kw_other; discriminate].
    - exact H.
    - rewrite D1, Hs. exact H.
  Qed.
  Lemma exps_all i e : nth_error tbl i = Some e -> pil_expr (List.length tbl) ncm (pil_nconst p) npub e.
  Proof. intros H. exact (proj1 (Forall_forall _ _) (pp_exps _ HP) e (nth_error_In _ _ H)). Qed.
  Lemma refs_in pr i e k : RP (pr, i) -> nth_error tbl i = Some e -> In k (exp_refs pr e) -> RP k.
  Proof.
    intros [A B] He Hk. cbn [fst snd] in A, B. split; [exact (pe_refs _ _ _ _ _ (exps_all i e He) pr k Hk)|]. destruct k as [k1 k2]. cbn [fst snd]. intros ->.
    destruct pr; [exact (PR_sub _ i e true k2 (B eq_refl) He Hk) | exact (PR_ref _ i e k2 He Hk)].
  Qed.
  Lemma ids_in : Forall (fun i => RP (false, i)) (map fst im).
  Proof.
    destruct (im_facts _ _ _ _ _ _ Hce) as [_ [E _]]. eapply Forall_impl; [|exact E]. intros i Hi. split; [exact Hi | intros C; discriminate C].
  Qed.
  Definition tnode (r : node) : Prop := n_ty r = Ntmp \/ pnode r.
  Lemma code_src : Forall (fun c => i_op c <> CMuladd /\ Forall tnode (i_src c)) (linear_code c4).
  Proof.
    destruct (gens_src tbl tnode RP fuel (map fst im) (fun r Hr => or_introl Hr)) with (c := mkCtx 0 [] []) (c' := c4) as [ext [E F]].
    - intros pr i e Hr He. split; [|intros k; exact (refs_in pr i e k Hr He)]. eapply labs_mono; [|exact (pe_labs _ _ _ _ _ (exps_all i e He) pr)]. intros r Hr'. right. exact Hr'.
    - exact ids_in.
    - exact Hgen.
    - change (linear_code (mkCtx 0 [] [])) with (@nil instr) in E. cbn [app] in E. rewrite E. eapply Forall_impl; [|exact F]. intros a [A B]. split; [intros C; discriminate (A C) | exact B].
  Qed.
  Lemma fix_src f r r' f' : tnode r -> fixp_ref si im [] true f r = Ok (r', f') ->
    (exists o, get_ref si r' true (dom_next si true) (dom_size si true) = Ok o) /\
    forall sg m, drawn sg 4 m -> wnode si m (fun _ => false) r' = false.
  Proof.
    assert (Hcm : forall c v d pr ps s, (exists pos, ncol si Ncm c = Some (s, pos, 1)) -> (exists o, get_ref si (mkN Ncm c v d pr ps) true (dom_next si true) (dom_size si true) = Ok o) /\
      forall m, wnode si m (fun _ => false) (mkN Ncm c v d pr ps) = false).
    { intros c v d pr ps s [pos H]. split.
      - unfold get_ref. cbn [n_ty]. unfold cm_ref. cbn [n_id n_prime]. unfold ncol in H. destruct (nth_error (si_cm_n si) c) as [x|] eqn:E; [|discriminate H].
        rewrite (vget_some _ _ _ E), bindE. unfold eval_map. rewrite (vget_some _ _ _ H), bindE. cbn [Nat.eqb orb rmap]. eexists. reflexivity.
      - intros m. unfold wnode. cbn [n_ty n_id]. rewrite H. reflexivity. }
    intros [Ht|H] E; unfold fixp_ref in E.
    - rewrite Ht in E. apply ok_inj in E. injection E as <- _. split; [unfold get_ref; rewrite Ht; eexists; reflexivity|]. intros sg m _. unfold wnode. rewrite Ht. reflexivity.
    - unfold plain_node in H. destruct (n_ty r) eqn:Et; try contradiction.
      + destruct (assoc Nat.eqb im (n_id r)) as [c|] eqn:Ea.
        * apply ok_inj in E. injection E as <- _. destruct (im_col _ _ Ea) as [j [-> [Hj _]]].
          destruct (Hcm (ncm + j) (n_value r) (CodegenModel.n_dim r) (n_prime r) (CodegenModel.n_pos r) Scm3_n (ex_intro _ j (col3 j Hj))) as [A B]. split; [exact A | intros sg m _; exact (B m)].
        * cbn [assoc] in E. destruct (exp_tmp f (n_prime r, n_id r)) as [t f1]. apply ok_inj in E. injection E as <- _. split; [unfold get_ref; cbn [n_ty]; eexists; reflexivity | intros sg m _; reflexivity].
      + apply bind_ok in E. destruct E as [x [_ E]]. apply ok_inj in E. injection E as <- _. destruct r as [ty id v d pr ps]. cbn [n_ty n_id] in *. subst ty.
        destruct (Hcm id v d pr ps Scm1_n (ex_intro _ id (col1 id H))) as [A B]. split; [exact A | intros sg m _; exact (B m)].
      + apply ok_inj in E. injection E as <- _. split; [unfold get_ref; rewrite Et; eexists; reflexivity | intros sg m _; unfold wnode; rewrite Et; reflexivity].
      + apply ok_inj in E. injection E as <- _. split; [|intros sg m _; unfold wnode; rewrite Et; reflexivity]. destruct H as [v H]. unfold get_ref. rewrite Et, H. eexists. reflexivity.
      + apply ok_inj in E. injection E as <- _. split; [unfold get_ref; rewrite Et; eexists; reflexivity|]. intros sg m [_ [D _]]. unfold wnode. rewrite Et.
        destruct (existsb d3 (m_sec m Spublics)) eqn:Ex; [|reflexivity]. apply existsb_exists in Ex. destruct Ex as [x [X1 X2]]. rewrite (proj1 (Forall_forall _ _) D x X1) in X2. discriminate X2.
  Qed.
  Lemma seg_typed sg m : drawn sg 4 m -> Forall (typed si m (fun _ => false)) (sg_first seg3).
  Proof.
    intros D. unfold fix_prover_code in Hseg. pose proof Hseg as E. apply bind_ok in E. destruct E as [[out f'] [E E']]. apply ok_inj in E'. rewrite <- E'. cbn [sg_first fst].
    apply code_each in E. pose proof code_src as S. clear -E S D HP Hce Hpl. induction E as [|c c' l l' [_ [X _]] _ IH]; constructor; [|exact (IH (Forall_inv_tail S))].
    intros _. pose proof (proj2 (Forall_inv S)) as F. clear -X F D HP Hce Hpl. induction X as [|r r' s s' [f [f' Y]] _ IH]; constructor; [|exact (IH (Forall_inv_tail F))].
    exact (proj2 (fix_src _ _ _ _ (Forall_inv F) Y) sg m D).
  Qed.
  Lemma seg_compiles : exists b, compile_code si (sg_first seg3) true false = Ok b.
  Proof.
    pose proof Hseg as E. unfold fix_prover_code in E. apply bind_ok in E. destruct E as [[out f'] [E E']]. apply ok_inj in E'. rewrite <- E'. cbn [sg_first fst].
    apply code_each in E. pose proof code_src as S.
    assert (Hd : Forall (fun c => n_ty (i_dest c) = Ntmp \/ n_ty (i_dest c) = Nexp) (linear_code c4)).
    { destruct (gens_grows tbl fuel (map fst im) _ _ Hgen) as [_ [_ [ext [E1 F]]]]. change (linear_code (mkCtx 0 [] [])) with (@nil instr) in E1. cbn [app] in E1. rewrite E1.
      eapply Forall_impl; [|exact F]. intros a [_ [[A _]|[i [b [A _]]]]]; [left; exact A | right]. apply (f_equal (fun z => fst (fst z))) in A. exact A. }
    assert (Hr : exists s s', run (fun _ => e_ZERO) s (linear_code c4) = Some s').
    { destruct (gens_run tbl (fun _ => e_ZERO) fuel (map fst im) eq_refl) with (c := mkCtx 0 [] []) (c' := c4) as [ext [E1 F]].
      - eapply Forall_impl; [|exact (pp_exps _ HP)]. intros e He. exact (pe_wf _ _ _ _ _ He).
      - exact Hgen.
      - change (linear_code (mkCtx 0 [] [])) with (@nil instr) in E1. cbn [app] in E1. rewrite E1. destruct (F (fun _ => None)) as [s' [F1 _]]; [intros pr i []|]. exists (fun _ => None), s'. exact F1. }
    destruct Hr as [s [s' Hr]]. unfold compile_code.
    assert (G : exists body, mapM (compile_instr si true (dom_next si true) (dom_size si true)) out = Ok body).
    { clear -E S Hd Hr HP Hce Hpl. revert s Hr. induction E as [|c c' l l' [X1 [X2 [fd [fd' X3]]]] _ IH]; intros s Hr; [exists []; reflexivity|]. cbn [run] in Hr. destruct (exec_op (fun _ => e_ZERO) s (i_op c) (i_src c)) as [v|] eqn:Ev; [|discriminate Hr].
      destruct (IH (Forall_inv_tail S) (Forall_inv_tail Hd) _ Hr) as [body Eb]. cbn [mapM]. rewrite Eb. destruct (Forall_inv S) as [Hm Hs].
      assert (Eg : exists os, mapM (fun r => get_ref si r true (dom_next si true) (dom_size si true)) (i_src c') = Ok os /\ List.length os = List.length (i_src c)).
      { clear -X2 Hs HP Hce Hpl. induction X2 as [|r r' a a' [f [f' Y]] _ IH]; [exists []; split; reflexivity|]. destruct (fix_src _ _ _ _ (Forall_inv Hs) Y) as [[o Eo] _]. destruct (IH (Forall_inv_tail Hs)) as [os [E1 E2]].
        exists (o :: os). cbn [mapM]. rewrite Eo, bindE, E1, bindE. split; [reflexivity | cbn [List.length]; rewrite E2; reflexivity]. }
      destruct Eg as [os [Eg Lo]]. unfold exec_op in Ev. destruct (rds (fun _ => e_ZERO) s (i_src c)) as [vs|] eqn:Er; [|discriminate Ev]. apply rds_len in Er.
      assert (Ec : exists o, compile_op (i_op c) os = Ok o).
      { rewrite <- Er in Lo. clear -Ev Lo Hm. destruct (i_op c); [| | |now destruct Hm|]; destruct vs as [|a [|b t]]; try discriminate Ev; destruct os as [|x [|y z]]; try discriminate Lo; eexists; reflexivity. }
      destruct Ec as [o Ec]. 
      assert (Ed : exists d, dest_ref si (i_dest c') true (dom_next si true) (dom_size si true) = Ok d).
      { unfold fixp_ref in X3. destruct (Forall_inv Hd) as [Hd1|Hd1]; rewrite Hd1 in X3.
        - apply ok_inj in X3. injection X3 as <- _. unfold dest_ref. rewrite Hd1. eexists. reflexivity.
        - destruct (assoc Nat.eqb im (n_id (i_dest c))) as [k|] eqn:Ea.
          + apply ok_inj in X3. injection X3 as <- _. destruct (im_col _ _ Ea) as [j [-> [Hj _]]]. unfold dest_ref. cbn [n_ty]. unfold cm_ref. cbn [n_id n_prime]. pose proof (col3 j Hj) as H3. unfold ncol in H3.
            destruct (nth_error (si_cm_n si) (ncm + j)) as [x|] eqn:E3; [|discriminate H3]. rewrite (vget_some _ _ _ E3), bindE. unfold eval_map. rewrite (vget_some _ _ _ H3), bindE. cbn [Nat.eqb orb]. eexists. reflexivity.
          + cbn [assoc] in X3. destruct (exp_tmp fd (n_prime (i_dest c), n_id (i_dest c))) as [t f1]. apply ok_inj in X3. injection X3 as <- _. unfold dest_ref. cbn [n_ty]. eexists. reflexivity. }
      destruct Ed as [d Ed]. unfold compile_instr. rewrite Eg, bindE, X1, Ec, bindE, Ed, bindE, bindE, bindE. eexists. reflexivity. }
    destruct G as [body ->]. rewrite bindE. eexists. reflexivity.
  Qed.

  (** ** the machine *)
  Variables (sg : stageprog) (pg : program).
  Hypothesis Hdeg : pil_deg p = Some (2 ^ nb).
  Hypothesis Hpub : st_publics sg = pil_publics p.
  Hypothesis Hcode : st_pubcode sg = [].
  Hypothesis Hs2 : st_step2prev sg = mkSeg [] 0.
  Hypothesis Hs3p : st_step3prev sg = mkSeg [] 0.
  Hypothesis Hs3 : st_step3 sg = seg3.
  Hypothesis Hpu : st_pu sg = [].
  Hypothesis Hpe : st_pe sg = [].
  Hypothesis Hci : st_ci sg = [].
  Hypothesis Hncm1 : st_ncm1 sg = ncm.
  Hypothesis Hpg : gen_program fuel si ce = Ok pg.
  Hypothesis Hq : q = 3 \/ q = 1 /\ List.length ids + nim <= 1.
  Hypothesis Hqs : ce_qs ce <> [].
  Hypothesis Hb1 : 1 <= nb <= nbe.
  Hypothesis Hb2 : nbe <= 24.
  Hypothesis Hw : forall s, si_width si s <= MAX_OPS.
  Hypothesis Hk : pil_nconst p <= MAX_OPS.
  Lemma exps_wf : Forall wf_e tbl.
  Proof. eapply Forall_impl; [|exact (pp_exps _ HP)]. intros e He. exact (pe_wf _ _ _ _ _ He). Qed.
  Lemma deg_fits : List.length (ce_qs ce) * 2 ^ nb <= 2 ^ nbe.
  Proof.
    destruct (constraint_deg fuel tbl ids ncm _ ce 1 (fun _ _ => kzero) Hce Hqs (le_n 1)) as [_ [_ [Hd _]]].
    - intros r. exists []. split; [apply Nat.le_0_l | intros x; reflexivity].
    - assert (Hd' : List.length (ce_qs ce) <= 2 ^ (nbe - nb)) by (set (z := 2 ^ (nbe - nb)) in *; clearbody z; lia).
      replace (2 ^ nbe) with (2 ^ (nbe - nb) * 2 ^ nb) by (rewrite <- Nat.pow_add_r; f_equal; lia). apply Nat.mul_le_mono_r. exact Hd'.
  Qed.
  Lemma place1 c : c < ncm -> place si c = Some (Scm1_n, c, 1).
  Proof. intros H. exact (col1 c H). Qed.
  Lemma col2 c : c < ncm + nim -> exists a b pos k, In (a, b) secs3 /\ place si c = Some (a, pos, 1) /\ nth_error (si_cm_2ns si) c = Some k /\ nth_error (si_map si) k = Some (b, pos, 1) /\ pos + 1 <= si_width si a.
  Proof.
    intros H. destruct sizes1 as [W1 W3]. destruct (Nat.lt_ge_cases c ncm) as [Hc|Hc].
    - destruct (pa_cm1 _ _ _ _ _ _ _ _ Hpl c Hc) as [_ [_ [A B]]]. exists Scm1_n, Scm1_2ns, c, (2 * c + 1). split; [left; reflexivity|]. split; [exact (col1 c Hc)|]. split; [exact A|]. split; [exact B|]. rewrite W1. lia.
    - assert (Hj : c - ncm < nim) by lia. destruct (pa_cm3 _ _ _ _ _ _ _ _ Hpl _ Hj) as [_ [_ [A B]]]. pose proof (col3 _ Hj) as P3. replace (ncm + (c - ncm)) with c in A, B, P3 by lia.
      exists Scm3_n, Scm3_2ns, (c - ncm), (2 * c + 1). split; [right; right; left; reflexivity|]. split; [exact P3|]. split; [exact A|]. split; [exact B|]. rewrite W3. lia.
  Qed.
  Lemma the_cfg : stark_cfg fuel fuel si tbl ids ncm (2 ^ (nbe - nb) + 1) ce pg (List.length (st_publics sg)).
  Proof.
    destruct (pa_rest _ _ _ _ _ _ _ _ Hpl) as [R1 [R2 [R3 R4]]]. destruct (pa_width _ _ _ _ _ _ _ _ Hpl) as [W1 [W2 [W3 [W4 [W5 [W6 [W7 [W8 [W9 [W10 W11]]]]]]]]]].
    constructor.
    - rewrite R3, R4. split; [exact Hb1 | lia].
    - exact Hce.
    - split; [exact Hqs|]. rewrite R3, R4. exact deg_fits.
    - exact Hpg.
    - split; [exact exps_wf|]. intros pr. eapply Forall_impl; [|exact (pp_exps _ HP)]. intros e He. eapply labs_mono; [|exact (pe_labs _ _ _ _ _ He pr)].
      intros r Hr. unfold plain_node in Hr. unfold node_ok. destruct (n_ty r); try contradiction; try exact Hr; [lia | rewrite R1; exact Hr | rewrite Hpub; exact Hr].
    - exact (pp_ids _ HP).
    - rewrite R2. exact Hq.
    - rewrite R2. split; [exact W9|]. split; [exact W10 | exact W8].
    - intros c Hc. rewrite R2. destruct (pa_cm4 _ _ _ _ _ _ _ _ Hpl c Hc) as [A B]. eexists. split; [exact A | exact B].
    - intros _ c k s pos dim Hc A B. destruct (col2 c Hc) as [a [b [pos' [k' [_ [_ [A' [B' _]]]]]]]]. rewrite A in A'. injection A' as <-. rewrite B in B'. injection B' as _ _ ->. reflexivity.
  Qed.
  Lemma the_layout : layout si (ncm + nim).
  Proof.
    destruct (pa_rest _ _ _ _ _ _ _ _ Hpl) as [R1 _]. destruct (pa_width _ _ _ _ _ _ _ _ Hpl) as [W1 [W2 [W3 [W4 [W5 [W6 [W7 [W8 [W9 [W10 W11]]]]]]]]]].
    constructor.
    - intros a b [E|[E|[E|[]]]]; injection E as <- <-; (split; [congruence | apply Hw]).
    - rewrite R1. exact Hk.
    - split; [congruence|]. apply Nat.le_trans with (si_width si Scm4_2ns); [|apply Hw]. apply Nat.div_le_upper_bound; [discriminate|]. set (z := si_width si Scm4_2ns). clearbody z. lia.
    - intros c Hc. destruct (col2 c Hc) as [a [b [pos [k [A [B [C [D E]]]]]]]]. exists a, b, pos, 1, k. split; [exact A|]. split; [exact B|]. split; [exact C|]. split; [exact D|]. split; [left; reflexivity | exact E].
  Qed.
  Lemma the_machine : machine fuel fuel si sg tbl ids ncm (2 ^ (nbe - nb) + 1) ce pg.
  Proof.
    destruct (pa_rest _ _ _ _ _ _ _ _ Hpl) as [_ [_ [_ R4]]]. constructor.
    - exact the_cfg.
    - rewrite R4. exact Hb2.
    - exact the_layout.
    - rewrite Hcode. constructor.
    - rewrite Hpu. intros c k s pos dim Hc. cbn [List.length] in Hc. lia.
    - rewrite Hpu, Hpe, Hci. intros c k s pos dim Hc. cbn [List.length app] in Hc. lia.
  Qed.
  Lemma empty_seg st m : step_dom st = true -> nseg si st im [] (fun _ => false) tbl fuel [] 0 (mkCtx 0 [] []) (mkSeg [] 0) (fun _ => False) m.
  Proof.
    intros Hst. constructor; try (intros; contradiction).
    - exact Hst.
    - reflexivity.
    - reflexivity.
    - exact exps_wf.
    - constructor.
    - constructor.
  Qed.
  Lemma step3_seg m : drawn sg 4 m -> nseg si Step3 im [] (fun _ => false) tbl fuel (map fst im) 0 c4 seg3 RP m.
  Proof.
    intros D. constructor.
    - reflexivity.
    - exact Hgen.
    - exact Hseg.
    - exact exps_wf.
    - exact ids_in.
    - intros pr i e Hr He. split; [|intros k; exact (refs_in pr i e k Hr He)]. eapply labs_mono; [|exact (pe_labs _ _ _ _ _ (exps_all i e He) pr)]. intros r. exact (src_lsrc sg m r Hpub D).
    - intros pr i ty k _ E. unfold kept in E. destruct (assoc Nat.eqb im i) as [c|] eqn:Ea; [|discriminate E]. injection E as <- <-. destruct (im_col _ _ Ea) as [j [-> [Hj _]]].
      exists Scm3_n, j, 1. split; [exact (col3 j Hj)|]. split; [|left; reflexivity]. split; [left; reflexivity|]. split; [right; right; left; reflexivity|]. split; [reflexivity|]. cbn [sec_width]. rewrite (proj2 sizes1). lia.
    - intros pr pr' i j s col _ _ A B. unfold covers in A, B. destruct (kcol si im [] i) as [[[s1 p1] d1]|] eqn:E1; [|discriminate A]. destruct (kcol si im [] j) as [[[s2 p2] d2]|] eqn:E2; [|discriminate B].
      destruct (kcol_im _ _ _ _ E1) as [_ [-> [_ F1]]]. destruct (kcol_im _ _ _ _ E2) as [_ [-> [_ F2]]]. apply andb_prop in A. destruct A as [A A1]. apply andb_prop in A. destruct A as [_ A2]. apply andb_prop in B. destruct B as [B B1]. apply andb_prop in B. destruct B as [_ B2].
      apply Nat.leb_le in A2, B2. apply Nat.ltb_lt in A1, B1. assert (p1 = p2) by lia. subst p2. exact (im_same _ _ _ F1 F2).
    - exact (seg_typed sg m D).
    - intros i e _ He. eapply labs_mono; [|exact (pe_labs _ _ _ _ _ (exps_all i e He) true)]. intros r Hr Hx. unfold plain_node in Hr. rewrite Hx in Hr. exact Hr.
    - intros pr i s pos e _ E. destruct (kcol_im _ _ _ _ E) as [_ [C _]]. discriminate C.
  Qed.
  Lemma the_arguments : argmachine si sg tbl ids ce [] (fun _ => false) (fun _ => false) (fun _ => false) fuel [] [] (map fst im) 0 0 0 (mkCtx 0 [] []) (mkCtx 0 [] []) c4
    (fun _ => False) (fun _ => False) RP RP (fun _ => True) ids 0 (fun _ => 0) (fun _ => (0, 0)).
  Proof.
    destruct (im_facts _ _ _ _ _ _ Hce) as [I1 [I2 _]].
    constructor; try (rewrite Hpu, Hpe, Hci; cbn [app List.length]); try (intros; lia).
    - intros m _. rewrite Hs2. apply empty_seg. reflexivity.
    - intros m _. rewrite Hs3p. apply empty_seg. reflexivity.
    - intros m D. rewrite Hs3. exact (step3_seg m D).
    - split; [exact I1 | intros k H; exact H].
    - rewrite Hpu. intros t pu C. destruct t; discriminate C.
    - intros o e [].
    - intros t o C. destruct t; discriminate C.
    - intros j H. left. exact H.
    - intros pr. eapply Forall_impl; [|exact (pp_exps _ HP)]. intros e He. eapply labs_mono; [|exact (pe_labs _ _ _ _ _ He pr)]. intros r Hr Hx. unfold plain_node in Hr. rewrite Hx in Hr. contradiction.
    - split; [|split].
      + intros j Hj. split; [exact (proj1 (Forall_forall _ _) (pp_ids _ HP) j Hj) | intros C; discriminate C].
      + intros k Hk'. exact (proj1 (Forall_forall _ _) ids_in k Hk').
      + intros pr i Hr. split; [exact (proj1 Hr)|]. intros e He k Hk'. exact (refs_in pr i e k Hr He Hk').
    - intros k e [_ Hr] He. exact (flat_labs _ _ _ _ _ (exps_all k e He) (pp_flat _ HP k e (Hr eq_refl) He)).
    - split; [intros; exact Coq.Init.Logic.I|]. intros pr i e _ He. split; [|intros; exact Coq.Init.Logic.I]. eapply labs_mono; [|exact (pe_labs _ _ _ _ _ (exps_all i e He) pr)].
      intros r Hr Hx. unfold plain_node in Hr. rewrite Hx in Hr. rewrite (proj1 sizes1). exact Hr.
    - rewrite (proj1 sizes1). exact place1.
    - rewrite Hpub, (proj1 sizes1), (proj1 (proj2 (proj2 (pa_rest _ _ _ _ _ _ _ _ Hpl)))). eapply Forall_impl; [|exact (pp_pub _ HP)]. intros b [A [B C]]. split; [exact A|]. split; [exact (C _ Hdeg) | exact B].
  Qed.
  Lemma the_ends : ArgHonest.argends si sg ce [] [].
  Proof.
    constructor.
    - rewrite Hs2, Hs3p, Hs3. split; [eexists; reflexivity|]. split; [eexists; reflexivity | exact seg_compiles].
    - rewrite Hpu. intros pu e [].
  Qed.
End Build.
