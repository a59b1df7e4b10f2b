(* What an accepted proof consists of. *)
From Coq Require Import Ring Field Arith.
From Verif Require Import Base GlModel FrField F3gModel Cubic F3gProof ListAux PolyModel Roots PolyProof FftProof FftTop FriMath CodegenModel CodegenProof
  InterpModel InterpProof VerifierModel VerifierProof ImModel ImProof HashModel FftpModel FftpProof FriModel FriProof ProverModel ProverProof ParModel ParProof
  StarkMath StarkModel StarkGen StarkSrc StarkPoly StarkRow StarkQuot StarkEval StarkStep4 StarkFri StarkStep5 StarkCheck StarkTop.
From Verif Require Import SoundFri SoundQuery SoundCheck.
Open Scope nat_scope.
Open Scope list_scope.
Open Scope res_scope.
Add Field K_field_stp : K_field.

(* ---------- the joined constraint is a Horner sum ---------- *)
Section Joined.
  Variables (T : list expr) (rho : node -> F3G).
  Definition val_of (e : expr) (k : K) : Prop := exists a, den T rho false e a /\ val a = k.
  Local Notation vc := (val (rho (N_new Nchallenge 4 None false))).
  Definition jn (c : expr) (l : list expr) : Prop :=
    match l with [] => is_nop c = true | _ => is_nop c = false /\ forall v, den T rho false c v -> exists ws, Forall2 val_of l ws /\ val v = horner vc ws end.
  Lemma jn_step c l e : jn c l -> is_nop e = false -> jn (join_vc c e) (l ++ [e]).
  Proof.
    intros J Ne. unfold join_vc, jn in *. destruct l as [|y l].
    - rewrite J. cbn [app]. split; [exact Ne|]. intros v D. exists [val v]. split; [repeat constructor; exists v; auto|]. unfold horner. cbn [fold_left]. ring.
    - destruct J as [J1 J2]. rewrite J1. destruct ((y :: l) ++ [e]) as [|z r] eqn:E; [discriminate E|]. rewrite <- E. split; [reflexivity|]. intros v D.
      inversion D; subst; try discriminate. match goal with A : e_values _ = _ |- _ => cbn in A; injection A as <- <- <- end.
      match goal with A : den _ _ _ (E_mul _ _) _ |- _ => inversion A; subst; try discriminate end. match goal with A : e_values _ = _ |- _ => cbn in A; injection A as <- <- <- end.
      match goal with A : den _ _ _ c _ |- _ => destruct (J2 _ A) as [ws [W1 W2]] end.
      match goal with A : den _ _ _ e ?y |- _ => exists (ws ++ [val y]); split; [apply Forall2_app; [exact W1 | repeat constructor; exists y; auto]|] end.
      rewrite horner_snoc, val_add, val_mul, W2. match goal with A : den _ _ _ (E_challenge 4) _ |- _ => inversion A; subst; try discriminate end.
      match goal with A : e_id _ = Some _ |- _ => cbn in A; injection A as <- end. reflexivity.
  Qed.
  Lemma jn_ids l : forall c l0, jn c l0 -> jn (fold_left (fun c i => join_vc c (E_exp i false)) l c) (l0 ++ map (fun i => E_exp i false) l).
  Proof.
    induction l as [|i l IH]; intros c l0 J; cbn [fold_left map]; [rewrite app_nil_r; exact J|].
    replace (l0 ++ E_exp i false :: map (fun i => E_exp i false) l) with ((l0 ++ [E_exp i false]) ++ map (fun i => E_exp i false) l) by (rewrite <- app_assoc; reflexivity).
    apply IH, jn_step; [exact J | reflexivity].
  Qed.
  Definition im_diff (tbl : list expr) (kx : nat * nat) (e : expr) : Prop := exists a, nth_error tbl (fst kx) = Some a /\ e = E_sub a (E_cm (snd kx) false).
  Lemma jn_im tbl im : forall a c l0, jn a l0 -> joined tbl im a = Ok c -> exists es, Forall2 (im_diff tbl) im es /\ jn c (l0 ++ es).
  Proof.
    induction im as [|[k x] l IH]; intros a c l0 J H; unfold joined in H; cbn [foldM] in H.
    - apply ok_inj in H. subst c. exists []. rewrite app_nil_r. split; [constructor | exact J].
    - cbn [fst snd] in H. destruct (vget tbl k) as [e| | |] eqn:Ek; try discriminate H. cbn [bind] in H. fold (joined tbl l (join_vc a (E_sub e (E_cm x false)))) in H.
      destruct (IH _ _ _ (jn_step _ _ (E_sub e (E_cm x false)) J eq_refl) H) as [es [F1 F2]]. exists (E_sub e (E_cm x false) :: es). rewrite <- app_assoc in F2. split; [|exact F2].
      constructor; [|exact F1]. exists e. split; [exact (vget_inv _ _ _ Ek) | reflexivity].
  Qed.
  (* the value of an identity; the value of an expression minus that of the column standing for it *)
  Definition id_val (i : nat) (k : K) : Prop := val_of (E_exp i false) k.
  Definition im_val (tbl : list expr) (kx : nat * nat) (k : K) : Prop :=
    exists e a, nth_error tbl (fst kx) = Some e /\ den T rho false e a /\ k = ksub (val a) (val (rho (N_new Ncm (snd kx) None false))).
  Theorem joined_sum tbl im ids c v : joined tbl im (identities ids) = Ok c -> den T rho false c v ->
    exists l1 l2, Forall2 id_val ids l1 /\ Forall2 (im_val tbl) im l2 /\ val v = horner vc (l1 ++ l2).
  Proof.
    intros H D. destruct (jn_im tbl im _ c _ (jn_ids ids E_nop [] eq_refl) H) as [es [F1 F2]]. cbn [app] in F2. unfold jn in F2.
    destruct (map (fun i => E_exp i false) ids ++ es) as [|z r] eqn:E.
    - exfalso. unfold is_nop in F2. destruct (e_op c) eqn:Eo; try discriminate F2. inversion D; subst; congruence.
    - rewrite <- E in F2. destruct F2 as [_ F2]. destruct (F2 v D) as [ws [W1 W2]]. apply Forall2_app_inv_l in W1. destruct W1 as [l1 [l2 [A1 [A2 ->]]]]. exists l1, l2.
      split; [|split; [|exact W2]].
      + clear -A1. revert l1 A1. induction ids as [|i l IH]; intros l1 H; inversion H; subst; constructor; [assumption | now apply IH].
      + clear -A2 F1. revert l2 A2. induction F1 as [|[k x] e im es [a [Ha Ee]] F1 IH]; intros l2 H; inversion H; subst; constructor; [|now apply IH].
        match goal with A : val_of _ _ |- _ => destruct A as [b [Db <-]] end. inversion Db; subst; try discriminate. match goal with A : e_values _ = _ |- _ => cbn in A; injection A as <- <- <- end.
        exists a, x0. split; [exact Ha|]. split; [assumption|]. rewrite val_sub. refine (f_equal2 ksub eq_refl _).
        match goal with A : den _ _ _ (E_cm _ _) _ |- _ => inversion A; subst; try discriminate end. match goal with A : e_id _ = Some _ |- _ => cbn in A; injection A as <- end. reflexivity.
  Qed.
End Joined.

(* ---------- the layers, for a weaker reading of the first openings ---------- *)
Lemma layers_mono perm (b1 b2 : list opening -> nat -> list K -> Prop) : (forall o y g, b1 o y g -> b2 o y g) ->
  forall steps first qs xs ys last B s, layers perm b1 first steps qs xs ys last B s -> layers perm b2 first steps qs xs ys last B s.
Proof.
  intros H. induction steps as [|b rest IH]; intros first qs xs ys last B s L; cbn [layers] in *; [exact Logic.I|].
  destruct qs as [|q qs]; [exact L|]. destruct xs as [|x xs]; [exact L|]. destruct L as [L1 [L2 L3]]. split; [exact L1|]. split; [|now apply IH].
  intros i y Hy. destruct (L2 i y Hy) as [o [g [v [A1 [A2 [A3 A4]]]]]]. exists o, g, v. split; [exact A1|]. split; [|split; [exact A3 | exact A4]]. destruct first; [now apply H | exact A2].
Qed.

(* ---------- the statement ---------- *)
(* the values at the challenge point claimed by the proof satisfy the constraint *)
Definition holds_at_xi (si : sinfo) (tbl : list expr) (ids : list nat) (ce : cexp) (evs : list evkey) (evals pub ch : list F3G) : Prop :=
  let rho := claimed evs evals pub ch in
  let X := kpow (val (nth 7 ch e_ZERO)) (2 ^ si_nbits si) in
  exists l1 l2, Forall2 (id_val (with_im (ce_im ce) (ce_tbl ce)) rho) ids l1 /\ Forall2 (im_val (with_im (ce_im ce) (ce_tbl ce)) rho tbl) (ce_im ce) l2 /\
    horner (val (nth 4 ch e_ZERO)) (l1 ++ l2) = kmul (kpoly X (map (fun j => val (key_val evs evals (true, false, j))) (ce_qs ce))) (ksub X kone).
(* the rows opened at y are under the roots, and g is the FRI polynomial made of them at the point of y *)
Definition opened_rows (perm : list Fr -> list Fr -> list Fr) (si : sinfo) (ncm : nat) (evs : list evkey) (rc : list Fr) (p : sproof) (ch : list F3G) (o : list opening) (y : nat) (g : list K) : Prop :=
  exists r1 p1 r2 p2 r3 p3 r4 p4 r5 p5 more, o = (r1, p1) :: (r2, p2) :: (r3, p3) :: (r4, p4) :: (r5, p5) :: more /\
    verify_group_proof perm (sp_root1 p) p1 y r1 = Ok true /\ verify_group_proof perm (sp_root2 p) p2 y r2 = Ok true /\ verify_group_proof perm (sp_root3 p) p3 y r3 = Ok true /\
    verify_group_proof perm (sp_root4 p) p4 y r4 = Ok true /\ verify_group_proof perm rc p5 y r5 = Ok true /\
    length evs <= length (sp_evals p) /\
    exists col const : nat -> K,
      (forall c, c < ncm -> opened si (fun s => match s with Scm1_2ns => r1 | Scm2_2ns => r2 | Scm3_2ns => r3 | Scm4_2ns => r4 | _ => [] end) c (col c)) /\
      (forall t i, In (false, t, i) evs -> exists w, nth_error r5 i = Some w /\ const i = kconst w) /\
      let x := cpt (si_nbits_ext si) y in
      let xi := val (nth 7 ch e_ZERO) in
      g = [fri_value (val (nth 5 ch e_ZERO)) (val (nth 6 ch e_ZERO)) (kdiv x (ksub x xi)) (kdiv x (ksub x (kmul xi (kroot (si_nbits si))))) ncm col const
             (fun j => val (nth j (sp_evals p) e_ZERO)) evs].

Section Accepted.
  Variable perm : list Fr -> list Fr -> list Fr.
  Lemma transcript_ch p ch tr : v_transcript perm p = Ok (ch, tr) -> length ch = 8 /\ Forall (fun v => d3 v = true) ch.
  Proof.
    unfold v_transcript. intros E.
    apply bind_ok in E. destruct E as [t0 [_ E]]. apply bind_ok in E. destruct E as [t1 [_ E]].
    apply bind_ok in E. destruct E as [[c0 t2] [E0 E]]. apply bind_ok in E. destruct E as [[c1 t3] [E1 E]]. apply bind_ok in E. destruct E as [t4 [_ E]].
    apply bind_ok in E. destruct E as [[c2 t5] [E2 E]]. apply bind_ok in E. destruct E as [[c3 t6] [E3 E]]. apply bind_ok in E. destruct E as [t7 [_ E]].
    apply bind_ok in E. destruct E as [[c4 t8] [E4 E]]. apply bind_ok in E. destruct E as [t9 [_ E]]. apply bind_ok in E. destruct E as [[c7 t10] [E7 E]]. apply bind_ok in E. destruct E as [t11 [_ E]].
    apply bind_ok in E. destruct E as [[c5 t12] [E5 E]]. apply bind_ok in E. destruct E as [[c6 t13] [E6 E]]. apply ok_inj in E. apply pair_equal_spec in E. destruct E as [<- _].
    split; [reflexivity|]. repeat (apply Forall_cons; [eapply challenge_d3; eassumption|]). apply Forall_nil.
  Qed.
  Lemma root_open root q k idx u : check_root perm root q k idx = Ok u -> exists o, nth_error q k = Some o /\ verify_group_proof perm root (snd o) idx (fst o) = Ok true.
  Proof.
    unfold check_root. intros E. apply bind_ok in E. destruct E as [o [A E]]. apply bind_ok in E. destruct E as [ok [B E]]. destruct ok; [|discriminate E].
    exists o. split; [exact (vget_inv _ _ _ A) | exact B].
  Qed.

  Variables (fuel gfuel : nat) (si : sinfo) (tbl : list expr) (ids : list nat) (ncm md : nat) (ce : cexp) (pg : program) (steps : list nat) (nq : nat) (rc : list Fr) (p : sproof).
  Local Notation evs := (ev_map (pg_ev pg)).
  Local Notation ncols := (ncm + length (ce_im ce) + length (ce_qs ce)).
  Hypothesis Hcfg : stark_cfg fuel gfuel si tbl ids ncm md ce pg (length (sp_publics p)).
  Hypothesis We : Forall F3gProof.wf (sp_evals p).
  Hypothesis Wp : Forall F3gProof.wf (sp_publics p).
  Definition the_mem : mem := mkM (fun s => match s with Spublics => sp_publics p | _ => [] end) [] [] (fun _ => Panic).

  Lemma query_rows ch tr o y l : v_transcript perm p = Ok (ch, tr) -> check_query perm si pg rc p ch o y = Ok l -> opened_rows perm si ncols evs rc p ch o y (map val l).
  Proof.
    intros Et Ec. destruct (transcript_ch _ _ _ Et) as [L8 D8].
    destruct (constraint_parts fuel gfuel si tbl ids ncm md ce pg the_mem Hcfg) as [c CP].
    destruct (program_parts fuel gfuel si tbl ids ncm md ce pg the_mem Hcfg c CP) as [code4 [tmp4 [ctx [ver [ev [fe [s5 [qc [seg4 [seg5 [segq [q GP]]]]]]]]]]]].
    destruct CP as [P1 P2 P3 P4 P5 P6 P7 P8]. destruct GP as [G1 G2 G3 G4 G5 G6 G7 G8 G9 G10].
    pose proof (cf_bits _ _ _ _ _ _ _ _ _ _ Hcfg) as [B1 B2]. destruct (cf_deg _ _ _ _ _ _ _ _ _ _ Hcfg) as [B3 _].
    assert (Hqd : 0 < length (ce_qs ce)) by (destruct (ce_qs ce); [now destruct B3 | cbn [length]; lia]).
    assert (Hpg : pg_ev pg = ev /\ pg_query pg = q) by (rewrite G10; auto). destruct Hpg as [Pe Pq].
    destruct (verifier_refs si tbl c (ce_im ce) _ _ (sp_publics p) P6 P8 gfuel ver ev G2) as [V1 [V2 _]].
    pose proof (verifier_nodup si tbl c (ce_im ce) _ _ (sp_publics p) P6 P8 gfuel ver ev G2) as Hnd.
    assert (Hun : exists k, In k (ev_map ev) /\ snd (fst k) = false) by (exists (true, false, ncm + length (ce_im ce) + 0); split; [apply V2; exact Hqd | reflexivity]).
    assert (Hk0 : 0 < ncm + length (ce_im ce) + length (ce_qs ce)) by lia.
    assert (Him : Forall (fun x => fst x < length (tbl ++ [c])) (ce_im ce)) by (eapply Forall_impl; [|exact P6]; intros x [A _]; rewrite app_length; lia).
    assert (Hfe : wf_e fe /\ exp_refs false fe = []).
    { destruct (fri_expr_poly [] 1 0 (fun _ => kzero) (fun _ _ => e_ZERO) (fun _ => [kzero]) (fun _ => [kzero]) (ncm + length (ce_im ce) + length (ce_qs ce)) (si_nconst si) (ev_map ev)
        kzero kzero kzero kzero (fun _ => True)) with (fe := fe) as [[A1 [A2 _]] _]; try assumption; try (intros; exact Logic.I); try (intros; lia); try reflexivity; auto.
      }
    unfold check_query in Ec.
    apply bind_ok in Ec. destruct Ec as [u1 [K1 Ec]]. apply bind_ok in Ec. destruct Ec as [u2 [K2 Ec]]. apply bind_ok in Ec. destruct Ec as [u3 [K3 Ec]].
    apply bind_ok in Ec. destruct Ec as [u4 [K4 Ec]]. apply bind_ok in Ec. destruct Ec as [u5 [K5 Ec]].
    destruct (root_open _ _ _ _ _ K1) as [[r1 p1] [N1 R1]]. destruct (root_open _ _ _ _ _ K2) as [[r2 p2] [N2 R2]]. destruct (root_open _ _ _ _ _ K3) as [[r3 p3] [N3 R3]].
    destruct (root_open _ _ _ _ _ K4) as [[r4 p4] [N4 R4]]. destruct (root_open _ _ _ _ _ K5) as [[r5 p5] [N5 R5]]. clear K1 K2 K3 K4 K5 u1 u2 u3 u4 u5. cbn [fst snd] in R1, R2, R3, R4, R5.
    rewrite (vget_some _ _ _ N1), bindE, (vget_some _ _ _ N2), bindE, (vget_some _ _ _ N3), bindE, (vget_some _ _ _ N4), bindE, (vget_some _ _ _ N5), bindE in Ec.
    rewrite !MG_root in Ec by lia. rewrite !bindE in Ec. apply bind_ok in Ec. destruct Ec as [xi [Exi Ec]]. apply vget_inv in Exi. cbv zeta in Ec.
    apply bind_ok in Ec. destruct Ec as [v [Ev Ec]]. apply ok_inj in Ec. subst l. cbn [fst] in Ev.
    destruct o as [|[a1 b1] [|[a2 b2] [|[a3 b3] [|[a4 b4] [|[a5 b5] more]]]]]; try discriminate N1; try discriminate N2; try discriminate N3; try discriminate N4; try discriminate N5.
    cbn [nth_error] in N1, N2, N3, N4, N5. injection N1 as -> ->. injection N2 as -> ->. injection N3 as -> ->. injection N4 as -> ->. injection N5 as -> ->.
    exists r1, p1, r2, p2, r3, p3, r4, p4, r5, p5, more. split; [reflexivity|]. do 5 (split; [assumption|]).
    assert (Dxi : d3 xi = true) by (apply (proj1 (Forall_forall _ _) D8), (nth_error_In _ _ Exi)).
    assert (Hc : forall i, i < 8 -> nth_error ch i = Some (nth i ch e_ZERO)) by (intros i Hi; apply nth_error_nth'; lia).
    rewrite Pq in Ev.
    destruct (query_value si (tbl ++ [c]) fe (ce_im ce) gfuel (fst qc) (snd qc) segq q (ncm + length (ce_im ce) + length (ce_qs ce)) (ev_map ev)) with
      (x := mkV r1 r2 r3 r4 r5 (sp_evals p) (sp_publics p) ch
        (e_as_elements (xd_at (si_nbits_ext si) xi y)) (e_as_elements (xd_at (si_nbits_ext si) (e_mul xi (e_from (root (si_nbits si)))) y)) e_ZERO e_ZERO)
      (xd := xd_at (si_nbits_ext si) xi y) (xdw := xd_at (si_nbits_ext si) (e_mul xi (e_from (root (si_nbits si)))) y) (c5 := nth 5 ch e_ZERO) (c6 := nth 6 ch e_ZERO) (v := v)
      as [Q1 [col [const [Q2 [Q3 Q4]]]]].
    - rewrite G5. destruct qc; reflexivity.
    - exact G8.
    - exact G9.
    - exact Him.
    - apply Forall_app. split; [exact P7|]. constructor; [exact (proj1 Hfe) | constructor].
    - exact (proj2 Hfe).
    - exact G3.
    - exact Hk0.
    - exact Hun.
    - exact Hnd.
    - reflexivity.
    - reflexivity.
    - apply xd_at_d3. exact Dxi.
    - apply xd_at_d3. rewrite dim_mul, Dxi. reflexivity.
    - apply Hc. lia.
    - apply Hc. lia.
    - exact Ev.
    - rewrite Pe. split; [exact Q1|]. exists col, const. split; [exact Q2|]. split; [exact Q3|]. cbv zeta. cbn [map]. rewrite Q4.
      rewrite (nth_error_nth _ _ _ Exi). unfold xd_at, ext_pt. rewrite !val_div, !val_sub, ext_point_val, val_mul, val_from. reflexivity.
  Qed.
  Theorem accepted : stark_verify perm si pg steps nq rc p = Ok true ->
    exists ch tr, v_transcript perm p = Ok (ch, tr) /\ holds_at_xi si tbl ids ce evs (sp_evals p) (sp_publics p) ch /\
      let fp := sp_fri p in
      exists b rest xs t1 zs t2, steps = b :: rest /\ length (fp_queries fp) = length steps /\
        v_challenges perm steps tr (fp_queries fp) (fp_last fp) = Ok (xs, t1) /\ get_permutations perm t1 nq b = Ok (zs, t2) /\
        layers perm (opened_rows perm si ncols evs rc p ch) true steps (fp_queries fp) xs (map Z.to_nat zs) (fp_last fp) (si_nbits_ext si) K_shift /\
        exists k P, k <= 31 /\ length (fp_last fp) = 2 ^ k /\ length P = 2 ^ k /\ (forall i, i < 2 ^ k -> val (nth i (fp_last fp) e_ZERO) = peval P (kpow (kroot k) i)) /\
          forall i, (if last steps (si_nbits_ext si) <? si_nbits_ext si - si_nbits si then 0 else 2 ^ (last steps (si_nbits_ext si) - (si_nbits_ext si - si_nbits si))) < i -> nth i P kzero = kzero.
  Proof.
    unfold stark_verify. intros E. apply bind_ok in E. destruct E as [[ch tr] [Et E]]. apply bind_ok in E. destruct E as [xi [Exi E]]. apply vget_inv in Exi.
    apply bind_ok in E. destruct E as [g [Eg E]]. cbv zeta in E. apply bind_ok in E. destruct E as [ok [Eok E]]. destruct ok; [|discriminate E].
    destruct (transcript_ch _ _ _ Et) as [L8 D8]. pose proof (cf_bits _ _ _ _ _ _ _ _ _ _ Hcfg) as [B1 B2].
    exists ch, tr. split; [exact Et|]. split.
    - destruct (constraint_parts fuel gfuel si tbl ids ncm md ce pg the_mem Hcfg) as [c CP].
      destruct (program_parts fuel gfuel si tbl ids ncm md ce pg the_mem Hcfg c CP) as [code4 [tmp4 [ctx [ver [ev [fe [s5 [qc [seg4 [seg5 [segq [q GP]]]]]]]]]]]].
      destruct CP as [P1 P2 P3 P4 P5 P6 P7 P8]. pose proof (gp_v _ _ _ _ _ _ _ _ _ _ _ _ _ _ _ _ _ _ _ GP) as G2. pose proof (gp_pg _ _ _ _ _ _ _ _ _ _ _ _ _ _ _ _ _ _ _ GP) as G10.
      assert (Hpg : pg_ev pg = ev /\ pg_verifier pg = ver /\ pg_qs pg = seq (ncm + length (ce_im ce)) (length (ce_qs ce))) by (rewrite G10; auto). destruct Hpg as [Pe [Pv0 Pqs]].
      rewrite Pe, Pv0, Pqs in Eok.
      assert (Wc : Forall F3gProof.wf ch) by (eapply Forall_impl; [|exact D8]; intros a Ha; exact (d3_wf a Ha)).
      destruct (check_sound si tbl c (ce_im ce) _ _ (sp_publics p) ch P6 P8 P7 gfuel ver ev G2 (sp_evals p) (mkV [] [] [] [] [] (sp_evals p) (sp_publics p) ch [] [] e_ZERO (e_sub (e_exp (e_mul xi (e_from g)) (2 ^ Z.of_nat (si_nbits si))) e_ONE)) xi eq_refl eq_refl eq_refl L8 Exi We Wp Wc Eok) as [v [D V]].
      cbv zeta in V. rewrite <- P2 in D. destruct (joined_sum _ _ _ _ _ _ _ P1 D) as [l1 [l2 [F1 [F2 F3]]]].
      unfold holds_at_xi. cbv zeta. rewrite Pe. exists l1, l2. split; [exact F1|]. split; [exact F2|].
      rewrite (nth_error_nth _ _ _ Exi). rewrite P4. rewrite <- V, F3. reflexivity.
    - destruct (fri_accepts perm _ _ _ _ _ _ _ B2 E) as [b [rest [xs [t1 [zs [t2 [A1 [A2 [A3 [A4 [A5 A6]]]]]]]]]]].
      exists b, rest, xs, t1, zs, t2. split; [exact A1|]. split; [exact A2|]. split; [exact A3|]. split; [exact A4|]. split; [|exact A6].
      refine (layers_mono perm _ _ _ _ _ _ _ _ _ _ _ A5). intros o y l0 [l [Q1 [Q2 ->]]]. exact (query_rows ch tr o y l Et Q1).
  Qed.
End Accepted.
