(* The FRI polynomial: its expression is a polynomial of degree below the trace length. *)
From Coq Require Import Ring Field Arith.
From Verif Require Import Base GlModel FrField F3gModel Cubic F3gProof ListAux PolyModel Roots PolyProof FftProof FftTop FriMath CodegenModel CodegenProof
  InterpModel InterpProof VerifierModel VerifierProof ImModel ImProof HashModel FftpModel FftpProof FriModel FriProof ProverModel ProverProof ParModel ParProof
  StarkMath StarkModel StarkGen StarkSrc StarkPoly StarkRow StarkQuot StarkEval StarkStep4.
Open Scope nat_scope.
Open Scope list_scope.
Open Scope res_scope.
Add Field K_field_sf : K_field.

Section Expr.
  Variables (tbl : list expr) (N n : nat) (pt : nat -> K) (rho : nat -> node -> F3G) (pcm pconst : nat -> list K) (ncm nconst : nat) (evs : list evkey) (z zw a5 a6 : K).
  Variable P : node -> Prop.
  Definition key_pol (k : evkey) : list K := if fst (fst k) then pcm (snd k) else pconst (snd k).
  Definition key_ok (k : evkey) : Prop := if fst (fst k) then snd k < ncm else snd k < nconst.
  Hypothesis HN : 1 <= N.
  Hypothesis Hcm : forall i c, i < n -> c < ncm -> val (rho i (N_new Ncm c None false)) = peval (pcm c) (pt i).
  Hypothesis Hconst : forall i c, i < n -> c < nconst -> val (rho i (N_new Nconst c None false)) = peval (pconst c) (pt i).
  Hypothesis Lcm : forall c, c < ncm -> length (pcm c) = N.
  Hypothesis Lconst : forall c, c < nconst -> length (pconst c) = N.
  Hypothesis H5 : forall i, i < n -> val (rho i (N_new Nchallenge 5 None false)) = a5.
  Hypothesis H6 : forall i, i < n -> val (rho i (N_new Nchallenge 6 None false)) = a6.
  Hypothesis Hev : forall i j k, i < n -> nth_error evs j = Some k -> val (rho i (N_new Neval j None false)) = peval (key_pol k) (if snd (fst k) then zw else z).
  Hypothesis Hxd : forall i, i < n -> kmul (val (rho i (N_new NxDivXSubXi 0 None false))) (ksub (pt i) z) = pt i.
  Hypothesis Hxw : forall i, i < n -> kmul (val (rho i (N_new NxDivXSubWXi 0 None false))) (ksub (pt i) zw) = pt i.
  Hypothesis Hkeys : Forall key_ok evs.
  Hypothesis Pcm : forall c, c < ncm -> P (N_new Ncm c None false).
  Hypothesis Pconst : forall c, c < nconst -> P (N_new Nconst c None false).
  Hypothesis Pch : P (N_new Nchallenge 5 None false) /\ P (N_new Nchallenge 6 None false).
  Hypothesis Pev : forall j, j < length evs -> P (N_new Neval j None false).
  Hypothesis Pxd : P (N_new NxDivXSubXi 0 None false) /\ P (N_new NxDivXSubWXi 0 None false).

  (* ---- shape ---- *)
  Definition good (e : expr) : Prop := wf_e e /\ exp_refs false e = [] /\ labs P false false e.
  Lemma good_leaf op i : op = OCm \/ op = OConst \/ op = OChallenge \/ op = OEval -> lab P false false (mkE op (Some i) false None [] None false) -> good (mkE op (Some i) false None [] None false).
  Proof.
    intros Ho L. split; [constructor; [|constructor]; unfold arity_ok; cbn [e_op]; destruct Ho as [->|[->|[->| ->]]]; exact Logic.I|].
    split; [destruct Ho as [->|[->|[->| ->]]]; reflexivity|]. constructor; [exact L | constructor].
  Qed.
  Lemma good_two op a b : op = OAdd \/ op = OSub \/ op = OMul -> good a -> good b -> good (E_new op None None [a; b]).
  Proof.
    intros Ho [A1 [A2 A3]] [B1 [B2 B3]]. split; [constructor; [|constructor; [exact A1 | constructor; [exact B1 | constructor]]]; unfold arity_ok; cbn [e_op E_new e_values length]; destruct Ho as [->|[->| ->]]; lia|].
    split; [rewrite exp_refs_eq; cbn [e_values E_new exps_refs e_op e_id]; rewrite A2, B2; destruct Ho as [->|[->| ->]]; reflexivity|].
    constructor; [|constructor; [exact A3 | constructor; [exact B3 | constructor]]]. unfold lab. cbn [E_new e_op]. destruct Ho as [->|[->| ->]]; exact Logic.I.
  Qed.
  Lemma good_nop : good E_nop.
  Proof. split; [constructor; [exact Logic.I | constructor]|]. split; [reflexivity|]. constructor; [exact Logic.I | constructor]. Qed.
  Lemma good_cm c : c < ncm -> good (E_cm c false).
  Proof. intros H. apply good_leaf; [tauto|]. intros i E. cbn in E. injection E as <-. now apply Pcm. Qed.
  Lemma good_const c : c < nconst -> good (E_const c false).
  Proof. intros H. apply good_leaf; [tauto|]. intros i E. cbn in E. injection E as <-. now apply Pconst. Qed.
  Lemma good_ch i : i = 5 \/ i = 6 -> good (E_challenge i).
  Proof. intros H. apply good_leaf; [tauto|]. intros j E. cbn in E. injection E as <-. destruct H as [->| ->]; tauto. Qed.
  Lemma good_eval j : j < length evs -> good (E_eval j).
  Proof. intros H. apply good_leaf; [tauto|]. intros i E. cbn in E. injection E as <-. now apply Pev. Qed.
  Lemma good_xd : good E_xDivXSubXi /\ good E_xDivXSubWXi.
  Proof. destruct Pxd. split; (split; [constructor; [exact Logic.I | constructor]|]; split; [reflexivity|]; constructor; [assumption | constructor]). Qed.

  (* ---- value ---- *)
  Definition sem (e : expr) (f : K -> K) : Prop := forall i v, i < n -> den tbl (rho i) false e v -> val v = f (pt i).
  Ltac dinv := match goal with A : den _ _ _ _ _ |- _ => inversion A; subst; try discriminate; clear A end;
    repeat match goal with
    | A : e_values _ = _ |- _ => cbn in A; injection A as <- <- <-
    | A : e_id _ = Some _ |- _ => cbn in A; injection A as <-
    end.
  Lemma sem_add a b f g : sem a f -> sem b g -> sem (E_add a b) (fun x => kadd (f x) (g x)).
  Proof. intros A B i v Hi H. dinv. rewrite val_add. refine (f_equal2 kadd _ _); [apply A | apply B]; assumption. Qed.
  Lemma sem_sub a b f g : sem a f -> sem b g -> sem (E_sub a b) (fun x => ksub (f x) (g x)).
  Proof. intros A B i v Hi H. dinv. rewrite val_sub. refine (f_equal2 ksub _ _); [apply A | apply B]; assumption. Qed.
  Lemma sem_mul a b f g : sem a f -> sem b g -> sem (E_mul a b) (fun x => kmul (f x) (g x)).
  Proof. intros A B i v Hi H. dinv. rewrite val_mul. refine (f_equal2 kmul _ _); [apply A | apply B]; assumption. Qed.
  Lemma sem_cm c : c < ncm -> sem (E_cm c false) (peval (pcm c)).
  Proof. intros H i v Hi D. dinv. now apply Hcm. Qed.
  Lemma sem_const c : c < nconst -> sem (E_const c false) (peval (pconst c)).
  Proof. intros H i v Hi D. dinv. now apply Hconst. Qed.
  Lemma sem_ch5 : sem (E_challenge 5) (fun _ => a5).
  Proof. intros i v Hi D. dinv. now apply H5. Qed.
  Lemma sem_ch6 : sem (E_challenge 6) (fun _ => a6).
  Proof. intros i v Hi D. dinv. now apply H6. Qed.
  Lemma sem_eval j k : nth_error evs j = Some k -> sem (E_eval j) (fun _ => peval (key_pol k) (if snd (fst k) then zw else z)).
  Proof. intros H i v Hi D. dinv. now apply Hev. Qed.
  Lemma sem_div h f (w : bool) : poly_le (N - 1) f -> f (if w then zw else z) = kzero -> sem h f ->
    exists g, poly_le (N - 1) g /\ sem (E_mul h (if w then E_xDivXSubWXi else E_xDivXSubXi)) g.
  Proof.
    intros [c [Lc Ec]] Hz Hs. destruct (root_div c (if w then zw else z)) as [q [Lq Eq]]; [rewrite <- pv_peval, <- Ec; exact Hz|].
    exists (peval (kzero :: q)). split; [apply poly_plain; cbn [length]; lia|].
    intros i v Hi D. dinv. rewrite val_mul, (Hs i _ Hi ltac:(eassumption)), Ec, pv_peval, Eq. cbn [peval].
    assert (X : kmul (val y) (ksub (pt i) (if w then zw else z)) = pt i) by (destruct w; dinv; [now apply Hxw | now apply Hxd]).
    transitivity (kmul (kmul (val y) (ksub (pt i) (if w then zw else z))) (peval q (pt i))); [ring|]. rewrite X. ring.
  Qed.

  (* ---- the sum of the columns ---- *)
  Definition colsP (c : expr) : Prop := good c /\ (is_nop c = true \/ exists f, poly_le (N - 1) f /\ sem c f).
  Lemma poly_scale_l k a f : poly_le k f -> poly_le k (fun x => kmul a (f x)).
  Proof. intros H. change k with (0 + k). apply (poly_mul 0 k (fun _ => a)); [apply poly_const | exact H]. Qed.
  Lemma join_vf1_P c e f : colsP c -> good e -> poly_le (N - 1) f -> sem e f -> colsP (join_vf1 c e) /\ is_nop (join_vf1 c e) = is_nop c && is_nop e.
  Proof.
    intros [G1 G2] Ge Hf Hs. unfold join_vf1. destruct (is_nop c) eqn:En.
    - split; [split; [exact Ge | right; eauto] | reflexivity].
    - split; [|reflexivity]. destruct G2 as [G2|[g [Hg Hgs]]]; [discriminate G2|]. split.
      + apply good_two; [tauto | apply good_two; [tauto | apply good_ch; tauto | exact G1] | exact Ge].
      + right. eexists. split; [|apply sem_add; [apply sem_mul; [apply sem_ch5 | exact Hgs] | exact Hs]]. cbv beta. apply poly_add; [apply poly_scale_l, Hg | exact Hf].
  Qed.
  Lemma fri_cols_P l : forall c, Forall (fun i => i < ncm) l -> colsP c -> let c' := fold_left (fun c i => join_vf1 c (E_cm i false)) l c in
    colsP c' /\ (is_nop c = false \/ l <> [] -> is_nop c' = false).
  Proof.
    induction l as [|i l IH]; intros c Hl Hc; cbn [fold_left].
    - split; [exact Hc|]. intros [E|C]; [exact E | now destruct C].
    - destruct (join_vf1_P c (E_cm i false) (peval (pcm i)) Hc) as [J1 J2].
      + apply good_cm. exact (Forall_inv Hl).
      + apply poly_plain. rewrite Lcm by exact (Forall_inv Hl). lia.
      + apply sem_cm. exact (Forall_inv Hl).
      + destruct (IH _ (Forall_inv_tail Hl) J1) as [I1 I2]. split; [exact I1|]. intros _. apply I2. left. rewrite J2. apply andb_false_r.
  Qed.

  (* ---- the sums of the evaluations ---- *)
  Definition evP (p : K) (h : expr) : Prop := good h /\ (is_nop h = true \/ exists f, poly_le (N - 1) f /\ f p = kzero /\ sem h f).
  Lemma key_len k : key_ok k -> length (key_pol k) = N.
  Proof. unfold key_ok, key_pol. destruct (fst (fst k)); intros H; [now apply Lcm | now apply Lconst]. Qed.
  Lemma join_ev_P h j k : nth_error evs j = Some k -> evP (if snd (fst k) then zw else z) h -> evP (if snd (fst k) then zw else z) (join_ev h j k) /\ is_nop (join_ev h j k) = false.
  Proof.
    intros Hk [G1 G2]. assert (Ok1 : key_ok k) by (eapply (proj1 (Forall_forall _ _) Hkeys), nth_error_In, Hk).
    assert (Hj : j < length evs) by (apply nth_error_Some; congruence).
    set (p := if snd (fst k) then zw else z) in *.
    set (e := if fst (fst k) then E_cm (snd k) false else E_const (snd k) false).
    assert (Ge : good e) by (unfold e, key_ok in *; destruct (fst (fst k)); [now apply good_cm | now apply good_const]).
    assert (Se : sem e (peval (key_pol k))) by (unfold e, key_ok, key_pol in *; destruct (fst (fst k)); [now apply sem_cm | now apply sem_const]).
    assert (Gs : good (E_sub e (E_eval j))) by (apply good_two; [tauto | exact Ge | now apply good_eval]).
    assert (Ss : sem (E_sub e (E_eval j)) (fun x => ksub (peval (key_pol k) x) (peval (key_pol k) p))) by (apply (sem_sub e (E_eval j)); [exact Se | exact (sem_eval j k Hk)]).
    assert (Ps : poly_le (N - 1) (fun x => ksub (peval (key_pol k) x) (peval (key_pol k) p))).
    { apply (poly_sub (N - 1) (peval (key_pol k)) (fun _ => peval (key_pol k) p)); [apply poly_plain; rewrite key_len by exact Ok1; lia | apply poly_const]. }
    unfold join_ev. fold e. destruct (is_nop h) eqn:En; (split; [|reflexivity]).
    - split; [exact Gs|]. right. eexists. split; [exact Ps|]. split; [cbv beta; ring | exact Ss].
    - destruct G2 as [C|[f [F1 [F2 F3]]]]; [discriminate C|]. split.
      + apply good_two; [tauto | apply good_two; [tauto | exact G1 | apply good_ch; tauto] | exact Gs].
      + right. exists (fun x => kadd (kmul (f x) a6) (ksub (peval (key_pol k) x) (peval (key_pol k) p))). split.
        * apply (poly_add (N - 1) (fun x => kmul (f x) a6)); [|exact Ps]. eapply poly_ext; [|apply (poly_scale_l _ a6 f F1)]. intros x. cbv beta. ring.
        * split; [cbv beta; rewrite F2; ring|]. apply (sem_add _ _ (fun x => kmul (f x) a6)); [|exact Ss]. apply (sem_mul _ _ f (fun _ => a6)); [exact F3 | apply sem_ch6].
  Qed.
  Lemma fri_evs_P l : forall h1 h2, Forall (fun ik => nth_error evs (fst ik) = Some (snd ik)) l -> evP z h1 -> evP zw h2 ->
    let st := fold_left (fun (st : expr * expr) (ik : nat * evkey) => let '(i, k) := ik in
      if snd (fst k) then (fst st, join_ev (snd st) i k) else (join_ev (fst st) i k, snd st)) l (h1, h2) in
    evP z (fst st) /\ evP zw (snd st) /\ (is_nop h1 = false \/ (exists ik, In ik l /\ snd (fst (snd ik)) = false) -> is_nop (fst st) = false).
  Proof.
    induction l as [|[j k] l IH]; intros h1 h2 Hl E1 E2; cbn [fold_left].
    - cbn [fst snd]. split; [exact E1|]. split; [exact E2|]. intros [E|[ik [[] _]]]. exact E.
    - pose proof (Forall_inv Hl) as Hk. cbn [fst snd] in Hk |- *. destruct (snd (fst k)) eqn:Ep.
      + destruct (join_ev_P h2 j k Hk) as [J1 J2]; [rewrite Ep; exact E2|]. rewrite Ep in J1. destruct (IH h1 (join_ev h2 j k) (Forall_inv_tail Hl) E1 J1) as [I1 [I2 I3]].
        split; [exact I1|]. split; [exact I2|]. intros [E|[ik [[E|I0] F]]]; [apply I3; now left | subst ik; cbn [snd] in F; congruence | apply I3; right; exists ik; auto].
      + destruct (join_ev_P h1 j k Hk) as [J1 J2]; [rewrite Ep; exact E1|]. rewrite Ep in J1. destruct (IH (join_ev h1 j k) h2 (Forall_inv_tail Hl) J1 E2) as [I1 [I2 I3]].
        split; [exact I1|]. split; [exact I2|]. intros _. apply I3. now left.
  Qed.
  Lemma combine_seq_nth {A} (l : list A) : forall a, Forall (fun ik => nth_error l (fst ik - a) = Some (snd ik) /\ a <= fst ik) (combine (seq a (length l)) l).
  Proof.
    induction l as [|x l IH]; intros a; cbn [length seq combine]; [constructor|]. constructor; [cbn [fst snd]; rewrite Nat.sub_diag; split; [reflexivity | lia]|].
    eapply Forall_impl; [|apply (IH (S a))]. intros [i y] [H1 H2]. cbn [fst snd] in *. split; [|lia]. replace (i - a) with (S (i - S a)) by lia. exact H1.
  Qed.

  Lemma combine_seq_get {A} (l : list A) : forall a j k, nth_error l j = Some k -> nth_error (combine (seq a (length l)) l) j = Some (a + j, k).
  Proof.
    induction l as [|x l IH]; intros a [|j] k E; try discriminate E; cbn [length seq combine nth_error] in *; [injection E as <-; now rewrite Nat.add_0_r|].
    rewrite (IH (S a) j k E). f_equal. f_equal. lia.
  Qed.

  Theorem fri_expr_poly fe : fri_expr ncm evs = Ok fe -> 0 < ncm -> (exists k, In k evs /\ snd (fst k) = false) ->
    good fe /\ (exists a b, fe = E_add (E_mul (E_challenge 5) a) b) /\ exists F, length F <= N /\ sem fe (peval F).
  Proof.
    intros H Hn [k0 [Hk0 Hk1]]. unfold fri_expr in H.
    destruct (fri_cols_P (seq 0 ncm) E_nop) as [C1 C2]; [apply Forall_forall; intros i Hi; apply in_seq in Hi; lia | split; [apply good_nop | now left]|].
    fold (fri_cols ncm) in C1, C2. assert (C3 : is_nop (fri_cols ncm) = false) by (apply C2; right; destruct ncm; [lia | discriminate]). clear C2.
    destruct (fri_evs_P (combine (seq 0 (length evs)) evs) E_nop E_nop) as [V1 [V2 V3]].
    { eapply Forall_impl; [|apply (combine_seq_nth evs 0)]. intros [i k] [A _]. cbn [fst snd] in *. now rewrite Nat.sub_0_r in A. }
    { split; [apply good_nop | now left]. }
    { split; [apply good_nop | now left]. }
    fold (fri_evs evs) in V1, V2, V3. destruct (fri_evs evs) as [h1 h2]. cbn [fst snd] in V1, V2, V3.
    assert (V4 : is_nop h1 = false).
    { apply V3. right. apply In_nth_error in Hk0. destruct Hk0 as [j Hj]. exists (j, k0). split; [|exact Hk1].
      apply nth_error_In with (n := j). exact (combine_seq_get evs 0 j k0 Hj). }
    rewrite C3 in H. destruct C1 as [C1 [C|[fc [Fc1 Fc2]]]]; [congruence|]. destruct V1 as [G1 [C|[f1 [F1 [F2 F3]]]]]; [congruence|].
    destruct (sem_div h1 f1 false F1 F2 F3) as [q1 [Q1 Q2]]. cbv iota in Q2.
    set (A := E_add (E_mul (E_challenge 5) (fri_cols ncm)) (E_mul h1 E_xDivXSubXi)) in *.
    assert (GA : good A) by (apply good_two; [tauto | apply good_two; [tauto | apply good_ch; tauto | exact C1] | apply good_two; [tauto | exact G1 | apply good_xd]]).
    assert (PA : exists f, poly_le (N - 1) f /\ sem A f).
    { eexists. split; [|apply (sem_add _ _ (fun x => kmul a5 (fc x)) q1); [apply (sem_mul _ _ (fun _ => a5) fc); [apply sem_ch5 | exact Fc2] | exact Q2]].
      apply (poly_add (N - 1) (fun x => kmul a5 (fc x)) q1); [apply poly_scale_l, Fc1 | exact Q1]. }
    assert (Fin : forall E f, poly_le (N - 1) f -> sem E f -> exists F, length F <= N /\ sem E (peval F)).
    { intros E0 f [c [Lc Ec]] Hs. exists c. split; [lia|]. intros i v Hi D. rewrite (Hs i v Hi D), Ec. apply pv_peval. }
    destruct (is_nop h2) eqn:En2.
    - cbn in H. injection H as <-. split; [exact GA|]. split; [eexists; eexists; reflexivity|]. destruct PA as [f [Pf Sf]]. exact (Fin A f Pf Sf).
    - destruct V2 as [G2 [C|[f2 [F1' [F2' F3']]]]]; [congruence|]. destruct (sem_div h2 f2 true F1' F2' F3') as [q2 [Q1' Q2']]. cbv iota in Q2'.
      destruct (join_vf1_P A (E_mul h2 E_xDivXSubWXi) q2) as [[J1 J2] J3].
      + split; [exact GA | right; exact PA].
      + apply good_two; [tauto | exact G2 | apply good_xd].
      + exact Q1'.
      + exact Q2'.
      + change (is_nop A) with false in J3. rewrite andb_false_l in J3. rewrite J3 in H. injection H as <-.
        split; [exact J1|]. split; [eexists; eexists; reflexivity|]. destruct J2 as [C|[f [Pf Sf]]]; [rewrite J3 in C; discriminate C|]. exact (Fin _ f Pf Sf).
  Qed.
End Expr.
