(* The references that generated code reads. *)
From Verif Require Import Base GlModel FrField F3gModel ListAux PolyModel CodegenModel CodegenProof InterpModel InterpProof
  VerifierModel VerifierProof StarkModel StarkGen.
Open Scope nat_scope.
Open Scope res_scope.

Section Src.
  Variable P : node -> Prop.
  Hypothesis P_tmp : forall r, n_ty r = Ntmp -> P r.

  (* the labels of an expression, evaluated at the next row or not *)
  Definition lab (mul p : bool) (e : expr) : Prop :=
    match e_op e with
    | OMuladd => mul = true
    | OAddc | OMulc => forall k, e_const e = Some k -> P (N_new Nnumber 0 (Some k) false)
    | ONeg => P (N_new Nnumber 0 (Some 0%Z) false)
    | OCm => forall i, e_id e = Some i -> P (N_new Ncm i None (e_next e || p))
    | OConst => forall i, e_id e = Some i -> P (N_new Nconst i None (e_next e || p))
    | OExp => forall i, e_id e = Some i -> P (N_new Nexp i None (e_next e || p))
    | OQ => forall i, e_id e = Some i -> P (N_new Nq i None (e_next e || p))
    | ONumber => P (N_new Nnumber 0 (e_value e) false)
    | OPublic => forall i, e_id e = Some i -> P (N_new Npublic i None false)
    | OChallenge => forall i, e_id e = Some i -> P (N_new Nchallenge i None false)
    | OEval => forall i, e_id e = Some i -> P (N_new Neval i None false)
    | OXDivXSubXi => P (N_new NxDivXSubXi 0 None false)
    | OXDivXSubWXi => P (N_new NxDivXSubWXi 0 None false)
    | OX => P (N_new Nx 0 None false)
    | _ => True
    end.
  Inductive labs (mul p : bool) : expr -> Prop := LABS e : lab mul p e -> Forall (labs mul p) (e_values e) -> labs mul p e.
  Lemma labs_lab mul p e : labs mul p e -> lab mul p e. Proof. now inversion 1. Qed.
  Lemma labs_values mul p e : labs mul p e -> Forall (labs mul p) (e_values e). Proof. now inversion 1. Qed.
  Lemma labs_mul p e : labs false p e -> labs true p e.
  Proof.
    induction e as [op id next value values k kp IH] using expr_ind'. intros H. inversion H as [e L V]; subst. constructor.
    - unfold lab in *. destruct (e_op (mkE op id next value values k kp)); try exact L. discriminate L.
    - cbn [e_values] in *. clear -IH V. induction IH as [|x l Hx _ IHl]; constructor; [apply Hx; exact (Forall_inv V) | apply IHl; exact (Forall_inv_tail V)].
  Qed.

  Definition src_ok (mul : bool) (c : instr) : Prop := (i_op c = CMuladd -> mul = true) /\ Forall P (i_src c).
  Lemma src_mul c : src_ok false c -> src_ok true c.
  Proof. intros [A B]. split; [reflexivity | exact B]. Qed.

  Lemma shifted_src c e p ty r c' : shifted_ref c e p ty = Ok (r, c') -> exists i, e_id e = Some i /\ r = N_new ty i None (e_next e || p) /\ c' = c.
  Proof.
    unfold shifted_ref. destruct (e_next e && p) eqn:En; intros H; [discriminate H|]. destruct (e_id e) as [i|]; [|discriminate H]. cbn [CodegenModel.unwrap bind] in H.
    exists i. split; [reflexivity|]. split; congruence.
  Qed.
  Lemma plain_src c e ty r c' : plain_ref c e ty = Ok (r, c') -> exists i, e_id e = Some i /\ r = N_new ty i None false /\ c' = c.
  Proof. unfold plain_ref. destruct (e_id e) as [i|]; intros H; [|discriminate H]. cbn in H. exists i. split; [reflexivity|]. split; congruence. Qed.

  Lemma single_src mul p e c rs r c' : lab mul p e -> Forall P rs -> eval_single_op p c e rs = Ok (r, c') ->
    P r /\ exists new, cc_code c' = cc_code c ++ new /\ Forall (src_ok mul) new.
  Proof.
    intros HL Hrs H.
    assert (Hemit : forall op src, Ok (emit c op src) = Ok (r, c') -> Forall P src -> (op = CMuladd -> mul = true) ->
      P r /\ exists new, cc_code c' = cc_code c ++ new /\ Forall (src_ok mul) new).
    { intros op src He Hs Hm. unfold emit in He. injection He as <- <-. split; [now apply P_tmp|]. eexists. split; [reflexivity|].
      constructor; [|constructor]. split; [exact Hm | exact Hs]. }
    assert (Hleaf : forall x, P x -> r = x -> c' = c -> P r /\ exists new, cc_code c' = cc_code c ++ new /\ Forall (src_ok mul) new).
    { intros x Hx -> ->. split; [exact Hx|]. exists []. rewrite app_nil_r. split; [reflexivity | constructor]. }
    unfold lab in HL. unfold eval_single_op in H.
    destruct (e_op e); try discriminate H.
    all: try (apply (Hemit _ _ H); [exact Hrs | discriminate || (intros _; exact HL)]).
    all: try (destruct (shifted_src _ _ _ _ _ _ H) as [i [E1 [E2 E3]]]; apply (Hleaf _ (HL i E1) E2 E3)).
    all: try (destruct (plain_src _ _ _ _ _ H) as [i [E1 [E2 E3]]]; apply (Hleaf _ (HL i E1) E2 E3)).
    all: try (injection H as <- <-; eapply Hleaf; [exact HL | reflexivity | reflexivity]).
    - destruct rs as [|a rr]; [discriminate H|]. cbn [hd_error CodegenModel.unwrap bind] in H. destruct (e_const e) as [k|]; [|discriminate H].
      cbn [CodegenModel.unwrap bind] in H. apply (Hemit _ _ H); [|discriminate]. constructor; [exact (Forall_inv Hrs)|]. constructor; [apply HL; reflexivity | constructor].
    - destruct rs as [|a rr]; [discriminate H|]. cbn [hd_error CodegenModel.unwrap bind] in H. destruct (e_const e) as [k|]; [|discriminate H].
      cbn [CodegenModel.unwrap bind] in H. apply (Hemit _ _ H); [|discriminate]. constructor; [exact (Forall_inv Hrs)|]. constructor; [apply HL; reflexivity | constructor].
    - destruct rs as [|a rr]; [discriminate H|]. cbn [hd_error CodegenModel.unwrap bind] in H.
      apply (Hemit _ _ H); [|discriminate]. constructor; [exact HL|]. constructor; [exact (Forall_inv Hrs) | constructor].
  Qed.

  Lemma post_src mul p e : labs mul p e -> forall c r c', post _ _ (eval_single_op p) e c = Ok (r, c') ->
    P r /\ exists new, cc_code c' = cc_code c ++ new /\ Forall (src_ok mul) new.
  Proof.
    induction e as [op id next value values k kp IH] using expr_ind'. intros HL c r c' H.
    set (e := mkE op id next value values k kp) in *. change values with (e_values e) in IH.
    pose proof (labs_values _ _ _ HL) as HV. pose proof (labs_lab _ _ _ HL) as HL'.
    rewrite post_eq in H.
    destruct (posts _ _ (eval_single_op p) (e_values e) c) as [[rs c1]| | |] eqn:Ep; try discriminate H. cbn [bind fst snd] in H.
    assert (Hs : Forall P rs /\ exists new, cc_code c1 = cc_code c ++ new /\ Forall (src_ok mul) new).
    { clear H HL HL'. clearbody e. revert c rs c1 Ep. revert HV.
      induction IH as [|x l Hx _ IHl]; intros HV c rs c1 Ep; cbn [posts] in Ep.
      - injection Ep as <- <-. split; [constructor|]. exists []. rewrite app_nil_r. split; [reflexivity | constructor].
      - destruct (post _ _ (eval_single_op p) x c) as [[r1 c2]| | |] eqn:E1; try discriminate Ep. cbn [bind fst snd] in Ep.
        destruct (posts _ _ (eval_single_op p) l c2) as [[rs' c3]| | |] eqn:E2; try discriminate Ep. cbn [bind fst snd] in Ep.
        injection Ep as <- <-. destruct (Hx (Forall_inv HV) _ _ _ E1) as [A1 [n1 [A2 A3]]]. destruct (IHl (Forall_inv_tail HV) _ _ _ E2) as [B1 [n2 [B2 B3]]].
        split; [now constructor|]. exists (n1 ++ n2). rewrite B2, A2, app_assoc. split; [reflexivity|]. now apply Forall_app. }
    destruct Hs as [S1 [n1 [S2 S3]]]. destruct (single_src mul p e c1 rs r c' HL' S1 H) as [T1 [n2 [T2 T3]]].
    split; [exact T1|]. exists (n1 ++ n2). rewrite T2, S2, app_assoc. split; [reflexivity|]. now apply Forall_app.
  Qed.

  Lemma muladd_labs p e : forall e', labs false p e -> find_muladd e = Ok e' -> labs true p e'.
  Proof.
    enough (H : (forall e', labs false p e -> find_muladd e = Ok e' -> labs true p e') /\
                Forall (fun e => forall e', labs false p e -> find_muladd e = Ok e' -> labs true p e') (e_values e)) by apply H.
    induction e as [op id next value values k kp IH] using expr_ind'. cbn [e_values].
    assert (IH1 : Forall (fun e => forall e', labs false p e -> find_muladd e = Ok e' -> labs true p e') values)
      by (eapply Forall_impl; [|exact IH]; intros a [A _]; exact A).
    split; [|exact IH1]. intros e' HL H. pose proof (labs_values _ _ _ HL) as HV. cbn [e_values] in HV.
    set (kids := (fix go l := match l with [] => Ok [] | x :: r => do y <- find_muladd x; do ys <- go r; Ok (y :: ys) end) values).
    assert (Hk : forall ks, kids = Ok ks -> labs true p (mkE op id next value ks k kp)).
    { intros ks Hks. constructor.
      - pose proof (labs_lab _ _ _ (labs_mul _ _ HL)) as L. exact L.
      - cbn [e_values]. unfold kids in Hks. clear -IH1 HV Hks. revert ks Hks. induction IH1 as [|x l Hx _ IHl]; intros ks Hks; [injection Hks as <-; constructor|].
        destruct (find_muladd x) as [y| | |] eqn:E; try discriminate Hks. cbn [bind] in Hks.
        match type of Hks with (do ys <- ?g; _) = _ => destruct g as [ys| | |] eqn:E2; try discriminate Hks end. cbn [bind] in Hks. injection Hks as <-.
        constructor; [apply Hx; [exact (Forall_inv HV) | reflexivity] | apply IHl; [exact (Forall_inv_tail HV) | reflexivity]]. }
    cbn [find_muladd] in H. fold kids in H. destruct values as [|v0 rest]; [injection H as <-; apply labs_mul, HL|].
    destruct v0 as [o0 i0 x0 w0 ms0 k0 p0] eqn:Ev0.
    destruct (is_add op).
    - destruct rest as [|v1 rest']; [discriminate H|]. destruct v1 as [o1 i1 x1 w1 ms1 k1 p1] eqn:Ev1.
      pose proof (Forall_inv IH) as [F0 F0v]. pose proof (Forall_inv (Forall_inv_tail IH)) as [F1 F1v]. cbn [e_values] in F0v, F1v.
      pose proof (Forall_inv HV) as V0. pose proof (Forall_inv (Forall_inv_tail HV)) as V1.
      assert (Hfin : forall a b c, labs true p a -> labs true p b -> labs true p c -> labs true p (E_new OMuladd None None [a; b; c])).
      { intros a b c A B C. constructor; [reflexivity|]. cbn. auto. }
      destruct (is_mul o0).
      + destruct ms0 as [|m0 [|m1 ms0]]; try discriminate H.
        destruct (find_muladd m0) as [a| | |] eqn:Ea; try discriminate H. cbn [bind] in H.
        destruct (find_muladd m1) as [b| | |] eqn:Eb; try discriminate H. cbn [bind] in H.
        destruct (find_muladd _) as [c| | |] eqn:Ec in H; try discriminate H. cbn [bind] in H. injection H as <-.
        pose proof (labs_values _ _ _ V0) as W0. cbn [e_values] in W0.
        apply Hfin; [exact (Forall_inv F0v _ (Forall_inv W0) Ea) | exact (Forall_inv (Forall_inv_tail F0v) _ (Forall_inv (Forall_inv_tail W0)) Eb) | exact (F1 _ V1 Ec)].
      + destruct (is_mul o1); [|apply bind_ok in H; destruct H as [ks [H1 H2]]; injection H2 as <-; now apply Hk].
        destruct ms1 as [|m0 [|m1 ms1]]; try discriminate H.
        destruct (find_muladd m0) as [a| | |] eqn:Ea; try discriminate H. cbn [bind] in H.
        destruct (find_muladd m1) as [b| | |] eqn:Eb; try discriminate H. cbn [bind] in H.
        destruct (find_muladd _) as [c| | |] eqn:Ec in H; try discriminate H. cbn [bind] in H. injection H as <-.
        pose proof (labs_values _ _ _ V1) as W1. cbn [e_values] in W1.
        apply Hfin; [exact (Forall_inv F1v _ (Forall_inv W1) Ea) | exact (Forall_inv (Forall_inv_tail F1v) _ (Forall_inv (Forall_inv_tail W1)) Eb) | exact (F0 _ V0 Ec)].
    - apply bind_ok in H; destruct H as [ks [H1 H2]]; injection H2 as <-; now apply Hk.
  Qed.

  (* the expressions that the code is generated from *)
  Variable tbl : list expr.
  Variable R : bool * nat -> Prop.
  Hypothesis R_ok : forall p i e, R (p, i) -> nth_error tbl i = Some e -> labs false p e /\ forall k, In k (exp_refs p e) -> R k.

  Definition addsrc (mul : bool) (c c' : context) : Prop := exists ext, linear_code c' = linear_code c ++ ext /\ Forall (src_ok mul) ext.
  Lemma addsrc_refl mul c : addsrc mul c c. Proof. exists []. rewrite app_nil_r. split; [reflexivity | constructor]. Qed.
  Lemma addsrc_trans mul a b c : addsrc mul a b -> addsrc mul b c -> addsrc mul a c.
  Proof. intros [x [X1 X2]] [y [Y1 Y2]]. exists (x ++ y). rewrite Y1, X1, app_assoc. split; [reflexivity | now apply Forall_app]. Qed.
  Lemma addsrc_mul c c' : addsrc false c c' -> addsrc true c c'.
  Proof. intros [x [X1 X2]]. exists x. split; [exact X1|]. eapply Forall_impl; [|exact X2]. exact src_mul. Qed.

  Lemma deps_src gen p : (forall c i pr c', R (pr, i) -> gen c i pr = Ok c' -> addsrc false c c') ->
    forall e c c', (forall k, In k (exp_refs p e) -> R k) -> calculate_deps gen p e c = Ok c' -> addsrc false c c'.
  Proof.
    intros Hgen. induction e as [op id next value values k kp IH] using expr_ind'. intros c c' HR H.
    rewrite exp_refs_eq in HR. cbn [e_op e_id e_next e_values] in HR.
    cbn [calculate_deps] in H.
    destruct (match op with OExp => do i <- CodegenModel.unwrap id; (if p && next then Err else gen c i (p || next)) | _ => Ok c end) as [c1| | |] eqn:E1; try discriminate H.
    cbn [bind] in H.
    assert (H1 : addsrc false c c1).
    { destruct op; try (injection E1 as <-; apply addsrc_refl).
      destruct id as [i|]; [|discriminate E1]. cbn [CodegenModel.unwrap bind] in E1. destruct (p && next); [discriminate E1|]. eapply Hgen; [|exact E1].
      rewrite orb_comm. apply HR. cbn. now left. }
    apply (addsrc_trans _ _ _ _ H1).
    assert (HR2 : forall k, In k (exps_refs p values) -> R k) by (intros q Hq; apply HR, in_or_app; now right).
    clear E1 H1 HR. revert c1 H. induction IH as [|x l Hx _ IHl]; intros c1 H.
    - injection H as <-. apply addsrc_refl.
    - destruct (calculate_deps gen p x c1) as [c2| | |] eqn:E2; try discriminate H. cbn [bind] in H.
      refine (addsrc_trans _ _ _ _ (Hx _ _ _ E2) _); [intros q Hq; apply HR2; cbn [exps_refs]; apply in_or_app; now left|].
      apply IHl; [|exact H]. intros q Hq. apply HR2. cbn [exps_refs]. apply in_or_app. now right.
  Qed.

  Lemma gen_src fuel : forall m c i p c', R (p, i) -> pil_code_gen fuel tbl None m c i p = Ok c' -> addsrc m c c'.
  Proof.
    induction fuel as [|fuel IH]; intros m c i p c' HR H; [discriminate H|]. cbn [pil_code_gen] in H.
    destruct (key_in (p, i) (x_calc c)) eqn:Ek; [injection H as <-; apply addsrc_refl|].
    destruct (vget tbl i) as [e| | |] eqn:Ev; try discriminate H. cbn [bind] in H. apply vget_inv in Ev.
    destruct (R_ok p i e HR Ev) as [L1 L2].
    destruct (calculate_deps _ p e c) as [c1| | |] eqn:Ed; try discriminate H. cbn [bind] in H.
    assert (Hd : addsrc m c c1).
    { assert (A : addsrc false c c1) by (eapply deps_src; [|exact L2 | exact Ed]; intros c0 i0 p0 c0' HR0 H0; exact (IH _ _ _ _ _ HR0 H0)).
      destruct m; [now apply addsrc_mul | exact A]. }
    apply (addsrc_trans _ _ _ _ Hd). clear Hd Ed.
    destruct (if m then find_muladd e else Ok e) as [e'| | |] eqn:Em; try discriminate H. cbn [bind] in H.
    assert (L' : labs m p e') by (destruct m; [eapply muladd_labs; [exact L1 | exact Em] | injection Em as <-; exact L1]).
    destruct (eval_exp (mkCC (x_tmp c1) []) e' p) as [[r cc]| | |] eqn:Ee; try discriminate H. cbn [bind] in H.
    apply eval_exp_post in Ee. pose proof (post_shape _ _ _ _ _ Ee) as Hsh. apply (post_src m p e' L') in Ee. destruct Ee as [S1 [new [S2 S3]]]. cbn [cc_code app] in S2.
    assert (Hlin : forall t l calc, linear_code (mkCtx t (x_code c1 ++ [mkC i p l]) calc) = linear_code c1 ++ l).
    { intros. unfold linear_code. cbn [x_code]. rewrite map_app, concat_app. cbn. now rewrite app_nil_r. }
    destruct (match n_ty r with Ntmp => _ | _ => _ end) as [[l t]| | |] eqn:El; try discriminate H. cbn [bind] in H. injection H as <-.
    exists l. split; [apply Hlin|].
    destruct (match n_ty r with Ntmp => true | _ => false end) eqn:Et.
    - assert (Et' : n_ty r = Ntmp) by (destruct (n_ty r); try discriminate Et; reflexivity).
      rewrite Et' in El. destruct Hsh as [_ [_ [new' [S3' [_ S5]]]]]. destruct (S5 Et') as [body [op [src [S6 _]]]]. cbn [cc_code app] in S3'.
      unfold set_last_dest in El. rewrite S3', S6, rev_app_distr in El. cbn [rev app i_op i_src bind] in El.
      assert (El1 : rev (rev body) ++ [mkI op (N_new Nexp i None p) src] = l) by congruence. rewrite rev_involutive in El1. subst l.
      rewrite <- S2, S3', S6 in S3. apply Forall_app in S3. destruct S3 as [A B]. apply Forall_app. split; [exact A|].
      constructor; [|constructor]. exact (Forall_inv B).
    - assert (Hcopy : Ok (cc_code cc ++ [mkI CCopy (N_new Nexp i None p) [r]], cc_tmp cc) = Ok (l, t)) by (destruct (n_ty r); try exact El; discriminate Et).
      assert (El1 : cc_code cc ++ [mkI CCopy (N_new Nexp i None p) [r]] = l) by congruence. subst l. rewrite S2.
      apply Forall_app. split; [exact S3|]. constructor; [|constructor]. split; [discriminate|]. cbn. auto.
  Qed.
End Src.

(* the rewriting for the prover *)
Lemma fixp_src (P Q : node -> Prop) si im mul code : (forall r, P r -> n_ty r <> Nexp -> Q r) ->
  (forall r c, P r -> n_ty r = Nexp -> assoc Nat.eqb im (n_id r) = Some c -> Q (mkN Ncm c (n_value r) (n_dim r) (n_prime r) (n_pos r))) ->
  (forall r, n_ty r = Ntmp -> Q r) ->
  forall f code' f', Forall (src_ok P mul) code -> iter_code (fixp_ref si im [] false) f code = Ok (code', f') -> Forall (src_ok Q mul) code'.
Proof.
  intros H1 H2 H3.
  assert (Hr : forall f r r' f', P r -> fixp_ref si im [] false f r = Ok (r', f') -> Q r').
  { intros f r r' f' Hp E. unfold fixp_ref in E. destruct (n_ty r) eqn:Et; try discriminate E.
    all: try (injection E as <- _; apply H1; [exact Hp | rewrite Et; discriminate]).
    2: destruct (vget (si_cm_2ns si) (n_id r)) as [x| | |]; try discriminate E; cbn [bind] in E; injection E as <- _; apply H1; [exact Hp | rewrite Et; discriminate].
    - destruct (assoc Nat.eqb im (n_id r)) as [c|] eqn:Ea; [injection E as <- _; now apply H2|].
      destruct (exp_tmp f (n_prime r, n_id r)) as [t g]. injection E as <- _. apply H3. reflexivity. }
  assert (Hrs : forall l f l' f', Forall P l -> iter_refs (fixp_ref si im [] false) f l = Ok (l', f') -> Forall Q l').
  { induction l as [|r l IH]; intros f l' f' Hp E; cbn [iter_refs] in E; [injection E as <- _; constructor|].
    destruct (fixp_ref si im [] false f r) as [[a g]| | |] eqn:Ea; try discriminate E. cbn [bind fst snd] in E.
    destruct (iter_refs (fixp_ref si im [] false) g l) as [[b g']| | |] eqn:Eb; try discriminate E. cbn [bind fst snd] in E. injection E as <- _.
    constructor; [exact (Hr _ _ _ _ (Forall_inv Hp) Ea) | exact (IH _ _ _ (Forall_inv_tail Hp) Eb)]. }
  induction code as [|c code IH]; intros f code' f' Hp E; cbn [iter_code] in E; [injection E as <- _; constructor|].
  destruct (iter_refs _ f (i_src c)) as [[s g]| | |] eqn:Es; try discriminate E. cbn [bind fst snd] in E.
  destruct (fixp_ref si im [] false g (i_dest c)) as [[d g1]| | |] eqn:Ed; try discriminate E. cbn [bind fst snd] in E.
  destruct (iter_code _ g1 code) as [[b g2]| | |] eqn:Eb; try discriminate E. cbn [bind fst snd] in E. injection E as <- _.
  pose proof (Forall_inv Hp) as [A B]. constructor; [split; [exact A | exact (Hrs _ _ _ _ B Es)] | exact (IH _ _ _ (Forall_inv_tail Hp) Eb)].
Qed.

Lemma ok_inj {A} (a b : A) : Ok a = Ok b -> a = b. Proof. now intros [= ->]. Qed.
(* the rewriting for the verifier *)
Definition evs_ok (KP : evkey -> Prop) (f : fstate) : Prop := Forall KP (ev_map (f_ev f)).
Lemma fixv_src (P : node -> Prop) (KP : evkey -> Prop) im T mul code :
  (forall r, P r -> n_ty r = Ncm -> KP (true, n_prime r, n_id r)) -> (forall r, P r -> n_ty r = Nconst -> KP (false, n_prime r, n_id r)) ->
  (forall i c p, assoc Nat.eqb im i = Some c -> KP (true, p, c)) ->
  forall f code' f', f_inv T f -> evs_ok KP f -> Forall (src_ok P mul) code -> Forall (fun c => n_ty (i_dest c) = Ntmp \/ n_ty (i_dest c) = Nexp) code ->
  fix_code im f code = Ok (code', f') ->
  f_inv T f' /\ f_le f f' /\ evs_ok KP f' /\
  forall c r, In c code' -> In r (i_src c) -> n_ty r = Ntmp \/ n_ty r = Neval /\ n_id r < length (ev_map (f_ev f')) \/
    P r /\ match n_ty r with Nnumber | Nchallenge | Npublic | NZ | Nx | Neval => True | _ => False end.
Proof.
  intros K1 K2 K3.
  assert (Hle : forall a b, ev_le a b -> length (ev_map a) <= length (ev_map b)) by (intros a b [l ->]; rewrite app_length; lia).
  assert (Hev : forall f r k r' f', f_inv T f -> evs_ok KP f -> KP k -> to_eval f r k = (r', f') ->
    f_inv T f' /\ f_le f f' /\ evs_ok KP f' /\ n_ty r' = Neval /\ n_id r' < length (ev_map (f_ev f'))).
  { intros f r k r' f' I J Hk E. destruct (to_eval_ok T f r k r' f' I E) as [A [B _]]. split; [exact A|]. split; [exact B|].
    unfold to_eval, ev_ref in E. destruct (ev_get (f_ev f) k) as [i|] eqn:Eg; injection E as <- <-.
    - split; [exact J|]. split; [reflexivity|]. cbn [n_id f_ev]. destruct I as [_ [_ [_ I4]]]. apply I4 in Eg. apply nth_error_Some. congruence.
    - split; [unfold evs_ok, ev_push; cbn [f_ev ev_map]; apply Forall_app; auto|]. split; [reflexivity|]. cbn [n_id f_ev ev_push ev_map]. rewrite app_length. cbn. lia. }
  assert (Hr : forall f r r' f', f_inv T f -> evs_ok KP f -> P r -> fix_ref im f r = Ok (r', f') ->
    f_inv T f' /\ f_le f f' /\ evs_ok KP f' /\ (n_ty r' = Ntmp \/ n_ty r' = Neval /\ n_id r' < length (ev_map (f_ev f')) \/
      P r' /\ match n_ty r' with Nnumber | Nchallenge | Npublic | NZ | Nx | Neval => True | _ => False end)).
  { intros f r r' f' I J Hp E. unfold fix_ref in E. destruct (n_ty r) eqn:Et; try discriminate E.
    all: try (injection E as <- <-; split; [exact I|]; split; [apply f_le_refl|]; split; [exact J|]; rewrite Et; first [left; reflexivity | right; right; split; [exact Hp | exact Logic.I]]).
    - destruct (assoc Nat.eqb im (n_id r)) as [c|] eqn:Ea.
      + destruct (Hev f r (true, n_prime r, c) r' f' I J) as [A [B [C D]]]; [eapply K3, Ea | exact (ok_inj _ _ E) | do 3 (split; [assumption|]); right; left; exact D].
      + destruct (exp_tmp f (n_prime r, n_id r)) as [t g] eqn:Eg. injection E as <- <-. destruct (exp_tmp_ok T f _ t g I Eg) as [A [B _]].
        split; [exact A|]. split; [exact B|]. split; [|left; reflexivity]. unfold evs_ok. unfold exp_tmp in Eg.
        destruct (assoc pkey_eqb (f_exp f) (n_prime r, n_id r)); injection Eg as <- <-; exact J.
    - destruct (Hev f r (true, n_prime r, n_id r) r' f' I J) as [A [B [C D]]]; [apply K1; assumption | exact (ok_inj _ _ E) | do 3 (split; [assumption|]); right; left; exact D].
    - destruct (Hev f r (false, n_prime r, n_id r) r' f' I J) as [A [B [C D]]]; [apply K2; assumption | exact (ok_inj _ _ E) | do 3 (split; [assumption|]); right; left; exact D]. }
  assert (Hrs : forall l f l' f', f_inv T f -> evs_ok KP f -> Forall P l -> fix_refs im f l = Ok (l', f') ->
    f_inv T f' /\ f_le f f' /\ evs_ok KP f' /\ forall r, In r l' -> n_ty r = Ntmp \/ n_ty r = Neval /\ n_id r < length (ev_map (f_ev f')) \/
      P r /\ match n_ty r with Nnumber | Nchallenge | Npublic | NZ | Nx | Neval => True | _ => False end).
  { induction l as [|r l IH]; intros f l' f' I J Hp E; cbn [fix_refs] in E.
    - injection E as <- <-. split; [exact I|]. split; [apply f_le_refl|]. split; [exact J|]. intros r [].
    - destruct (fix_ref im f r) as [[a g]| | |] eqn:Ea; try discriminate E. cbn [bind fst snd] in E.
      destruct (fix_refs im g l) as [[b g']| | |] eqn:Eb; try discriminate E. cbn [bind fst snd] in E. injection E as <- <-.
      destruct (Hr _ _ _ _ I J (Forall_inv Hp) Ea) as [A1 [A2 [A3 A4]]]. destruct (IH _ _ _ A1 A3 (Forall_inv_tail Hp) Eb) as [B1 [B2 [B3 B4]]].
      split; [exact B1|]. split; [eapply f_le_trans; eassumption|]. split; [exact B3|]. intros r' [->|Hr']; [|now apply B4].
      destruct A4 as [A4|[[A4 A5]|A4]]; auto. right. left. split; [exact A4|]. pose proof (Hle _ _ (proj2 B2)). lia. }
  induction code as [|c code IH]; intros f code' f' I J Hp Hd E; cbn [fix_code] in E.
  - injection E as <- <-. split; [exact I|]. split; [apply f_le_refl|]. split; [exact J|]. intros c r [].
  - destruct (fix_refs im f (i_src c)) as [[s g]| | |] eqn:Es; try discriminate E. cbn [bind fst snd] in E.
    destruct (fix_ref im g (i_dest c)) as [[d g1]| | |] eqn:Ed; try discriminate E. cbn [bind fst snd] in E.
    destruct (fix_code im g1 code) as [[b g2]| | |] eqn:Eb; try discriminate E. cbn [bind fst snd] in E. injection E as <- <-.
    destruct (Hrs _ _ _ _ I J (proj2 (Forall_inv Hp)) Es) as [A1 [A2 [A3 A4]]].
    assert (G : f_inv T g1 /\ f_le g g1 /\ evs_ok KP g1).
    { unfold fix_ref in Ed. destruct (Forall_inv Hd) as [Et|Et]; cbv beta in Et; rewrite Et in Ed.
      - injection Ed as <- <-. split; [exact A1|]. split; [apply f_le_refl | exact A3].
      - destruct (assoc Nat.eqb im (n_id (i_dest c))) as [q|] eqn:Ea.
        + destruct (Hev g (i_dest c) (true, n_prime (i_dest c), q) d g1 A1 A3) as [X [Y [Z _]]]; [eapply K3, Ea | exact (ok_inj _ _ Ed) | do 2 (split; [assumption|]); assumption].
        + destruct (exp_tmp g (n_prime (i_dest c), n_id (i_dest c))) as [t g'] eqn:Eg. injection Ed as <- <-. destruct (exp_tmp_ok T g _ t g' A1 Eg) as [X [Y _]].
          split; [exact X|]. split; [exact Y|]. unfold evs_ok. unfold exp_tmp in Eg.
          destruct (assoc pkey_eqb (f_exp g) _); injection Eg as <- <-; exact A3. }
    destruct G as [G1 [G2 G3]]. destruct (IH _ _ _ G1 G3 (Forall_inv_tail Hp) (Forall_inv_tail Hd) Eb) as [B1 [B2 [B3 B4]]].
    split; [exact B1|]. split; [eapply f_le_trans; [exact A2 | eapply f_le_trans; eassumption]|]. split; [exact B3|].
    intros c' r [<-|Hc'] Hr'; [|now apply (B4 c')]. cbn [i_src] in Hr'.
    destruct (A4 r Hr') as [A5|[[A5 A6]|A5]]; auto. right. left. split; [exact A5|]. pose proof (Hle _ _ (proj2 G2)). pose proof (Hle _ _ (proj2 B2)). lia.
Qed.
