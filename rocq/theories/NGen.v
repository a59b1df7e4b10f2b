(* The code generated for several expressions, run over the rows of the trace: every expression is computed once and the
   columns that keep expressions hold their values. *)
From Verif Require Import Base GlModel FrField F3gModel Cubic F3gProof ListAux PolyModel CodegenModel CodegenProof InterpModel InterpProof BnProof FftpBase
  VerifierModel VerifierProof HashModel FriModel FftpModel ProverModel ProverProof ParModel ParProof StarkModel StarkGen StarkRow StarkSrc NStep.
Open Scope nat_scope.
Open Scope res_scope.

(* ---------- which expressions are computed ---------- *)
Section Keys.
  Variable tbl : list expr.
  Inductive fin : bool * nat -> Prop := FIN p i e : nth_error tbl i = Some e -> (forall k, In k (exp_refs p e) -> fin k) -> fin (p, i).
  Definition refs1 (a k : bool * nat) : Prop := exists e, nth_error tbl (snd a) = Some e /\ In k (exp_refs (fst a) e).
  Inductive reach : bool * nat -> bool * nat -> Prop :=
  | RE1 a k : refs1 a k -> reach a k
  | RES a b k : refs1 a b -> reach b k -> reach a k.
  Lemma reach_trans a b c : reach a b -> reach b c -> reach a c.
  Proof. induction 1 as [a k H|a x k H _ IH]; intros Hc; [now apply (RES a k) | apply (RES a x); [exact H | now apply IH]]. Qed.
  Lemma fin_irr k : fin k -> ~ reach k k.
  Proof.
    induction 1 as [p i e He _ IH]. intros HR. inversion HR as [a k [e' [E1 E2]]|a b k [e' [E1 E2]] Hb]; subst; cbn [fst snd] in *; rewrite He in E1; injection E1 as <-.
    - exact (IH _ E2 HR).
    - apply (IH _ E2). apply (reach_trans _ (p, i)); [exact Hb|]. apply RE1. now exists e.
  Qed.

  Definition adds (c c' : context) : Prop := exists ext, linear_code c' = linear_code c ++ ext /\ NoDup (exp_dests ext) /\
    (forall k, In k (exp_dests ext) -> ~ In k (x_calc c)) /\ forall k, In k (x_calc c') <-> In k (x_calc c) \/ In k (exp_dests ext).
  Lemma adds_refl c : adds c c.
  Proof. exists []. rewrite app_nil_r. split; [reflexivity|]. split; [constructor|]. split; [intros k []|]. intros k. cbn. tauto. Qed.
  Lemma exp_dests_app a b : exp_dests (a ++ b) = exp_dests a ++ exp_dests b.
  Proof. unfold exp_dests. apply flat_map_app. Qed.
  Lemma adds_trans a b c : adds a b -> adds b c -> adds a c.
  Proof.
    intros [x [X1 [X2 [X3 X4]]]] [y [Y1 [Y2 [Y3 Y4]]]]. exists (x ++ y). rewrite exp_dests_app. split; [now rewrite Y1, X1, app_assoc|]. split.
    - clear -X2 Y2 Y3 X4. assert (H : forall k, In k (exp_dests x) -> ~ In k (exp_dests y)) by (intros k Hk Hy; apply (Y3 k Hy), X4; now right).
      clear X4 Y3. induction X2 as [|k l Hk _ IH]; [exact Y2|]. cbn [app]. constructor.
      + intros HH. apply in_app_or in HH. destruct HH as [HH|HH]; [now apply Hk | apply (H k); [now left | exact HH]].
      + apply IH. intros k' Hk'. apply H. now right.
    - split.
      + intros k Hk Ha. apply in_app_or in Hk. destruct Hk as [Hk|Hk]; [exact (X3 k Hk Ha)|]. apply (Y3 k Hk), X4. now left.
      + intros k. rewrite Y4, X4, in_app_iff. tauto.
  Qed.

  Lemma deps_gen (Q : context -> context -> Prop) (R : bool * nat -> Prop) gen p : (forall c, Q c c) -> (forall a b c, Q a b -> Q b c -> Q a c) ->
    (forall c i pr c', R (pr, i) -> gen c i pr = Ok c' -> Q c c') ->
    forall e c c', (forall k, In k (exp_refs p e) -> R k) -> calculate_deps gen p e c = Ok c' -> Q c c'.
  Proof.
    intros Hr Ht Hgen. induction e as [op id next value values k kp IH] using expr_ind'. intros c c' HR H.
    rewrite exp_refs_eq in HR. cbn [e_op e_id e_next e_values] in HR.
    cbn [calculate_deps] in H.
    destruct (match op with OExp => do i <- CodegenModel.unwrap id; (if p && next then Err else gen c i (p || next)) | _ => Ok c end) as [c1| | |] eqn:E1; try discriminate H.
    cbn [bind] in H.
    assert (H1 : Q c c1).
    { destruct op; try (injection E1 as <-; apply Hr).
      destruct id as [i|]; [|discriminate E1]. cbn [CodegenModel.unwrap bind] in E1. destruct (p && next); [discriminate E1|]. eapply Hgen; [|exact E1].
      rewrite orb_comm. apply HR. cbn. now left. }
    apply (Ht _ _ _ H1).
    assert (HR2 : forall k, In k (exps_refs p values) -> R k) by (intros q Hq; apply HR, in_or_app; now right).
    clear E1 H1 HR. revert c1 H. induction IH as [|x l Hx _ IHl]; intros c1 H.
    - injection H as <-. apply Hr.
    - destruct (calculate_deps gen p x c1) as [c2| | |] eqn:E2; try discriminate H. cbn [bind] in H.
      refine (Ht _ _ _ (Hx _ _ _ E2) _); [intros q Hq; apply HR2; cbn [exps_refs]; apply in_or_app; now left|].
      apply IHl; [|exact H]. intros q Hq. apply HR2. cbn [exps_refs]. apply in_or_app. now right.
  Qed.
  Lemma deps_in gen p : (forall c i pr c', gen c i pr = Ok c' -> In (pr, i) (x_calc c') /\ incl (x_calc c) (x_calc c')) ->
    forall e c c', calculate_deps gen p e c = Ok c' -> incl (exp_refs p e) (x_calc c') /\ incl (x_calc c) (x_calc c').
  Proof.
    intros Hgen. induction e as [op id next value values k kp IH] using expr_ind'. intros c c' H.
    rewrite exp_refs_eq. cbn [e_op e_id e_next e_values]. cbn [calculate_deps] in H.
    destruct (match op with OExp => do i <- CodegenModel.unwrap id; (if p && next then Err else gen c i (p || next)) | _ => Ok c end) as [c1| | |] eqn:E1; try discriminate H.
    cbn [bind] in H.
    assert (H1 : incl (match op with OExp => match id with Some i => [(next || p, i)] | None => [] end | _ => [] end) (x_calc c1) /\ incl (x_calc c) (x_calc c1)).
    { destruct op; try (injection E1 as <-; split; [intros x Hx; destruct Hx | apply incl_refl]).
      destruct id as [i|]; [|discriminate E1]. cbn [CodegenModel.unwrap bind] in E1. destruct (p && next); [discriminate E1|]. apply Hgen in E1.
      split; [|exact (proj2 E1)]. intros x [<-|[]]. rewrite orb_comm. exact (proj1 E1). }
    assert (H2 : incl (exps_refs p values) (x_calc c') /\ incl (x_calc c1) (x_calc c')).
    { clear E1 H1. revert c1 H. induction IH as [|x l Hx _ IHl]; intros c1 H.
      - injection H as <-. split; [intros x [] | apply incl_refl].
      - destruct (calculate_deps gen p x c1) as [c2| | |] eqn:E2; try discriminate H. cbn [bind] in H.
        destruct (Hx _ _ E2) as [A1 A2]. destruct (IHl _ H) as [B1 B2]. split; [|exact (incl_tran A2 B2)]. cbn [exps_refs].
        apply incl_app; [exact (incl_tran A1 B2) | exact B1]. }
    split; [|exact (incl_tran (proj2 H1) (proj2 H2))]. apply incl_app; [exact (incl_tran (proj1 H1) (proj2 H2)) | exact (proj1 H2)].
  Qed.

  Definition all_fin (c : context) : Prop := forall k, In k (x_calc c) -> fin k.
  Lemma gen_in fuel : forall m c i p c', pil_code_gen fuel tbl None m c i p = Ok c' -> In (p, i) (x_calc c') /\ incl (x_calc c) (x_calc c').
  Proof.
    induction fuel as [|fuel IH]; intros m c i p c' H; [discriminate H|]. cbn [pil_code_gen] in H.
    destruct (key_in (p, i) (x_calc c)) eqn:Ek; [injection H as <-; split; [now apply key_in_spec | apply incl_refl]|].
    destruct (vget tbl i) as [e| | |]; try discriminate H. cbn [bind] in H.
    destruct (calculate_deps _ p e c) as [c1| | |] eqn:Ed; try discriminate H. cbn [bind] in H.
    destruct (if m then find_muladd e else Ok e) as [e'| | |]; try discriminate H. cbn [bind] in H.
    destruct (eval_exp (mkCC (x_tmp c1) []) e' p) as [[r cc]| | |] eqn:Ee; try discriminate H. cbn [bind] in H.
    destruct (match n_ty r with Ntmp => _ | _ => _ end) as [[l t]| | |] eqn:El; try discriminate H. cbn [bind] in H. injection H as <-. cbn [x_calc].
    split; [now left|]. apply incl_tl. exact (proj2 (deps_in _ p (fun c i pr c' => IH false c i pr c') e c c1 Ed)).
  Qed.
  Lemma tmp_dests n l : Forall (ok_t n) l -> exp_dests l = [].
  Proof.
    induction 1 as [|c l [_ [A _]] _ IH]; [reflexivity|]. unfold exp_dests. cbn [flat_map]. fold (exp_dests l). rewrite IH. unfold exp_dest. now rewrite A.
  Qed.

  Lemma gen_adds fuel : forall m c i p c', pil_code_gen fuel tbl None m c i p = Ok c' -> all_fin c ->
    adds c c' /\ all_fin c' /\ forall k, In k (x_calc c') -> In k (x_calc c) \/ k = (p, i) \/ reach (p, i) k.
  Proof.
    induction fuel as [|fuel IH]; intros m c i p c' H HF; [discriminate H|]. cbn [pil_code_gen] in H.
    destruct (key_in (p, i) (x_calc c)) eqn:Ek; [injection H as <-; split; [apply adds_refl|]; split; [exact HF | auto]|].
    assert (Hk0 : ~ In (p, i) (x_calc c)) by (intro C; apply key_in_spec in C; congruence).
    destruct (vget tbl i) as [e| | |] eqn:Ev; try discriminate H. cbn [bind] in H. apply vget_inv in Ev.
    destruct (calculate_deps _ p e c) as [c1| | |] eqn:Ed; try discriminate H. cbn [bind] in H.
    pose proof (proj1 (deps_in _ p (fun c i pr c' => gen_in fuel false c i pr c') e c c1 Ed)) as Hrefs.
    assert (Hd : all_fin c -> adds c c1 /\ all_fin c1 /\ forall k, In k (x_calc c1) -> In k (x_calc c) \/ reach (p, i) k).
    { refine (deps_gen (fun c c1 => all_fin c -> adds c c1 /\ all_fin c1 /\ forall k, In k (x_calc c1) -> In k (x_calc c) \/ reach (p, i) k)
        (fun k => reach (p, i) k) _ p _ _ _ e c c1 _ Ed).
      - intros c0 H0. split; [apply adds_refl|]. split; [exact H0 | auto].
      - intros a b d H1 H2 Ha. destruct (H1 Ha) as [A1 [A2 A3]]. destruct (H2 A2) as [B1 [B2 B3]]. split; [exact (adds_trans _ _ _ A1 B1)|]. split; [exact B2|].
        intros k Hk. destruct (B3 k Hk) as [Hk'|Hk']; [exact (A3 k Hk') | now right].
      - intros c0 i0 p0 c0' HR H0 Hf0. destruct (IH _ _ _ _ _ H0 Hf0) as [A1 [A2 A3]]. split; [exact A1|]. split; [exact A2|].
        intros k Hk. destruct (A3 k Hk) as [Hk'|[->|Hk']]; [now left | right; exact HR | right; exact (reach_trans _ _ _ HR Hk')].
      - intros k Hk. apply RE1. now exists e. }
    destruct (Hd HF) as [A1 [A2 A3]]. clear Hd.
    assert (Hfin : fin (p, i)) by (apply (FIN p i e Ev); intros k Hk; apply A2, Hrefs, Hk).
    assert (Hk1 : ~ In (p, i) (x_calc c1)).
    { intros C. destruct (A3 _ C) as [C'|C']; [exact (Hk0 C') | exact (fin_irr _ Hfin C')]. }
    destruct (if m then find_muladd e else Ok e) as [e'| | |]; try discriminate H. cbn [bind] in H.
    destruct (eval_exp (mkCC (x_tmp c1) []) e' p) as [[r cc]| | |] eqn:Ee; try discriminate H. cbn [bind] in H.
    apply eval_exp_post, post_shape in Ee. destruct Ee as [_ [_ [new [S3 [S4 S5]]]]]. cbn [cc_tmp cc_code app] in *.
    destruct (match n_ty r with Ntmp => _ | _ => _ end) as [[l t]| | |] eqn:El; try discriminate H. cbn [bind] in H. injection H as <-.
    assert (Hl : exp_dests l = [(p, i)]).
    { destruct (match n_ty r with Ntmp => true | _ => false end) eqn:Et.
      - assert (Et' : n_ty r = Ntmp) by (destruct (n_ty r); try discriminate Et; reflexivity).
        rewrite Et' in El. destruct (S5 Et') as [body [op [src [S6 [S7 S8]]]]].
        unfold set_last_dest in El. rewrite S3, S6, rev_app_distr in El. cbn [rev app i_op i_src bind] in El.
        assert (El1 : rev (rev body) ++ [mkI op (N_new Nexp i None p) src] = l) by congruence. rewrite rev_involutive in El1. subst l.
        rewrite exp_dests_app, (tmp_dests _ _ S7). reflexivity.
      - assert (Hcopy : Ok (cc_code cc ++ [mkI CCopy (N_new Nexp i None p) [r]], cc_tmp cc) = Ok (l, t)) by (destruct (n_ty r); try exact El; discriminate Et).
        assert (El1 : cc_code cc ++ [mkI CCopy (N_new Nexp i None p) [r]] = l) by congruence. subst l. rewrite S3, exp_dests_app, (tmp_dests _ _ S4). reflexivity. }
    split; [|split].
    - apply (adds_trans _ _ _ A1). exists l. cbn [x_calc]. rewrite Hl. split.
      { unfold linear_code. cbn [x_code]. rewrite map_app, concat_app. cbn. now rewrite app_nil_r. }
      split; [constructor; [intros [] | constructor]|]. split; [intros k [<-|[]]; exact Hk1|]. intros k. cbn [In]. tauto.
    - intros k [<-|Hk]; [exact Hfin | exact (A2 k Hk)].
    - intros k [<-|Hk]; [right; now left|]. destruct (A3 k Hk) as [Hk'|Hk']; auto.
  Qed.

  (* generating code for several expressions from an empty context *)
  Definition gens (fl : nat) (ids : list nat) (c : context) : res context := foldM (fun c i => pil_code_gen fl tbl None false c i false) ids c.
  Lemma gens_adds fl ids : forall c c', gens fl ids c = Ok c' -> all_fin c -> adds c c' /\ all_fin c' /\ Forall (fun i => In (false, i) (x_calc c')) ids.
  Proof.
    induction ids as [|i ids IH]; intros c c' H HF; unfold gens in H; cbn [foldM] in H.
    - injection H as <-. split; [apply adds_refl|]. split; [exact HF | constructor].
    - destruct (pil_code_gen fl tbl None false c i false) as [c1| | |] eqn:E1; try discriminate H. cbn [bind] in H. fold (gens fl ids c1) in H.
      destruct (gen_adds _ _ _ _ _ _ E1 HF) as [A1 [A2 _]]. destruct (IH _ _ H A2) as [B1 [B2 B3]].
      split; [exact (adds_trans _ _ _ A1 B1)|]. split; [exact B2|]. constructor; [|exact B3].
      destruct B1 as [ext [_ [_ [_ X]]]]. apply X. left. exact (proj1 (gen_in _ _ _ _ _ _ E1)).
  Qed.
  Lemma gens_grows fl ids : forall c c', gens fl ids c = Ok c' -> grows c c'.
  Proof.
    induction ids as [|i ids IH]; intros c c' H; unfold gens in H; cbn [foldM] in H; [injection H as <-; apply grows_refl|].
    destruct (pil_code_gen fl tbl None false c i false) as [c1| | |] eqn:E1; try discriminate H. cbn [bind] in H.
    exact (grows_trans _ _ _ (proj1 (gen_grows _ _ _ _ _ _ _ E1)) (IH _ _ H)).
  Qed.
  Lemma gens_src (P : node -> Prop) (R : bool * nat -> Prop) fl ids : (forall r, n_ty r = Ntmp -> P r) ->
    (forall p i e, R (p, i) -> nth_error tbl i = Some e -> labs P false p e /\ forall k, In k (exp_refs p e) -> R k) ->
    forall c c', Forall (fun i => R (false, i)) ids -> gens fl ids c = Ok c' -> addsrc P false c c'.
  Proof.
    intros Hp HR. induction ids as [|i ids IH]; intros c c' Hi H; unfold gens in H; cbn [foldM] in H; [injection H as <-; apply addsrc_refl|].
    destruct (pil_code_gen fl tbl None false c i false) as [c1| | |] eqn:E1; try discriminate H. cbn [bind] in H.
    apply (addsrc_trans _ _ _ _ _ (gen_src P Hp tbl R HR _ _ _ _ _ _ (Forall_inv Hi) E1)). exact (IH _ _ (Forall_inv_tail Hi) H).
  Qed.
  Lemma gens_keys (R : bool * nat -> Prop) fl ids : (forall p i e, R (p, i) -> nth_error tbl i = Some e -> forall k, In k (exp_refs p e) -> R k) ->
    forall c c', Forall (fun i => R (false, i)) ids -> all_fin c -> gens fl ids c = Ok c' -> forall k, In k (x_calc c') -> In k (x_calc c) \/ R k.
  Proof.
    intros HR.
    assert (Hre : forall a b, reach a b -> R a -> R b).
    { assert (H1 : forall a b, refs1 a b -> R a -> R b) by (intros [p i] b [e [E1 E2]] Ha; exact (HR p i e Ha E1 b E2)).
      induction 1 as [a k H|a x k H _ IH]; intros Ha; [exact (H1 _ _ H Ha) | exact (IH (H1 _ _ H Ha))]. }
    induction ids as [|i ids IH]; intros c c' Hi HF H k Hk; unfold gens in H; cbn [foldM] in H; [injection H as <-; now left|].
    destruct (pil_code_gen fl tbl None false c i false) as [c1| | |] eqn:E1; try discriminate H. cbn [bind] in H.
    destruct (gen_adds _ _ _ _ _ _ E1 HF) as [_ [A2 A3]].
    destruct (IH _ _ (Forall_inv_tail Hi) A2 H k Hk) as [Hk'|Hk']; [|now right].
    destruct (A3 k Hk') as [B|[->|B]]; [now left | right; exact (Forall_inv Hi) | right; exact (Hre _ _ B (Forall_inv Hi))].
  Qed.
  Lemma gens_run rho fl ids : rho (N_new Nnumber 0 (Some 0%Z) false) = e_ZERO -> Forall wf_e tbl -> forall c c', gens fl ids c = Ok c' ->
    exists ext, linear_code c' = linear_code c ++ ext /\
      forall s, good tbl rho (x_calc c) s -> exists s', run rho s ext = Some s' /\ good tbl rho (x_calc c') s'.
  Proof.
    intros Hz Hw. induction ids as [|i ids IH]; intros c c' H; unfold gens in H; cbn [foldM] in H.
    - injection H as <-. exists []. rewrite app_nil_r. split; [reflexivity|]. intros s Hs. exists s. split; [reflexivity | exact Hs].
    - destruct (pil_code_gen fl tbl None false c i false) as [c1| | |] eqn:E1; try discriminate H. cbn [bind] in H.
      destruct (codegen_ok tbl rho Hz Hw fl None false c i false c1 E1 (or_introl eq_refl)) as [_ [_ [x [X1 X2]]]].
      destruct (IH _ _ H) as [y [Y1 Y2]]. exists (x ++ y). split; [now rewrite Y1, X1, app_assoc|]. intros s Hs.
      destruct (X2 s Hs) as [s1 [R1 [G1 _]]]. destruct (Y2 s1 G1) as [s2 [R2 G2]]. exists s2. split; [|exact G2].
      rewrite run_app, R1. exact R2.
  Qed.
End Keys.

(* ---------- the values of the expressions over the rows ---------- *)
Section NGen.
  Variables (si : sinfo) (st : pstep) (m0 : mem) (im texp : list (nat * nat)) (td : nat -> bool).
  Variables (tbl : list expr) (fl : nat) (ids : list nat) (t0 : nat) (c : context) (seg : segment) (blk : list iop) (per : nat).
  Variable rho : nat -> node -> F3G.
  Local Notation n := (2 ^ si_nbits si).
  Local Notation w := (sec_width si).
  Local Notation io := (step_in st ++ step_out st).
  Local Notation code := (linear_code c).
  Local Notation kept := (kept im texp).
  Definition kcol (i : nat) : option (sec * nat * nat) := match kept i with Some (ty, k) => ncol si ty k | None => None end.
  Definition covers (i : nat) (s : sec) (col : nat) : bool :=
    match kcol i with Some (s', pos, dim) => (if sec_dec s s' then true else false) && (pos <=? col) && (col <? pos + dim) | None => false end.
  (* the columns that the code writes *)
  Definition kwrites (s : sec) (col : nat) : bool := existsb (fun k => covers (snd k) s col) (exp_dests code).

  Hypothesis Hdom : step_dom st = true.
  Hypothesis Hmem : mem_ok si st m0.
  Hypothesis Hbase : forall s, In s io -> Forall vbase (m_sec m0 s).
  Hypothesis Hpub : Forall wf (m_sec m0 Spublics).
  Hypothesis Hcha : Forall wf (m_sec m0 Schallenge).
  Hypothesis Hgen : gens tbl fl ids (mkCtx t0 [] []) = Ok c.
  Hypothesis Hseg : fix_prover_code si im texp true code (x_tmp c) = Ok seg.
  Hypothesis Hblk : compile_code si (sg_first seg) true false = Ok blk.
  Hypothesis Hwf : Forall wf_e tbl.
  Variable R : bool * nat -> Prop.
  Hypothesis Hids : Forall (fun i => R (false, i)) ids.
  Hypothesis HR : forall p i e, R (p, i) -> nth_error tbl i = Some e ->
    labs (lsrc si st m0 kwrites) false p e /\ forall k, In k (exp_refs p e) -> R k.
  Hypothesis Hcols : forall p i ty k, R (p, i) -> kept i = Some (ty, k) ->
    exists s pos dim, ncol si ty k = Some (s, pos, dim) /\ col_ok si st (s, pos, dim) /\ In s (step_out st).
  Hypothesis Hdisj : forall p q i j s col, R (p, i) -> R (q, j) -> covers i s col = true -> covers j s col = true -> i = j.
  Hypothesis Hty : Forall (typed si m0 td) (sg_first seg).
  Hypothesis Hrho : forall g r, g < n -> lread si st m0 kwrites r -> read_ref si true g m0 r = Ok (rho g r).
  Hypothesis Hzero : forall g, g < n -> rho g (N_new Nnumber 0 (Some 0%Z) false) = e_ZERO.
  Hypothesis Hnox : forall i e, R (true, i) -> nth_error tbl i = Some e -> labs (fun r => n_ty r <> Nx) false true e.
  Hypothesis Hwide : forall p i s pos e v g, R (p, i) -> kcol i = Some (s, pos, 3) -> In s (step_in st) -> nth_error tbl i = Some e ->
    g < n -> den tbl (rho g) p e v -> d3 v = true.

  Local Lemma n0 : n <> 0. Proof. apply Nat.pow_nonzero. discriminate. Qed.
  Lemma fin0 : all_fin tbl (mkCtx t0 [] []). Proof. intros k []. Qed.
  Lemma keys_dests k : In k (x_calc c) <-> In k (exp_dests code).
  Proof.
    destruct (gens_adds tbl fl ids _ _ Hgen fin0) as [[ext [E [_ [_ H]]]] _]. change (linear_code (mkCtx t0 [] [])) with (@nil instr) in E. cbn [app] in E. rewrite E.
    rewrite H. cbn [x_calc In]. tauto.
  Qed.
  Lemma dests_nodup : NoDup (exp_dests code).
  Proof.
    destruct (gens_adds tbl fl ids _ _ Hgen fin0) as [[ext [E [HN _]]] _]. change (linear_code (mkCtx t0 [] [])) with (@nil instr) in E. cbn [app] in E. now rewrite E.
  Qed.
  Lemma dests_R k : In k (exp_dests code) -> R k.
  Proof.
    intros Hk. apply keys_dests in Hk. destruct (gens_keys tbl R fl ids (fun p i e A B => proj2 (HR p i e A B)) _ _ Hids fin0 Hgen k Hk) as [[]|H]. exact H.
  Qed.
  Lemma run_row g : g < n -> exists s', run (rho g) (fun _ => None) code = Some s' /\ good tbl (rho g) (x_calc c) s'.
  Proof.
    intros Hg. destruct (gens_run tbl (rho g) fl ids (Hzero g Hg) Hwf _ _ Hgen) as [ext [E H]].
    change (linear_code (mkCtx t0 [] [])) with (@nil instr) in E. cbn [app] in E. rewrite E. apply H. intros p i [].
  Qed.
  Definition fstore (g : nat) : ntype * nat * bool -> option F3G := match run (rho g) (fun _ => None) code with Some s => s | None => fun _ => None end.
  Definition value (i g : nat) : F3G :=
    match fstore g (Nexp, i, false) with
    | Some v => v
    | None => match fstore ((g + (n - 1)) mod n) (Nexp, i, true) with Some v => v | None => e_ZERO end
    end.
  Definition colval (s : sec) (col g : nat) : Fr :=
    match find (fun k => covers (snd k) s col) (exp_dests code) with
    | Some k => match kcol (snd k) with Some (_, pos, _) => kc (col - pos) (val (value (snd k) g)) | None => f0 end
    | None => f0
    end.

  (* an expression at the next row *)
  Lemma glob_read s i g r : operand_value m0 (InterpModel.cell s i 0 n 0) g = operand_value m0 (InterpModel.cell s i 0 n 0) r.
  Proof. unfold InterpModel.cell. cbn [operand_value]. unfold get_value. cbn [r_sym r_three]. unfold get_i. cbn [r_off r_next r_mod r_size]. now rewrite !Nat.mul_0_r. Qed.
  Lemma num_read i v p q g r : read_ref si true g m0 (N_new Nnumber i v p) = read_ref si true r m0 (N_new Nnumber i v q).
  Proof. unfold read_ref, get_ref. cbn [N_new n_ty n_value]. destruct (number_ref v); reflexivity. Qed.
  Lemma leaf_shift ty i v g r : g < n -> lread si st m0 kwrites (N_new ty i v true) -> ty <> Nx -> r = (g + 1) mod n ->
    rho g (N_new ty i v true) = rho r (N_new ty i v false).
  Proof.
    intros Hg Hl Hx Er. pose proof n0 as Hn. assert (Hr : r < n) by (subst r; apply Nat.mod_upper_bound, Hn).
    assert (Hl' : lread si st m0 kwrites (N_new ty i v false)) by exact Hl.
    pose proof (Hrho g _ Hg Hl) as E1. pose proof (Hrho r _ Hr Hl') as E2.
    assert (E : read_ref si true g m0 (N_new ty i v true) = read_ref si true r m0 (N_new ty i v false)).
    { assert (Hi : forall s d pos wd, get_value m0 (mkR (RSec s) d pos 1 n wd) g = get_value m0 (mkR (RSec s) d pos 0 n wd) r).
      { intros s d pos wd. unfold get_value. cbn [r_sym r_three]. unfold get_i. cbn [r_off r_next r_mod r_size].
        rewrite Nat.add_0_r, (Nat.mod_small r n Hr), Er. reflexivity. }
      unfold lread in Hl. cbn [N_new n_ty n_id n_value] in Hl. destruct ty; try contradiction; try reflexivity; try (now destruct Hx).
      - destruct Hl as [s [pos [dim [Hc [[Hd _] _]]]]].
        rewrite (col_read si m0 (N_new Ncm i v true) true s pos dim g (or_introl eq_refl) eq_refl Hc Hd).
        rewrite (col_read si m0 (N_new Ncm i v false) true s pos dim r (or_introl eq_refl) eq_refl Hc Hd). apply Hi.
      - apply (Hi Sconst_n false i (si_nconst si)).
      - apply num_read.
      - apply glob_read.
      - apply glob_read. }
    rewrite E1, E2 in E. now injection E.
  Qed.
  Lemma leaf_const ty i v g r : g < n -> r < n -> lread si st m0 kwrites (N_new ty i v false) -> ty = Nnumber \/ ty = Npublic \/ ty = Nchallenge ->
    rho g (N_new ty i v false) = rho r (N_new ty i v false).
  Proof.
    intros Hg Hr Hl Ht. pose proof (Hrho g _ Hg Hl) as E1. pose proof (Hrho r _ Hr Hl) as E2.
    assert (E : read_ref si true g m0 (N_new ty i v false) = read_ref si true r m0 (N_new ty i v false)) by (destruct Ht as [->|[->| ->]]; [apply num_read | apply glob_read | apply glob_read]).
    rewrite E1, E2 in E. now injection E.
  Qed.
  Lemma lsrc_leaf r : lsrc si st m0 kwrites r -> n_ty r <> Ntmp -> n_ty r <> Nexp -> lread si st m0 kwrites r.
  Proof. intros [H|[H|H]] A B; [contradiction | contradiction | exact H]. Qed.
  Lemma den_shift g e p v : g < n -> den tbl (rho g) p e v -> p = true -> labs (lsrc si st m0 kwrites) false true e -> labs (fun r => n_ty r <> Nx) false true e ->
    (forall k, In k (exp_refs true e) -> R k) -> den tbl (rho ((g + 1) mod n)) false e v.
  Proof.
    intros Hg D. set (r := (g + 1) mod n). assert (Hr : r < n) by (apply Nat.mod_upper_bound, n0).
    induction D; intros -> L N K; pose proof (labs_values _ _ _ _ L) as LV; pose proof (labs_values _ _ _ _ N) as NV; pose proof (labs_lab _ _ _ _ L) as LL;
      pose proof (labs_lab _ _ _ _ N) as NL;
      assert (KV : forall x, In x (e_values e) -> forall k, In k (exp_refs true x) -> R k)
        by (intros x0 Hx0 k0 Hk0; apply K; rewrite exp_refs_eq; apply in_or_app; right; exact (in_exps_refs true x0 _ Hx0 k0 Hk0));
      unfold lab in LL, NL;
      match goal with Ho : e_op e = _ |- _ => rewrite Ho in LL, NL end;
      try (match goal with H : e_values e = _ |- _ => rewrite H in LV, NV, KV end;
           repeat match goal with H : Forall _ (_ :: _) |- _ => let a := fresh "A" in pose proof (Forall_inv H) as a; apply Forall_inv_tail in H end;
           repeat match goal with IH : true = true -> _ |- _ => specialize (IH eq_refl) end).
    - eapply D_add; [eassumption | eassumption | apply IHD1; try assumption; intros; eapply KV; [|eassumption]; cbn; auto | apply IHD2; try assumption; intros; eapply KV; [|eassumption]; cbn; auto].
    - eapply D_sub; [eassumption | eassumption | apply IHD1; try assumption; intros; eapply KV; [|eassumption]; cbn; auto | apply IHD2; try assumption; intros; eapply KV; [|eassumption]; cbn; auto].
    - eapply D_mul; [eassumption | eassumption | apply IHD1; try assumption; intros; eapply KV; [|eassumption]; cbn; auto | apply IHD2; try assumption; intros; eapply KV; [|eassumption]; cbn; auto].
    - discriminate LL.
    - unfold num. rewrite (leaf_const Nnumber 0 (Some k) g r Hg Hr); [|apply lsrc_leaf; [exact (LL _ H1) | discriminate | discriminate] | now left].
      eapply D_addc; [eassumption | eassumption | eassumption | apply IHD; try assumption; intros; eapply KV; [|eassumption]; cbn; auto].
    - unfold num. rewrite (leaf_const Nnumber 0 (Some k) g r Hg Hr); [|apply lsrc_leaf; [exact (LL _ H1) | discriminate | discriminate] | now left].
      eapply D_mulc; [eassumption | eassumption | eassumption | apply IHD; try assumption; intros; eapply KV; [|eassumption]; cbn; auto].
    - eapply D_neg; [eassumption | eassumption | apply IHD; try assumption; intros; eapply KV; [|eassumption]; cbn; auto].
    - rewrite andb_true_r in H1. rewrite H1, orb_true_r in *. cbn [orb] in *.
      assert (HRi : R (true, i)). { apply K. rewrite exp_refs_eq, H, H0, H1. now left. }
      destruct (HR true i e' HRi H2) as [L' K'].
      eapply D_exp; [eassumption | eassumption | rewrite H1; reflexivity | eassumption|]. rewrite H1. cbn [orb].
      apply IHD; [reflexivity | exact L' | exact (Hnox i e' HRi H2) | exact K'].
    - rewrite andb_true_r in H1. rewrite H1 in *. cbn [orb] in *.
      rewrite (leaf_shift Ncm i None g r Hg); [|apply lsrc_leaf; [exact (LL _ H0) | discriminate | discriminate] | discriminate | reflexivity].
      pose proof (D_cm tbl (rho r) false e i H H0) as DD. rewrite H1 in DD. exact (DD eq_refl).
    - rewrite andb_true_r in H1. rewrite H1 in *. cbn [orb] in *.
      rewrite (leaf_shift Nconst i None g r Hg); [|apply lsrc_leaf; [exact (LL _ H0) | discriminate | discriminate] | discriminate | reflexivity].
      pose proof (D_const tbl (rho r) false e i H H0) as DD. rewrite H1 in DD. exact (DD eq_refl).
    - destruct (LL _ H0) as [HH|[HH|HH]]; [discriminate HH | discriminate HH | destruct HH].
    - rewrite (leaf_const Nnumber 0 (e_value e) g r Hg Hr); [|apply lsrc_leaf; [exact LL | discriminate | discriminate] | now left]. now apply D_number.
    - rewrite (leaf_const Npublic i None g r Hg Hr); [|apply lsrc_leaf; [exact (LL _ H0) | discriminate | discriminate] | right; now left]. now apply D_public.
    - rewrite (leaf_const Nchallenge i None g r Hg Hr); [|apply lsrc_leaf; [exact (LL _ H0) | discriminate | discriminate] | right; now right]. now apply D_challenge.
    - destruct (LL _ H0) as [HH|[HH|HH]]; [discriminate HH | discriminate HH | destruct HH].
    - destruct LL as [HH|[HH|HH]]; [discriminate HH | discriminate HH | destruct HH].
    - destruct LL as [HH|[HH|HH]]; [discriminate HH | discriminate HH | destruct HH].
    - exfalso. apply NL. reflexivity.
  Qed.

  Lemma fstore_den g p i v : g < n -> fstore g (Nexp, i, p) = Some v ->
    In (p, i) (exp_dests code) /\ exists e, nth_error tbl i = Some e /\ den tbl (rho g) p e v.
  Proof.
    intros Hg Hv. destruct (run_row g Hg) as [s' [E G]]. unfold fstore in Hv. rewrite E in Hv.
    assert (HD : In (p, i) (exp_dests code) \/ ~ In (p, i) (exp_dests code)).
    { destruct (key_in (p, i) (exp_dests code)) eqn:E0; [left; now apply key_in_spec | right; intros C; apply key_in_spec in C; congruence]. }
    destruct HD as [Hin|Hni].
    - split; [exact Hin|]. apply keys_dests in Hin. destruct (G p i Hin) as [e [v' [E1 [E2 E3]]]]. rewrite E2 in Hv. injection Hv as <-. now exists e.
    - rewrite (run_keep (rho g) code _ _ p i E Hni) in Hv. discriminate Hv.
  Qed.
  Lemma fstore_has g p i : g < n -> In (p, i) (exp_dests code) -> exists e v, nth_error tbl i = Some e /\ fstore g (Nexp, i, p) = Some v /\ den tbl (rho g) p e v.
  Proof.
    intros Hg Hin. destruct (run_row g Hg) as [s' [E G]]. unfold fstore. rewrite E. apply keys_dests in Hin. exact (G p i Hin).
  Qed.
  Lemma prime_down g i e v : g < n -> In (true, i) (exp_dests code) -> nth_error tbl i = Some e -> den tbl (rho g) true e v -> den tbl (rho ((g + 1) mod n)) false e v.
  Proof.
    intros Hg Hin He HD. pose proof (dests_R _ Hin) as Hr. destruct (HR true i e Hr He) as [L K].
    exact (den_shift g e true v Hg HD eq_refl L (Hnox i e Hr He) K).
  Qed.
  Lemma value_at g p i e v : g < n -> In (p, i) (exp_dests code) -> nth_error tbl i = Some e -> den tbl (rho g) p e v ->
    value i ((g + if p then 1 else 0) mod n) = v.
  Proof.
    intros Hg Hin He HD. pose proof n0 as Hn. set (h := (g + if p then 1 else 0) mod n). assert (Hh : h < n) by (apply Nat.mod_upper_bound, Hn).
    assert (HD' : den tbl (rho h) false e v).
    { unfold h. destruct p; [exact (prime_down g i e v Hg Hin He HD)|]. rewrite Nat.add_0_r, Nat.mod_small by exact Hg. exact HD. }
    unfold value. destruct (fstore h (Nexp, i, false)) as [v'|] eqn:Ev.
    - destruct (fstore_den h false i v' Hh Ev) as [_ [e' [E1 E2]]]. rewrite He in E1. injection E1 as <-. exact (den_fun _ _ _ _ _ E2 _ HD').
    - destruct p.
      + assert (Hb : (h + (n - 1)) mod n = g).
        { unfold h. rewrite Nat.add_mod_idemp_l by exact Hn. replace (g + 1 + (n - 1)) with (g + 1 * n) by lia. rewrite Nat.mod_add by exact Hn. now apply Nat.mod_small. }
        rewrite Hb. destruct (fstore_has g true i Hg Hin) as [e' [v' [E1 [E2 E3]]]]. rewrite E2. rewrite He in E1. injection E1 as <-. exact (den_fun _ _ _ _ _ E3 _ HD).
      + destruct (fstore_has h false i Hh Hin) as [e' [v' [E1 [E2 E3]]]]. rewrite E2 in Ev. discriminate Ev.
  Qed.
  Lemma covers_at i s pos dim k : kcol i = Some (s, pos, dim) -> k < dim -> covers i s (pos + k) = true.
  Proof.
    intros Hk Hlt. unfold covers. rewrite Hk. destruct (sec_dec s s) as [_|C]; [|now destruct C]. cbn [andb].
    apply andb_true_intro. split; [apply Nat.leb_le; lia | apply Nat.ltb_lt; lia].
  Qed.
  Lemma colval_at p i s pos dim k g : In (p, i) (exp_dests code) -> kcol i = Some (s, pos, dim) -> k < dim -> colval s (pos + k) g = kc k (val (value i g)).
  Proof.
    intros Hin Hk Hlt. pose proof (covers_at i s pos dim k Hk Hlt) as Hc. unfold colval.
    destruct (find (fun k0 => covers (snd k0) s (pos + k)) (exp_dests code)) as [[q j]|] eqn:Ef.
    - apply find_some in Ef. destruct Ef as [F1 F2]. cbn [snd] in *.
      assert (E : j = i) by exact (Hdisj q p j i s (pos + k) (dests_R _ F1) (dests_R _ Hin) F2 Hc). subst j. rewrite Hk. f_equal. lia.
    - pose proof (find_none _ _ Ef _ Hin) as HH. cbn [snd] in HH. rewrite Hc in HH. discriminate HH.
  Qed.

  Hypothesis Hper : per <> 0.
  Local Notation cell m s r k := (nth_error (m_sec m s) (r * w s + k)).
  Theorem nstep_gen : exists p, exps_chunked si st m0 seg per = Ok p /\
    (forall s, ~ In s (step_out st) -> m_sec p s = m_sec m0 s) /\
    (forall s, In s (step_out st) -> length (m_sec p s) = n * w s /\ Forall vbase (m_sec p s) /\
      forall r k, r < n -> k < w s -> kwrites s k = false -> cell p s r k = init si st m0 s k r) /\
    forall i, In (false, i) (x_calc c) -> forall g, g < n -> exists e v, nth_error tbl i = Some e /\ den tbl (rho g) false e v /\
      forall s pos dim, kcol i = Some (s, pos, dim) -> (dim = 1 -> d3 v = false) /\ forall k, k < dim -> cell p s g (pos + k) = Some (e_from (kc k (val v))).
  Proof.
    pose proof n0 as Hn. unfold fix_prover_code in Hseg.
    destruct (iter_code (fixp_ref si im texp true) (mkF [] (x_tmp c) (mkEV [] [])) code) as [[l' fe]| | |] eqn:Ei; try discriminate Hseg. cbn [bind fst snd] in Hseg.
    assert (Hs1 : sg_first seg = l') by (injection Hseg as <-; reflexivity). assert (Hs2 : sg_tmp seg = f_tmp fe) by (injection Hseg as <-; reflexivity).
    assert (Hok : Forall (ok_instr (x_tmp c) []) code).
    { destruct (gens_grows tbl fl ids _ _ Hgen) as [_ [_ [ext [E F]]]]. change (linear_code (mkCtx t0 [] [])) with (@nil instr) in E. cbn [app] in E. rewrite E. exact F. }
    assert (Hsrc : Forall (fun i => i_op i <> CMuladd /\ Forall (lsrc si st m0 kwrites) (i_src i)) code).
    { destruct (gens_src tbl (lsrc si st m0 kwrites) R fl ids (fun r Hr => or_introl Hr) HR _ _ Hids Hgen) as [ext [E F]].
      change (linear_code (mkCtx t0 [] [])) with (@nil instr) in E. cbn [app] in E. rewrite E. eapply Forall_impl; [|exact F].
      intros a [A B]. split; [intros C; discriminate (A C) | exact B]. }
    assert (Hval : forall g, g < n -> exists s', run (rho g) (fun _ => None) code = Some s' /\
      forall p i, In (p, i) (exp_dests code) -> exists v, s' (Nexp, i, p) = Some v /\ row_truth si st m0 kwrites colval im texp g i p v).
    { intros g Hg. destruct (run_row g Hg) as [s' [E G]]. exists s'. split; [exact E|]. intros p i Hin.
      destruct (G p i (proj2 (keys_dests _) Hin)) as [e [v [E1 [E2 E3]]]]. exists v. split; [exact E2|]. unfold row_truth.
      destruct (kept i) as [[ty k]|] eqn:Ek; [|exact I]. pose proof (dests_R _ Hin) as Hr.
      destruct (Hcols p i ty k Hr Ek) as [s [pos [dim [C1 [C2 C3]]]]]. exists s, pos, dim. split; [exact C1|]. split; [exact C2|]. split; [exact C3|].
      assert (Hkc : kcol i = Some (s, pos, dim)) by (unfold kcol; rewrite Ek; exact C1). split.
      - intros q Hq. split.
        + unfold kwrites. apply existsb_exists. exists (p, i). split; [exact Hin | exact (covers_at i s pos dim q Hkc Hq)].
        + rewrite (colval_at p i s pos dim q _ Hin Hkc Hq), (value_at g p i e v Hg Hin E1 E3). reflexivity.
      - intros -> Hd q Hq. unfold init. destruct (in_dec sec_dec s (step_in st)) as [Hi|_]; [|reflexivity].
        rewrite (Hwide p i s pos e v g Hr Hkc Hi E1 Hg E3) in Hd. discriminate Hd. }
    assert (Hblk' : compile_code si l' true false = Ok blk) by (rewrite <- Hs1; exact Hblk).
    assert (Hty' : Forall (typed si m0 td) l') by (rewrite <- Hs1; exact Hty).
    destruct (nstep_chunked si st m0 kwrites colval im texp td (x_tmp c) (sg_tmp seg) Hdom Hmem Hbase Hpub Hcha code l' fe blk rho Ei ltac:(lia) Hok Hsrc Hty' dests_nodup Hblk' Hrho Hval
      per Hper seg Hs1 eq_refl) as [p [E [F [C [D D1]]]]].
    exists p. split; [exact E|]. split; [exact F|]. split.
    - intros s Hs. destruct (C s Hs) as [C1 C2]. split; [exact C1|]. split.
      + apply Forall_forall. intros v Hv. apply In_nth_error in Hv. destruct Hv as [q Hq].
        assert (Hql : q < n * w s) by (rewrite <- C1; apply nth_error_Some; congruence).
        destruct (row_split (w s) q n Hql) as [r [k [-> [Hr Hk]]]]. destruct (C2 r k Hr Hk) as [HH|[_ HH]].
        * destruct (init_base si st m0 Hdom Hmem Hbase s k r) as [x Hx]; [apply in_or_app; now right | exact Hr | exact Hk|].
          rewrite HH, Hx in Hq. injection Hq as <-. now exists x.
        * rewrite HH in Hq. injection Hq as <-. eexists. reflexivity.
      + intros r k Hr Hk Hw. destruct (C2 r k Hr Hk) as [HH|[HH _]]; [exact HH | congruence].
    - intros i Hin g Hg. apply keys_dests in Hin. destruct (fstore_has g false i Hg Hin) as [e [v [E1 [E2 E3]]]]. exists e, v. split; [exact E1|]. split; [exact E3|].
      intros s pos dim Hk. unfold kcol in Hk. destruct (kept i) as [[ty q]|] eqn:Ek; [|discriminate Hk]. split.
      { intros ->. destruct (run_row g Hg) as [s' [Er _]]. apply (D1 i ty q s pos g s' v Hin Ek Hk Hg Er). unfold fstore in E2. rewrite Er in E2. exact E2. }
      intros k Hlt. rewrite (D i ty q s pos dim k g Hin Ek Hk Hlt Hg). f_equal. f_equal.
      assert (Hkc : kcol i = Some (s, pos, dim)) by (unfold kcol; rewrite Ek; exact Hk).
      rewrite (colval_at false i s pos dim k g Hin Hkc Hlt). f_equal. f_equal.
      pose proof (value_at g false i e v Hg Hin E1 E3) as HV. rewrite Nat.add_0_r, Nat.mod_small in HV by exact Hg. exact HV.
  Qed.
End NGen.
