(* What the verifier computes from the opened rows, whatever they are. *)
From Coq Require Import Ring Field Arith.
From Verif Require Import Base GlModel FrField F3gModel Cubic F3gProof ListAux PolyModel Roots PolyProof FftProof FftTop FriMath CodegenModel CodegenProof
  InterpModel InterpProof VerifierModel VerifierProof ImModel ImProof HashModel FftpModel FftpProof FriModel FriProof ProverModel ProverProof ParModel ParProof
  StarkMath StarkModel StarkGen StarkSrc StarkPoly StarkRow StarkQuot StarkEval StarkStep4 StarkFri StarkStep5.
Open Scope nat_scope.
Open Scope list_scope.
Open Scope res_scope.
Add Field K_field_sq : K_field.

Definition is_tmp (t : ntype) : bool := match t with Ntmp => true | _ => false end.
Lemma ntype_dec t : {t = Ntmp} + {t <> Ntmp}. Proof. destruct t; (now left) || (right; discriminate). Qed.

(* ---------- the formula ---------- *)
Definition horner (a : K) (l : list K) : K := fold_left (fun acc x => kadd (kmul a acc) x) l kzero.
(* the opened value of a key minus its claimed evaluation, for the unshifted or the shifted keys *)
Definition diffs (w : bool) (col const ev : nat -> K) (evs : list evkey) : list K :=
  map (fun jk : nat * evkey => ksub (if fst (fst (snd jk)) then col (snd (snd jk)) else const (snd (snd jk))) (ev (fst jk)))
    (filter (fun jk : nat * evkey => Bool.eqb (snd (fst (snd jk))) w) (combine (seq 0 (length evs)) evs)).
Definition fri_value (v1 v2 u w : K) (ncm : nat) (col const ev : nat -> K) (evs : list evkey) : K :=
  horner v1 (map col (seq 0 ncm) ++ [kmul (horner v2 (diffs false col const ev evs)) u]
    ++ (if existsb (fun k : evkey => snd (fst k)) evs then [kmul (horner v2 (diffs true col const ev evs)) w] else [])).

Lemma horner_snoc a l x : horner a (l ++ [x]) = kadd (kmul a (horner a l)) x.
Proof. unfold horner. now rewrite fold_left_app. Qed.

Section Formula.
  Variables (tbl : list expr) (rho : node -> F3G).
  Definition is_val (e : expr) (k : K) : Prop := forall v, den tbl rho false e v -> val v = k.
  Ltac dinv := match goal with A : den _ _ _ _ _ |- _ => inversion A; subst; try discriminate; clear A end;
    repeat match goal with
    | A : e_values _ = _ |- _ => cbn in A; injection A as <- <- <-
    | A : e_id _ = Some _ |- _ => cbn in A; injection A as <-
    end.
  Lemma iv_add a b x y : is_val a x -> is_val b y -> is_val (E_add a b) (kadd x y).
  Proof. intros A B v H. dinv. rewrite val_add. refine (f_equal2 kadd _ _); [apply A | apply B]; assumption. Qed.
  Lemma iv_sub a b x y : is_val a x -> is_val b y -> is_val (E_sub a b) (ksub x y).
  Proof. intros A B v H. dinv. rewrite val_sub. refine (f_equal2 ksub _ _); [apply A | apply B]; assumption. Qed.
  Lemma iv_mul a b x y : is_val a x -> is_val b y -> is_val (E_mul a b) (kmul x y).
  Proof. intros A B v H. dinv. rewrite val_mul. refine (f_equal2 kmul _ _); [apply A | apply B]; assumption. Qed.
  Definition cval (t : ntype) (i : nat) : K := val (rho (N_new t i None false)).
  Lemma iv_cm c : is_val (E_cm c false) (cval Ncm c). Proof. intros v D. dinv. reflexivity. Qed.
  Lemma iv_const c : is_val (E_const c false) (cval Nconst c). Proof. intros v D. dinv. reflexivity. Qed.
  Lemma iv_ch c : is_val (E_challenge c) (cval Nchallenge c). Proof. intros v D. dinv. reflexivity. Qed.
  Lemma iv_ev c : is_val (E_eval c) (cval Neval c). Proof. intros v D. dinv. reflexivity. Qed.
  Lemma iv_xd : is_val E_xDivXSubXi (cval NxDivXSubXi 0). Proof. intros v D. dinv. reflexivity. Qed.
  Lemma iv_xw : is_val E_xDivXSubWXi (cval NxDivXSubWXi 0). Proof. intros v D. dinv. reflexivity. Qed.

  Local Notation v1 := (cval Nchallenge 5).
  Local Notation v2 := (cval Nchallenge 6).
  (* c joins the values l: nothing yet, or their Horner sum *)
  Definition joins (a : K) (c : expr) (l : list K) : Prop := match l with [] => is_nop c = true | _ => is_nop c = false /\ is_val c (horner a l) end.
  Lemma joins_val a c l : l <> [] -> joins a c l -> is_nop c = false /\ is_val c (horner a l).
  Proof. intros H J. destruct l; [now destruct H | exact J]. Qed.
  Lemma joins_vf1 c l e x : joins v1 c l -> is_nop e = false -> is_val e x -> joins v1 (join_vf1 c e) (l ++ [x]).
  Proof.
    intros J Ne Hx. unfold join_vf1, joins in *. destruct l as [|y l].
    - rewrite J. cbn [app]. split; [exact Ne|]. unfold horner. cbn [fold_left]. intros v D. rewrite (Hx v D). ring.
    - destruct J as [J1 J2]. rewrite J1. destruct ((y :: l) ++ [x]) as [|z r] eqn:E; [discriminate E|]. rewrite <- E. split; [reflexivity|].
      rewrite horner_snoc. apply iv_add; [|exact Hx]. apply iv_mul; [apply iv_ch | exact J2].
  Qed.
  Lemma cols_join L : forall c l, joins v1 c l -> joins v1 (fold_left (fun c i => join_vf1 c (E_cm i false)) L c) (l ++ map (cval Ncm) L).
  Proof.
    induction L as [|i L IH]; intros c l J; cbn [fold_left map]; [rewrite app_nil_r; exact J|].
    replace (l ++ cval Ncm i :: map (cval Ncm) L) with ((l ++ [cval Ncm i]) ++ map (cval Ncm) L) by (rewrite <- app_assoc; reflexivity).
    apply IH, joins_vf1; [exact J | reflexivity | apply iv_cm].
  Qed.
  Definition diff1 (jk : nat * evkey) : K := ksub (if fst (fst (snd jk)) then cval Ncm (snd (snd jk)) else cval Nconst (snd (snd jk))) (cval Neval (fst jk)).
  Lemma ev_join h l j k : joins v2 h l -> joins v2 (join_ev h j k) (l ++ [diff1 (j, k)]).
  Proof.
    intros J. unfold join_ev. set (e := if fst (fst k) then _ else _).
    assert (Ie : is_val (E_sub e (E_eval j)) (diff1 (j, k))).
    { unfold diff1. cbn [fst snd]. apply iv_sub; [|apply iv_ev]. unfold e. destruct (fst (fst k)); [apply iv_cm | apply iv_const]. }
    unfold joins in *. destruct l as [|y l].
    - rewrite J. cbn [app]. split; [reflexivity|]. unfold horner. cbn [fold_left]. intros v D. rewrite (Ie v D). ring.
    - destruct J as [J1 J2]. rewrite J1. destruct ((y :: l) ++ [diff1 (j, k)]) as [|z r] eqn:E; [discriminate E|]. rewrite <- E. split; [reflexivity|].
      rewrite horner_snoc. apply iv_add; [|exact Ie]. intros v D. rewrite (iv_mul _ _ _ _ J2 (iv_ch 6) v D). ring.
  Qed.
  Definition part (w : bool) (L : list (nat * evkey)) : list K := map diff1 (filter (fun jk : nat * evkey => Bool.eqb (snd (fst (snd jk))) w) L).
  Lemma evs_join L : forall h1 h2 l1 l2, joins v2 h1 l1 -> joins v2 h2 l2 ->
    let st := fold_left (fun (st : expr * expr) (ik : nat * evkey) => let '(i, k) := ik in
      if snd (fst k) then (fst st, join_ev (snd st) i k) else (join_ev (fst st) i k, snd st)) L (h1, h2) in
    joins v2 (fst st) (l1 ++ part false L) /\ joins v2 (snd st) (l2 ++ part true L).
  Proof.
    induction L as [|[j k] L IH]; intros h1 h2 l1 l2 J1 J2; cbn [fold_left].
    - unfold part. cbn [filter map fst snd]. rewrite !app_nil_r. auto.
    - cbn [fst snd]. unfold part in *. cbn [filter fst snd]. destruct (snd (fst k)); cbn [Bool.eqb map].
      + specialize (IH h1 (join_ev h2 j k) l1 (l2 ++ [diff1 (j, k)]) J1 (ev_join _ _ _ _ J2)). cbv zeta in IH. rewrite <- app_assoc in IH. exact IH.
      + specialize (IH (join_ev h1 j k) h2 (l1 ++ [diff1 (j, k)]) l2 (ev_join _ _ _ _ J1) J2). cbv zeta in IH. rewrite <- app_assoc in IH. exact IH.
  Qed.
  Lemma part_nil w L : (forall jk, In jk L -> snd (fst (snd jk)) <> w) -> part w L = [].
  Proof.
    induction L as [|a L IH]; intros H; [reflexivity|]. unfold part. cbn [filter]. pose proof (H a (or_introl eq_refl)) as Ha.
    match goal with |- context [if ?b then _ else _] => destruct b eqn:Eb end; [apply Bool.eqb_prop in Eb; now destruct Ha|]. apply IH. intros jk I0. apply H. now right.
  Qed.
  Lemma part_ne w L jk : In jk L -> snd (fst (snd jk)) = w -> part w L <> [].
  Proof. intros H E C. unfold part in C. apply map_eq_nil in C. assert (A : In jk (filter (fun jk : nat * evkey => Bool.eqb (snd (fst (snd jk))) w) L)) by (apply filter_In; split; [exact H | apply Bool.eqb_true_iff; exact E]). rewrite C in A. exact A. Qed.
  Lemma comb_in (evs : list evkey) k : In k evs -> exists j, In (j, k) (combine (seq 0 (length evs)) evs).
  Proof.
    intros H. apply In_nth_error in H. destruct H as [j Hj]. exists j.
    assert (Lj : j < length evs) by (apply nth_error_Some; congruence).
    replace (j, k) with (nth j (combine (seq 0 (length evs)) evs) (0, k)).
    - apply nth_In. rewrite combine_length, seq_length. lia.
    - rewrite combine_nth by apply seq_length. rewrite seq_nth by exact Lj. rewrite (nth_error_nth _ _ _ Hj). reflexivity.
  Qed.
  Theorem fri_den ncm evs fe v : fri_expr ncm evs = Ok fe -> 0 < ncm -> (exists k, In k evs /\ snd (fst k) = false) -> den tbl rho false fe v ->
    val v = fri_value v1 v2 (cval NxDivXSubXi 0) (cval NxDivXSubWXi 0) ncm (cval Ncm) (cval Nconst) (cval Neval) evs.
  Proof.
    intros H Hn [k0 [Hk Hp]] D. unfold fri_expr in H.
    pose proof (cols_join (seq 0 ncm) E_nop [] eq_refl) as C. cbn [app] in C. fold (fri_cols ncm) in C.
    destruct (evs_join (combine (seq 0 (length evs)) evs) E_nop E_nop [] [] eq_refl eq_refl) as [V1 V2]. cbn [app] in V1, V2. fold (fri_evs evs) in V1, V2.
    destruct (fri_evs evs) as [h1 h2]. cbn [fst snd] in V1, V2.
    set (L := combine (seq 0 (length evs)) evs) in *.
    assert (Nc : is_nop (fri_cols ncm) = false /\ joins v1 (fri_cols ncm) (map (cval Ncm) (seq 0 ncm))).
    { split; [|exact C]. unfold joins in C. destruct ncm; [lia|]. exact (proj1 C). }
    destruct Nc as [Nc _]. rewrite Nc in H.
    assert (D1 : is_val h1 (horner v2 (part false L))).
    { unfold joins in V1. destruct (comb_in evs k0 Hk) as [j Hj]. pose proof (part_ne false L (j, k0) Hj Hp) as N1. destruct (part false L); [now destruct N1 | exact (proj2 V1)]. }
    pose proof (joins_vf1 (fri_cols ncm) _ (E_mul h1 E_xDivXSubXi) _ C eq_refl (iv_mul _ _ _ _ D1 iv_xd)) as C1. unfold join_vf1 in C1. rewrite Nc in C1.
    unfold fri_value. change (diffs false (cval Ncm) (cval Nconst) (cval Neval) evs) with (part false L). change (diffs true (cval Ncm) (cval Nconst) (cval Neval) evs) with (part true L).
    destruct (existsb (fun k : evkey => snd (fst k)) evs) eqn:Ex.
    - apply existsb_exists in Ex. destruct Ex as [k1 [I1 P1]]. destruct (comb_in evs k1 I1) as [j1 J1]. pose proof (part_ne true L (j1, k1) J1 P1) as N1.
      assert (D2 : is_nop h2 = false /\ is_val h2 (horner v2 (part true L))) by (unfold joins in V2; destruct (part true L); [now destruct N1 | exact V2]).
      destruct D2 as [N2 D2]. rewrite N2 in H. pose proof (joins_vf1 _ _ (E_mul h2 E_xDivXSubWXi) _ C1 eq_refl (iv_mul _ _ _ _ D2 iv_xw)) as C2.
      rewrite <- app_assoc in C2. apply joins_val in C2; [|destruct (seq 0 ncm); discriminate]. destruct C2 as [N3 C2]. rewrite N3 in H. apply ok_inj in H. subst fe. exact (C2 v D).
    - assert (N0 : part true L = []).
      { apply part_nil. intros [j k] I0 E. cbn [snd] in E. apply in_combine_r in I0. apply Bool.not_true_iff_false in Ex. apply Ex. apply existsb_exists. exists k. auto. }
      unfold joins in V2. rewrite N0 in V2. rewrite V2 in H. rewrite app_nil_r. cbn [is_nop E_add E_new e_op] in H. apply ok_inj in H. subst fe.
      apply joins_val in C1; [|destruct (seq 0 ncm); discriminate].
      exact (proj2 C1 v D).
  Qed.
End Formula.

(* ---------- the query code ---------- *)
Section Query.
  Variables (si : sinfo) (tbl : list expr) (fe : expr) (im : list (nat * nat)) (qfuel : nat) (qcode : list instr) (qtmp : nat) (qseg : segment) (q : list instr).
  Hypothesis Hqc : query_code qfuel (tbl ++ [fe]) (length tbl) = Ok (qcode, qtmp).
  Hypothesis Hqs : fix_prover_code si im [] false qcode qtmp = Ok qseg.
  Hypothesis Hq : tree_refs si (sg_first qseg) = Ok q.
  Hypothesis Him : Forall (fun p => fst p < length tbl) im.
  Hypothesis Hwf : Forall wf_e (tbl ++ [fe]).
  Hypothesis Hrefs : exp_refs false fe = [].
  Local Notation tblD := (with_im im (tbl ++ [fe])).
  Local Notation tg := (fun f r => do r' <- tree_ref si r; Ok (r', f)).
  Local Notation none := (fun _ : nat => @None F3G).

  (* what a reference stands for in the opened rows *)
  Definition qrho (x : vctx) (r : node) : F3G :=
    match tree_ref si r with Ok r' => match v_get x none r' with Ok w => w | _ => e_ZERO end | _ => e_ZERO end.
  Definition qread (x : vctx) (r : node) : Prop := exists r' w, tree_ref si r = Ok r' /\ v_get x none r' = Ok w.

  Lemma tree_ty r r' : tree_ref si r = Ok r' -> n_ty r <> Ntmp -> n_ty r' <> Ntmp.
  Proof.
    unfold tree_ref. intros H N. destruct (n_ty r) eqn:E; try (apply ok_inj in H; subst r'; congruence).
    apply bind_ok in H. destruct H as [p [_ H]]. apply bind_ok in H. destruct H as [[[s pos] dim] [_ H]]. apply bind_ok in H. destruct H as [t [Ht H]]. apply ok_inj in H. subst r'.
    cbn [n_ty]. destruct s; try discriminate Ht; apply ok_inj in Ht; subst t; discriminate.
  Qed.
  Lemma get_none x t r : n_ty r <> Ntmp -> v_get x t r = v_get x none r.
  Proof. intros H. unfold v_get. destruct (n_ty r); try reflexivity. now destruct H. Qed.
  Lemma reads_inv x t l : forall (f : fstate) l' f' vs, iter_refs tg f l = Ok (l', f') -> mapM (v_get x t) l' = Ok vs ->
    mapM (aread (fun r => Ok (qrho x r)) t) l = Ok vs /\ forall r, In r l -> n_ty r <> Ntmp -> qread x r.
  Proof.
    induction l as [|r l IH]; intros f l' f' vs E M; cbn [iter_refs] in E.
    - injection E as <- _. split; [exact M | intros r []].
    - destruct (tree_ref si r) as [r'| | |] eqn:Er; try discriminate E. cbn [bind fst snd] in E.
      destruct (iter_refs tg f l) as [[l1 f1]| | |] eqn:El; try discriminate E. cbn [bind fst snd] in E. injection E as <- <-.
      cbn [mapM] in M. destruct (v_get x t r') as [w| | |] eqn:Ev; try discriminate M. cbn [bind] in M. destruct (mapM (v_get x t) l1) as [us| | |] eqn:Eu; try discriminate M. cbn [bind] in M. injection M as <-.
      destruct (IH f l1 f1 us El Eu) as [I1 I2]. cbn [mapM].
      assert (A : aread (fun r => Ok (qrho x r)) t r = Ok w /\ (n_ty r <> Ntmp -> qread x r)).
      { destruct (ntype_dec (n_ty r)) as [Ht|Ht].
        - split; [|now intros]. unfold tree_ref in Er. rewrite Ht in Er. apply ok_inj in Er. subst r'. unfold aread. rewrite Ht. unfold v_get in Ev. rewrite Ht in Ev. exact Ev.
        - pose proof (tree_ty r r' Er Ht) as Ht'. rewrite (get_none _ _ _ Ht') in Ev. split; [|intros _; exists r', w; auto].
          assert (Ea : aread (fun r => Ok (qrho x r)) t r = Ok (qrho x r)) by (unfold aread; destruct (n_ty r); try reflexivity; now destruct Ht).
          rewrite Ea. unfold qrho. rewrite Er, Ev. reflexivity. }
      destruct A as [A1 A2]. rewrite A1. cbn [bind]. rewrite I1. split; [reflexivity|]. intros r0 [<-|I0]; [exact A2 | exact (I2 r0 I0)].
  Qed.
  Lemma run_inv x nt cd : forall t t' (f : fstate) cd' f', Forall (dest_ok nt) cd -> iter_code tg f cd = Ok (cd', f') -> v_run x t cd' = Ok t' ->
    arun (fun r => Ok (qrho x r)) t cd = Ok t' /\ forall ci r, In ci cd -> In r (i_src ci) -> n_ty r <> Ntmp -> qread x r.
  Proof.
    induction cd as [|c cd IH]; intros t t' f cd' f' Hd E R; cbn [iter_code arun] in *.
    - injection E as <- _. split; [exact R | intros ci r []].
    - destruct (iter_refs tg f (i_src c)) as [[l1 f1]| | |] eqn:E1; try discriminate E. cbn [bind fst snd] in E.
      destruct (Forall_inv Hd) as [Dt _]. unfold tree_ref at 1 in E. rewrite Dt in E. cbn [bind fst snd] in E.
      destruct (iter_code tg f1 cd) as [[c1 f2]| | |] eqn:E2; try discriminate E. cbn [bind fst snd] in E. injection E as <- <-.
      cbn [v_run i_src i_op i_dest] in R. apply bind_ok in R. destruct R as [vs [Ev R]]. apply bind_ok in R. destruct R as [v [Eo R]]. rewrite Dt in R |- *.
      destruct (reads_inv x t (i_src c) f l1 f1 vs E1 Ev) as [A1 A2]. rewrite A1. cbn [bind]. rewrite Eo. cbn [bind].
      destruct (IH _ _ _ _ _ (Forall_inv_tail Hd) E2 R) as [B1 B2]. split; [exact B1|]. intros ci r [<-|I0]; [exact (A2 r) | exact (B2 ci r I0)].
  Qed.
  Lemma num_rho x : qrho x (N_new Nnumber 0 (Some 0%Z) false) = e_ZERO.
  Proof. unfold qrho, tree_ref, v_get. cbn [n_ty N_new n_value]. rewrite num0. reflexivity. Qed.
  Definition reads_of (r : node) : Prop := exists ci, In ci (sg_first qseg) /\ In r (i_src ci).
  Theorem query_den x v : execute_code x q = Ok v ->
    den tblD (qrho x) false fe v /\ forall r, reads_of r -> n_ty r <> Ntmp -> qread x r.
  Proof.
    intros Hx. destruct (query_shape _ _ _ _ _ _ si qseg Hqc Hqs Him Hrefs) as [cx [f [k [G1 [G2 [G3 [G4 [body [op [src G5]]]]]]]]]].
    destruct (gen_fix _ _ _ _ _ _ _ _ _ _ G1 G2 G3) as [k' [_ [_ [_ [K1 [K2 [_ K4]]]]]]].
    assert (Him1 : Forall (fun p => fst p < length (tbl ++ [fe])) im) by (eapply Forall_impl; [|exact Him]; intros p A; rewrite app_length; cbv beta in A; lia).
    destruct (gen_run _ _ _ _ _ _ _ _ _ _ (qrho x) (fun r => Ok (qrho x r)) G1 Hwf Him1 G2 G3 (num_rho x)) as [e0 [v' [k1 [t' [R1 [R2 [R3 [R4 R5]]]]]]]]; [reflexivity|].
    rewrite nth_error_app2, Nat.sub_diag in R1 by lia. injection R1 as <-. assert (k1 = k) by congruence. subst k1.
    unfold tree_refs in Hq. destruct (iter_code tg (mkF [] 0 (mkEV [] [])) (sg_first qseg)) as [[q' f']| | |] eqn:Ei; try discriminate Hq. cbn [rmap bind fst] in Hq. apply ok_inj in Hq. subst q'.
    pose proof Ei as Ei0. rewrite G5 in Ei. destruct (iter_code_app _ _ _ _ _ _ Ei) as [a' [f1 [b' [A1 [A2 A3]]]]]. cbn [iter_code i_src i_dest i_op] in A2.
    destruct (iter_refs tg f1 src) as [[l1 f2]| | |]; try discriminate A2. cbn [bind fst snd] in A2. unfold tree_ref at 1 in A2. cbn [n_ty bind fst snd] in A2. injection A2 as <- _.
    unfold execute_code in Hx. rewrite A3 in Hx at 1. rewrite rev_app_distr in Hx. cbn [rev app] in Hx. apply bind_ok in Hx. destruct Hx as [tv [Rv Hx]]. cbn [i_dest] in Hx.
    destruct (run_inv x _ _ _ _ _ _ _ K4 Ei0 Rv) as [B1 B2]. rewrite R3 in B1. apply ok_inj in B1. subst tv.
    unfold v_get in Hx. cbn [n_ty n_id] in Hx. rewrite R5 in Hx. apply ok_inj in Hx. subst v'. split; [exact R2|].
    intros r [ci [I1 I2]]. exact (B2 ci r I1 I2).
  Qed.
  (* a reference that changes the value is read *)
  Theorem query_covers (b : node -> bool) rho0 rho1 : rho0 (N_new Nnumber 0 (Some 0%Z) false) = e_ZERO -> rho1 (N_new Nnumber 0 (Some 0%Z) false) = e_ZERO ->
    (forall r, b r = false -> rho0 r = rho1 r) -> (forall v, den tblD rho0 false fe v -> den tblD rho1 false fe v -> False) ->
    exists r, reads_of r /\ n_ty r <> Ntmp /\ b r = true.
  Proof.
    intros Z0 Z1 Hb Hne. destruct (query_shape _ _ _ _ _ _ si qseg Hqc Hqs Him Hrefs) as [cx [f [k [G1 [G2 [G3 [G4 _]]]]]]].
    assert (Him1 : Forall (fun p => fst p < length (tbl ++ [fe])) im) by (eapply Forall_impl; [|exact Him]; intros p A; rewrite app_length; cbv beta in A; lia).
    set (rs := flat_map (fun ci => i_src ci) (sg_first qseg)).
    destruct (existsb (fun r => b r && negb (is_tmp (n_ty r))) rs) eqn:Ex.
    - apply existsb_exists in Ex. destruct Ex as [r [I0 E]]. apply andb_true_iff in E. destruct E as [E1 E2]. exists r. split; [|split; [intros C; rewrite C in E2; discriminate E2 | exact E1]].
      apply in_flat_map in I0. destruct I0 as [ci [I1 I2]]. exists ci. auto.
    - exfalso. destruct (gen_run _ _ _ _ _ _ _ _ _ _ rho0 (fun r => Ok (rho0 r)) G1 Hwf Him1 G2 G3 Z0) as [e0 [v' [k1 [t' [R1 [R2 [R3 [R4 R5]]]]]]]]; [reflexivity|].
      destruct (gen_run _ _ _ _ _ _ _ _ _ _ rho1 (fun r => Ok (rho0 r)) G1 Hwf Him1 G2 G3 Z1) as [e1 [v1 [k2 [t1 [S1 [S2 [S3 [S4 S5]]]]]]]].
      { intros ci r I1 I2 Ht. f_equal. apply Hb. destruct (b r) eqn:Eb; [|reflexivity]. exfalso. apply Bool.not_true_iff_false in Ex. apply Ex. apply existsb_exists. exists r.
        split; [apply in_flat_map; exists ci; auto|]. rewrite Eb. destruct (n_ty r); try reflexivity. now destruct Ht. }
      rewrite nth_error_app2, Nat.sub_diag in R1, S1 by lia. injection R1 as <-. injection S1 as <-. assert (k2 = k1) by congruence. subst k2. assert (t1 = t') by congruence. subst t1.
      assert (v1 = v') by congruence. subst v1. exact (Hne v' R2 S2).
  Qed.
End Query.

(* ---------- every column, constant and evaluation named by the keys is read ---------- *)
Fixpoint lsum (l : list K) : K := match l with [] => kzero | x :: r => kadd x (lsum r) end.
Lemma lsum_app a b : lsum (a ++ b) = kadd (lsum a) (lsum b).
Proof. induction a as [|x a IH]; cbn [app lsum]; [ring|]. rewrite IH. ring. Qed.
Lemma horner_one l : horner kone l = lsum l.
Proof.
  induction l as [|x l IH] using rev_ind; [reflexivity|]. rewrite horner_snoc, IH, lsum_app. cbn [lsum]. ring.
Qed.
Lemma lsum_zero {A} (f : A -> K) L : (forall y, In y L -> f y = kzero) -> lsum (map f L) = kzero.
Proof.
  induction L as [|a L IH]; intros H; [reflexivity|]. cbn [map lsum]. rewrite IH by (intros y Hy; apply H; now right).
  rewrite (H a (or_introl eq_refl)). ring.
Qed.
Lemma lsum_one {A} (f : A -> K) L x : NoDup L -> In x L -> (forall y, In y L -> y <> x -> f y = kzero) -> lsum (map f L) = f x.
Proof.
  induction L as [|a L IH]; intros Hd Hx H; [destruct Hx|]. inversion Hd as [|? ? Ha Hd']; subst. cbn [map lsum]. destruct Hx as [->|Hx].
  - rewrite (lsum_zero f L); [ring|]. intros y Hy. apply H; [now right|]. intros ->. contradiction.
  - rewrite (IH Hd' Hx) by (intros y Hy Hn; apply H; [now right | exact Hn]). rewrite (H a (or_introl eq_refl)); [ring|]. intros ->. contradiction.
Qed.
Lemma comb_nodup (evs : list evkey) : NoDup (combine (seq 0 (length evs)) evs).
Proof.
  apply (NoDup_map_inv fst). assert (E : map fst (combine (seq 0 (length evs)) evs) = seq 0 (length evs)).
  { generalize 0. induction evs as [|k evs IH]; intros a; cbn [length seq combine map fst]; [reflexivity | now rewrite IH]. }
  rewrite E. apply seq_NoDup.
Qed.
Lemma comb_nth (evs : list evkey) j k : In (j, k) (combine (seq 0 (length evs)) evs) <-> nth_error evs j = Some k.
Proof.
  split.
  - assert (G : forall (l : list evkey) a j k, In (j, k) (combine (seq a (length l)) l) -> a <= j /\ nth_error l (j - a) = Some k).
    { induction l as [|x l IH]; intros a i y H; cbn [length seq combine] in H; [destruct H|]. destruct H as [H|H].
      - injection H as -> ->. rewrite Nat.sub_diag. split; [lia | reflexivity].
      - apply IH in H. destruct H as [H1 H2]. split; [lia|]. replace (i - a) with (S (i - S a)) by lia. exact H2. }
    intros H. apply G in H. rewrite Nat.sub_0_r in H. exact (proj2 H).
  - intros Hj. assert (Lj : j < length evs) by (apply nth_error_Some; congruence).
    replace (j, k) with (nth j (combine (seq 0 (length evs)) evs) (0, k)).
    + apply nth_In. rewrite combine_length, seq_length. lia.
    + rewrite combine_nth by apply seq_length. rewrite seq_nth by exact Lj. rewrite (nth_error_nth _ _ _ Hj). reflexivity.
Qed.
Definition probe (v1 v2 u w : K) (col const ev : nat -> K) (r : node) : F3G :=
  match n_ty r with
  | Ncm => of_k (col (n_id r)) | Nconst => of_k (const (n_id r)) | Neval => of_k (ev (n_id r))
  | Nchallenge => of_k (if n_id r =? 5 then v1 else v2) | NxDivXSubXi => of_k u | NxDivXSubWXi => of_k w | _ => e_ZERO
  end.
Definition ind (c i : nat) : K := if i =? c then kone else kzero.
Definition nil_k (i : nat) : K := kzero.
Lemma fri_value_ext v1 v2 u w ncm col col' const const' ev ev' evs : (forall i, col i = col' i) -> (forall i, const i = const' i) -> (forall i, ev i = ev' i) ->
  fri_value v1 v2 u w ncm col const ev evs = fri_value v1 v2 u w ncm col' const' ev' evs.
Proof.
  intros A B C. unfold fri_value.
  assert (D : forall t, diffs t col const ev evs = diffs t col' const' ev' evs).
  { intros t. unfold diffs. apply map_ext. intros [j k]. cbn [fst snd]. rewrite A, B, C. reflexivity. }
  rewrite !D, (map_ext _ _ A). reflexivity.
Qed.
Lemma diffs_sum t col const ev evs : lsum (diffs t col const ev evs) =
  lsum (map (fun jk : nat * evkey => if Bool.eqb (snd (fst (snd jk))) t then ksub (if fst (fst (snd jk)) then col (snd (snd jk)) else const (snd (snd jk))) (ev (fst jk)) else kzero) (combine (seq 0 (length evs)) evs)).
Proof.
  unfold diffs. induction (combine (seq 0 (length evs)) evs) as [|a L IH]; [reflexivity|]. cbn [filter map lsum].
  match goal with |- context [if ?b then a :: _ else _] => destruct b end; cbn [map lsum]; rewrite IH; [reflexivity | ring].
Qed.
Lemma fri_value_one u w ncm col const ev evs :
  fri_value kone kone u w ncm col const ev evs = kadd (lsum (map col (seq 0 ncm))) (kadd (kmul (lsum (diffs false col const ev evs)) u) (kmul (lsum (diffs true col const ev evs)) w)).
Proof.
  unfold fri_value. rewrite !horner_one, !lsum_app. cbn [lsum]. destruct (existsb (fun k : evkey => snd (fst k)) evs) eqn:E; cbn [lsum]; [ring|].
  assert (A : lsum (diffs true col const ev evs) = kzero).
  { rewrite diffs_sum. apply lsum_zero. intros [j k] H. cbn [fst snd]. apply in_combine_r in H. destruct (Bool.eqb (snd (fst k)) true) eqn:F; [|reflexivity].
    apply Bool.eqb_prop in F. exfalso. apply Bool.not_true_iff_false in E. apply E. apply existsb_exists. exists k. auto. }
  rewrite A. ring.
Qed.

(* the value k of column c stands in the opened rows *)
Definition opened (si : sinfo) (rows : sec -> list Fr) (c : nat) (k : K) : Prop :=
  exists p s pos dim, nth_error (si_cm_2ns si) c = Some p /\ nth_error (si_map si) p = Some (s, pos, dim) /\
    (dim = 1 /\ (exists w, nth_error (rows s) pos = Some w /\ k = kconst w) \/
     dim = 3 /\ nth_error (rows s) pos = Some (k0 k) /\ nth_error (rows s) (pos + 1) = Some (k1 k) /\ nth_error (rows s) (pos + 2) = Some (k2 k)).

Section Cover.
  Variables (si : sinfo) (tbl : list expr) (fe : expr) (im : list (nat * nat)) (qfuel : nat) (qcode : list instr) (qtmp : nat) (qseg : segment) (q : list instr) (ncm : nat) (evs : list evkey).
  Hypothesis Hqc : query_code qfuel (tbl ++ [fe]) (length tbl) = Ok (qcode, qtmp).
  Hypothesis Hqs : fix_prover_code si im [] false qcode qtmp = Ok qseg.
  Hypothesis Hq : tree_refs si (sg_first qseg) = Ok q.
  Hypothesis Him : Forall (fun p => fst p < length tbl) im.
  Hypothesis Hwf : Forall wf_e (tbl ++ [fe]).
  Hypothesis Hrefs : exp_refs false fe = [].
  Hypothesis Hfe : fri_expr ncm evs = Ok fe.
  Hypothesis Hn : 0 < ncm.
  Hypothesis Hun : exists k, In k evs /\ snd (fst k) = false.
  Hypothesis Hnd : NoDup evs.

  Lemma probe_den u w col const ev v : den (with_im im (tbl ++ [fe])) (probe kone kone u w col const ev) false fe v ->
    val v = kadd (lsum (map col (seq 0 ncm))) (kadd (kmul (lsum (diffs false col const ev evs)) u) (kmul (lsum (diffs true col const ev evs)) w)).
  Proof.
    intros D. rewrite <- fri_value_one. rewrite (fri_den _ _ _ _ _ _ Hfe Hn Hun D). unfold cval at 1 2 3 4. unfold probe at 1 2 3 4. cbn [n_ty n_id N_new Nat.eqb]. rewrite !of_k_val.
    apply fri_value_ext; intros i; apply of_k_val.
  Qed.
  Definition hits (t : ntype) (i : nat) (r : node) : bool := (match n_ty r, t with Ncm, Ncm | Nconst, Nconst | Neval, Neval => true | _, _ => false end) && (n_id r =? i).
  Lemma hits_ty t i r : hits t i r = true -> n_ty r = t /\ n_id r = i.
  Proof. unfold hits. intros H. apply andb_true_iff in H. destruct H as [H1 H2]. apply Nat.eqb_eq in H2. split; [|exact H2]. destruct (n_ty r), t; try discriminate H1; reflexivity. Qed.
  Lemma cover_cm c : c < ncm -> exists r, reads_of qseg r /\ n_ty r = Ncm /\ n_id r = c.
  Proof.
    intros Hc. destruct (query_covers si tbl fe im qfuel qcode qtmp qseg Hqc Hqs Him Hwf Hrefs (hits Ncm c) (probe kone kone kzero kzero nil_k nil_k nil_k) (probe kone kone kzero kzero (ind c) nil_k nil_k)) as [r [R1 [_ R3]]].
    - reflexivity.
    - reflexivity.
    - intros r Hr. unfold probe, hits in *. destruct (n_ty r); try reflexivity. cbn [andb] in Hr. unfold nil_k, ind. rewrite Hr. reflexivity.
    - intros v D0 D1. apply probe_den in D0, D1. rewrite (lsum_zero nil_k) in D0 by reflexivity.
      rewrite (lsum_one (ind c) (seq 0 ncm) c (seq_NoDup _ _)) in D1.
      + unfold ind at 1 in D1. rewrite Nat.eqb_refl in D1. apply kone_neq. transitivity (val v); [rewrite D1; ring | rewrite D0; ring].
      + apply in_seq. lia.
      + intros y _ Hy. unfold ind. apply Nat.eqb_neq in Hy. now rewrite Hy.
    - exists r. split; [exact R1 | exact (hits_ty _ _ _ R3)].
  Qed.
  Lemma cover_eval j : j < length evs -> exists r, reads_of qseg r /\ n_ty r = Neval /\ n_id r = j.
  Proof.
    intros Hj. destruct (nth_error evs j) as [k|] eqn:Ek; [|apply nth_error_None in Ek; lia].
    pose (t := snd (fst k)). pose (u := if t then kzero else kone). pose (w := if t then kone else kzero).
    destruct (query_covers si tbl fe im qfuel qcode qtmp qseg Hqc Hqs Him Hwf Hrefs (hits Neval j) (probe kone kone u w nil_k nil_k nil_k) (probe kone kone u w nil_k nil_k (ind j))) as [r [R1 [_ R3]]].
    - reflexivity.
    - reflexivity.
    - intros r Hr. unfold probe, hits in *. destruct (n_ty r); try reflexivity. cbn [andb] in Hr. unfold nil_k, ind. rewrite Hr. reflexivity.
    - assert (Z : forall t', lsum (diffs t' nil_k nil_k nil_k evs) = kzero).
      { intros t'. rewrite diffs_sum. apply lsum_zero. intros [j' k'] _. cbn [fst snd]. unfold nil_k. destruct (fst (fst k')), (Bool.eqb _ _); ring. }
      assert (O : lsum (diffs t nil_k nil_k (ind j) evs) = kneg kone).
      { rewrite diffs_sum. rewrite (lsum_one _ _ (j, k) (comb_nodup evs)).
        - cbn [fst snd]. unfold t. rewrite Bool.eqb_reflx. unfold ind. rewrite Nat.eqb_refl. unfold nil_k. destruct (fst (fst k)); ring.
        - apply comb_nth. exact Ek.
        - intros [j' k'] Hin Hne. cbn [fst snd]. unfold ind, nil_k. assert (Nj : j' <> j) by (intros ->; apply comb_nth in Hin; apply Hne; congruence).
          apply Nat.eqb_neq in Nj. rewrite Nj. destruct (fst (fst k')), (Bool.eqb _ _); ring. }
      intros v D0 D1. apply probe_den in D0, D1. rewrite (lsum_zero nil_k) in D0, D1 by reflexivity. rewrite !Z in D0.
      apply kone_neq. transitivity (kneg (val v)); [|rewrite D0; ring]. rewrite D1. unfold u, w. destruct t; rewrite O; ring.
    - exists r. split; [exact R1 | exact (hits_ty _ _ _ R3)].
  Qed.
  Lemma cover_const t i : In (false, t, i) evs -> exists r, reads_of qseg r /\ n_ty r = Nconst /\ n_id r = i.
  Proof.
    intros Hin. apply In_nth_error in Hin. destruct Hin as [j Hj].
    pose (u := if t then kzero else kone). pose (w := if t then kone else kzero).
    destruct (query_covers si tbl fe im qfuel qcode qtmp qseg Hqc Hqs Him Hwf Hrefs (hits Nconst i) (probe kone kone u w nil_k nil_k nil_k) (probe kone kone u w nil_k (ind i) nil_k)) as [r [R1 [_ R3]]].
    - reflexivity.
    - reflexivity.
    - intros r Hr. unfold probe, hits in *. destruct (n_ty r); try reflexivity. cbn [andb] in Hr. unfold nil_k, ind. rewrite Hr. reflexivity.
    - assert (Z : forall t', lsum (diffs t' nil_k nil_k nil_k evs) = kzero).
      { intros t'. rewrite diffs_sum. apply lsum_zero. intros [j' k'] _. cbn [fst snd]. unfold nil_k. destruct (fst (fst k')), (Bool.eqb _ _); ring. }
      assert (O : lsum (diffs t nil_k (ind i) nil_k evs) = kone).
      { rewrite diffs_sum. rewrite (lsum_one _ _ (j, (false, t, i)) (comb_nodup evs)).
        - cbn [fst snd]. rewrite Bool.eqb_reflx. unfold ind. rewrite Nat.eqb_refl. unfold nil_k. ring.
        - apply comb_nth. exact Hj.
        - intros [j' k'] Hi Hne. cbn [fst snd]. unfold ind, nil_k. destruct (Bool.eqb (snd (fst k')) t) eqn:Et; [|reflexivity]. destruct (fst (fst k')) eqn:Ec; [ring|].
          destruct (Nat.eqb_spec (snd k') i) as [Es|]; [|ring]. exfalso. apply Hne. apply Bool.eqb_prop in Et. destruct k' as [[a b] d]. cbn [fst snd] in *. subst a b d.
          apply comb_nth in Hi. f_equal. apply (proj1 (NoDup_nth_error evs) Hnd); [apply nth_error_Some; intros C; pose proof (eq_trans (eq_sym C) Hi) as C'; discriminate C' | exact (eq_trans Hi (eq_sym Hj))]. }
      intros v D0 D1. apply probe_den in D0, D1. rewrite (lsum_zero nil_k) in D0, D1 by reflexivity. rewrite !Z in D0.
      apply kone_neq. transitivity (val v); [|rewrite D0; ring]. rewrite D1. unfold u, w. destruct t; rewrite O; ring.
    - exists r. split; [exact R1 | exact (hits_ty _ _ _ R3)].
  Qed.

  Definition rows_of (x : vctx) (s : sec) : list Fr :=
    match s with Scm1_2ns => v_tree1 x | Scm2_2ns => v_tree2 x | Scm3_2ns => v_tree3 x | Scm4_2ns => v_tree4 x | _ => [] end.
  Lemma extract_in row pos dim v : extract_val row pos dim = Ok v ->
    dim = 1 /\ (exists w, nth_error row pos = Some w /\ val v = kconst w) \/
    dim = 3 /\ nth_error row pos = Some (k0 (val v)) /\ nth_error row (pos + 1) = Some (k1 (val v)) /\ nth_error row (pos + 2) = Some (k2 (val v)).
  Proof.
    unfold extract_val. destruct (Nat.eqb_spec dim 1) as [->|]; [|destruct (Nat.eqb_spec dim 3) as [->|]; [|intros H; discriminate H]].
    - intros H. left. split; [reflexivity|]. unfold rmap in H. apply bind_ok in H. destruct H as [w [A B]]. apply ok_inj in B. subst v. exists w. split; [exact (vget_inv _ _ _ A) | reflexivity].
    - intros H. right. split; [reflexivity|]. unfold three_b in H. apply bind_ok in H. destruct H as [a [A H]]. apply bind_ok in H. destruct H as [b [B H]]. apply bind_ok in H. destruct H as [c [C H]].
      apply ok_inj in H. subst v. apply vget_inv in A, B, C. auto.
  Qed.
  Lemma cm_read x r c : n_ty r = Ncm -> n_id r = c -> qread si x r -> opened si (rows_of x) c (cval (qrho si x) Ncm c).
  Proof.
    intros Ht Hi [r' [w [T G]]]. unfold tree_ref in T. rewrite Ht, Hi in T. apply bind_ok in T. destruct T as [p [P1 T]]. apply bind_ok in T. destruct T as [[[s pos] dim] [P2 T]].
    apply bind_ok in T. destruct T as [t [P3 T]]. apply ok_inj in T. subst r'.
    assert (Hs : extract_val (rows_of x s) pos dim = Ok w /\ qrho si x (N_new Ncm c None false) = w).
    { unfold qrho, tree_ref. cbn [n_ty n_id N_new]. rewrite P1. cbn [bind]. rewrite P2. cbn [bind]. 
      destruct s; try discriminate P3; apply ok_inj in P3; subst t; cbn [bind n_ty CodegenModel.n_pos CodegenModel.n_dim]; unfold v_get in *; cbn [n_ty CodegenModel.n_pos CodegenModel.n_dim rows_of] in *; rewrite G; auto. }
    destruct Hs as [H1 H2]. exists p, s, pos, dim. split; [exact (vget_inv _ _ _ P1)|]. split; [exact (vget_inv _ _ _ P2)|]. unfold cval. rewrite H2. exact (extract_in _ _ _ _ H1).
  Qed.
  Theorem query_value x xd xdw c5 c6 v : v_xdiv x = e_as_elements xd -> v_xdivw x = e_as_elements xdw -> d3 xd = true -> d3 xdw = true ->
    nth_error (v_challenge x) 5 = Some c5 -> nth_error (v_challenge x) 6 = Some c6 -> execute_code x q = Ok v ->
    length evs <= length (v_evals x) /\ exists col const : nat -> K,
      (forall c, c < ncm -> opened si (rows_of x) c (col c)) /\
      (forall t i, In (false, t, i) evs -> exists w, nth_error (v_consts x) i = Some w /\ const i = kconst w) /\
      val v = fri_value (val c5) (val c6) (val xd) (val xdw) ncm col const (fun j => val (nth j (v_evals x) e_ZERO)) evs.
  Proof.
    intros X1 X2 D1 D2 C5 C6 Hx. destruct (query_den si tbl fe im qfuel qcode qtmp qseg q Hqc Hqs Hq Him Hwf Hrefs x v Hx) as [Dn Rd].
    assert (Le : length evs <= length (v_evals x)).
    { destruct (Nat.le_gt_cases (length evs) (length (v_evals x))) as [L|L]; [exact L|]. destruct (cover_eval (length (v_evals x)) L) as [r [R1 [R2 R3]]].
      destruct (Rd r R1 ltac:(congruence)) as [r' [w [T G]]]. unfold tree_ref in T. rewrite R2 in T. apply ok_inj in T. subst r'. unfold v_get in G. rewrite R2, R3 in G.
      apply vget_inv in G. assert (A : nth_error (v_evals x) (length (v_evals x)) <> None) by congruence. apply nth_error_Some in A. lia. }
    split; [exact Le|]. exists (cval (qrho si x) Ncm), (cval (qrho si x) Nconst). split; [|split].
    - intros c Hc. destruct (cover_cm c Hc) as [r [R1 [R2 R3]]]. exact (cm_read x r c R2 R3 (Rd r R1 ltac:(congruence))).
    - intros t i Hi. destruct (cover_const t i Hi) as [r [R1 [R2 R3]]]. destruct (Rd r R1 ltac:(congruence)) as [r' [w [T G]]].
      unfold tree_ref in T. rewrite R2 in T. apply ok_inj in T. subst r'. unfold v_get in G. rewrite R2, R3 in G. unfold rmap in G. apply bind_ok in G. destruct G as [a [A B]].
      exists a. split; [exact (vget_inv _ _ _ A)|]. unfold cval, qrho, tree_ref, v_get. cbn [n_ty n_id N_new]. rewrite A. reflexivity.
    - rewrite (fri_den _ _ _ _ _ _ Hfe Hn Hun Dn).
      assert (V5 : cval (qrho si x) Nchallenge 5 = val c5) by (unfold cval, qrho, tree_ref, v_get; cbn [n_ty n_id N_new]; rewrite (vget_some _ _ _ C5); reflexivity).
      assert (V6 : cval (qrho si x) Nchallenge 6 = val c6) by (unfold cval, qrho, tree_ref, v_get; cbn [n_ty n_id N_new]; rewrite (vget_some _ _ _ C6); reflexivity).
      assert (Vu : cval (qrho si x) NxDivXSubXi 0 = val xd) by (unfold cval, qrho, tree_ref, v_get; cbn [n_ty n_id N_new]; rewrite X1, (as_elements_back _ D1); reflexivity).
      assert (Vw : cval (qrho si x) NxDivXSubWXi 0 = val xdw) by (unfold cval, qrho, tree_ref, v_get; cbn [n_ty n_id N_new]; rewrite X2, (as_elements_back _ D2); reflexivity).
      rewrite V5, V6, Vu, Vw. apply fri_value_ext; [reflexivity.. |]. intros j. unfold cval, qrho, tree_ref, v_get. cbn [n_ty n_id N_new].
      destruct (vget (v_evals x) j) as [w| | |] eqn:E; [apply vget_inv in E; now rewrite (nth_error_nth _ _ _ E) | ..];
        (rewrite nth_overflow; [reflexivity|]; destruct (Nat.le_gt_cases (length (v_evals x)) j) as [L|L]; [exact L|]; exfalso;
         destruct (nth_error (v_evals x) j) as [w|] eqn:F; [rewrite (vget_some _ _ _ F) in E; discriminate E | apply nth_error_None in F; lia]).
  Qed.
End Cover.
