(* The verifier's check of the constraint at the challenge point accepts the evaluations of the prover. *)
From Coq Require Import Ring Field Arith.
From Verif Require Import Base GlModel FrField F3gModel Cubic F3gProof ListAux PolyModel Roots PolyProof FftProof FftTop FriMath CodegenModel CodegenProof
  InterpModel InterpProof VerifierModel VerifierProof ImModel ImProof HashModel FftpModel FftpProof FriModel FriProof ProverModel ProverProof ParModel ParProof
  StarkMath StarkModel StarkGen StarkSrc StarkPoly StarkRow StarkQuot StarkEval StarkStep4 StarkFri StarkStep5.
Open Scope nat_scope.
Open Scope list_scope.
Open Scope res_scope.
Add Field K_field_sc : K_field.

Lemma pushes qs : forall ev, ev_map (fold_left (fun e q => ev_push e (true, false, q)) qs ev) = ev_map ev ++ map (fun q => (true, false, q)) qs.
Proof.
  induction qs as [|q qs IH]; intros ev; cbn [fold_left map]; [now rewrite app_nil_r|]. rewrite IH. cbn [ev_push ev_map]. rewrite <- app_assoc. reflexivity.
Qed.
Lemma kpoly_sum X f : forall q a, kpoly X (map f (seq a q)) = ksum q (fun p => kmul (kpow X p) (f (a + p))).
Proof.
  induction q as [|q IH]; intros a; cbn [seq map kpoly]; [reflexivity|]. rewrite IH, ksum_shift. cbn [kpow]. rewrite Nat.add_0_r.
  rewrite <- ksum_scale. assert (A : kmul kone (f a) = f a) by ring. rewrite A. refine (f_equal2 kadd eq_refl _).
  apply ksum_ext. intros i Hi. cbv beta. replace (S a + i) with (a + S i) by lia. ring.
Qed.

Section Chk.
  Variables (si : sinfo) (tbl : list expr) (c : expr) (im : list (nat * nat)) (kcm qdeg : nat) (pcm pconst : nat -> list K) (pub ch : list F3G).
  Local Notation nb := (si_nbits si).
  Local Notation N := (2 ^ si_nbits si).
  Local Notation e := (si_nbits_ext si).
  Local Notation qs := (seq kcm qdeg).
  Definition Pv : node -> Prop := node_ok si (length tbl) kcm (length pub).
  Definition Lv : node -> K -> K := leafp si im kcm pcm pconst pub ch.
  Hypothesis Him : Forall (fun p => fst p < length tbl /\ snd p < kcm) im.
  Hypothesis Hlabs : forall p, Forall (labs Pv false p) (tbl ++ [c]).
  Hypothesis Hwf : Forall wf_e (tbl ++ [c]).
  Variables (fuel : nat) (code : list instr) (ev : evst).
  Hypothesis Hcode : verifier_code fuel (tbl ++ [c]) im (length tbl) qs = Ok (code, ev).

  Lemma im_get i k : assoc Nat.eqb im i = Some k -> i < length tbl /\ k < kcm.
  Proof.
    clear -Him. revert i k. induction im as [|[a b] l IH]; intros i k; cbn [assoc]; [discriminate|]. pose proof (Forall_inv Him) as H. cbn [fst snd] in H.
    specialize (IH (Forall_inv_tail Him) i k). destruct (Nat.eqb_spec a i) as [->|]; [intros E; injection E as <-; exact H | exact IH].
  Qed.
  Lemma c_not_im : assoc Nat.eqb im (length tbl) = None.
  Proof. destruct (assoc Nat.eqb im (length tbl)) as [k|] eqn:E; [|reflexivity]. apply im_get in E. lia. Qed.

  Lemma verifier_refs : Forall (key_ok (kcm + qdeg) (si_nconst si)) (ev_map ev) /\ (forall q, q < qdeg -> In (true, false, kcm + q) (ev_map ev)) /\
    forall ci r, In ci code -> In r (i_src ci) -> n_ty r = Ntmp \/ n_ty r = Neval /\ n_id r < length (ev_map ev) \/
      Pv r /\ match n_ty r with Nnumber | Nchallenge | Npublic | Nx => True | _ => False end.
  Proof.
    pose proof Hcode as H. unfold verifier_code in H.
    destruct (pil_code_gen fuel (tbl ++ [c]) None true (mkCtx 0 [] (im_keys im)) (length tbl) false) as [cx| | |] eqn:Eg; try discriminate H. cbn [bind] in H.
    destruct (fix_code im (mkF [] (x_tmp cx) (mkEV [] [])) (linear_code cx)) as [[code' f]| | |] eqn:Ef; try discriminate H. cbn [bind fst snd] in H. apply ok_inj in H. injection H as <- Eev.
    assert (Hm : ev_map ev = ev_map (f_ev f) ++ map (fun q => (true, false, q)) qs) by (rewrite <- Eev; apply pushes).
    pose (P' := fun r => n_ty r = Ntmp \/ Pv r).
    destruct (gen_src P' (fun r H => or_introl H) (tbl ++ [c]) (fun _ => True)) with (fuel := fuel) (m := true) (c := mkCtx 0 [] (im_keys im)) (i := length tbl) (p := false) (c' := cx) as [ext [X1 X2]].
    { intros q j y _ Ey. split; [|auto]. apply (labs_mono Pv); [intros r H; now right|]. apply (proj1 (Forall_forall _ _) (Hlabs q)). eapply nth_error_In, Ey. }
    { exact Logic.I. }
    { exact Eg. }
    change (linear_code (mkCtx 0 [] (im_keys im))) with (@nil instr) in X1. cbn [app] in X1.
    destruct (gen_grows _ _ _ _ _ _ _ Eg) as [[_ [_ [ext' [G1 G2]]]] _]. change (linear_code (mkCtx 0 [] (im_keys im))) with (@nil instr) in G1. cbn [app] in G1. subst ext'.
    assert (D : Forall (fun ci => n_ty (i_dest ci) = Ntmp \/ n_ty (i_dest ci) = Nexp) (linear_code cx)).
    { eapply Forall_impl; [|exact G2]. intros a [_ [[Hd _]|[i [p [Hd _]]]]]; [now left|right; exact (f_equal (fun k => fst (fst k)) Hd)]. }
    rewrite <- X1 in X2.
    destruct (fixv_src P' (key_ok kcm (si_nconst si)) im (x_tmp cx) true (linear_code cx)) with (f := mkF [] (x_tmp cx) (mkEV [] [])) (code' := code') (f' := f) as [F1 [F2 [F3 F4]]].
    - intros r [C|Hr] Ht; [congruence|]. unfold Pv, node_ok in Hr. rewrite Ht in Hr. exact Hr.
    - intros r [C|Hr] Ht; [congruence|]. unfold Pv, node_ok in Hr. rewrite Ht in Hr. exact Hr.
    - intros i k p E. exact (proj2 (im_get i k E)).
    - exact (f_start_inv (x_tmp cx)).
    - constructor.
    - exact X2.
    - exact D.
    - exact Ef.
    - rewrite Hm. split; [apply Forall_app; split|split].
      + eapply Forall_impl; [|exact F3]. intros [[t p] i]. unfold key_ok. cbn [fst snd]. destruct t; lia.
      + apply Forall_forall. intros k Hk. apply in_map_iff in Hk. destruct Hk as [q [<- Hq]]. apply in_seq in Hq. unfold key_ok. cbn [fst snd]. lia.
      + intros q Hq. apply in_or_app. right. apply in_map_iff. exists (kcm + q). split; [reflexivity|]. apply in_seq. lia.
      + intros ci r Hci Hr. destruct (F4 ci r Hci Hr) as [A|[[A B]|[[A|A] B]]].
        * now left.
        * right. left. split; [exact A|]. rewrite app_length. lia.
        * now left.
        * right. right. split; [exact A|]. unfold Pv, node_ok in A. destruct (n_ty r); try contradiction; exact Logic.I.
  Qed.

  Variables (m : mem) (LEv LpEv : list F3G) (evals : list F3G) (x : vctx) (xi : F3G) (Q : list K).
  Hypothesis Hnb : nb <= e.
  Hypothesis He : e <= 31.
  Hypothesis Hcols : cols trees4 si m (kcm + qdeg) pcm.
  Hypothesis Hccols : ccols si m pconst.
  Hypothesis Hlev : is_lev nb (val xi) LEv /\ is_lev nb (kmul (val xi) (kroot nb)) LpEv.
  Hypothesis Hevals : mapM (eval_at si m LEv LpEv) (ev_map ev) = Ok evals.
  Hypothesis Hxe : v_evals x = evals.
  Hypothesis Hxp : v_publics x = pub.
  Hypothesis Hxc : forall i, i <= 4 -> nth_error (v_challenge x) i = nth_error ch i.
  Hypothesis Hx4 : 5 <= length ch.
  Hypothesis Hx7 : nth_error (v_challenge x) 7 = Some xi.
  Hypothesis Wx : wf xi.
  Hypothesis Wp : Forall wf pub.
  Hypothesis Wc : Forall wf ch.
  Hypothesis HQl : length Q <= qdeg * N.
  Hypothesis HQ : forall z rho v, at_point im Lv Pv z rho -> den (with_im im (tbl ++ [c])) rho false c v -> val v = kmul (ksub (kpow z N) kone) (peval Q z).
  Hypothesis Hqp : forall p, p < qdeg -> pcm (kcm + p) = qpart N p Q.

  Definition ev_rho (r : node) : F3G :=
    match n_ty r with
    | Ncm => match eval_at si m LEv LpEv (true, n_prime r, n_id r) with Ok v => v | _ => e_ZERO end
    | Nconst => match eval_at si m LEv LpEv (false, n_prime r, n_id r) with Ok v => v | _ => e_ZERO end
    | Neval => nth (n_id r) evals e_ZERO
    | Nnumber => match number_ref (n_value r) with Ok v => v | _ => e_ZERO end
    | Npublic => nth (n_id r) pub e_ZERO
    | Nchallenge => nth (n_id r) ch e_ZERO
    | Nx => xi
    | _ => e_ZERO
    end.
  Lemma eval_key k : key_ok (kcm + qdeg) (si_nconst si) k ->
    exists v, eval_at si m LEv LpEv k = Ok v /\ wf v /\ val v = peval (key_pol pcm pconst k) (at_pt nb (val xi) (snd (fst k))).
  Proof.
    destruct k as [[t p] i]. unfold key_ok, key_pol. cbn [fst snd]. intros Hk. destruct Hlev as [V1 V2]. destruct t.
    - destruct (Hcols i Hk) as [Lp [q [s [pos [dim [C1 [C2 [C3 C4]]]]]]]].
      apply (eval_ok si m LEv LpEv (true, p, i) (m_sec m s) pos (si_width si s) dim (pcm i) (val xi) Hnb He); try assumption.
      cbn [get_ev]. rewrite (vget_some _ _ _ C1). cbn [bind]. rewrite (vget_some _ _ _ C2). reflexivity.
    - destruct (Hccols i Hk) as [Lp C]. apply (eval_ok si m LEv LpEv (false, p, i) (m_sec m Sconst_2ns) i (si_nconst si) 1 (pconst i) (val xi) Hnb He); try assumption. reflexivity.
  Qed.
  Lemma num_wf v w : number_ref v = Ok w -> wf w.
  Proof.
    unfold number_ref. destruct v as [u|]; cbn [CodegenModel.unwrap bind]; intros H; [|discriminate H]. revert H. 
    repeat match goal with |- context [if ?b then _ else _] => destruct b end; intros H; try discriminate H; apply ok_inj in H; subst w; apply wf_from.
  Qed.
  Lemma eval_at_wf k v : eval_at si m LEv LpEv k = Ok v -> wf v.
  Proof.
    unfold eval_at. destruct (get_ev si m k) as [[[[buf off] size] dim]| | |]; cbn [bind]; intros H; try discriminate H. revert H. generalize (seq 0 (2 ^ nb)) as l.
    assert (G : forall l acc, wf acc -> foldM (fun acc j => do v <- (if dim =? 1 then vget buf (j * 2 ^ (e - nb) * size + off) else three buf (off + j * 2 ^ (e - nb) * size)); do lk <- vget (if snd (fst k) then LpEv else LEv) j; Ok (e_add acc (e_mul v lk))) l acc = Ok v -> wf v).
    { induction l as [|j l IH]; intros acc Ha H; cbn [foldM] in H; [apply ok_inj in H; subst v; exact Ha|].
      destruct (if dim =? 1 then _ else _) as [u| | |]; try discriminate H. cbn [bind] in H. destruct (vget (if snd (fst k) then LpEv else LEv) j) as [lk| | |]; try discriminate H. cbn [bind] in H.
      refine (IH _ _ H). apply wf_add. }
    intros l H. exact (G l e_ZERO wf_ZERO H).
  Qed.
  Lemma nth_wf (l : list F3G) i : Forall wf l -> wf (nth i l e_ZERO).
  Proof. intros H. destruct (Nat.lt_ge_cases i (length l)) as [L|L]; [apply (proj1 (Forall_forall _ _) H), nth_In, L | rewrite nth_overflow by exact L; apply wf_ZERO]. Qed.
  Lemma evals_wf : Forall wf evals.
  Proof.
    apply Forall_forall. intros v Hv. apply In_nth_error in Hv. destruct Hv as [i Hi].
    assert (Li : i < length (ev_map ev)) by (rewrite <- (BnProof.mapM_len _ _ _ Hevals); apply nth_error_Some; congruence).
    destruct (nth_error (ev_map ev) i) as [k|] eqn:Ek; [|apply nth_error_None in Ek; clear -Ek Li; lia].
    destruct (BnProof.mapM_nth _ _ _ _ _ Hevals Ek) as [u [U1 U2]]. assert (u = v) by congruence. subst u. exact (eval_at_wf k v U1).
  Qed.
  Lemma ev_rho_wf r : wf (ev_rho r).
  Proof.
    unfold ev_rho. destruct (n_ty r); try apply wf_ZERO; try (apply nth_wf; assumption).
    - destruct (eval_at _ _ _ _ _) as [v| | |] eqn:E; try apply wf_ZERO. exact (eval_at_wf _ _ E).
    - destruct (eval_at _ _ _ _ _) as [v| | |] eqn:E; try apply wf_ZERO. exact (eval_at_wf _ _ E).
    - destruct (number_ref (n_value r)) as [v| | |] eqn:E; try apply wf_ZERO. exact (num_wf _ _ E).
    - apply nth_wf, evals_wf.
    - exact Wx.
  Qed.
  Lemma ev_rho_cm i p : i < kcm + qdeg -> val (ev_rho (N_new Ncm i None p)) = peval (pcm i) (at_pt nb (val xi) p).
  Proof. intros Hi. unfold ev_rho. cbn [n_ty n_id n_prime N_new]. destruct (eval_key (true, p, i) Hi) as [v [-> [_ V]]]. exact V. Qed.
  Lemma ev_at : at_point im Lv Pv (val xi) ev_rho.
  Proof.
    split.
    - intros r Hr Hn. unfold Pv, node_ok in Hr. unfold Lv, leafp. pose proof (ev_rho_cm (n_id r) (n_prime r)) as Hc.
      unfold ev_rho in *. cbn [n_ty n_id n_prime N_new] in Hc. destruct (n_ty r) eqn:Et; try contradiction.
      + rewrite (proj2 (Nat.ltb_lt _ _) Hr). apply Hc. lia.
      + rewrite (proj2 (Nat.ltb_lt _ _) Hr). destruct (eval_key (false, n_prime r, n_id r) Hr) as [v [-> [_ V]]]. exact V.
      + destruct Hr as [v ->]. reflexivity.
      + reflexivity.
      + reflexivity.
      + reflexivity.
    - intros j k p E. destruct (im_get j k E) as [_ Hk]. rewrite ev_rho_cm by lia. unfold Lv, leafp. cbn [n_ty n_id n_prime N_new]. rewrite E, (proj2 (Nat.ltb_lt _ _) Hk). reflexivity.
  Qed.
  Lemma ev_answers : answers x ev_rho code ev.
  Proof.
    destruct verifier_refs as [V1 [V2 V3]]. constructor.
    - unfold ev_rho. cbn [n_ty N_new n_value]. rewrite num0. reflexivity.
    - intros i k Hk. rewrite Hxe. destruct (BnProof.mapM_nth _ _ _ _ _ Hevals Hk) as [u [U1 U2]]. rewrite U2. f_equal. unfold ev_rho, ev_node. destruct k as [[[|] p] j]; cbn [fst snd n_ty N_new n_prime n_id]; rewrite U1; reflexivity.
    - intros j v Hj. rewrite Hxe in Hj. unfold ev_rho. cbn [n_ty n_id N_new]. now rewrite (nth_error_nth _ _ _ Hj).
    - intros ci r Hci Hr. destruct (V3 ci r Hci Hr) as [A|[[A B]|[A B]]].
      + rewrite A. exact Logic.I.
      + rewrite A, Hxe, (BnProof.mapM_len _ _ _ Hevals). exact B.
      + unfold Pv, node_ok in A. unfold v_get, ev_rho. destruct (n_ty r) eqn:Et; try contradiction.
        * destruct A as [v ->]. reflexivity.
        * rewrite Hxp. apply vget_nth. exact A.
        * destruct A as [A _]. apply vget_some. rewrite Hxc by exact A. apply nth_error_nth'. lia.
        * apply vget_some. exact Hx7.
  Qed.
  Theorem constraint_accepts : check_constraint x code ev qs nb = Ok true.
  Proof.
    assert (Him1 : Forall (fun p => fst p < length (tbl ++ [c])) im) by (eapply Forall_impl; [|exact Him]; intros p [A _]; rewrite app_length; lia).
    destruct (check_ok _ _ _ _ _ _ _ Hcode Hwf Him1 c_not_im x ev_rho xi nb ev_answers ev_rho_wf Hx7 Wx) as [e0 [v [b [B1 [B2 [B3 B4]]]]]].
    rewrite nth_error_app2, Nat.sub_diag in B1 by lia. injection B1 as <-. rewrite B3. f_equal. apply B4.
    rewrite (HQ _ _ _ ev_at B2), (split_eval N qdeg Q (val xi) HQl), kpoly_sum.
    match goal with |- kmul _ (ksum _ ?f) = kmul (ksum _ ?g) _ => assert (A : ksum qdeg g = ksum qdeg f) end.
    { apply ksum_ext. intros p Hp. cbv beta. rewrite ev_rho_cm by lia. rewrite Hqp by exact Hp. reflexivity. }
    rewrite A. ring.
  Qed.
  Lemma evals_vals : length evals = length (ev_map ev) /\ forall j k, nth_error (ev_map ev) j = Some k -> val (nth j evals e_ZERO) = peval (key_pol pcm pconst k) (at_pt nb (val xi) (snd (fst k))).
  Proof.
    split; [exact (BnProof.mapM_len _ _ _ Hevals)|]. intros j k Hk. destruct (BnProof.mapM_nth _ _ _ _ _ Hevals Hk) as [u [U1 U2]]. rewrite (nth_error_nth _ _ _ U2).
    destruct verifier_refs as [V1 _]. destruct (eval_key k) as [v [E1 [_ E2]]]; [eapply (proj1 (Forall_forall _ _) V1), nth_error_In, Hk|]. congruence.
  Qed.
End Chk.
