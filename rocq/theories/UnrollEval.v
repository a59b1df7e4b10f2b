(* VerifyEvaluations against the check at the evaluation point in stark_verify.rs. *)
From Verif Require Import Base NumTheory GlModel GlProof FrField Cubic F3gModel F3gProof CodegenModel InterpModel VerifierModel
  VerifierProof UnrollModel UnrollProof.
From Coq Require Import Lia.
Open Scope nat_scope.
Open Scope res_scope.

(* ---- the indices of the quotient's evaluations ---- *)
Lemma push_map qs : forall e, List.length (ev_map (fold_left (fun e q => ev_push e (true, false, q)) qs e)) = List.length (ev_map e) + List.length qs.
Proof.
  induction qs as [|q qs IH]; intros e; cbn [fold_left List.length]; [lia|]. rewrite IH. unfold ev_push. cbn [ev_map].
  rewrite app_length. cbn. lia.
Qed.
Lemma push_other qs : forall e q, ~ In q qs -> ev_get (fold_left (fun e q => ev_push e (true, false, q)) qs e) (true, false, q) = ev_get e (true, false, q).
Proof.
  induction qs as [|p qs IH]; intros e q Hn; cbn [fold_left]; [reflexivity|]. rewrite IH by (intros H; apply Hn; right; exact H).
  unfold ev_get, ev_push. cbn [ev_idx assoc]. destruct (evkey_eqb_spec (true, false, p) (true, false, q)) as [E|]; [|reflexivity].
  injection E as ->. destruct Hn. left. reflexivity.
Qed.
Lemma push_index qs : forall e i q, NoDup qs -> nth_error qs i = Some q ->
  ev_get (fold_left (fun e q => ev_push e (true, false, q)) qs e) (true, false, q) = Some (List.length (ev_map e) + i).
Proof.
  induction qs as [|p qs IH]; intros e [|i] q ND; cbn [fold_left nth_error]; try discriminate.
  - intros [= ->]. inversion_clear ND as [|? ? Hn ND']. rewrite push_other by exact Hn. unfold ev_get, ev_push. cbn [ev_idx assoc].
    destruct (evkey_eqb_spec (true, false, q) (true, false, q)) as [|N]; [f_equal; lia|destruct N; reflexivity].
  - intros H. inversion_clear ND as [|? ? Hn ND']. rewrite (IH _ i q ND' H). unfold ev_push. cbn [ev_map]. rewrite app_length. cbn. f_equal. lia.
Qed.
Lemma verifier_index fuel exps im c_exp qs code e : NoDup qs -> verifier_code fuel exps im c_exp qs = Ok (code, e) ->
  exists base, forall i q, nth_error qs i = Some q -> ev_get e (true, false, q) = Some (base + i).
Proof.
  intros ND. unfold verifier_code. destruct (pil_code_gen fuel exps None true _ c_exp false) as [c| | |]; try discriminate. cbn [bind].
  destruct (fix_code im _ (linear_code c)) as [r| | |]; try discriminate. cbn [bind]. intros H.
  apply (f_equal (fun z => match z with Ok p => snd p | _ => e end)) in H. cbn [snd] in H. rewrite <- H.
  exists (List.length (ev_map (f_ev (snd r)))). intros i q Hq. exact (push_index qs _ i q ND Hq).
Qed.

Lemma three_rel env t v k : relv v (t_val env t) -> t_three env t = Some k -> val v = k.
Proof.
  unfold t_three, relv. intros (_ & H). destruct (t_val env t) as [|a [|b [|c [|]]]]; try discriminate. intros [= <-]. exact H.
Qed.

Section E.
Variables (env : txt -> list Fr) (x : vctx) (n1 n2 n3 nbits base : nat) (qs : list nat) (e : evst).
Hypothesis HI : inputs_ok env x.
Hypothesis Hix : forall i q, nth_error qs i = Some q -> ev_get e (true, false, q) = Some (base + i).
Variables (zmul xacc qstep qacc : nat -> K).

Lemma zmul_pow xi : (forall i, i < nbits -> zmul i = match i with O => kmul xi xi | S j => kmul (zmul j) (zmul j) end) ->
  forall i, i < nbits -> zmul i = kpow xi (2 ^ S i).
Proof.
  intros H. induction i as [|i IH]; intros Hi; rewrite (H _ Hi).
  - cbn [kpow Nat.pow Nat.mul Nat.add]. apply k_ext; cbn [k0 k1 k2 kmul kone]; ring.
  - rewrite IH by lia. rewrite <- kpow_add. f_equal. rewrite (Nat.pow_succ_r' 2 (S i)). lia.
Qed.

Hypothesis HQ : forall i, i < List.length qs ->
    match i with
    | O => xacc 0 = mkK f1 f0 f0 /\ t_three env (TEval base) = Some (qacc 0)
    | S j => xacc i = kmul (xacc j) (zmul (nbits - 1)) /\
             (exists e, t_three env (TEval (base + i)) = Some e /\ qstep j = kmul (xacc i) e) /\
             qacc i = kadd (qacc j) (qstep j)
    end.

Lemma qsum_tail x_n : val x_n = zmul (nbits - 1) -> forall r pre j x_acc q res, qs = pre ++ r -> List.length pre = S j ->
  val x_acc = kmul (xacc j) (zmul (nbits - 1)) -> val q = qacc j -> q_sum (v_evals x) e r x_n x_acc q = Ok res ->
  F3gProof.wf q -> F3gProof.wf res /\ val res = qacc (List.length qs - 1).
Proof.
  intros Hx. induction r as [|c r IH]; intros pre j x_acc q res Hqs Hl Ha Hv; cbn [q_sum].
  - intros [= <-] Hw. split; [exact Hw|]. rewrite Hqs, app_nil_r, Hl, Hv. f_equal. lia.
  - assert (Hn : nth_error qs (S j) = Some c) by (rewrite Hqs, nth_error_app2 by lia; rewrite Hl, Nat.sub_diag; reflexivity).
    rewrite (Hix _ _ Hn). cbn [unwrap bind]. destruct (vget (v_evals x) (base + S j)) as [v| | |] eqn:Ev; try discriminate. cbn [bind].
    assert (Hlt : S j < List.length qs) by (apply nth_error_Some; rewrite Hn; discriminate).
    destruct (HQ _ Hlt) as (Hxa & (ev & He & Hst) & Hqa).
    pose proof (three_rel env (TEval (base + S j)) v ev (in_evals _ _ HI _ _ (vget_some _ _ _ Ev)) He) as Hvv.
    intros HR _. refine (IH (pre ++ [c]) (S j) _ _ res _ _ _ _ HR (wf_add _ _)).
    + rewrite <- app_assoc. exact Hqs.
    + rewrite app_length. cbn. lia.
    + rewrite val_mul, Ha, Hx, <- Hxa. reflexivity.
    + rewrite val_add, val_mul, Hv, Ha, Hvv, Hqa, Hst, <- Hxa. reflexivity.
Qed.
Lemma qsum_ok c r x_n res : qs = c :: r -> val x_n = zmul (nbits - 1) -> q_sum (v_evals x) e qs x_n e_ONE e_ZERO = Ok res ->
  val res = qacc (List.length qs - 1).
Proof.
  intros Eq Hx. rewrite Eq at 1. cbn [q_sum].
  assert (H0 : 0 < List.length qs) by (rewrite Eq; cbn; lia). destruct (HQ _ H0) as (Hxa & He).
  assert (Hn : nth_error qs 0 = Some c) by (rewrite Eq; reflexivity).
  rewrite (Hix 0 c Hn), Nat.add_0_r. cbn [unwrap bind]. destruct (vget (v_evals x) base) as [v| | |] eqn:Ev; try discriminate. cbn [bind].
  pose proof (three_rel env (TEval base) v _ (in_evals _ _ HI _ _ (vget_some _ _ _ Ev)) He) as Hvv.
  intros HR. refine (proj2 (qsum_tail x_n Hx r [c] 0 _ _ res Eq eq_refl _ _ HR (wf_add _ _))).
  - rewrite val_mul, val_ONE, Hx, Hxa. reflexivity.
  - rewrite val_add, val_mul, val_ONE, val_ZERO, Hvv. apply k_ext; cbn [k0 k1 k2 kadd kmul kone kzero]; ring.
Qed.
End E.

Lemma pow_nat n : Z.to_nat (2 ^ Z.of_nat n) = 2 ^ n.
Proof. rewrite <- (Nat2Z.id (2 ^ n)), Nat2Z.inj_pow. reflexivity. Qed.

Lemma final_iff env t enable qz p : t_three env t = Some p -> enable <> f0 -> (ve_final env t enable qz <-> p = qz).
Proof.
  intros Ht He. unfold ve_final. split.
  - intros (p' & Hp & A & B & C). rewrite Ht in Hp. injection Hp as <-.
    assert (Z0 : forall a b, fmul enable (fsub a b) = f0 -> a = b).
    { intros a b H. apply f_integral in H. destruct H as [H|H]; [contradiction|]. replace a with (fadd (fsub a b) b) by ring. rewrite H. ring. }
    apply k_ext; apply Z0; assumption.
  - intros <-. exists p. split; [exact Ht|]. repeat split; ring.
Qed.

(* the circuit's comparison is the verifier's *)
Lemma ve_ok env x n1 n2 n3 nbits base qs e code prog t zmul xacc qstep qacc qz b :
  inputs_ok env x -> (forall c r, In c code -> In r (i_src c) -> src_ok env x n1 n2 n3 r) ->
  (forall i q, nth_error qs i = Some q -> ev_get e (true, false, q) = Some (base + i)) -> qs <> [] -> 0 < nbits ->
  unroll n1 n2 n3 code = Ok (prog, t) -> ve_body env prog nbits (List.length qs) base zmul xacc qstep qacc qz ->
  check_constraint x code e qs nbits = Ok b -> forall p enable, t_three env t = Some p -> enable <> f0 ->
  (ve_final env t enable qz <-> b = true).
Proof.
  intros HI HS Hix Hne Hnb HU ((xi & Hxi & Hzm) & HTZ & HH & HQ & z & Hz & Hqz) HC p enable Hp He. rewrite (final_iff env t enable qz p Hp He).
  revert HC. unfold check_constraint.
  destruct (vget (v_challenge x) 7) as [xiv| | |] eqn:Ex; try discriminate. cbn [bind].
  pose proof (three_rel env (TChal 7) xiv xi (in_chals _ _ HI _ _ (vget_some _ _ _ Ex)) Hxi) as Hxv.
  set (x_n := e_exp xiv (2 ^ Z.of_nat nbits)).
  assert (Hxn : val x_n = zmul (nbits - 1)).
  { unfold x_n. rewrite val_exp by (apply Z.pow_nonneg; lia). rewrite pow_nat, Hxv, (zmul_pow nbits zmul xi Hzm (nbits - 1)) by lia.
    f_equal. f_equal. lia. }
  clearbody x_n. set (x' := mkV _ _ _ _ _ _ _ _ _ _ _ _).
  assert (HI' : inputs_ok env x') by (destruct HI; constructor; assumption).
  assert (HZ : relv (v_Z x') (env TZ)).
  { unfold x'. cbn [v_Z]. rewrite HTZ. split; [apply wf_sub|]. rewrite val_sub, Hxn, val_ONE. apply k_ext; cbn [k0 k1 k2 ksub kone]; ring. }
  assert (HS' : forall c r, In c code -> In r (i_src c) -> src_ok env x' n1 n2 n3 r) by exact HS.
  destruct (execute_code x' code) as [r| | |] eqn:EX; try discriminate. cbn [bind].
  pose proof (unroll_ok env x' n1 n2 n3 HI' HZ code prog t r HS' HU HH EX) as Hr.
  destruct (q_sum (v_evals x) e qs x_n e_ONE e_ZERO) as [q| | |] eqn:EQ; try discriminate. cbn [bind]. intros [= <-].
  assert (Hq : val q = qacc (List.length qs - 1)).
  { destruct qs as [|c0 r0] eqn:Eqs; [destruct Hne; reflexivity|].
    exact (qsum_ok env x nbits base (c0 :: r0) e HI Hix zmul xacc qstep qacc HQ c0 r0 x_n q eq_refl Hxn EQ). }
  rewrite e_eqs by (first [exact (proj1 Hr)|apply wf_mul]).
  pose proof (three_rel env t r p Hr Hp) as Hpv.
  assert (HZv : val (e_sub x_n e_ONE) = z).
  { exact (three_rel env TZ _ z HZ Hz). }
  rewrite val_mul, Hq, HZv, <- Hqz, Hpv. split; intros H; exact H.
Qed.
