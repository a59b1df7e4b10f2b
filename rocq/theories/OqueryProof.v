(* VerifyQuery of the on-chain circuit against check_query. *)
From Verif Require Import Base NumTheory GlModel GlProof FrField Cubic F3gModel F3gProof PolyModel Roots CodegenModel InterpModel VerifierModel
  HashModel StarkModel UnrollModel UnrollProof UnrollEval VqueryModel VqueryProof CircModel CircProof CircMore CircFft OnchModel OnchProof OnchEval
  OqueryModel.
From Verif Require FriModel.
From Coq Require Import Lia Znumtheory.
Open Scope nat_scope.
Open Scope res_scope.

Lemma shift_val : oq_shift = 49%Z.
Proof. vm_compute. reflexivity. Qed.
Lemma shift_fof : fof oq_shift = SHIFT.
Proof. unfold oq_shift. apply fof_int. Qed.
Lemma bit_fof b : fof (bitz b) = fbit b.
Proof. destruct b; cbn [bitz fbit]; [apply fof_1|apply fof_0]. Qed.
Lemma root_fof k : k <= 32 -> fof (nth k circ_roots 0%Z) = vq_root k.
Proof. intros H. rewrite (roots_table k H). apply fof_int. Qed.
Lemma root_word k : k <= 32 -> (0 <= nth k circ_roots 0 < 2 ^ 64)%Z.
Proof. intros H. rewrite (roots_table k H). pose proof (fint_range (root k)) as R. rewrite <- gl_p_P in R. unfold gl_p in R. lia. Qed.
Lemma bit_abs b x y B : (Z.abs (x + y) <= B)%Z -> (Z.abs y <= B)%Z -> (Z.abs (bitz b * x + y) <= B)%Z.
Proof. destruct b; cbn [bitz]; lia. Qed.
Lemma small_abs a : (Z.abs a <= 2 ^ 71)%Z -> small a.
Proof. intros H. apply small_of. unfold small'. change (2 ^ 119)%Z with (2 ^ 48 * 2 ^ 71)%Z. lia. Qed.
Lemma small_70 a : (Z.abs a <= 2 ^ 70)%Z -> small a.
Proof. intros H. apply small_abs. change (2 ^ 71)%Z with (2 * 2 ^ 70)%Z. lia. Qed.
(* the result of the text is a temporary of bounded magnitude *)
Lemma result_bound r env n1 n2 n3 code lo t x : big r -> centred r env -> words env -> o_unroll n1 n2 n3 code = Ok (lo, t) ->
  mags [] lo = true -> Forall (o_holds r env) lo -> oz3 env t = Some x -> small3 x.
Proof.
  intros Hb HC W HU HM HH. unfold o_unroll in HU. destruct (mapM (o_stm n1 n2 n3) code) as [l0| | |] eqn:EL; try discriminate. cbn [bind] in HU.
  destruct (rev code) as [|c rc] eqn:ER; [discriminate|].
  destruct (u_ref n1 n2 n3 (i_dest c)) as [t0| | |] eqn:ET; try discriminate. cbn [bind] in HU. injection HU as -> ->.
  assert (Ic : In c code) by (apply in_rev; rewrite ER; left; reflexivity).
  destruct (mapM_in _ _ _ EL c Ic) as ([d o] & Es & Io). assert (d = t).
  { unfold o_stm in Es. destruct (o_rhs n1 n2 n3 c) as [o'| | |]; try discriminate. cbn [bind] in Es. rewrite ET in Es. cbn [bind] in Es.
    injection Es as <- _. reflexivity. }
  subst d. pose proof (mags_bound r env Hb HC W lo [] ltac:(intros i B; discriminate) HM HH t o Io) as Bt.
  assert (Tn : oz env t = env t).
  { clear - HM Io. revert HM. generalize (@nil (nat * Z)) as ms. induction lo as [|[d0 q0] l IH]; [destruct Io|]. intros ms HM. cbn [mags] in HM.
    destruct d0 as [| | | | | |i| | |]; try discriminate. destruct (rm ms q0); [|discriminate]. apply andb_prop in HM. destruct HM as (_ & HM).
    destruct Io as [[= <- _]|Io]; [reflexivity|exact (IH Io _ HM)]. }
  unfold oz3. rewrite Tn. destruct (env t) as [|u0 [|u1 [|u2 [|]]]]; try discriminate. intros [= <-].
  inversion Bt as [|? ? B0 Br]; subst. inversion Br as [|? ? B1 Bs]; subst. inversion Bs as [|? ? B2 _]; subst.
  apply (abs_small _ lim); [split; [exact B0|split; [exact B1|exact B2]]|lia].
Qed.
Lemma cnorm_sound r a out : big r -> small3 a -> GLCNorm r a out -> word3 out /\ kof out = kof a.
Proof.
  intros Hb. destruct a as [[a0 a1] a2], out as [[o0 o1] o2]. intros (S0 & S1 & S2) (N0 & N1 & N2).
  destruct (norm_sound r _ _ Hb S0 N0) as (W0 & V0). destruct (norm_sound r _ _ Hb S1 N1) as (W1 & V1).
  destruct (norm_sound r _ _ Hb S2 N2) as (W2 & V2). split; [split; [exact W0|split; [exact W1|exact W2]]|].
  unfold kof. rewrite V0, V1, V2. reflexivity.
Qed.

Lemma point_ok r ext ys x : big r -> 0 < ext <= 32 -> oq_point r ext ys x ->
  vq_xacc ext ys (fun i => fof (x i)) /\ forall i, i < ext -> (Z.abs (x i) <= 2 ^ 70)%Z.
Proof.
  intros Hb He (H0 & HS). pose proof (root_word ext ltac:(lia)) as We. 
  assert (B0 : (Z.abs (x 0%nat) <= 2 ^ 70)%Z).
  { rewrite H0, shift_val. change (2 ^ 70)%Z with (64 * 2 ^ 64)%Z. apply bit_abs; lia. }
  assert (F : forall i, S i < ext -> (Z.abs (bitz (ys (S i)) * (nth (ext - S i) circ_roots 0 - 1) + 1) <= 2 ^ 70)%Z).
  { intros i Hi. pose proof (root_word (ext - S i) ltac:(lia)) as Wi. change (2 ^ 70)%Z with (64 * 2 ^ 64)%Z. apply bit_abs; lia. }
  assert (B : forall i, i < ext -> (Z.abs (x i) <= 2 ^ 70)%Z).
  { induction i as [|i IH]; intros Hi; [exact B0|]. specialize (IH ltac:(lia)). pose proof (F i Hi) as Fi.
    destruct (glmul_sound r _ _ _ Hb (small_70 _ IH) (small_70 _ Fi) (HS i Hi)) as (W & _). change (2 ^ 70)%Z with (64 * 2 ^ 64)%Z. lia. }
  split; [|exact B]. split.
  - rewrite H0, fof_add, fof_mul, fof_sub, fof_mul, bit_fof, shift_fof, (root_fof ext ltac:(lia)). reflexivity.
  - intros i Hi. pose proof (B i ltac:(lia)) as Bi. pose proof (F i Hi) as Fi.
    destruct (glmul_sound r _ _ _ Hb (small_70 _ Bi) (small_70 _ Fi) (HS i Hi)) as (_ & V).
    rewrite V, fof_add, fof_mul, fof_sub, bit_fof, fof_1, (root_fof (ext - S i) ltac:(lia)). reflexivity.
Qed.
Lemma mkK_inj a b c a' b' c' : mkK a b c = mkK a' b' c' -> a = a' /\ b = b' /\ c = c'.
Proof. intros E. split; [exact (f_equal k0 E)|split; [exact (f_equal k1 E)|exact (f_equal k2 E)]]. Qed.
Lemma quot_ok r env X den d t : big r -> (Z.abs X <= 2 ^ 70)%Z -> small3 den -> oq_quot r env X den d t ->
  kmul (kof den) (kof d) = kone /\ gl_env env t = [fmul (fof X) (k0 (kof d)); fmul (fof X) (k1 (kof d)); fmul (fof X) (k2 (kof d))].
Proof.
  intros Hb BX Sd (HI & a & b & c & Et & HM). destruct (glcinv_sound r _ _ Hb Sd HI) as (Wd & Vd). split; [exact Vd|].
  assert (SX : small3 (X, 0, 0)%Z) by (split; [apply small_abs; lia|split; apply small_abs; lia]).
  destruct (glcmul_sound r _ _ _ Hb SX (word3_small _ Wd) HM) as (_ & Vm). unfold gl_env. rewrite Et. cbn [map].
  destruct d as [[e0 e1] e2]. unfold kof in Vm. rewrite !fof_0, scale_l in Vm. apply mkK_inj in Vm. destruct Vm as (-> & -> & ->). reflexivity.
Qed.
Lemma neg_w w k : fneg (fmul w k) = fmul (fneg w) k.
Proof. ring. Qed.
Lemma add_zero (a : Fr) : fadd a f0 = a.
Proof. ring. Qed.
Lemma den_kof X a b c : kof (X - a + gl_p, - b + gl_p, - c + gl_p)%Z = mkK (fsub (fof X) (fof a)) (fneg (fof b)) (fneg (fof c)).
Proof. unfold kof. rewrite !fof_add, !fof_p, fof_sub, !fof_opp, !add_zero. reflexivity. Qed.
Lemma den_small X a b c : (Z.abs X <= 2 ^ 70)%Z -> word3 (a, b, c) -> small3 (X - a + gl_p, - b + gl_p, - c + gl_p)%Z.
Proof. intros BX (A & B & C). unfold gl_p. split; [apply small_abs; lia|split; apply small_abs; lia]. Qed.
Lemma div_ok r env nb X d1 d2 : big r -> words_in env -> nb <= 32 -> (Z.abs X <= 2 ^ 70)%Z -> oq_div r env nb X d1 d2 ->
  exists xi, vq_div (gl_env env) nb (fof X) xi (kof d1) (kof d2).
Proof.
  intros Hb HW Hn BX (x0 & x1 & x2 & w0 & w1 & w2 & Ex & Q1 & HM & Q2). pose proof (three_words env (TChal 7) _ HW Ex) as Wx.
  destruct (quot_ok r env _ _ _ _ Hb BX (den_small _ _ _ _ BX Wx) Q1) as (I1 & E1).
  pose proof (root_word nb Hn) as Wr.
  assert (SR : small3 (nth nb circ_roots 0, 0, 0)%Z) by (split; [apply word_small; exact Wr|split; apply small_abs; lia]).
  destruct (glcmul_sound r _ _ _ Hb SR (word3_small _ Wx) HM) as (Ww & Vw).
  destruct (quot_ok r env _ _ _ _ Hb BX (den_small _ _ _ _ BX Ww) Q2) as (I2 & E2).
  unfold kof in Vw. rewrite fof_0, scale_l, (root_fof nb Hn) in Vw. apply mkK_inj in Vw. destruct Vw as (V0 & V1 & V2).
  rewrite den_kof in I1, I2. rewrite V0, V1, V2, !neg_w in I2.
  exists (kof (x0, x1, x2)). unfold vq_div. cbn [kof k0 k1 k2]. rewrite kone_lit. split; [exact (three_kof env _ _ Ex)|].
  split; [exact I1|]. split; [exact E1|]. split; [exact I2|exact E2].
Qed.
Lemma map_ok env pm ms vals : om_holds env pm ms vals -> mv_holds (gl_env env) pm ms (fun t => map fof (vals t)).
Proof.
  intros H t i p s pos dim Ht Hi Hp. specialize (H t i p s pos dim Ht Hi Hp). destruct dim as [|[|[|[|n]]]]; try exact H.
  - destruct H as (a & Ea & Et). exists (fof a). split; [apply map_nth_error; exact Ea|]. unfold gl_env. rewrite Et. reflexivity.
  - destruct H as (a & b & c & Ea & Eb & Ec & Et). exists (fof a), (fof b), (fof c). repeat split; try (apply map_nth_error; assumption).
    unfold gl_env. rewrite Et. reflexivity.
Qed.
Lemma mv_same env pm ms v w : (forall t, 1 <= t <= 4 -> v t = w t) -> mv_holds env pm ms v -> mv_holds env pm ms w.
Proof.
  intros E H t i p s pos dim Ht Hi Hp. rewrite <- (E t Ht). exact (H t i p s pos dim Ht Hi Hp).
Qed.

Lemma oq_ok r perm si pg croot p challenge q idx env ms vals n1 n2 n3 ys prog t l out :
  big r -> centred r env -> words_in env ->
  layout_ok si ms n1 n2 n3 -> (forall c s, In c (pg_query pg) -> In s (i_src c) -> q_src si s) -> (forall c, In c (pg_query pg) -> o_ok c) ->
  inputs_ok (gl_env env) (mkV [] [] [] [] (fst (nth 4 q ([], []))) (sp_evals p) (sp_publics p) challenge [] [] e_ZERO e_ZERO) ->
  env TZ = [0; 0; 0]%Z -> 0 < si_nbits_ext si <= 32 -> si_nbits si <= 32 -> idx = bitsum ys (si_nbits_ext si) ->
  (forall t, 1 <= t <= 4 -> map fof (vals t) = fst (nth (t - 1) q ([], []))) ->
  o_unroll n1 n2 n3 (pg_query pg) = Ok (prog, t) -> mags [] prog = true ->
  oq_body r env (si_map si) ms vals (si_nbits si) (si_nbits_ext si) ys prog t out ->
  check_query perm si pg croot p challenge q idx = Ok l ->
  exists v, l = [v] /\ F3gProof.wf v /\ val v = kof out.
Proof.
  intros Hb HC HW HL HS HO HI HZ He Hn Hx HV HU HM (BM & (x & d1 & d2 & BP & BD) & HH & x3 & Et & HN) HQ.
  assert (W : words env).
  { intros t'. pose proof (HW t') as F. destruct t'; try exact Logic.I; try (eapply Forall_impl; [|exact F]; cbn beta; intros a Ha; lia).
    rewrite HZ. repeat constructor; discriminate. }
  pose proof (result_bound r env n1 n2 n3 _ _ _ _ Hb HC W HU HM HH Et) as S3.
  destruct (cnorm_sound r _ _ Hb S3 HN) as (_ & Vn). rewrite Vn.
  destruct (point_ok r _ ys x Hb He BP) as (PX & BX). specialize (BX (si_nbits_ext si - 1) ltac:(lia)).
  destruct (div_ok r env _ _ d1 d2 Hb HW Hn BX BD) as (xi & PD).
  pose proof HU as HU'. unfold o_unroll in HU'. destruct (mapM (o_stm n1 n2 n3) (pg_query pg)) as [l0| | |] eqn:EL; try discriminate.
  cbn [bind] in HU'. destruct (rev (pg_query pg)) as [|c rc] eqn:ER; [discriminate|].
  destruct (u_ref n1 n2 n3 (i_dest c)) as [t0| | |] eqn:ET; try discriminate. cbn [bind] in HU'. injection HU' as -> ->.
  destruct (run_same r env Hb HC W n1 n2 n3 _ [] prog HO ltac:(intros i B; discriminate) EL HM HH) as (lu & EU & HF).
  assert (Hu : unroll n1 n2 n3 (pg_query pg) = Ok (lu, t)) by (unfold unroll; rewrite EU; cbn [bind]; rewrite ER, ET; reflexivity).
  apply (vq_ok perm si pg croot p challenge q idx (gl_env env) ms n1 n2 n3 ys lu t l HL HS HI) with (o := kof x3); try assumption.
  - unfold gl_env. rewrite HZ. cbn [map]. rewrite fof_0. reflexivity.
  - split; [apply (mv_same _ _ _ _ _ HV), map_ok, BM|]. split; [|exact HF].
    exists (fun i => fof (x i)), xi, (kof d1), (kof d2). split; [exact PX|exact PD].
  - exact (three_kof env t _ Et).
Qed.
