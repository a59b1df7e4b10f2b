(* The operations of F5G against the field F_p[x]/(x^5 - 3). *)
From Verif Require Import Base NumTheory GlModel GlProof GlSqrt FrField Cubic F3gModel F3gProof F5gModel Quintic.
From Coq Require Import Field.
Open Scope Z_scope.
Open Scope res_scope.
Add Ring Q_r5 : Q_ring.

Definition qval (a : F5G) : Q := if d5 a then mkQ5 (g0 a) (g1 a) (g2 a) (g3 a) (g4 a) else qconst (g0 a).
(* an element of dimension one has no other coefficients *)
Definition wf5 (a : F5G) : Prop := d5 a = false -> g1 a = f0 /\ g2 a = f0 /\ g3 a = f0 /\ g4 a = f0.
Ltac q5 := unfold qval, g_add, g_sub, g_mul5, g_new, g_from, g_three; rewrite <- ?f3_of; cbn [d5 g0 g1 g2 g3 g4]; qx; try ring.

Lemma qval_add a b : qval (g_add a b) = qadd (qval a) (qval b).
Proof. destruct a as [a0 a1 a2 a3 a4 [|]], b as [b0 b1 b2 b3 b4 [|]]; q5. Qed.
Lemma qval_sub a b : qval (g_sub a b) = qsub (qval a) (qval b).
Proof. destruct a as [a0 a1 a2 a3 a4 [|]], b as [b0 b1 b2 b3 b4 [|]]; q5. Qed.
Lemma qval_mul5 a b : d5 a = true -> d5 b = true -> qval (g_mul5 a b) = qmul (qval a) (qval b).
Proof. destruct a as [a0 a1 a2 a3 a4 x], b as [b0 b1 b2 b3 b4 y]. cbn [d5]. intros -> ->. q5. Qed.
Lemma qval_mul a b : qval (g_mul a b) = qmul (qval a) (qval b).
Proof.
  unfold g_mul. destruct (d5 a) eqn:A, (d5 b) eqn:B; [apply qval_mul5; assumption| | |]; unfold qval; rewrite A, B; cbn [d5 g_new g_from g0 g1 g2 g3 g4]; qx; ring.
Qed.
Lemma qval_square a : qval (g_square a) = qmul (qval a) (qval a).
Proof. unfold g_square. destruct (d5 a) eqn:A; [apply qval_mul5; exact A|]. unfold qval. rewrite A, fsquare_mul. cbn [d5 g_from g0]. qx; ring. Qed.
Lemma qval_double a : qval (g_double a) = qadd (qval a) (qval a).
Proof. apply qval_add. Qed.
Lemma neg1 a : d5 a = false -> exists r, g_neg a = Ok r /\ d5 r = false /\ qval r = qneg (qval a).
Proof. intros A. unfold g_neg. rewrite A. eexists. split; [reflexivity|]. split; [reflexivity|]. unfold qval. rewrite A. cbn [d5 g_from g0]. qx; ring. Qed.
Lemma neg5 a : d5 a = true -> g_neg a = Panic /\ g_negate a = Panic.
Proof. intros A. unfold g_negate, g_neg. rewrite A. split; reflexivity. Qed.

Lemma wf5_add a b : wf5 (g_add a b). Proof. unfold g_add, wf5. destruct (d5 a), (d5 b); cbn; intros E; try discriminate E; repeat split. Qed.
Lemma wf5_sub a b : wf5 (g_sub a b). Proof. unfold g_sub, wf5. destruct (d5 a), (d5 b); cbn; intros E; try discriminate E; repeat split. Qed.
Lemma wf5_mul a b : wf5 (g_mul a b). Proof. unfold g_mul, wf5. destruct (d5 a), (d5 b); cbn; intros E; try discriminate E; repeat split. Qed.
Lemma wf5_square a : wf5 (g_square a). Proof. unfold g_square, wf5. destruct (d5 a); cbn; intros E; try discriminate E; repeat split. Qed.
Lemma dim5_add a b : d5 (g_add a b) = (d5 a || d5 b)%bool. Proof. unfold g_add. destruct (d5 a), (d5 b); reflexivity. Qed.
Lemma dim5_sub a b : d5 (g_sub a b) = (d5 a || d5 b)%bool. Proof. unfold g_sub. destruct (d5 a), (d5 b); reflexivity. Qed.
Lemma dim5_mul a b : d5 (g_mul a b) = (d5 a || d5 b)%bool. Proof. unfold g_mul. destruct (d5 a), (d5 b); reflexivity. Qed.
Lemma dim5_square a : d5 (g_square a) = d5 a. Proof. unfold g_square. destruct (d5 a); reflexivity. Qed.

(** ** equality *)
Lemma q_eta a : a = mkQ5 (q0 a) (q1 a) (q2 a) (q3 a) (q4 a). Proof. destruct a; reflexivity. Qed.
Lemma g_eqs a b : wf5 a -> wf5 b -> (g__eq a b = true <-> qval a = qval b).
Proof.
  destruct a as [a0 a1 a2 a3 a4 x], b as [b0 b1 b2 b3 b4 y]. unfold wf5, g__eq, qval. cbn [d5 g0 g1 g2 g3 g4]. intros Wa Wb.
  destruct x, y; cbn [Bool.eqb negb]; try (destruct (Wa eq_refl) as [-> [-> [-> ->]]]); try (destruct (Wb eq_refl) as [-> [-> [-> ->]]]); unfold qconst;
    rewrite !Bool.andb_true_iff, !feqb_eq; (split; [intros [[[[-> H1] H2] H3] H4]; congruence | intros E; injection E; intros; subst; repeat split; congruence]).
Qed.
Lemma g_is_zero_spec a : wf5 a -> (g_is_zero a = true <-> qval a = qzero).
Proof.
  intros Wa. unfold g_is_zero. destruct (d5 a) eqn:A.
  - apply (g_eqs a g_ZEROS Wa). intros E. discriminate E.
  - apply (g_eqs a g_ZERO Wa). intros _. repeat split.
Qed.

(** ** the conjugates *)
Definition om : Fr := fof 1041288259238279555.
Lemma om_consts : fof 15820824984080659046 = (om * om)%fr /\ fof 211587555138949697 = (om * om * om)%fr /\ fof 1373043270956696022 = (om * om * om * om)%fr.
Proof. unfold om. rewrite <- !fof_mul. split; [|split]; apply fint_inj; rewrite !fint_of; vm_compute; reflexivity. Qed.
Lemma om5 : (om * om * om * om * om)%fr = f1.
Proof. unfold om. rewrite <- !fof_mul, <- fof_1. apply fint_inj. rewrite !fint_of. vm_compute. reflexivity. Qed.
Lemma om_ne : om <> f1 /\ (om * om)%fr <> f1 /\ (om * om * om)%fr <> f1 /\ (om * om * om * om)%fr <> f1.
Proof. destruct om_consts as [<- [<- <-]]. unfold om. rewrite <- fof_1. repeat split; intros E; apply (f_equal fint) in E; rewrite !fint_of in E; vm_compute in E; discriminate E. Qed.
Definition sig (a : Q) : Q := mkQ5 (q0 a) (q1 a * om)%fr (q2 a * (om * om))%fr (q3 a * (om * om * om))%fr (q4 a * (om * om * om * om))%fr.
Lemma sig_mul a b : sig (qmul a b) = qmul (sig a) (sig b).
Proof. pose proof om5 as H. unfold sig. generalize dependent om. intros o H. apply q_ext; cbn [q0 q1 q2 q3 q4 qmul]; unfold f3; ring [H]. Qed.
Lemma sig5 a : sig (sig (sig (sig (sig a)))) = a.
Proof. pose proof om5 as H. destruct a as [a0 a1 a2 a3 a4]. unfold sig. generalize dependent om. intros o H. apply q_ext; cbn [q0 q1 q2 q3 q4]; ring [H]. Qed.
Lemma sig_nz a : a <> qzero -> sig a <> qzero.
Proof.
  intros N E. apply N. rewrite <- (sig5 a), E. unfold sig. cbn [q0 q1 q2 q3 q4 qzero]. apply q_ext; cbn [q0 q1 q2 q3 q4 qzero]; ring.
Qed.
Lemma fix_coef x o : o <> f1 -> (x * o)%fr = x -> x = f0.
Proof.
  intros N E. assert (H : ((o - f1) * x)%fr = f0) by (transitivity (x * o - x)%fr; [ring | rewrite E; ring]).
  assert (D : (o - f1)%fr <> f0) by (intros Z; apply N, f_sub0, Z). transitivity (finv (o - f1) * ((o - f1) * x))%fr; [|rewrite H; ring].
  replace (finv (o - f1) * ((o - f1) * x))%fr with (finv (o - f1) * (o - f1) * x)%fr by ring. rewrite (finv_l _ D). ring.
Qed.
(* what the automorphism fixes is a constant *)
Lemma sig_fixed a : sig a = a -> a = qconst (q0 a).
Proof.
  intros E. destruct om_ne as [N1 [N2 [N3 N4]]].
  pose proof (f_equal q1 E) as E1. pose proof (f_equal q2 E) as E2. pose proof (f_equal q3 E) as E3. pose proof (f_equal q4 E) as E4. cbn [sig q1 q2 q3 q4] in E1, E2, E3, E4.
  apply q_ext; cbn [qconst q0 q1 q2 q3 q4]; [reflexivity | exact (fix_coef _ _ N1 E1) | exact (fix_coef _ _ N2 E2) | exact (fix_coef _ _ N3 E3) | exact (fix_coef _ _ N4 E4)].
Qed.
Lemma qval_frob1 a : d5 a = true -> qval (g_frob1 a) = sig (qval a).
Proof. intros A. unfold g_frob1, qval. cbn [d5 g0 g1 g2 g3 g4]. rewrite A. destruct om_consts as [-> [-> ->]]. fold om. reflexivity. Qed.
Lemma qval_frob2 a : d5 a = true -> qval (g_frob2 a) = sig (sig (qval a)).
Proof.
  intros A. unfold g_frob2, qval. cbn [d5 g0 g1 g2 g3 g4]. rewrite A. destruct om_consts as [-> [-> ->]]. fold om. unfold sig. pose proof om5 as H. generalize dependent om. intros o H.
  apply q_ext; cbn [q0 q1 q2 q3 q4]; ring [H].
Qed.

(** ** the inverse *)
Definition conj4 (a : Q) : Q := qmul (qmul (sig a) (sig (sig a))) (qmul (sig (sig (sig a))) (sig (sig (sig (sig a))))).
Lemma norm_const a : qmul a (conj4 a) = qconst (q0 (qmul a (conj4 a))).
Proof. apply sig_fixed. unfold conj4. rewrite !sig_mul, sig5. ring. Qed.
Lemma conj4_nz a : a <> qzero -> conj4 a <> qzero.
Proof.
  intros N. unfold conj4. pose proof (sig_nz _ N) as N1. pose proof (sig_nz _ N1) as N2. pose proof (sig_nz _ N2) as N3. pose proof (sig_nz _ N3) as N4.
  apply q_nz; apply q_nz; assumption.
Qed.
Lemma coef0 a b : d5 a = true -> d5 b = true ->
  fadd (fmul (g0 a) (g0 b)) (fmul g_three (fadd (fadd (fadd (fmul (g1 a) (g4 b)) (fmul (g2 a) (g3 b))) (fmul (g3 a) (g2 b))) (fmul (g4 a) (g1 b)))) = q0 (qmul (qval a) (qval b)).
Proof. intros A B. unfold qval, g_three. rewrite A, B, <- f3_of. cbn [qmul q0 q1 q2 q3 q4]. reflexivity. Qed.
Lemma sig_0 : sig qzero = qzero.
Proof. apply q_ext; cbn [sig qzero q0 q1 q2 q3 q4]; ring. Qed.
Lemma conj4_0 : conj4 qzero = qzero.
Proof. unfold conj4. rewrite !sig_0. ring. Qed.
Lemma inv_scale (v c : Q) (n : Fr) : qmul v c = qconst n -> (v <> qzero -> c <> qzero) ->
  v <> qzero -> qmul v (qmul c (qconst (finv (if feqb n f0 then f1 else n)))) = qone.
Proof.
  intros HN Nc N. assert (Nn : n <> f0).
  { intros E. rewrite E in HN. apply (q_nz _ _ N (Nc N)). exact HN. }
  destruct (feqb n f0) eqn:Z; [apply feqb_eq in Z; contradiction|]. transitivity (qmul (qmul v c) (qconst (finv n))); [ring|]. rewrite HN.
  pose proof (finv_r n Nn) as R. generalize dependent (finv n). intros i R. apply q_ext; cbn [qmul qconst qone q0 q1 q2 q3 q4]; ring [R].
Qed.
Lemma inv_from a t2 n : d5 a = true -> d5 t2 = true -> qval t2 = conj4 (qval a) -> n = q0 (qmul (qval a) (qval t2)) ->
  let r := g_mul t2 (g_from (finv (if feqb n f0 then f1 else n))) in
  d5 r = true /\ (qval a <> qzero -> qmul (qval a) (qval r) = qone) /\ (qval a = qzero -> qval r = qzero).
Proof.
  intros A D2 V2 En r. split; [unfold r; rewrite dim5_mul, D2; reflexivity|]. unfold r. rewrite qval_mul.
  assert (VC : forall x, qval (g_from x) = qconst x) by reflexivity. rewrite VC, V2. rewrite V2 in En. split.
  - intros N. apply inv_scale; [|intros _; exact (conj4_nz _ N) | exact N]. rewrite En. apply norm_const.
  - intros E. rewrite E, conj4_0. ring.
Qed.
Lemma inv_conj a t0 t1 t2 : d5 a = true -> t0 = g_frob1 a -> t1 = g_mul t0 (g_frob1 t0) -> t2 = g_mul t1 (g_frob2 t1) -> d5 t2 = true /\ qval t2 = conj4 (qval a).
Proof.
  intros A E0 E1 E2. assert (D0 : d5 t0 = true) by (rewrite E0; reflexivity). assert (D1 : d5 t1 = true) by (rewrite E1, dim5_mul, D0; reflexivity).
  split; [rewrite E2, dim5_mul, D1; reflexivity|]. rewrite E2, qval_mul, (qval_frob2 t1 D1), E1, qval_mul, (qval_frob1 t0 D0), E0, (qval_frob1 a A). unfold conj4. rewrite !sig_mul. reflexivity.
Qed.
Lemma inv5 a : d5 a = true -> d5 (g__inv a) = true /\ (qval a <> qzero -> qmul (qval a) (qval (g__inv a)) = qone) /\ (qval a = qzero -> qval (g__inv a) = qzero).
Proof.
  intros A. destruct (inv_conj a (g_frob1 a) _ _ A eq_refl eq_refl eq_refl) as [D2 V2]. exact (inv_from a _ _ A D2 V2 (coef0 a _ A D2)).
Qed.
Lemma g_inv_spec a : d5 (g_inv a) = d5 a /\ (qval a <> qzero -> qmul (qval a) (qval (g_inv a)) = qone) /\ (qval a = qzero -> qval (g_inv a) = qzero).
Proof.
  unfold g_inv. destruct (d5 a) eqn:A; [exact (inv5 a A)|]. split; [reflexivity|]. unfold qval. rewrite A. cbn [d5 g_from g0]. split.
  - intros N. assert (N0 : g0 a <> f0) by (intros E; apply N; rewrite E; reflexivity). qx; rewrite ?(finv_r _ N0); ring.
  - intros E. pose proof (f_equal q0 E) as E0. cbn [q0 qconst qzero] in E0. rewrite E0, finv_0. reflexivity.
Qed.
Lemma g_mul_inv a : qval a <> qzero -> qval (g_mul a (g_inv a)) = qone.
Proof. intros N. rewrite qval_mul. apply g_inv_spec, N. Qed.
Lemma g_div_cancel a b : qval b <> qzero -> qval (g_mul (g_div a b) b) = qval a.
Proof. intros N. unfold g_div. rewrite !qval_mul. transitivity (qmul (qval a) (qmul (qval b) (qval (g_inv b)))); [ring|]. rewrite (proj1 (proj2 (g_inv_spec b)) N). ring. Qed.
Lemma wf5_inv a : wf5 (g_inv a).
Proof. unfold g_inv, wf5. destruct (d5 a); [intros E; discriminate E | intros _; repeat split]. Qed.

(** ** powers *)
Lemma qpow_add a n m : qpow a (n + m) = qmul (qpow a n) (qpow a m).
Proof. induction n as [|n IH]; cbn [qpow Nat.add]; [ring|]. rewrite IH. ring. Qed.
Lemma qval_exp_pos a e : qval (g_exp_pos a e) = qpow (qval a) (Pos.to_nat e).
Proof.
  induction e as [e IH|e IH|]; cbn [g_exp_pos].
  - rewrite qval_mul, qval_square, IH, Pos2Nat.inj_xI. cbn [Nat.mul]. rewrite Nat.add_0_r. cbn [qpow]. rewrite qpow_add. reflexivity.
  - rewrite qval_square, IH, Pos2Nat.inj_xO. cbn [Nat.mul]. rewrite Nat.add_0_r, qpow_add. reflexivity.
  - rewrite Pos2Nat.inj_1. cbn [qpow]. ring.
Qed.
Lemma qval_exp a e : 0 <= e -> qval (g_exp a e) = qpow (qval a) (Z.to_nat e).
Proof. intros He. destruct e as [|p|p]; [reflexivity | apply qval_exp_pos | lia]. Qed.
Lemma qval_mul_scalar a b r : g_mul_scalar a b = Ok r -> qval r = qmul (qval a) (qconst (fof b)) /\ d5 r = d5 a.
Proof.
  unfold g_mul_scalar. destruct (_ || _)%bool; [discriminate|]. intros E. injection E as <-. unfold qval. destruct (d5 a); cbn [d5 g_new g_from g0 g1 g2 g3 g4]; (split; [qx; ring | reflexivity]).
Qed.

(** ** order *)
Definition g_lex (a b : F5G) : Prop :=
  fint (q0 (qval a)) < fint (q0 (qval b)) \/ fint (q0 (qval a)) = fint (q0 (qval b)) /\
  (fint (q1 (qval a)) < fint (q1 (qval b)) \/ fint (q1 (qval a)) = fint (q1 (qval b)) /\
  (fint (q2 (qval a)) < fint (q2 (qval b)) \/ fint (q2 (qval a)) = fint (q2 (qval b)) /\
  (fint (q3 (qval a)) < fint (q3 (qval b)) \/ fint (q3 (qval a)) = fint (q3 (qval b)) /\ fint (q4 (qval a)) < fint (q4 (qval b))))).
(* equal after the first coefficient *)
Definition same_tail (a b : F5G) : Prop := q1 (qval a) = q1 (qval b) /\ q2 (qval a) = q2 (qval b) /\ q3 (qval a) = q3 (qval b) /\ q4 (qval a) = q4 (qval b).
Lemma feq_int (x y : Fr) : x = y <-> fint x = fint y.
Proof. split; [intros -> ; reflexivity | apply fint_inj]. Qed.
Lemma g_gt_spec a b : d5 a = d5 b -> exists r, g_gt a b = Ok r /\ (r = true <-> g_lex b a /\ (q0 (qval a) = q0 (qval b) \/ same_tail a b)).
Proof.
  intros E. unfold g_gt. rewrite E. replace (negb (Bool.eqb (d5 b) (d5 b))) with false by (destruct (d5 b); reflexivity).
  unfold g_lex, same_tail, qval. rewrite E. destruct (d5 b); (eexists; split; [reflexivity|]); rewrite ?Bool.orb_true_iff, ?Bool.andb_true_iff, ?fgtb_spec, ?feqb_spec, ?Z.ltb_lt, ?Z.eqb_eq; cbn [q0 q1 q2 q3 q4 qconst]; rewrite ?feq_int.
  - lia.
  - lia.
Qed.
Lemma g_gt_dims a b : d5 a <> d5 b -> g_gt a b = Panic.
Proof. intros N. unfold g_gt. destruct (d5 a), (d5 b); try reflexivity; exfalso; apply N; reflexivity. Qed.
(* lt says yes unless gt holds, and then it never returns *)
Lemma g_lt_spec a b : d5 a = d5 b -> (g_gt a b = Ok true -> g_lt a b = Hang) /\ (g_gt a b = Ok false -> g_lt a b = Ok true).
Proof. intros _. unfold g_lt. split; intros ->; reflexivity. Qed.
Lemma g_gt_1 a b : d5 a = false -> d5 b = false -> g_gt a b = Ok (fgtb (g0 a) (g0 b)) /\ (fgtb (g0 a) (g0 b) = true <-> fint (g0 b) < fint (g0 a)).
Proof. intros A B. unfold g_gt. rewrite A, B. split; [reflexivity|]. rewrite fgtb_spec, Z.ltb_lt. reflexivity. Qed.
(* the terms of the statements that the order fails *)
Definition x_poly : F5G := g_new f0 f1 f0 f0 f0.
Lemma incomparable : g_gt g_ONES x_poly = Ok false /\ g_gt x_poly g_ONES = Ok false /\ g__eq g_ONES x_poly = false.
Proof. unfold g_gt, g__eq, x_poly, g_ONES, g_new. vm_compute. repeat split. Qed.
Lemma lt_of_equal a : d5 a = false -> g_lt a a = Ok true.
Proof.
  intros A. apply (g_lt_spec a a eq_refl). destruct (g_gt_1 a a A A) as [E H]. rewrite E. destruct (fgtb (g0 a) (g0 a)); [|reflexivity]. pose proof (proj1 H eq_refl). lia.
Qed.
Lemma g_quotient : ring_theory qzero qone qadd qmul qsub qneg eq /\ qpow qX 5 = qadd qone (qadd qone qone) /\
  (forall a b c d e, mkQ5 a b c d e = qadd (qconst a) (qadd (qmul (qconst b) qX) (qadd (qmul (qconst c) (qpow qX 2)) (qadd (qmul (qconst d) (qpow qX 3)) (qmul (qconst e) (qpow qX 4)))))).
Proof.
  split; [exact Q_ring|]. split; [rewrite qX5; qx; ring|]. intros a b c d e. cbn [qpow]. qx; ring.
Qed.
Lemma lt_hangs : g_lt g_ONES g_ZEROS = Hang /\ g_lt g_ONE g_ZERO = Hang.
Proof. vm_compute. split; reflexivity. Qed.
Lemma sig_const c : sig (qconst c) = qconst c.
Proof. apply q_ext; cbn [sig qconst q0 q1 q2 q3 q4]; ring. Qed.
Lemma sig_add a b : sig (qadd a b) = qadd (sig a) (sig b).
Proof. unfold sig. generalize om. intros o. apply q_ext; cbn [q0 q1 q2 q3 q4 qadd]; ring. Qed.
Lemma frobenius : exists s : Q -> Q,
  (forall a b, s (qmul a b) = qmul (s a) (s b)) /\ (forall a b, s (qadd a b) = qadd (s a) (s b)) /\
  (forall a, s (s (s (s (s a)))) = a) /\ (forall a, s a = a <-> exists c, a = qconst c) /\
  (forall a, d5 a = true -> qval (g_frob1 a) = s (qval a) /\ qval (g_frob2 a) = s (s (qval a))).
Proof.
  exists sig. split; [exact sig_mul|]. split; [exact sig_add|]. split; [exact sig5|]. split.
  - intros a. split; [intros E; exists (q0 a); exact (sig_fixed a E) | intros [c ->]; apply sig_const].
  - intros a A. exact (conj (qval_frob1 a A) (qval_frob2 a A)).
Qed.
Lemma not_total : exists a b, wf5 a /\ wf5 b /\ qval a <> qval b /\ g_gt a b = Ok false /\ g_gt b a = Ok false.
Proof.
  exists g_ONES, x_poly. destruct incomparable as [H1 [H2 H3]]. assert (W1 : wf5 g_ONES) by (intros E; discriminate E). assert (W2 : wf5 x_poly) by (intros E; discriminate E).
  split; [exact W1|]. split; [exact W2|]. split; [|exact (conj H1 H2)]. intros E. apply (g_eqs _ _ W1 W2) in E. rewrite H3 in E. discriminate E.
Qed.
Lemma g_derived a b : wf5 a -> wf5 b -> d5 a = d5 b ->
  exists r, g_gt a b = Ok r /\ g_leq a b = Ok (negb r) /\ exists s, g_geq a b = Ok s /\ (s = true <-> qval a = qval b \/ r = true).
Proof.
  intros Ha Hb E. destruct (g_gt_spec a b E) as [r [Hr _]]. exists r. split; [exact Hr|]. unfold g_leq, g_geq. rewrite Hr. split; [reflexivity|].
  pose proof (g_eqs a b Ha Hb) as Q0. destruct (g__eq a b).
  - exists true. split; [reflexivity|]. split; [intros _; left; apply Q0; reflexivity | reflexivity].
  - exists r. split; [reflexivity|]. split; [intros H; right; exact H | intros [H|H]; [apply Q0 in H; discriminate H | exact H]].
Qed.
