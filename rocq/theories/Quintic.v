(* The field F_p[x]/(x^5 - 3), written down independently of the program: tuples of coefficients,
   product = schoolbook product reduced with x^5 = 3. *)
From Verif Require Import Base NumTheory GlModel GlProof GlSqrt FrField Cubic.
From Coq Require Import Field.
Open Scope Z_scope.

Record Q : Type := mkQ5 { q0 : Fr; q1 : Fr; q2 : Fr; q3 : Fr; q4 : Fr }.
Definition f3 : Fr := (f1 + f1 + f1)%fr.
Definition qzero : Q := mkQ5 f0 f0 f0 f0 f0.
Definition qone : Q := mkQ5 f1 f0 f0 f0 f0.
Definition qX : Q := mkQ5 f0 f1 f0 f0 f0.
Definition qconst (x : Fr) : Q := mkQ5 x f0 f0 f0 f0.
Definition qadd (a b : Q) : Q := mkQ5 (q0 a + q0 b)%fr (q1 a + q1 b)%fr (q2 a + q2 b)%fr (q3 a + q3 b)%fr (q4 a + q4 b)%fr.
Definition qsub (a b : Q) : Q := mkQ5 (q0 a - q0 b)%fr (q1 a - q1 b)%fr (q2 a - q2 b)%fr (q3 a - q3 b)%fr (q4 a - q4 b)%fr.
Definition qneg (a : Q) : Q := mkQ5 (- q0 a)%fr (- q1 a)%fr (- q2 a)%fr (- q3 a)%fr (- q4 a)%fr.
Definition qmul (a b : Q) : Q :=
  (* coefficients of the unreduced product *)
  let p0 := (q0 a * q0 b)%fr in
  let p1 := (q0 a * q1 b + q1 a * q0 b)%fr in
  let p2 := (q0 a * q2 b + q1 a * q1 b + q2 a * q0 b)%fr in
  let p3 := (q0 a * q3 b + q1 a * q2 b + q2 a * q1 b + q3 a * q0 b)%fr in
  let p4 := (q0 a * q4 b + q1 a * q3 b + q2 a * q2 b + q3 a * q1 b + q4 a * q0 b)%fr in
  let p5 := (q1 a * q4 b + q2 a * q3 b + q3 a * q2 b + q4 a * q1 b)%fr in
  let p6 := (q2 a * q4 b + q3 a * q3 b + q4 a * q2 b)%fr in
  let p7 := (q3 a * q4 b + q4 a * q3 b)%fr in
  let p8 := (q4 a * q4 b)%fr in
  mkQ5 (p0 + f3 * p5)%fr (p1 + f3 * p6)%fr (p2 + f3 * p7)%fr (p3 + f3 * p8)%fr p4.

Lemma q_ext a b : q0 a = q0 b -> q1 a = q1 b -> q2 a = q2 b -> q3 a = q3 b -> q4 a = q4 b -> a = b.
Proof. destruct a, b. cbn. intros -> -> -> -> ->. reflexivity. Qed.
Ltac qx := apply q_ext; cbn [q0 q1 q2 q3 q4 qzero qone qX qconst qadd qmul qsub qneg]; unfold f3.
Lemma Q_ring : ring_theory qzero qone qadd qmul qsub qneg eq.
Proof. constructor; intros; qx; ring. Qed.
Add Ring Q_r : Q_ring.
Fixpoint qpow (a : Q) (n : nat) : Q := match n with O => qone | S m => qmul (qpow a m) a end.
Lemma qX5 : qpow qX 5 = qconst f3.
Proof. cbn [qpow]. qx; ring. Qed.

Lemma f3_of : f3 = fof 3.
Proof. unfold f3. rewrite <- fof_1, <- !fof_add. reflexivity. Qed.

(** ** neither 3 nor 9 is a fifth power *)
Definition w5 : Z := 3689348813882916864.
Lemma w5_ok : 5 * w5 = P - 1. Proof. reflexivity. Qed.
Lemma pow_3 : powm P 3 w5 = 1041288259238279555. Proof. vm_compute. reflexivity. Qed.
Lemma pow_9 : powm P 9 w5 = 15820824984080659046. Proof. vm_compute. reflexivity. Qed.
Definition fifth (y : Fr) : Fr := (y * y * y * y * y)%fr.
Lemma fint_fifth y : fint (fifth y) = (fint y ^ 5) mod P.
Proof.
  unfold fifth. rewrite !fint_mul. generalize (fint y). intros z. rewrite (Z.mul_mod_idemp_l (z * z) z), (Z.mul_mod_idemp_l (z * z * z) z), (Z.mul_mod_idemp_l (z * z * z * z) z) by exact Pnz.
  refine (f_equal (fun z => z mod P) _). ring.
Qed.
Lemma no_fifth y n m : powm P n w5 = m -> 1 < m < P -> 0 < n < P -> fifth y = fof n -> False.
Proof.
  intros Hp Hm Hn E. pose proof Ppos as HP. assert (W0 : 0 <= w5) by (unfold w5; lia). rewrite powm_spec in Hp by (try exact HP; exact W0).
  assert (E' : (fint y ^ 5) mod P = n). { rewrite <- fint_fifth, E, fint_of. apply Z.mod_small. lia. }
  assert (D : ~ (P | fint y)).
  { intros [k Hk]. rewrite Hk in E'. replace ((k * P) ^ 5) with (k ^ 5 * P ^ 4 * P) in E' by ring. rewrite Z.mod_mul in E' by exact Pnz. lia. }
  pose proof (fermat_P _ D) as F. rewrite <- w5_ok, Z.pow_mul_r in F by (try exact W0; lia). rewrite <- pow_mod in F by exact HP. rewrite E' in F. lia.
Qed.
Lemma not_3 y : fifth y <> f3.
Proof. intros E. rewrite f3_of in E. apply (no_fifth y 3 _ pow_3); [unfold P; lia | unfold P; lia | exact E]. Qed.
Lemma not_9 y : fifth y <> (f3 * f3)%fr.
Proof. intros E. rewrite f3_of, <- fof_mul in E. apply (no_fifth y 9 _ pow_9); [unfold P; lia | unfold P; lia | exact E]. Qed.

(** ** every element but zero has an inverse *)
Definition invertible (a : Q) : Prop := exists b, qmul a b = qone.
Lemma inv_factor a q : invertible (qmul a q) -> invertible a.
Proof. intros [s E]. exists (qmul q s). rewrite <- E. ring. Qed.
Lemma inv_scale a c : c <> f0 -> invertible (qmul a (qconst (finv c))) -> invertible a.
Proof. intros _. apply inv_factor. Qed.
Lemma f_sub0 x y : (x - y)%fr = f0 -> x = y.
Proof. intros H. replace x with (x - y + y)%fr by ring. rewrite H. ring. Qed.
Lemma finv_r a : a <> f0 -> fmul a (finv a) = f1.
Proof. intros H. rewrite <- (finv_l a H). ring. Qed.
Lemma q_dec a : {a = qzero} + {a <> qzero}.
Proof.
  destruct a as [a0 a1 a2 a3 a4]. destruct (feq_dec a0 f0) as [->|N]; [|right; intros E; injection E as -> -> -> -> ->; contradiction].
  destruct (feq_dec a1 f0) as [->|N]; [|right; intros E; injection E as -> -> -> ->; contradiction].
  destruct (feq_dec a2 f0) as [->|N]; [|right; intros E; injection E as -> -> ->; contradiction].
  destruct (feq_dec a3 f0) as [->|N]; [|right; intros E; injection E as -> ->; contradiction].
  destruct (feq_dec a4 f0) as [->|N]; [left; reflexivity | right; intros E; injection E as ->; contradiction].
Qed.
(* degree 0 *)
Lemma inv0 a0 : a0 <> f0 -> invertible (mkQ5 a0 f0 f0 f0 f0).
Proof. intros H. exists (qconst (finv a0)). qx; rewrite ?(finv_r a0 H); ring. Qed.
(* degree 1 *)
Lemma inv1m a0 : invertible (mkQ5 a0 f1 f0 f0 f0).
Proof.
  apply (inv_factor _ (mkQ5 (a0 * a0 * a0 * a0)%fr (- (a0 * a0 * a0))%fr (a0 * a0)%fr (- a0)%fr f1)).
  replace (qmul _ _) with (mkQ5 (f3 + fifth a0)%fr f0 f0 f0 f0) by (unfold fifth; qx; ring).
  apply inv0. intros E. apply (not_3 (- a0)%fr). apply f_sub0. replace (fifth (- a0) - f3)%fr with (- (f3 + fifth a0))%fr by (unfold fifth; ring). rewrite E. ring.
Qed.
Lemma inv1 a0 a1 : a1 <> f0 -> invertible (mkQ5 a0 a1 f0 f0 f0).
Proof.
  intros H. apply (inv_scale _ a1 H). replace (qmul _ _) with (mkQ5 (a0 * finv a1)%fr f1 f0 f0 f0) by (rewrite <- (finv_r a1 H); qx; ring). apply inv1m.
Qed.
Lemma inv01 a0 a1 : mkQ5 a0 a1 f0 f0 f0 <> qzero -> invertible (mkQ5 a0 a1 f0 f0 f0).
Proof.
  intros H. destruct (feq_dec a1 f0) as [->|N]; [|apply inv1, N]. apply inv0. intros ->. apply H. reflexivity.
Qed.
(* degree 2 *)
Lemma no_quadratic a b : (a * a * a * a - f3 * (a * a) * b + b * b)%fr = f0 -> (a * b * (a * a - b - b))%fr = f3 -> False.
Proof.
  intros H1 H2. apply (not_9 b). rewrite <- H2 at 1. rewrite <- H2 at 1. unfold fifth.
  transitivity (b * b * b * b * b - b * b * b * (a * a * a * a - f3 * (a * a) * b + b * b) + (a * a * b * b) * (a * a * a * a - f3 * (a * a) * b + b * b))%fr; [rewrite H1; ring|]. unfold f3. ring.
Qed.
Lemma inv2m a0 a1 : invertible (mkQ5 a0 a1 f1 f0 f0).
Proof.
  apply (inv_factor _ (mkQ5 (a1 * a0 + a1 * a0 - a1 * a1 * a1)%fr (a1 * a1 - a0)%fr (- a1)%fr f1 f0)).
  replace (qmul _ _) with (mkQ5 (f3 - a1 * a0 * (a1 * a1 - a0 - a0))%fr (- (a1 * a1 * a1 * a1 - f3 * (a1 * a1) * a0 + a0 * a0))%fr f0 f0 f0) by (qx; ring).
  apply inv01. intros E. pose proof (f_equal q0 E) as E0. pose proof (f_equal q1 E) as E1. cbn [q0 q1 q2 q3 q4 qzero] in E0, E1. apply (no_quadratic a1 a0).
  - transitivity (- - (a1 * a1 * a1 * a1 - f3 * (a1 * a1) * a0 + a0 * a0))%fr; [ring|]. rewrite E1. ring.
  - symmetry. apply f_sub0, E0.
Qed.
Lemma inv2 a0 a1 a2 : a2 <> f0 -> invertible (mkQ5 a0 a1 a2 f0 f0).
Proof.
  intros H. apply (inv_scale _ a2 H). replace (qmul _ _) with (mkQ5 (a0 * finv a2)%fr (a1 * finv a2)%fr f1 f0 f0) by (rewrite <- (finv_r a2 H); qx; ring). apply inv2m.
Qed.
Lemma inv02 a0 a1 a2 : mkQ5 a0 a1 a2 f0 f0 <> qzero -> invertible (mkQ5 a0 a1 a2 f0 f0).
Proof. intros H. destruct (feq_dec a2 f0) as [->|N]; [apply inv01, H | apply inv2, N]. Qed.
(* degree 3 *)
Lemma inv3m a0 a1 a2 : invertible (mkQ5 a0 a1 a2 f1 f0).
Proof.
  apply (inv_factor _ (mkQ5 (a2 * a2 - a1)%fr (- a2)%fr f1 f0 f0)).
  set (b := (a2 * a2 - a1)%fr). set (a := (- a2)%fr).
  replace (qmul _ _) with (mkQ5 (f3 + a0 * b)%fr (a1 * b + a0 * a)%fr (a2 * b + a1 * a + a0)%fr f0 f0) by (unfold a, b; qx; ring).
  apply inv02. intros E. pose proof (f_equal q0 E) as E0. pose proof (f_equal q1 E) as E1. pose proof (f_equal q2 E) as E2. cbn [q0 q1 q2 q3 q4 qzero] in E0, E1, E2.
  assert (A2 : a2 = (- a)%fr) by (unfold a; ring). assert (A1 : a1 = (a * a - b)%fr) by (unfold a, b; ring).
  assert (A0 : a0 = (- (a2 * b + a1 * a))%fr). { transitivity ((a2 * b + a1 * a + a0) - (a2 * b + a1 * a))%fr; [ring|]. rewrite E2. ring. }
  clearbody a b. rewrite A2, A1 in A0. rewrite A0 in E0, E1. rewrite A1 in E1. apply (no_quadratic a b).
  - transitivity (- ((a * a - b) * b + - (- a * b + (a * a - b) * a) * a))%fr; [unfold f3; ring|]. rewrite E1. ring.
  - symmetry. apply f_sub0. transitivity (f3 + - (- a * b + (a * a - b) * a) * b)%fr; [ring | exact E0].
Qed.
Lemma inv3 a0 a1 a2 a3 : a3 <> f0 -> invertible (mkQ5 a0 a1 a2 a3 f0).
Proof.
  intros H. apply (inv_scale _ a3 H). replace (qmul _ _) with (mkQ5 (a0 * finv a3)%fr (a1 * finv a3)%fr (a2 * finv a3)%fr f1 f0) by (rewrite <- (finv_r a3 H); qx; ring). apply inv3m.
Qed.
Lemma inv03 a0 a1 a2 a3 : mkQ5 a0 a1 a2 a3 f0 <> qzero -> invertible (mkQ5 a0 a1 a2 a3 f0).
Proof. intros H. destruct (feq_dec a3 f0) as [->|N]; [apply inv02, H | apply inv3, N]. Qed.
(* degree 4 *)
Lemma inv4m a0 a1 a2 a3 : invertible (mkQ5 a0 a1 a2 a3 f1).
Proof.
  apply (inv_factor _ (mkQ5 (- a3)%fr f1 f0 f0 f0)).
  replace (qmul _ _) with (mkQ5 (f3 - a0 * a3)%fr (a0 - a1 * a3)%fr (a1 - a2 * a3)%fr (a2 - a3 * a3)%fr f0) by (qx; ring).
  apply inv03. intros E. pose proof (f_equal q0 E) as E0. pose proof (f_equal q1 E) as E1. pose proof (f_equal q2 E) as E2. pose proof (f_equal q3 E) as E3. cbn [q0 q1 q2 q3 q4 qzero] in E0, E1, E2, E3. apply f_sub0 in E0, E1, E2, E3. apply (not_3 a3). unfold fifth. rewrite E0, E1, E2, E3. reflexivity.
Qed.
Lemma inv4 a0 a1 a2 a3 a4 : a4 <> f0 -> invertible (mkQ5 a0 a1 a2 a3 a4).
Proof.
  intros H. apply (inv_scale _ a4 H). replace (qmul _ _) with (mkQ5 (a0 * finv a4)%fr (a1 * finv a4)%fr (a2 * finv a4)%fr (a3 * finv a4)%fr f1) by (rewrite <- (finv_r a4 H); qx; ring). apply inv4m.
Qed.
Lemma q_inverse a : a <> qzero -> invertible a.
Proof. destruct a as [a0 a1 a2 a3 a4]. intros H. destruct (feq_dec a4 f0) as [->|N]; [apply inv03, H | apply inv4, N]. Qed.
Lemma q_integral a b : qmul a b = qzero -> a = qzero \/ b = qzero.
Proof.
  intros E. destruct (q_dec a) as [Z|N]; [left; exact Z | right]. destruct (q_inverse a N) as [c Hc]. replace b with (qmul (qmul a c) b) by (rewrite Hc; ring).
  replace (qmul (qmul a c) b) with (qmul c (qmul a b)) by ring. rewrite E. ring.
Qed.
Lemma q_nz a b : a <> qzero -> b <> qzero -> qmul a b <> qzero.
Proof. intros A B E. destruct (q_integral a b E); contradiction. Qed.
