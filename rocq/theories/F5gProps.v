(* C84-C86: the quintic extension. [qval] (F5gProof) is the polynomial of degree < 5 an element denotes,
   Q with qadd/qmul/... (Quintic) is F_p[x]/(x^5-3) written down by schoolbook reduction, [wf5] says
   that a one dimensional element has zero higher coefficients. *)
From Verif Require Import Base GlModel FrField F3gModel F5gModel Quintic F5gProof.
Open Scope Z_scope.

(* sums, differences, products, squares and doubles are those of polynomials modulo x^5 - 3 *)
Theorem C84_ring_operations : forall a b,
  qval (g_add a b) = qadd (qval a) (qval b) /\
  qval (g_sub a b) = qsub (qval a) (qval b) /\
  qval (g_mul a b) = qmul (qval a) (qval b) /\
  qval (g_square a) = qmul (qval a) (qval a) /\
  qval (g_double a) = qadd (qval a) (qval a).
Proof. intros a b. exact (conj (qval_add a b) (conj (qval_sub a b) (conj (qval_mul a b) (conj (qval_square a) (qval_double a))))). Qed.
Print Assumptions C84_ring_operations.

(* the dimension is one exactly when it is for both operands, and results are well formed *)
Theorem C84_dimensions : forall a b,
  wf5 (g_add a b) /\ wf5 (g_sub a b) /\ wf5 (g_mul a b) /\ wf5 (g_square a) /\
  d5 (g_add a b) = d5 a || d5 b /\ d5 (g_sub a b) = d5 a || d5 b /\ d5 (g_mul a b) = d5 a || d5 b /\ d5 (g_square a) = d5 a.
Proof.
  intros a b. exact (conj (wf5_add a b) (conj (wf5_sub a b) (conj (wf5_mul a b) (conj (wf5_square a) (conj (dim5_add a b) (conj (dim5_sub a b) (conj (dim5_mul a b) (dim5_square a)))))))).
Qed.
Print Assumptions C84_dimensions.

(* Q is the quotient ring: x^5 = 3, and an element is its five coefficients *)
Theorem C84_quotient_ring :
  ring_theory qzero qone qadd qmul qsub qneg eq /\ qpow qX 5 = qadd qone (qadd qone qone) /\
  (forall a b c d e, mkQ5 a b c d e = qadd (qconst a) (qadd (qmul (qconst b) qX) (qadd (qmul (qconst c) (qpow qX 2)) (qadd (qmul (qconst d) (qpow qX 3)) (qmul (qconst e) (qpow qX 4)))))).
Proof. exact g_quotient. Qed.
Print Assumptions C84_quotient_ring.

(* equality does not look at the dimension, only at the polynomial *)
Theorem C84_equality : forall a b, wf5 a -> wf5 b -> (g__eq a b = true <-> qval a = qval b) /\ (g_is_zero a = true <-> qval a = qzero).
Proof. intros a b Ha Hb. exact (conj (g_eqs a b Ha Hb) (g_is_zero_spec a Ha)). Qed.
Print Assumptions C84_equality.

(* the product by an integer below p *)
Theorem C84_scalar : forall a n r, g_mul_scalar a n = Ok r -> qval r = qmul (qval a) (qconst (fof n)) /\ d5 r = d5 a.
Proof. exact qval_mul_scalar. Qed.
Print Assumptions C84_scalar.

(* negation is right in dimension one *)
Theorem C84_negation_partial : forall a, d5 a = false -> exists r, g_neg a = Ok r /\ d5 r = false /\ qval r = qneg (qval a).
Proof. exact neg1. Qed.
Print Assumptions C84_negation_partial.

(* and panics for every element of dimension five: its cases are the dimensions three and one *)
Theorem C84_negation_refuted : forall a, d5 a = true -> g_neg a = Panic /\ g_negate a = Panic.
Proof. exact neg5. Qed.
Print Assumptions C84_negation_refuted.

Example C84_nonvacuous : qval (g_mul x_poly (g_mul x_poly (g_mul x_poly (g_mul x_poly x_poly)))) = qconst (fof 3) /\ d5 x_poly = true /\ wf5 g_ONE /\ g__eq g_ONE g_ONES = true.
Proof.
  split; [vm_compute; reflexivity|]. split; [reflexivity|]. split; [intros _; repeat split | vm_compute; reflexivity].
Qed.

(* the inverse computed from the conjugates is the inverse, and zero is sent to zero *)
Theorem C85_inverse : forall a,
  d5 (g_inv a) = d5 a /\ wf5 (g_inv a) /\
  (qval a <> qzero -> qval (g_mul a (g_inv a)) = qone) /\ (qval a = qzero -> qval (g_inv a) = qzero).
Proof. intros a. exact (conj (proj1 (g_inv_spec a)) (conj (wf5_inv a) (conj (g_mul_inv a) (proj2 (proj2 (g_inv_spec a)))))). Qed.
Print Assumptions C85_inverse.

Theorem C85_division : forall a b, qval b <> qzero -> qval (g_mul (g_div a b) b) = qval a.
Proof. exact g_div_cancel. Qed.
Print Assumptions C85_division.

(* the structure is a field: x^5 - 3 has no factor *)
Theorem C85_field : forall a b, qmul a b = qzero -> a = qzero \/ b = qzero.
Proof. exact q_integral. Qed.
Print Assumptions C85_field.

(* frob1 and frob2 are a field automorphism of order five and its square, which fix the constants only *)
Theorem C85_frobenius : exists s : Q -> Q,
  (forall a b, s (qmul a b) = qmul (s a) (s b)) /\ (forall a b, s (qadd a b) = qadd (s a) (s b)) /\
  (forall a, s (s (s (s (s a)))) = a) /\ (forall a, s a = a <-> exists c, a = qconst c) /\
  (forall a, d5 a = true -> qval (g_frob1 a) = s (qval a) /\ qval (g_frob2 a) = s (s (qval a))).
Proof. exact frobenius. Qed.
Print Assumptions C85_frobenius.

(* exp by squaring is the power *)
Theorem C85_power : forall a e, 0 <= e -> qval (g_exp a e) = qpow (qval a) (Z.to_nat e).
Proof. exact qval_exp. Qed.
Print Assumptions C85_power.

Example C85_nonvacuous : qval x_poly <> qzero /\ g__eq (g_mul (g_inv x_poly) x_poly) g_ONE = true /\ g__eq (g_exp x_poly 5) (g_from (fof 3)) = true.
Proof. split; [intros E; apply (f_equal q1) in E; vm_compute in E; discriminate E|]. split; vm_compute; reflexivity. Qed.

(* in dimension one gt is the order of the canonical integers *)
Theorem C86_order_of_integers_partial : forall a b, d5 a = false -> d5 b = false ->
  g_gt a b = Ok (fgtb (g0 a) (g0 b)) /\ (fgtb (g0 a) (g0 b) = true <-> fint (g0 b) < fint (g0 a)).
Proof. exact g_gt_1. Qed.
Print Assumptions C86_order_of_integers_partial.

(* gt holds when b is below a in the order of the coefficients from the first on, and besides the
   first coefficients are the same or all the others are *)
Theorem C86_greater : forall a b, d5 a = d5 b ->
  exists r, g_gt a b = Ok r /\ (r = true <-> g_lex b a /\ (q0 (qval a) = q0 (qval b) \/ same_tail a b)).
Proof. exact g_gt_spec. Qed.
Print Assumptions C86_greater.

(* different dimensions are not compared *)
Theorem C86_dimensions : forall a b, d5 a <> d5 b -> g_gt a b = Panic.
Proof. exact g_gt_dims. Qed.
Print Assumptions C86_dimensions.

(* so the order is not total: 1 and x are different and neither is greater *)
Theorem C86_total_order_refuted : exists a b, wf5 a /\ wf5 b /\ qval a <> qval b /\ g_gt a b = Ok false /\ g_gt b a = Ok false.
Proof. exact not_total. Qed.
Print Assumptions C86_total_order_refuted.

(* lt does not return where gt holds, and otherwise says yes, of equal elements too *)
Theorem C86_less_refuted :
  (forall a b, d5 a = d5 b -> (g_gt a b = Ok true -> g_lt a b = Hang) /\ (g_gt a b = Ok false -> g_lt a b = Ok true)) /\
  (forall a, d5 a = false -> g_lt a a = Ok true) /\ g_lt g_ONE g_ZERO = Hang.
Proof. exact (conj g_lt_spec (conj lt_of_equal (proj2 lt_hangs))). Qed.
Print Assumptions C86_less_refuted.

(* geq and leq are derived from _eq and gt *)
Theorem C86_derived : forall a b, wf5 a -> wf5 b -> d5 a = d5 b ->
  exists r, g_gt a b = Ok r /\ g_leq a b = Ok (negb r) /\ exists s, g_geq a b = Ok s /\ (s = true <-> qval a = qval b \/ r = true).
Proof. exact g_derived. Qed.
Print Assumptions C86_derived.

Example C86_nonvacuous : d5 g_ONES = d5 g_ZEROS /\ g_gt g_ONES g_ZEROS = Ok true /\ g_gt g_ONE g_ZERO = Ok true /\ d5 g_ONE <> d5 g_ONES.
Proof. split; [reflexivity|]. split; [vm_compute; reflexivity|]. split; [vm_compute; reflexivity|]. intros E. discriminate E. Qed.
