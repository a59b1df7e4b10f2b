(* C08-C10: the cubic extension. [val] (F3gProof) is the polynomial of degree < 3 an element denotes,
   K with kadd/kmul/... (Cubic) is F_p[x]/(x^3-x-1) written down by schoolbook reduction,
   [wf] says that a one dimensional element has zero higher coefficients. *)
From Verif Require Import Base GlModel FrField F3gModel Cubic F3gProof.
Open Scope Z_scope.

Theorem C08_ring_operations : forall a b,
  val (e_add a b) = kadd (val a) (val b) /\
  val (e_sub a b) = ksub (val a) (val b) /\
  val (e_neg a) = kneg (val a) /\
  val (e_mul a b) = kmul (val a) (val b) /\
  val (e_square a) = kmul (val a) (val a) /\
  val (e_double a) = kadd (val a) (val a).
Proof.
  intros a b. exact (conj (val_add a b) (conj (val_sub a b) (conj (val_neg a)
    (conj (val_mul a b) (conj (val_square a) (val_double a)))))).
Qed.
Print Assumptions C08_ring_operations.

(* results keep the one-dimensional tag exactly when both operands have it, and stay well formed *)
Theorem C08_dimensions : forall a b,
  wf (e_add a b) /\ wf (e_sub a b) /\ wf (e_mul a b) /\ wf (e_neg a) /\ wf (e_square a) /\
  d3 (e_add a b) = d3 a || d3 b /\ d3 (e_sub a b) = d3 a || d3 b /\ d3 (e_mul a b) = d3 a || d3 b /\
  d3 (e_neg a) = d3 a /\ d3 (e_square a) = d3 a.
Proof.
  intros a b. exact (conj (wf_add a b) (conj (wf_sub a b) (conj (wf_mul a b) (conj (wf_neg a)
   (conj (wf_square a) (conj (dim_add a b) (conj (dim_sub a b) (conj (dim_mul a b)
   (conj (dim_neg a) (dim_square a)))))))))).
Qed.
Print Assumptions C08_dimensions.

(* K is the quotient ring: a commutative ring in which the image of x satisfies x^3 = x + 1 and every
   element is a0 + a1 x + a2 x^2 in exactly one way *)
Theorem C08_quotient_ring :
  ring_theory kzero kone kadd kmul ksub kneg eq /\
  kmul (kmul kX kX) kX = kadd kX kone /\
  (forall a b c, mkK a b c = kadd (kconst a) (kadd (kmul (kconst b) kX) (kmul (kconst c) (kmul kX kX)))).
Proof. exact quotient_ring. Qed.
Print Assumptions C08_quotient_ring.

(* comparison by [_eq] is equality of the denoted polynomials, across dimensions *)
Theorem C08_equality : forall a b, wf a -> wf b ->
  (e__eq a b = true <-> val a = val b) /\ (e_is_zero a = true <-> val a = kzero).
Proof. intros a b Wa Wb. exact (conj (e_eqs a b Wa Wb) (e_is_zero_spec a Wa)). Qed.
Print Assumptions C08_equality.

(* the comparisons are the lexicographic order of canonical coefficients *)
Theorem C08_order : forall a b, wf a -> wf b -> d3 a = d3 b ->
  exists g ge l le, e_gt a b = Ok g /\ e_geq a b = Ok ge /\ e_lt a b = Ok l /\ e_leq a b = Ok le /\
   (g = true <-> lex_lt (key b) (key a)) /\ (l = true <-> lex_lt (key a) (key b)) /\
   (ge = true <-> ~ lex_lt (key a) (key b)) /\ (le = true <-> ~ lex_lt (key b) (key a)).
Proof. exact e_order. Qed.
Print Assumptions C08_order.

Example C08_nonvacuous :
  wf (e_new (fof 5) (fof 6) (fof 7)) /\ wf (e_from (fof 9)) /\
  val (e_mul (e_new (fof 1) (fof 2) (fof 3)) (e_new (fof 4) (fof 5) (fof 18446744069414584320))) =
  mkK (fof 17) (fof 23) (fof 18).
Proof. split; [discriminate|]. split; [split; reflexivity|]. apply k_ext; apply fr_ext; vm_compute; reflexivity. Qed.

Theorem C09_inverse : forall a, val a <> kzero -> val (e_mul a (e_inv a)) = kone /\ d3 (e_inv a) = d3 a.
Proof. intros a H. exact (conj (mul_inv_one a H) (dim_inv a)). Qed.
Print Assumptions C09_inverse.

Theorem C09_division : forall a b, val b <> kzero -> val (e_mul (e_div a b) b) = val a.
Proof. exact div_mul_cancel. Qed.
Print Assumptions C09_division.

Theorem C09_extension_is_a_field : forall a b, kmul a b = kzero -> a = kzero \/ b = kzero.
Proof. exact k_integral. Qed.
Print Assumptions C09_extension_is_a_field.

Example C09_nonvacuous : val (e_new (fof 1) (fof 2) (fof 3)) <> kzero.
Proof. intros H. apply (f_equal (fun k => fint (k0 k))) in H. vm_compute in H. discriminate. Qed.

(* [kpow x n] is the product of n copies of x *)
Theorem C10_exponentiation : forall a e, 0 <= e -> val (e_exp a e) = kpow (val a) (Z.to_nat e).
Proof. exact val_exp. Qed.
Print Assumptions C10_exponentiation.

Example C10_nonvacuous :
  e_exp (e_new (fof 5) (fof 6) (fof 7)) 100 =
  e_new (fof 9897124412254467696) (fof 14730484130337994984) (fof 4476495173063158826).
Proof. apply e_eqb_eq. vm_compute. reflexivity. Qed.
