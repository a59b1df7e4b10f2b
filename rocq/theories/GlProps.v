(* Properties C01-C06: the Goldilocks base field.
   Vocabulary: [fe w] says that the 64-bit word w is a legal stored word (0 <= w < p);
   [as_int w] is the canonical integer the API reports for it. *)
From Verif Require Import Base GlModel GlProof GlSqrt GlAux.
Open Scope Z_scope.

Theorem C01_field_arithmetic : forall a b, fe a -> fe b ->
  (fe (add a b) /\ as_int (add a b) = (as_int a + as_int b) mod 18446744069414584321) /\
  (fe (sub a b) /\ as_int (sub a b) = (as_int a - as_int b) mod 18446744069414584321) /\
  (fe (neg a) /\ as_int (neg a) = (- as_int a) mod 18446744069414584321) /\
  (fe (double a) /\ as_int (double a) = (2 * as_int a) mod 18446744069414584321) /\
  (fe (mul a b) /\ as_int (mul a b) = (as_int a * as_int b) mod 18446744069414584321) /\
  (fe (square a) /\ as_int (square a) = (as_int a * as_int a) mod 18446744069414584321).
Proof. exact arith_all. Qed.
Print Assumptions C01_field_arithmetic.

Theorem C01_equality_is_integer_equality : forall a b, fe a -> fe b ->
  (fr_eqb a b = true <-> as_int a = as_int b) /\
  (fr_cmp a b = (as_int a ?= as_int b)) /\ (fr_cmp a b = Eq <-> fr_eqb a b = true).
Proof. exact eq_iff. Qed.
Print Assumptions C01_equality_is_integer_equality.

(* debug builds: the two unchecked `+=` never overflow *)
Theorem C01_no_overflow_panic : forall a b, fe a -> fe b ->
  (0 < snd (adc a b 0) -> fst (adc a b 0) + R2 < W) /\
  (0 < a / 2 ^ 63 -> (a * 2) mod W + R2 < W).
Proof. exact no_overflow. Qed.
Print Assumptions C01_no_overflow_panic.

Example C01_nonvacuous : fe 18446744069414584320 /\ fe 959634606461954525 /\
  as_int (mul 18446744069414584320 959634606461954525) <> 0 /\
  0 < snd (adc 18446744069414584320 18446744069414584320 0).
Proof. unfold fe. vm_compute. intuition congruence. Qed.

Theorem C02_integer_conversion : forall n, 0 <= n < 2 ^ 64 ->
  (n < 18446744069414584321 ->
     exists a, from_repr n = Ok a /\ from_u64 n = Ok a /\ fe a /\ as_int a = n) /\
  (18446744069414584321 <= n -> from_repr n = Err /\ from_u64 n = Panic).
Proof. exact conv_all. Qed.
Print Assumptions C02_integer_conversion.

Theorem C02_back_conversion : forall a, fe a ->
  0 <= as_int a < 18446744069414584321 /\ from_repr (as_int a) = Ok a /\
  from_raw_repr (into_raw_repr a) = Ok a.
Proof. exact conv_back. Qed.
Print Assumptions C02_back_conversion.

Theorem C02_raw_rejects : forall n, from_raw_repr n = Err <-> 18446744069414584321 <= n.
Proof. exact raw_rejects. Qed.
Print Assumptions C02_raw_rejects.

Example C02_nonvacuous : rmap as_int (from_u64 18446744069414584320) = Ok 18446744069414584320 /\
  from_u64 18446744069414584321 = Panic /\ 18446744069414584321 < 2 ^ 64.
Proof. vm_compute. auto. Qed.

Theorem C03_inverse : forall a b, fe a -> a <> ZERO -> inverse a = Some b ->
  fe b /\ mul a b = ONE /\ mul b a = ONE.
Proof. exact inverse_unique. Qed.
Print Assumptions C03_inverse.

Theorem C03_inverse_exists : forall a, fe a -> a <> ZERO ->
  exists b, inverse a = Some b /\ fe b /\ mul a b = ONE /\
            (as_int a * as_int b) mod 18446744069414584321 = 1.
Proof. exact inverse_spec. Qed.
Print Assumptions C03_inverse_exists.

Theorem C03_division : forall a b, fe a -> fe b -> b <> ZERO ->
  exists q, div a b = Ok q /\ fe q /\ mul q b = a.
Proof. exact div_spec. Qed.
Print Assumptions C03_division.

Example C03_nonvacuous : fe 30064771065 /\ (30064771065 : Z) <> ZERO.
Proof. unfold fe. vm_compute. intuition congruence. Qed.

(* zero is reported as invertible; dividing by zero silently gives zero *)
Theorem C03_inverse_of_zero_refuted :
  exists a, fe a /\ as_int a = 0 /\ inverse a <> None /\ exists b, fe b /\ b <> ZERO /\ div b a = Ok ZERO.
Proof. exact inverse_of_zero. Qed.
Print Assumptions C03_inverse_of_zero_refuted.

Theorem C04_exponentiation : forall a e, fe a -> 0 <= e < 2 ^ 64 ->
  fe (exp a e) /\ as_int (exp a e) = (as_int a ^ e) mod 18446744069414584321 /\
  fe (pow a e) /\ as_int (pow a e) = (as_int a ^ e) mod 18446744069414584321.
Proof. exact exp_pow_spec. Qed.
Print Assumptions C04_exponentiation.

(* [is_square a] : some legal element x satisfies x * x = a *)
Theorem C04_legendre : forall a, fe a ->
  (legendre a = LZero <-> a = ZERO) /\
  (legendre a = LResidue <-> a <> ZERO /\ (exists x, fe x /\ mul x x = a)) /\
  (legendre a = LNonResidue <-> ~ (exists x, fe x /\ mul x x = a)).
Proof. exact legendre_spec. Qed.
Print Assumptions C04_legendre.

Example C04_nonvacuous : legendre (mul 49 R2) = LResidue /\ legendre (mul 7 R2) = LNonResidue /\
  as_int (exp (mul 3 R2) 18446744069414584319) = 12297829379609722881.
Proof. vm_compute. auto. Qed.

Theorem C05_square_root : forall a, fe a ->
  ((exists x, fe x /\ mul x x = a) -> exists x, sqrt a = Ok (Some x) /\ fe x /\ mul x x = a) /\
  (~ (exists x, fe x /\ mul x x = a) -> sqrt a = Ok None).
Proof. exact sqrt_spec. Qed.
Print Assumptions C05_square_root.

Example C05_nonvacuous : rmap (option_map (fun x => as_int (mul x x))) (sqrt (mul 1234321 R2)) = Ok (Some 1234321).
Proof. vm_compute. reflexivity. Qed.

Theorem C06_shifts : forall a n, 0 <= a < 2 ^ 64 -> 0 <= n ->
  shr a n = a / 2 ^ n /\ shl a n = (a * 2 ^ n) mod 2 ^ 64 /\ div2 a = a / 2.
Proof. exact shifts_spec. Qed.
Print Assumptions C06_shifts.

(* num_bits is 64 more than the bit length for every non-zero word *)
Theorem C06_num_bits_refuted : forall a, 0 < a < 2 ^ 64 -> num_bits a = (Z.log2 a + 1) + 64.
Proof. exact num_bits_off. Qed.
Print Assumptions C06_num_bits_refuted.

(* u64::from(Fr) is not the canonical integer *)
Theorem C06_u64_from_refuted : exists a, fe a /\ as_int a = 1 /\ u64_from_fr a = 18446744065119617025.
Proof. exact u64_from_raw. Qed.
Print Assumptions C06_u64_from_refuted.
