(* C11-C16: polynomials, batch inversion, roots of unity, Fourier transform, low degree extension.
   [val] is the element of the field K = F_p[x]/(x^3-x-1) denoted by an F3G; [peval p x] is the value
   of the polynomial with coefficient list p at x (peval (a::p) x = a + x * peval p x); [kpow] is
   iterated multiplication; [root n] is the entry w[n] of the table MG. *)
From Verif Require Import Base GlModel FrField F3gModel Cubic F3gProof PolyModel Roots PolyProof FftProof FftTop.
Open Scope nat_scope.

Theorem C11_eval_pol : forall (p : list F3G) (x : F3G),
  val (eval_pol (F := opsE) p x) = ksum (length p) (fun k => kmul (nth k (map val p) kzero) (kpow (val x) k)).
Proof. exact eval_sum_E. Qed.
Print Assumptions C11_eval_pol.

Theorem C11_coset_shift : forall (p : list F3G) (r acc x : F3G),
  length (pol_mul_axi (F := opsE) p r acc) = length p /\
  val (eval_pol (F := opsE) (pol_mul_axi (F := opsE) p r acc) x) =
  kmul (val r) (val (eval_pol (F := opsE) p (e_mul acc x))).
Proof. exact coset_E. Qed.
Print Assumptions C11_coset_shift.

Example C11_nonvacuous :
  e_as_int (eval_pol (F := opsE) [e_from (fof 3); e_from (fof 5); e_from (fof 7)] (e_from (fof 10))) = 753%Z.
Proof. vm_compute. reflexivity. Qed.

(* the inverses, when no input is zero *)
Theorem C12_batch_inverse : forall l : list F3G, Forall (fun x => val x <> kzero) l ->
  length (batch_inverse (F := opsE) l) = length l /\
  map val (batch_inverse (F := opsE) l) = map (fun x => kinv (val x)) l.
Proof. intros l H. exact (conj (batch_len l) (batch_E l H)). Qed.
Print Assumptions C12_batch_inverse.

(* one zero input turns every output into zero: entries do depend on the other entries *)
Theorem C12_zero_poisons_all_refuted : forall l : list F3G, (exists x, In x l /\ val x = kzero) ->
  length (batch_inverse (F := opsE) l) = length l /\
  Forall (fun y => val y = kzero) (batch_inverse (F := opsE) l).
Proof. intros l H. exact (conj (batch_len l) (batch_zero_E l H)). Qed.
Print Assumptions C12_zero_poisons_all_refuted.

Example C12_nonvacuous :
  map (fun x => e_as_int (e_mul (e_from (fof 12)) x)) (batch_inverse (F := opsE) [e_from (fof 2); e_from (fof 3); e_from (fof 4)])
  = [6; 4; 3]%Z /\
  map e_as_int (batch_inverse (F := opsE) [e_from (fof 2); e_from (fof 0); e_from (fof 4)]) = [0; 0; 0]%Z.
Proof. split; vm_compute; reflexivity. Qed.

Theorem C13_roots_of_unity : forall n, n <= 32 ->
  exists w wi, MG n = Ok w /\ MGI n = Ok wi /\
  (forall d, fpow w d = f1 <-> Nat.divide (2 ^ n) d) /\
  fmul w wi = f1 /\
  (n < 32 -> exists w', MG (S n) = Ok w' /\ w = fmul w' w').
Proof. exact roots_E. Qed.
Print Assumptions C13_roots_of_unity.

(* 49 is in no subgroup of order 2^n, so the coset never meets the subgroup *)
Theorem C13_shift_outside : forall n, n <= 32 ->
  fmul SHIFT SHIFT_INV = f1 /\ fpow SHIFT (2 ^ n) <> f1 /\
  (forall w i, MG n = Ok w -> fpow (fmul SHIFT (fpow w i)) (2 ^ n) <> f1).
Proof. exact shift_E. Qed.
Print Assumptions C13_shift_outside.

Example C13_nonvacuous : rmap fint (MG 2) = Ok 281474976710656%Z /\ rmap fint (MG 1) = Ok 18446744069414584320%Z.
Proof. split; vm_compute; reflexivity. Qed.

(* entry i of the output is the value at the i-th power of w[s] *)
Theorem C14_fft_is_dft : forall s (p : list F3G), s <= 31 -> length p = 2 ^ s ->
  exists w r, MG s = Ok w /\ fft (F := opsE) p = Ok r /\
    map val r = map (fun i => peval (map val p) (kpow (kconst w) i)) (seq 0 (2 ^ s)).
Proof. exact fft_dft_E. Qed.
Print Assumptions C14_fft_is_dft.

Theorem C14_ifft_inverts : forall s (p : list F3G), s <= 31 -> length p = 2 ^ s ->
  exists a b, bind (fft (F := opsE) p) (ifft (F := opsE)) = Ok a /\ map val a = map val p /\
              bind (ifft (F := opsE) p) (fft (F := opsE)) = Ok b /\ map val b = map val p.
Proof. exact roundtrip_E. Qed.
Print Assumptions C14_ifft_inverts.

(* when all entries carry the same dimension tag the round trip returns the very same vector *)
Theorem C14_ifft_inverts_exactly : forall s d (p : list F3G), s <= 31 -> length p = 2 ^ s ->
  Forall (fun x => wf x /\ d3 x = d) p ->
  bind (fft (F := opsE) p) (ifft (F := opsE)) = Ok p /\ bind (ifft (F := opsE) p) (fft (F := opsE)) = Ok p.
Proof. exact roundtrip_exact. Qed.
Print Assumptions C14_ifft_inverts_exactly.

(* any other length of at least two is refused *)
Theorem C14_other_lengths_refused : forall p : list F3G,
  (forall s, s <= 31 -> length p <> 2 ^ s) -> 2 <= length p -> fft (F := opsE) p = Panic /\ ifft (F := opsE) p = Panic.
Proof. exact fft_refuses_E. Qed.
Print Assumptions C14_other_lengths_refused.

Example C14_nonvacuous :
  rmap (map e_as_int) (fft (F := opsE) (map (fun z => e_from (fof z)) [1; 2; 3; 4]%Z)) =
  Ok [10; 18446181119461163007; 18446744069414584319; 562949953421310]%Z.
Proof. vm_compute. reflexivity. Qed.

(* evaluations on the subgroup in, evaluations on the coset of the larger subgroup out *)
Theorem C15_low_degree_extension : forall s eb (evals : list F3G) (p : list K),
  s + eb <= 31 -> length p = 2 ^ s ->
  map val evals = map (fun i => peval p (kpow (kconst (root s)) i)) (seq 0 (2 ^ s)) ->
  exists w r, MG (s + eb) = Ok w /\ extend_pol (F := opsE) evals eb = Ok r /\
    map val r = map (fun i => peval p (kmul (kconst SHIFT) (kpow (kconst w) i))) (seq 0 (2 ^ (s + eb))).
Proof. exact lde_E. Qed.
Print Assumptions C15_low_degree_extension.

(* every vector of evaluations comes from such a polynomial *)
Theorem C15_applies_to_every_vector : forall s (evals : list F3G), s <= 31 -> length evals = 2 ^ s ->
  exists p, length p = 2 ^ s /\ map val evals = map (fun i => peval p (kpow (kconst (root s)) i)) (seq 0 (2 ^ s)).
Proof. exact every_vector_E. Qed.
Print Assumptions C15_applies_to_every_vector.

Example C15_nonvacuous :
  rmap (map e_as_int) (extend_pol (F := opsE) (map (fun z => e_from (fof z)) [3; 3]%Z) 1) = Ok [3; 3; 3; 3]%Z.
Proof. vm_compute. reflexivity. Qed.

Theorem C16_log2 : forall v, (0 < v < 2 ^ 32)%Z -> log2_any v = Z.log2 v.
Proof. exact log2_any_spec. Qed.
Print Assumptions C16_log2.

(* beyond 32 bits the result is never right *)
Theorem C16_log2_above_32_bits_refuted : forall v, (2 ^ 32 <= v)%Z -> log2_any v <> Z.log2 v.
Proof. exact log2_any_wrong. Qed.
Print Assumptions C16_log2_above_32_bits_refuted.

Example C16_nonvacuous : log2_any 4294967295 = 31%Z /\ log2_any 4294967296 = 0%Z.
Proof. split; vm_compute; reflexivity. Qed.
