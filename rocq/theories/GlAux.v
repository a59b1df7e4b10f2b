(* Lemmas packaged in the exact form of the property statements of GlProps. *)
From Verif Require Import Base NumTheory GlModel GlProof GlSqrt.
Open Scope Z_scope.

Lemma arith_all a b : fe a -> fe b ->
  (fe (add a b) /\ as_int (add a b) = (as_int a + as_int b) mod MODULUS) /\
  (fe (sub a b) /\ as_int (sub a b) = (as_int a - as_int b) mod MODULUS) /\
  (fe (neg a) /\ as_int (neg a) = (- as_int a) mod MODULUS) /\
  (fe (double a) /\ as_int (double a) = (2 * as_int a) mod MODULUS) /\
  (fe (mul a b) /\ as_int (mul a b) = (as_int a * as_int b) mod MODULUS) /\
  (fe (square a) /\ as_int (square a) = (as_int a * as_int a) mod MODULUS).
Proof.
  intros Ha Hb. rewrite MODULUS_P.
  exact (conj (add_spec a b Ha Hb) (conj (sub_spec a b Ha Hb) (conj (neg_spec a Ha)
    (conj (double_spec a Ha) (conj (mul_spec a b Ha Hb) (square_spec a Ha)))))).
Qed.

Lemma eq_iff a b : fe a -> fe b -> (fr_eqb a b = true <-> as_int a = as_int b) /\
  (fr_cmp a b = (as_int a ?= as_int b)) /\ (fr_cmp a b = Eq <-> fr_eqb a b = true).
Proof.
  intros Ha Hb. unfold fr_eqb, fr_cmp. rewrite Z.eqb_eq.
  assert (E : a = b <-> as_int a = as_int b)
    by (split; [intros ->; reflexivity|apply as_int_inj; assumption]).
  split; [exact E|]. split; [reflexivity|]. rewrite Z.compare_eq_iff, E. reflexivity.
Qed.

Lemma no_overflow a b : fe a -> fe b ->
  (0 < snd (adc a b 0) -> fst (adc a b 0) + R2 < W) /\
  (0 < a / 2 ^ 63 -> (a * 2) mod W + R2 < W).
Proof.
  intros Ha Hb. split; [apply add_nocarry_spec; assumption|].
  intros H. assert (L : 2 ^ 63 <= a).
  { destruct (Z_lt_le_dec a (2 ^ 63)) as [L|L]; [|exact L].
    rewrite Z.div_small in H; [lia|]. unfold fe in Ha. lia. }
  change (2 ^ 63) with 9223372036854775808 in L.
  assert (M : (a * 2) mod W = a * 2 - W)
    by (symmetry; apply Z.mod_unique with (q := 1); wsimp; lia).
  rewrite M. wsimp. lia.
Qed.

Lemma conv_all n : 0 <= n < W ->
  (n < MODULUS -> exists a, from_repr n = Ok a /\ from_u64 n = Ok a /\ fe a /\ as_int a = n) /\
  (MODULUS <= n -> from_repr n = Err /\ from_u64 n = Panic).
Proof.
  intros Hn. split.
  - intros H. destruct (from_repr_ok n) as [a [H1 [H2 H3]]]; [unfold fe; lia|].
    exists a. unfold from_u64. rewrite H1. auto.
  - intros H. apply from_repr_rejects. exact H.
Qed.

Lemma conv_back a : fe a -> 0 <= as_int a < MODULUS /\ from_repr (as_int a) = Ok a /\
  from_raw_repr (into_raw_repr a) = Ok a.
Proof.
  intros Ha. split; [apply as_int_range; exact Ha|]. split; [apply from_into; exact Ha|].
  unfold from_raw_repr, into_raw_repr, is_valid. destruct (Z.ltb_spec a MODULUS); [reflexivity|].
  unfold fe in Ha. lia.
Qed.

Lemma raw_rejects n : from_raw_repr n = Err <-> MODULUS <= n.
Proof.
  unfold from_raw_repr, is_valid. destruct (Z.ltb_spec n MODULUS); split; intros; try lia; try discriminate.
  reflexivity.
Qed.

Lemma div_spec a b : fe a -> fe b -> b <> ZERO ->
  exists q, div a b = Ok q /\ fe q /\ mul q b = a.
Proof.
  intros Ha Hb N. destruct (inverse_spec b Hb N) as [i [Hi [Hfi [_ Hm]]]].
  exists (mul a i). unfold div. rewrite Hi. destruct (mul_spec a i Ha Hfi) as [Hf Hq].
  split; [reflexivity|]. split; [exact Hf|].
  destruct (mul_spec (mul a i) b Hf Hb) as [Hf2 Hq2].
  apply as_int_inj; [exact Hf2|exact Ha|]. rewrite Hq2, Hq.
  rewrite Z.mul_mod_idemp_l, <- Z.mul_assoc, (Z.mul_comm (as_int i)) by exact Pnz.
  rewrite <- Z.mul_mod_idemp_r, Hm, Z.mul_1_r by exact Pnz. apply Z.mod_small.
  apply as_int_range in Ha. exact Ha.
Qed.

Lemma inverse_unique a b : fe a -> a <> ZERO -> inverse a = Some b ->
  fe b /\ mul a b = ONE /\ mul b a = ONE.
Proof.
  intros Ha N H. destruct (inverse_spec a Ha N) as [i [Hi [Hfi [Hm Hz]]]].
  rewrite Hi in H. injection H as <-. split; [exact Hfi|]. split; [exact Hm|].
  destruct (mul_spec i a Hfi Ha) as [Hf Hv]. apply as_int_inj; [exact Hf|exact fe_ONE|].
  rewrite Hv, Z.mul_comm, Hz. symmetry. exact as_int_ONE.
Qed.

Lemma exp_pow_spec a e : fe a -> 0 <= e < W ->
  fe (exp a e) /\ as_int (exp a e) = (as_int a ^ e) mod MODULUS /\
  fe (pow a e) /\ as_int (pow a e) = (as_int a ^ e) mod MODULUS.
Proof.
  intros Ha He. destruct (exp_is_pow a e Ha He) as [_ [H1 H2]].
  destruct (pow_is_pow a e Ha He) as [_ [H3 H4]]. rewrite MODULUS_P. auto.
Qed.

Lemma shifts_spec a n : 0 <= a < W -> 0 <= n ->
  shr a n = a / 2 ^ n /\ shl a n = (a * 2 ^ n) mod W /\ div2 a = a / 2.
Proof.
  intros Ha Hn.
  assert (HW : W = 2 ^ 64) by reflexivity.
  assert (B : forall k, 64 <= k -> a / 2 ^ k = 0 /\ (a * 2 ^ k) mod W = 0).
  { intros k Hk. split.
    - apply Z.div_small. pose proof (Z.pow_le_mono_r 2 64 k ltac:(lia) Hk). rewrite HW in Ha. lia.
    - replace k with (k - 64 + 64) by lia. rewrite Z.pow_add_r by lia.
      rewrite Z.mul_assoc, <- HW. apply Z.mod_mul. discriminate. }
  split; [|split].
  - unfold shr. destruct (Z.leb_spec 128 n) as [L|L]; [symmetry; apply B; lia|].
    destruct (Z.leb_spec 64 n) as [L2|L2].
    + rewrite (proj1 (B n ltac:(lia))).
      destruct (Z.ltb_spec 0 (n - 64)); [apply Z.shiftr_0_l|reflexivity].
    + destruct (Z.ltb_spec 0 n); [apply Z.shiftr_div_pow2; lia|].
      assert (n = 0) by lia. subst n. rewrite Z.pow_0_r, Z.div_1_r. reflexivity.
  - unfold shl. destruct (Z.leb_spec 128 n) as [L|L]; [symmetry; apply B; lia|].
    destruct (Z.leb_spec 64 n) as [L2|L2].
    + rewrite (proj2 (B n ltac:(lia))).
      destruct (Z.ltb_spec 0 (n - 64)); [rewrite Z.shiftl_0_l; reflexivity|reflexivity].
    + destruct (Z.ltb_spec 0 n); [rewrite Z.shiftl_mul_pow2 by lia; reflexivity|].
      assert (n = 0) by lia. subst n. rewrite Z.pow_0_r, Z.mul_1_r. symmetry. apply Z.mod_small. exact Ha.
  - unfold div2. rewrite Z.shiftr_div_pow2 by lia. reflexivity.
Qed.

Lemma num_bits_off a : 0 < a < W -> num_bits a = (Z.log2 a + 1) + 64.
Proof.
  intros Ha. unfold num_bits, leading_zeros. destruct (Z.eqb_spec a 0); lia.
Qed.

Lemma inverse_of_zero :
  exists a, fe a /\ as_int a = 0 /\ inverse a <> None /\ exists b, fe b /\ b <> ZERO /\ div b a = Ok ZERO.
Proof.
  exists 0. split; [exact fe_ZERO|]. split; [vm_compute; reflexivity|]. split; [discriminate|].
  exists ONE. split; [exact fe_ONE|]. split; [discriminate|]. vm_compute. reflexivity.
Qed.

Lemma u64_from_raw : exists a, fe a /\ as_int a = 1 /\ u64_from_fr a = 18446744065119617025.
Proof. exists RR. split; [exact fe_ONE|]. split; vm_compute; reflexivity. Qed.
