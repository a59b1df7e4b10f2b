(* The labels of the cells of a connection are distinct for any number of columns below 2^32 - 1. *)
From Coq Require Import Ring Field Znumtheory.
From Verif Require Import Base GlModel FrField Cubic PolyModel Roots ListAux ConnectProof.
Open Scope nat_scope.
Add Field FrFL : Fr_field.

Section Order.
  Variables (a : Fr) (M : nat).
  Hypothesis HM : Z.of_nat M = 4294967295%Z.
  Hypothesis AM : fpow a M = f1.
  Lemma fp_add x y : fpow a x = f1 -> fpow a (x + y) = fpow a y.
  Proof. intros H. rewrite fpow_add, H. ring. Qed.
  Lemma fp_mul x k : fpow a x = f1 -> fpow a (x * k) = f1.
  Proof. intros H. rewrite fpow_mul, H. apply fpow_1. Qed.
  Lemma fp_gcd e : (0 < Z.of_nat e < Z.of_nat M)%Z -> fpow a e = f1 -> fpow a (Z.to_nat (Z.gcd (Z.of_nat e) (Z.of_nat M))) = f1.
  Proof.
    intros He AE. destruct (Z.gcd_bezout (Z.of_nat e) (Z.of_nat M) (Z.gcd (Z.of_nat e) (Z.of_nat M)) eq_refl) as [u [v B]].
    set (g := Z.gcd (Z.of_nat e) (Z.of_nat M)) in *.
    assert (G0 : (0 < g)%Z). { assert (g <> 0)%Z by (intros Z0; apply Z.gcd_eq_0 in Z0; lia). pose proof (Z.gcd_nonneg (Z.of_nat e) (Z.of_nat M)). lia. }
    assert (GE : (g <= Z.of_nat e)%Z). { apply Z.divide_pos_le; [lia|apply Z.gcd_divide_l]. }
    pose (u' := (u mod Z.of_nat M)%Z). assert (U0 : (0 <= u' < Z.of_nat M)%Z) by (apply Z.mod_pos_bound; lia).
    pose (k := (v + (u / Z.of_nat M) * Z.of_nat e)%Z).
    assert (B' : (u' * Z.of_nat e + k * Z.of_nat M = g)%Z).
    { unfold u', k. rewrite Z.mod_eq by lia. rewrite <- B. ring. }
    assert (U1 : (1 <= u')%Z).
    { destruct (Z.eq_dec u' 0) as [E|N]; [|lia]. rewrite E in B'. assert (k <= 0 \/ 1 <= k)%Z as [H|H] by lia; nia. }
    assert (K0 : (k <= 0)%Z) by nia.
    assert (E : (Z.to_nat g + M * Z.to_nat (- k) = e * Z.to_nat u')%nat).
    { apply Nat2Z.inj. rewrite Nat2Z.inj_add, !Nat2Z.inj_mul, !Z2Nat.id by lia. lia. }
    assert (A1 : fpow a (e * Z.to_nat u') = f1) by (apply fp_mul; exact AE).
    rewrite <- E, fpow_add, (fp_mul M) in A1 by exact AM. rewrite <- A1. ring.
  Qed.
  Lemma fp_prime e : (0 < Z.of_nat e < Z.of_nat M)%Z -> fpow a e = f1 ->
    exists p, In p [3; 5; 17; 257; 65537]%Z /\ fpow a (Z.to_nat (4294967295 / p)) = f1.
  Proof.
    intros He AE. pose proof (fp_gcd e He AE) as AG. set (g := Z.gcd (Z.of_nat e) (Z.of_nat M)) in *.
    assert (G0 : (0 < g)%Z). { assert (g <> 0)%Z by (intros Z0; apply Z.gcd_eq_0 in Z0; lia). pose proof (Z.gcd_nonneg (Z.of_nat e) (Z.of_nat M)). lia. }
    assert (GE : (g <= Z.of_nat e)%Z). { apply Z.divide_pos_le; [lia|apply Z.gcd_divide_l]. }
    assert (GD : (g | 4294967295)%Z). { rewrite <- HM. apply Z.gcd_divide_r. }
    destruct GD as [m Em]. assert (M1 : (1 < m)%Z) by nia.
    assert (Q : forall p, (0 < p)%Z -> (p | m)%Z -> fpow a (Z.to_nat (4294967295 / p)) = f1).
    { intros p Hp [r Er]. assert (Eq : (4294967295 / p = g * r)%Z). { rewrite Em, Er. replace (r * p * g)%Z with (g * r * p)%Z by ring. apply Z.div_mul. lia. }
      rewrite Eq. rewrite Z2Nat.inj_mul by nia. apply fp_mul. exact AG. }
    destruct (Zdivide_dec 3 m) as [D|D3]; [exists 3%Z; split; [left; reflexivity|apply Q; [lia|exact D]]|].
    destruct (Zdivide_dec 5 m) as [D|D5]; [exists 5%Z; split; [right; left; reflexivity|apply Q; [lia|exact D]]|].
    destruct (Zdivide_dec 17 m) as [D|D17]; [exists 17%Z; split; [do 2 right; left; reflexivity|apply Q; [lia|exact D]]|].
    destruct (Zdivide_dec 257 m) as [D|D257]; [exists 257%Z; split; [do 3 right; left; reflexivity|apply Q; [lia|exact D]]|].
    destruct (Zdivide_dec 65537 m) as [D|D65537]; [exists 65537%Z; split; [do 4 right; left; reflexivity|apply Q; [lia|exact D]]|].
    exfalso.
    (* m divides the product of the five primes and is divisible by none of them *)
    assert (STEP : forall p r, prime p -> ~ (p | m)%Z -> (m | p * r)%Z -> (m | r)%Z).
    { intros p r Pp ND DD. apply (Gauss m p r DD). apply rel_prime_sym. apply prime_rel_prime; assumption. }
    assert (DM : (m | 3 * (5 * (17 * (257 * (65537 * 1)))))%Z). { exists g. lia. }
    apply STEP in DM; [|apply prime_3|exact D3].
    assert (P5 : prime 5). { apply prime_intro; [lia|]. intros x Hx. apply Zgcd_1_rel_prime. assert (C : (x = 1 \/ x = 2 \/ x = 3 \/ x = 4)%Z) by lia. destruct C as [-> | [-> | [-> | ->]]]; reflexivity. }
    apply STEP in DM; [|exact P5|exact D5].
    assert (PB : forall p, forallb (fun k => Z.gcd (Z.of_nat k) p =? 1)%Z (seq 1 (Z.to_nat p - 1)) = true -> (1 < p)%Z -> prime p).
    { intros p F Hp. apply prime_intro; [exact Hp|]. intros x Hx. apply Zgcd_1_rel_prime. rewrite forallb_forall in F. specialize (F (Z.to_nat x)).
      rewrite Z2Nat.id in F by lia. apply Z.eqb_eq, F. apply in_seq. lia. }
    apply STEP in DM; [|apply PB; [vm_compute; reflexivity|lia]|exact D17].
    apply STEP in DM; [|apply PB; [vm_compute; reflexivity|lia]|exact D257].
    assert (PR : prime 65537).
    { apply prime_alt. split; [lia|]. intros x Hx [y Ey]. 
      assert (SM : (exists z, 1 < z <= 256 /\ (z | 65537))%Z).
      { destruct (Z.le_gt_cases x 256) as [L|L]; [exists x; split; [lia|exists y; exact Ey]|]. exists y. split; [nia|exists x; lia]. }
      destruct SM as [z [Hz Dz]].
      assert (F : forallb (fun k => negb (65537 mod Z.of_nat k =? 0)%Z) (seq 2 255) = true) by (vm_compute; reflexivity).
      rewrite forallb_forall in F. specialize (F (Z.to_nat z)). rewrite Z2Nat.id in F by lia.
      assert (IN : In (Z.to_nat z) (seq 2 255)) by (apply in_seq; lia). specialize (F IN).
      apply Zdivide_mod in Dz. rewrite Dz in F. discriminate F. }
    apply STEP in DM; [|exact PR|exact D65537].
    apply Z.divide_pos_le in DM; lia.
  Qed.
End Order.

Lemma ks_check : fint (fpos ks0 4294967295) = 1%Z /\
  forallb (fun p => negb (fint (fpos ks0 (Z.to_pos (4294967295 / p))) =? 1)%Z) [3; 5; 17; 257; 65537]%Z = true.
Proof. split; vm_compute; reflexivity. Qed.
Lemma ks_order_all e : (0 < Z.of_nat e < 4294967295)%Z -> fpow ks0 e <> f1.
Proof.
  intros He AE. destruct ks_check as [C1 C2].
  assert (H : forall M, Z.of_nat M = 4294967295%Z -> fpow ks0 M = f1 -> False).
  { intros M HM AM. destruct (fp_prime ks0 M HM AM e) as [p [IN AP]]; [rewrite HM; exact He|exact AE|].
    rewrite forallb_forall in C2. specialize (C2 p IN). apply Bool.negb_true_iff in C2. apply Z.eqb_neq in C2. apply C2.
    rewrite fpos_pow. replace (Pos.to_nat (Z.to_pos (4294967295 / p))) with (Z.to_nat (4294967295 / p)).
    - rewrite AP. reflexivity.
    - rewrite <- Z2Nat.inj_pos. rewrite Z2Pos.id; [reflexivity|]. cbn [In] in IN. destruct IN as [<-|[<-|[<-|[<-|[<-|[]]]]]]; reflexivity. }
  apply (H (Pos.to_nat 4294967295)); [apply positive_nat_Z|]. rewrite <- fpos_pow. apply fint_inj. rewrite C1. reflexivity.
Qed.

Lemma label_lt_all M q n c c' i i' : M = 2 ^ n * q -> fpow ks0 M = ks0 -> n <= 32 -> (Z.of_nat c' < 4294967295)%Z -> c < c' -> label n c i = label n c' i' -> False.
Proof.
  intros HM KM Hn Hc' L E. apply (ks_order_all (c' - c)); [lia|].
  assert (W : forall i, fpow (fpow (root n) i) M = f1).
  { intros x. rewrite <- fpow_mul, Nat.mul_comm. rewrite fpow_mul. rewrite HM. rewrite (fpow_mul (root n)), root_full by exact Hn. rewrite !fpow_1. reflexivity. }
  apply (f_equal (fun x => fpow x M)) in E. unfold label in E. cbv beta in E. rewrite !fpow_prod in E. rewrite !W in E.
  assert (E' : fpow (fpow ks0 c) M = fpow (fpow ks0 c') M).
  { transitivity (fmul f1 (fpow (fpow ks0 c) M)); [ring|]. rewrite E. ring. }
  rewrite <- !fpow_mul in E'. rewrite !(Nat.mul_comm _ M) in E'. rewrite !fpow_mul in E'. rewrite !KM in E'.
  replace c' with (c + (c' - c)) in E' by lia. rewrite fpow_add in E'.
  apply (fmul_cancel (fpow ks0 c)); [apply fpow_nz, ks0_nz|]. rewrite <- E'. ring.
Qed.
Lemma ks_frob M : Z.of_nat M = 4294967295%Z -> fpow ks0 (S M) = ks0.
Proof.
  intros HM. assert (A : fpow ks0 M = f1).
  { replace M with (Pos.to_nat 4294967295) by (apply Nat2Z.inj; rewrite HM; apply positive_nat_Z). rewrite <- fpos_pow. apply fint_inj. rewrite (proj1 ks_check). reflexivity. }
  cbn [fpow]. rewrite A. ring.
Qed.
Lemma pow32 : fpow ks0 (2 ^ 32) = ks0.
Proof.
  assert (E : exists M, Z.of_nat M = 4294967295%Z /\ 2 ^ 32 = S M).
  { exists (Pos.to_nat 4294967295). generalize (positive_nat_Z 4294967295). generalize (Pos.to_nat 4294967295). intros M HM. split; [exact HM|].
    apply Nat2Z.inj. rewrite Nat2Z.inj_pow, (Nat2Z.inj_succ M), HM. reflexivity. }
  destruct E as [M [HM ->]]. apply ks_frob. exact HM.
Qed.
Lemma label_lt' n c c' i i' : n <= 32 -> (Z.of_nat c' < 4294967295)%Z -> c < c' -> label n c i = label n c' i' -> False.
Proof.
  intros Hn. apply (label_lt_all (2 ^ 32) (2 ^ (32 - n))); [|apply pow32|exact Hn].
  - rewrite <- Nat.pow_add_r. apply (f_equal (Nat.pow 2)). lia.
Qed.
Theorem label_inj_all n c c' i i' : n <= 32 -> (Z.of_nat c < 4294967295)%Z -> (Z.of_nat c' < 4294967295)%Z -> i < 2 ^ n -> i' < 2 ^ n ->
  label n c i = label n c' i' -> c = c' /\ i = i'.
Proof.
  intros Hn H1 H2 H3 H4 E. destruct (Nat.lt_trichotomy c c') as [L|[<-|L]].
  - exfalso. exact (label_lt' n c c' i i' Hn H2 L E).
  - split; [reflexivity|].
    assert (E' : fpow (root n) i = fpow (root n) i').
    { apply (fmul_cancel (fpow ks0 c)); [apply fpow_nz, ks0_nz|]. unfold label in E. transitivity (fmul (fpow (root n) i) (fpow ks0 c)); [ring|]. rewrite E. ring. }
    destruct (Nat.lt_trichotomy i i') as [L|[->|L]]; [|reflexivity|]; exfalso.
    + exact (root_pow_lt n i i' Hn L H4 E').
    + symmetry in E'. exact (root_pow_lt n i' i Hn L H3 E').
  - exfalso. symmetry in E. exact (label_lt' n c' c i' i Hn H1 L E).
Qed.
