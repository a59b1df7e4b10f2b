(* The field K = F_p[x]/(x^3 - x - 1), written down independently of the program:
   triples of coefficients, product = schoolbook product reduced with x^3 = x + 1, x^4 = x^2 + x. *)
From Verif Require Import Base NumTheory GlModel GlProof GlSqrt FrField.
From Coq Require Import Field.
Open Scope Z_scope.

Record K : Type := mkK { k0 : Fr; k1 : Fr; k2 : Fr }.
Declare Scope fr_scope.
Delimit Scope fr_scope with fr.
Infix "+" := fadd : fr_scope.
Infix "*" := fmul : fr_scope.
Infix "-" := fsub : fr_scope.
Notation "- a" := (fneg a) : fr_scope.
Infix "/" := fdiv : fr_scope.

Definition kzero : K := mkK f0 f0 f0.
Definition kone : K := mkK f1 f0 f0.
Definition kX : K := mkK f0 f1 f0.
Definition kconst (x : Fr) : K := mkK x f0 f0.
Definition kadd (a b : K) : K := mkK (k0 a + k0 b)%fr (k1 a + k1 b)%fr (k2 a + k2 b)%fr.
Definition ksub (a b : K) : K := mkK (k0 a - k0 b)%fr (k1 a - k1 b)%fr (k2 a - k2 b)%fr.
Definition kneg (a : K) : K := mkK (- k0 a)%fr (- k1 a)%fr (- k2 a)%fr.
Definition kmul (a b : K) : K :=
  (* coefficients of the unreduced product *)
  let p0 := (k0 a * k0 b)%fr in
  let p1 := (k0 a * k1 b + k1 a * k0 b)%fr in
  let p2 := (k0 a * k2 b + k1 a * k1 b + k2 a * k0 b)%fr in
  let p3 := (k1 a * k2 b + k2 a * k1 b)%fr in
  let p4 := (k2 a * k2 b)%fr in
  mkK (p0 + p3)%fr (p1 + p3 + p4)%fr (p2 + p4)%fr.

Lemma k_ext a b : k0 a = k0 b -> k1 a = k1 b -> k2 a = k2 b -> a = b.
Proof. destruct a, b. cbn. intros -> -> ->. reflexivity. Qed.

Lemma K_ring : ring_theory kzero kone kadd kmul ksub kneg eq.
Proof.
  constructor; intros; apply k_ext; cbn [k0 k1 k2 kzero kone kadd kmul ksub kneg]; ring.
Qed.

(* powers, by repeated multiplication *)
Fixpoint kpow (a : K) (n : nat) : K := match n with O => kone | S m => kmul (kpow a m) a end.
Fixpoint fpow (a : Fr) (n : nat) : Fr := match n with O => f1 | S m => fmul (fpow a m) a end.
(* the same, computable for large exponents *)
Fixpoint kpos (a : K) (e : positive) : K :=
  match e with
  | xH => a
  | xO e' => let q := kpos a e' in kmul q q
  | xI e' => let q := kpos a e' in kmul (kmul q q) a
  end.
Fixpoint fpos (a : Fr) (e : positive) : Fr :=
  match e with
  | xH => a
  | xO e' => let q := fpos a e' in fmul q q
  | xI e' => let q := fpos a e' in fmul (fmul q q) a
  end.

Lemma fint_fpos a e : fint (fpos a e) = (fint a ^ Zpos e) mod P.
Proof.
  induction e; cbn [fpos].
  - rewrite !fint_mul, IHe, <- Z.mul_mod, Z.mul_mod_idemp_l by exact Pnz.
    f_equal. rewrite Pos2Z.inj_xI, Z.pow_add_r, Z.pow_1_r, Z.pow_twice_r by lia. ring.
  - rewrite fint_mul, IHe, <- Z.mul_mod by exact Pnz.
    f_equal. rewrite Pos2Z.inj_xO, Z.pow_twice_r. reflexivity.
  - rewrite Z.pow_1_r. symmetry. apply fint_small.
Qed.

(* evaluation at a root of x^3 - x - 1 is a ring morphism K -> F_p *)
Definition kev (r : Fr) (a : K) : Fr := (k0 a + k1 a * r + k2 a * (r * r))%fr.

Lemma kev_mul r a b : (r * r * r)%fr = (r + f1)%fr -> kev r (kmul a b) = (kev r a * kev r b)%fr.
Proof.
  intros H. unfold kev, kmul. cbn [k0 k1 k2].
  transitivity ((k0 a + k1 a * r + k2 a * (r * r)) * (k0 b + k1 b * r + k2 b * (r * r))
     + (k1 a * k2 b + k2 a * k1 b + k2 a * k2 b * r) * ((r + f1) - r * r * r))%fr; [ring|].
  rewrite H. ring.
Qed.

Lemma kev_pos r a e : (r * r * r)%fr = (r + f1)%fr -> kev r (kpos a e) = fpos (kev r a) e.
Proof.
  intros H. induction e; cbn [kpos fpos].
  - rewrite !kev_mul, IHe by exact H. reflexivity.
  - rewrite kev_mul, IHe by exact H. reflexivity.
  - reflexivity.
Qed.

Lemma fpos_p_id a : fpos a 18446744069414584321 = a.
Proof.
  apply fint_inj. rewrite fint_fpos. change (Zpos 18446744069414584321) with P.
  destruct (feq_dec a f0) as [->|N].
  - rewrite fint_0, Z.pow_0_l by reflexivity. reflexivity.
  - assert (D : ~ (P | fint a)).
    { intros [q Hq]. pose proof (fint_range a). pose proof Ppos. assert (q = 0) by nia.
      apply N. apply fint_inj. rewrite fint_0. lia. }
    pose proof (fermat_P (fint a) D) as F.
    replace P with (1 + (P - 1)) at 1 by ring.
    rewrite Z.pow_add_r, Z.pow_1_r by (unfold P; lia).
    rewrite <- Z.mul_mod_idemp_r, F, Z.mul_1_r by exact Pnz. apply fint_small.
Qed.

Definition Xp : K := mkK (fof 10615703402128488253) (fof 10050274602728160328) (fof 11746561000929144102).
Definition Xw : K := mkK (fof 991315191999139912) (fof 15238614666038134874) (fof 11086490780951302402).

(* integer triples, to compute the certificate on plain integers *)
Definition zt := (Z * Z * Z)%type.
Definition zt_mul (a b : zt) : zt :=
  let '(a0, a1, a2) := a in let '(b0, b1, b2) := b in
  let p3 := a1 * b2 + a2 * b1 in let p4 := a2 * b2 in
  ((a0 * b0 + p3) mod P, (a0 * b1 + a1 * b0 + p3 + p4) mod P, (a0 * b2 + a1 * b1 + a2 * b0 + p4) mod P).
Fixpoint zt_pow (a : zt) (e : positive) : zt :=
  match e with
  | xH => a
  | xO e' => let q := zt_pow a e' in zt_mul q q
  | xI e' => let q := zt_pow a e' in zt_mul (zt_mul q q) a
  end.
Definition kof (t : zt) : K := let '(a, b, c) := t in mkK (fof a) (fof b) (fof c).

Lemma kof_mul t u : kof (zt_mul t u) = kmul (kof t) (kof u).
Proof.
  destruct t as [[a0 a1] a2], u as [[b0 b1] b2]. unfold zt_mul, kof, kmul. cbn [k0 k1 k2].
  rewrite !fof_mod, !fof_add, !fof_mul. reflexivity.
Qed.

Lemma kof_pos t e : kof (zt_pow t e) = kpos (kof t) e.
Proof.
  induction e; cbn [kpos zt_pow]; [rewrite !kof_mul, IHe|rewrite kof_mul, IHe|]; reflexivity.
Qed.

Lemma zt_X : zt_pow (0, 1, 0) 18446744069414584321 =
  (10615703402128488253, 10050274602728160328, 11746561000929144102).
Proof. vm_compute. reflexivity. Qed.

Lemma Xp_ok : kpos kX 18446744069414584321 = Xp.
Proof.
  replace kX with (kof (0, 1, 0)); [rewrite <- kof_pos, zt_X; reflexivity|].
  unfold kof, kX. rewrite fof_0, fof_1. reflexivity.
Qed.
Lemma Xw_ok : kmul (ksub Xp kX) Xw = kone.
Proof. apply k_ext; apply fr_ext; vm_compute; reflexivity. Qed.

Lemma no_root r : (r * r * r)%fr <> (r + f1)%fr.
Proof.
  intros H. pose proof (kev_pos r kX 18446744069414584321 H) as E.
  rewrite Xp_ok in E. replace (kev r kX) with r in E by (unfold kev, kX; cbn [k0 k1 k2]; ring).
  rewrite fpos_p_id in E.
  pose proof (kev_mul r (ksub Xp kX) Xw H) as E2. rewrite Xw_ok in E2.
  replace (kev r (ksub Xp kX)) with (kev r Xp - r)%fr in E2
    by (unfold kev, ksub; cbn [k0 k1 k2 kX]; ring).
  rewrite E in E2. replace (kev r kone) with f1 in E2 by (unfold kev, kone; cbn [k0 k1 k2]; ring).
  apply f0_neq_f1. rewrite E2. ring.
Qed.

Lemma f_integral a b : (a * b)%fr = f0 -> a = f0 \/ b = f0.
Proof.
  intros H. destruct (feq_dec a f0) as [|N]; [left; assumption|right].
  replace b with (finv a * (a * b))%fr by (field; exact N). rewrite H. ring.
Qed.

(* minus the norm of a + b x + c x^2 *)
Definition knorm (v : K) : Fr :=
  let a := k0 v in let b := k1 v in let c := k2 v in
  (- (a*a*a) - a*a*c - a*a*c + a*b*c + a*b*c + a*b*c + a*b*b - a*c*c - b*b*b + b*c*c - c*c*c)%fr.

Lemma knorm_zero v : knorm v = f0 -> v = kzero.
Proof.
  destruct v as [a b c]. unfold knorm. cbn [k0 k1 k2]. intros H.
  destruct (feq_dec c f0) as [Hc|Hc].
  - subst c. destruct (feq_dec b f0) as [Hb|Hb].
    + subst b. assert (E : (a * (a * a))%fr = f0).
      { transitivity (- (- (a * a * a) - a * a * f0 - a * a * f0 + a * f0 * f0 + a * f0 * f0 + a * f0 * f0 +
                       a * f0 * f0 - a * f0 * f0 - f0 * f0 * f0 + f0 * f0 * f0 - f0 * f0 * f0))%fr; [ring|].
        rewrite H. ring. }
      apply f_integral in E. destruct E as [->|E]; [reflexivity|].
      apply f_integral in E. destruct E as [->| ->]; reflexivity.
    + exfalso. set (r := (- a / b)%fr). apply (no_root r).
      assert (E : ((r * r * r - r - f1) * (b * b * b))%fr = f0).
      { rewrite <- H. unfold r. field. exact Hb. }
      apply f_integral in E. destruct E as [E|E].
      * transitivity (r * r * r - r - f1 + (r + f1))%fr; [ring|]. rewrite E. ring.
      * apply f_integral in E. destruct E as [E|E]; [apply f_integral in E; destruct E|]; contradiction.
  - exfalso. set (B := (b / c)%fr). set (A := (a / c)%fr).
    set (al := (B * B - A - f1)%fr). set (be := (A * B - f1)%fr).
    (* f = (x - B) (x^2 + B x + A) + al x + be *)
    assert (Hn : (al * al * A - al * B * be + be * be)%fr = f0).
    { assert (E : ((al * al * A - al * B * be + be * be) * (c * c * c))%fr = f0).
      { transitivity (- f0)%fr; [|ring]. rewrite <- H.
        unfold al, be, A, B. field. exact Hc. }
      apply f_integral in E. destruct E as [E|E]; [exact E|].
      apply f_integral in E. destruct E as [E|E]; [apply f_integral in E; destruct E|]; contradiction. }
    destruct (feq_dec al f0) as [Ha|Ha].
    + rewrite Ha in Hn. assert (Hb : be = f0).
      { assert (E : (be * be)%fr = f0) by (rewrite <- Hn; ring).
        apply f_integral in E. destruct E; assumption. }
      apply (no_root B).
      transitivity (B * B * B - (al * B + be) + (al * B + be))%fr; [ring|].
      transitivity (B * B * B - (al * B + be))%fr; [rewrite Ha, Hb; ring|].
      unfold al, be. ring.
    + set (s := (- be / al)%fr).
      assert (Hg : (s * s + B * s + A)%fr = f0).
      { assert (E : ((s * s + B * s + A) * (al * al))%fr = f0).
        { rewrite <- Hn. unfold s. field. exact Ha. }
        apply f_integral in E. destruct E as [E|E]; [exact E|].
        apply f_integral in E. destruct E; contradiction. }
      apply (no_root s).
      transitivity ((s - B) * (s * s + B * s + A) + (al * s + be) + (s + f1))%fr;
        [unfold al, be; ring|].
      rewrite Hg. replace (al * s + be)%fr with f0; [ring|]. unfold s. field. exact Ha.
Qed.

(* inverse by the adjugate *)
Definition kinv (v : K) : K :=
  let a := k0 v in let b := k1 v in let c := k2 v in
  let t := finv (knorm v) in
  mkK ((- (a*a) - a*c - a*c + b*c + b*b - c*c) * t)%fr ((b*a - c*c) * t)%fr ((- (b*b) + a*c + c*c) * t)%fr.
Definition kdiv a b := kmul a (kinv b).

Lemma kinv_l v : v <> kzero -> kmul (kinv v) v = kone.
Proof.
  intros N. assert (Hn : knorm v <> f0) by (intros H; apply N; apply knorm_zero; exact H).
  pose proof (finv_l _ Hn) as E. set (t := finv (knorm v)) in *.
  unfold kinv. fold t. destruct v as [a b c]. unfold knorm in E. cbn [k0 k1 k2] in *.
  apply k_ext; unfold kmul; cbn [k0 k1 k2 kone].
  - rewrite <- E. ring.
  - ring.
  - ring.
Qed.

Lemma kone_neq : kone <> kzero.
Proof. intros H. apply (f_equal k0) in H. cbn in H. exact (f0_neq_f1 H). Qed.

Lemma K_field : field_theory kzero kone kadd kmul ksub kneg kdiv kinv eq.
Proof. constructor; [exact K_ring|exact kone_neq|reflexivity|exact kinv_l]. Qed.

Lemma k_dec (a b : K) : {a = b} + {a <> b}.
Proof.
  destruct a as [a0 a1 a2], b as [b0 b1 b2].
  destruct (feq_dec a0 b0), (feq_dec a1 b1), (feq_dec a2 b2);
    try (left; congruence); right; intros H; injection H; congruence.
Qed.

Add Field KF : K_field.
