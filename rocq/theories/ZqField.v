(* The integers modulo q as a type: the elements of the derived prime fields of
   starky/src/field_bn128.rs:12-15 and starky/src/field_bls12381.rs by their canonical values. The
   ff crate keeps them in Montgomery form; its operations are the operations modulo q. *)
From Verif Require Import Base.
From Coq Require Import Ring Eqdep_dec.
Open Scope Z_scope.

Record Zq (q : Z) : Type := mkZq { zw : Z; zok : (zw mod q =? zw) = true }.
Arguments zw {q} _. Arguments mkZq {q} _ _.

Lemma zq_of_ok q z : (z mod q mod q =? z mod q) = true.
Proof. apply Z.eqb_eq. apply Zmod_mod. Qed.
Definition zq_of (q z : Z) : Zq q := mkZq (z mod q) (zq_of_ok q z).

Definition q_add {q} (a b : Zq q) : Zq q := zq_of q (zw a + zw b).
Definition q_mul {q} (a b : Zq q) : Zq q := zq_of q (zw a * zw b).
Definition q_sub {q} (a b : Zq q) : Zq q := zq_of q (zw a - zw b).
Definition q_neg {q} (a : Zq q) : Zq q := zq_of q (- zw a).

Lemma zq_ext q (a b : Zq q) : zw a = zw b -> a = b.
Proof. destruct a as [x Hx], b as [y Hy]. cbn. intros ->. f_equal. apply UIP_dec. apply Bool.bool_dec. Qed.
Lemma zw_mod q (a : Zq q) : zw a mod q = zw a.
Proof. destruct a as [x H]. cbn. apply Z.eqb_eq. exact H. Qed.
Lemma zq_of_eq q x y : (x - y) mod q = 0 -> zq_of q x = zq_of q y.
Proof.
  intros H. apply zq_ext. cbn. destruct (Z.eq_dec q 0) as [->|Q]; [rewrite !Zmod_0_r in *; lia|].
  rewrite <- (Z.sub_add y x) at 1. rewrite Zplus_mod, H, Z.add_0_l. apply Zmod_mod.
Qed.
Lemma zq_of_red q z : zq_of q (z mod q) = zq_of q z.
Proof. apply zq_ext. cbn. apply Zmod_mod. Qed.
Lemma zq_add_of q x y : q_add (zq_of q x) (zq_of q y) = zq_of q (x + y).
Proof. apply zq_ext. cbn. symmetry. apply Zplus_mod. Qed.
Lemma zq_mul_of q x y : q_mul (zq_of q x) (zq_of q y) = zq_of q (x * y).
Proof. apply zq_ext. cbn. symmetry. apply Zmult_mod. Qed.
Lemma zq_sub_of q x y : q_sub (zq_of q x) (zq_of q y) = zq_of q (x - y).
Proof. apply zq_ext. cbn. symmetry. apply Zminus_mod. Qed.
Lemma zq_of_zw q (a : Zq q) : zq_of q (zw a) = a.
Proof. apply zq_ext. cbn. apply zw_mod. Qed.
Lemma zq_neg_of q x : q_neg (zq_of q x) = zq_of q (- x).
Proof.
  apply zq_ext. cbn. change (- (x mod q)) with (0 - x mod q). change (- x) with (0 - x). rewrite Zminus_mod_idemp_r. reflexivity.
Qed.

Lemma Zq_ring q : ring_theory (zq_of q 0) (zq_of q 1) (@q_add q) (@q_mul q) (@q_sub q) (@q_neg q) eq.
Proof.
  constructor; intros; repeat match goal with a : Zq q |- _ => rewrite <- (zq_of_zw q a); generalize (zw a); clear a; intros a end;
    rewrite ?zq_neg_of, ?zq_add_of, ?zq_sub_of, ?zq_mul_of; rewrite ?zq_neg_of, ?zq_add_of, ?zq_sub_of, ?zq_mul_of; f_equal; ring.
Qed.
