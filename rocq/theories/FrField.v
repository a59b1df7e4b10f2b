(* The Goldilocks field elements as a type: the words below p with the operations of GlModel.
   [of_word] reduces its argument modulo p, which is the identity on every result of the operations
   (GlProof); it only serves to make the operations total on the subset type. *)
From Verif Require Import Base NumTheory GlModel GlProof GlSqrt.
From Coq Require Import Field Eqdep_dec.
Open Scope Z_scope.

Definition word_ok (z : Z) : bool := (0 <=? z) && (z <? MODULUS).

Record Fr : Type := mkFr { fw : Z; fok : word_ok fw = true }.

Lemma of_word_ok z : word_ok (z mod MODULUS) = true.
Proof.
  unfold word_ok. pose proof (Z.mod_pos_bound z MODULUS eq_refl).
  apply andb_true_intro. split; [apply Z.leb_le|apply Z.ltb_lt]; lia.
Qed.

Definition of_word (z : Z) : Fr := mkFr (z mod MODULUS) (of_word_ok z).

(* fields/src/field_gl.rs operators on Fr (594-643), via GlModel *)
Definition f0 : Fr := of_word ZERO.
Definition f1 : Fr := of_word ONE.
Definition fadd (a b : Fr) : Fr := of_word (add (fw a) (fw b)).
Definition fsub (a b : Fr) : Fr := of_word (sub (fw a) (fw b)).
Definition fmul (a b : Fr) : Fr := of_word (mul (fw a) (fw b)).
Definition fneg (a : Fr) : Fr := of_word (neg (fw a)).
Definition fsquare (a : Fr) : Fr := of_word (square (fw a)).
Definition fdouble (a : Fr) : Fr := of_word (double (fw a)).
(* Field::inverse().unwrap(): always Some *)
Definition finv (a : Fr) : Fr := match inverse (fw a) with Some i => of_word i | None => f0 end.
Definition fdiv (a b : Fr) : Fr := fmul a (finv b).
Definition feqb (a b : Fr) : bool := fw a =? fw b.
Definition fexp (a : Fr) (e : Z) : Fr := of_word (exp (fw a) e).
(* canonical integer, as_int *)
Definition fint (a : Fr) : Z := as_int (fw a).
(* Fr::from(u64) for values below p *)
Definition fof (n : Z) : Fr := of_word (mul (n mod MODULUS) R2).

Lemma fr_fe (a : Fr) : fe (fw a).
Proof.
  destruct a as [z H]. cbn. unfold word_ok in H. apply andb_prop in H. destruct H as [H1 H2].
  apply Z.leb_le in H1. apply Z.ltb_lt in H2. split; assumption.
Qed.

Lemma fr_ext (a b : Fr) : fw a = fw b -> a = b.
Proof.
  destruct a as [x Hx], b as [y Hy]. cbn. intros ->. f_equal. apply UIP_dec. apply Bool.bool_dec.
Qed.

Lemma fw_of_word z : fe z -> fw (of_word z) = z.
Proof. intros H. cbn. apply Z.mod_small. exact H. Qed.

Lemma fint_inj a b : fint a = fint b -> a = b.
Proof. unfold fint. intros H. apply fr_ext. apply as_int_inj; [apply fr_fe|apply fr_fe|exact H]. Qed.

Lemma fint_range a : 0 <= fint a < P.
Proof. unfold fint. rewrite <- MODULUS_P. exact (as_int_range (fw a) (fr_fe a)). Qed.

Lemma fint_small a : fint a mod P = fint a.
Proof. apply Z.mod_small. apply fint_range. Qed.

Lemma fint_add a b : fint (fadd a b) = (fint a + fint b) mod P.
Proof.
  unfold fint, fadd. destruct (add_spec _ _ (fr_fe a) (fr_fe b)) as [H1 H2].
  rewrite fw_of_word by exact H1. exact H2.
Qed.
Lemma fint_sub a b : fint (fsub a b) = (fint a - fint b) mod P.
Proof.
  unfold fint, fsub. destruct (sub_spec _ _ (fr_fe a) (fr_fe b)) as [H1 H2].
  rewrite fw_of_word by exact H1. exact H2.
Qed.
Lemma fint_mul a b : fint (fmul a b) = (fint a * fint b) mod P.
Proof.
  unfold fint, fmul. destruct (mul_spec _ _ (fr_fe a) (fr_fe b)) as [H1 H2].
  rewrite fw_of_word by exact H1. exact H2.
Qed.
Lemma fint_neg a : fint (fneg a) = (- fint a) mod P.
Proof.
  unfold fint, fneg. destruct (neg_spec _ (fr_fe a)) as [H1 H2].
  rewrite fw_of_word by exact H1. exact H2.
Qed.
Lemma fint_0 : fint f0 = 0. Proof. vm_compute. reflexivity. Qed.
Lemma fint_1 : fint f1 = 1. Proof. vm_compute. reflexivity. Qed.
Lemma fint_of n : fint (fof n) = n mod P.
Proof.
  unfold fint, fof. assert (H : fe (n mod MODULUS)) by (apply Z.mod_pos_bound; reflexivity).
  destruct (mulR2_spec _ H) as [H1 H2]. rewrite fw_of_word by exact H1. exact H2.
Qed.
Lemma fof_int a : fof (fint a) = a.
Proof. apply fint_inj. rewrite fint_of. apply fint_small. Qed.

Lemma fof_mod n : fof (n mod P) = fof n.
Proof. apply fint_inj. rewrite !fint_of. apply Z.mod_mod. exact Pnz. Qed.
Lemma fof_add a b : fof (a + b) = fadd (fof a) (fof b).
Proof. apply fint_inj. rewrite fint_add, !fint_of, <- Z.add_mod by exact Pnz. reflexivity. Qed.
Lemma fof_mul a b : fof (a * b) = fmul (fof a) (fof b).
Proof. apply fint_inj. rewrite fint_mul, !fint_of, <- Z.mul_mod by exact Pnz. reflexivity. Qed.
Lemma fof_0 : fof 0 = f0. Proof. apply fint_inj. rewrite fint_of, fint_0. reflexivity. Qed.
Lemma fof_1 : fof 1 = f1. Proof. apply fint_inj. rewrite fint_of, fint_1. reflexivity. Qed.

Lemma fsquare_mul a : fsquare a = fmul a a. Proof. reflexivity. Qed.
Lemma fdouble_add a : fdouble a = fadd a a.
Proof.
  apply fint_inj. rewrite fint_add. unfold fint, fdouble.
  destruct (double_spec _ (fr_fe a)) as [H1 H2]. rewrite fw_of_word by exact H1. rewrite H2.
  f_equal. lia.
Qed.

Lemma Fr_ring : ring_theory f0 f1 fadd fmul fsub fneg eq.
Proof.
  constructor; intros; apply fint_inj;
    rewrite ?fint_add, ?fint_sub, ?fint_mul, ?fint_neg, ?fint_add, ?fint_mul, ?fint_0, ?fint_1.
  - rewrite Z.add_0_l. apply fint_small.
  - rewrite Z.add_comm. reflexivity.
  - rewrite Z.add_mod_idemp_l, Z.add_mod_idemp_r, Z.add_assoc by exact Pnz. reflexivity.
  - rewrite Z.mul_1_l. apply fint_small.
  - rewrite Z.mul_comm. reflexivity.
  - rewrite Z.mul_mod_idemp_l, Z.mul_mod_idemp_r, Z.mul_assoc by exact Pnz. reflexivity.
  - rewrite Z.mul_mod_idemp_l, <- Z.add_mod, Z.mul_add_distr_r by exact Pnz. reflexivity.
  - rewrite Z.add_mod_idemp_r by exact Pnz. reflexivity.
  - rewrite Z.add_mod_idemp_r, Z.add_opp_diag_r by exact Pnz. reflexivity.
Qed.

Lemma f0_neq_f1 : f1 <> f0.
Proof. intros H. apply (f_equal fint) in H. rewrite fint_0, fint_1 in H. discriminate. Qed.

Lemma finv_l a : a <> f0 -> fmul (finv a) a = f1.
Proof.
  intros N. assert (N' : fw a <> 0).
  { intros H. apply N. apply fr_ext. rewrite H. reflexivity. }
  destruct (inverse_spec (fw a) (fr_fe a) N') as [b [Hb [Hf [_ Hm]]]].
  unfold finv. rewrite Hb. apply fint_inj. rewrite fint_mul, fint_1.
  unfold fint at 1. rewrite fw_of_word by exact Hf. unfold fint. rewrite Z.mul_comm. exact Hm.
Qed.

Lemma Fr_field : field_theory f0 f1 fadd fmul fsub fneg fdiv finv eq.
Proof.
  constructor; [exact Fr_ring|exact f0_neq_f1|reflexivity|exact finv_l].
Qed.

Lemma feqb_eq a b : feqb a b = true <-> a = b.
Proof.
  unfold feqb. rewrite Z.eqb_eq. split; [apply fr_ext|intros ->; reflexivity].
Qed.

Lemma feq_dec (a b : Fr) : {a = b} + {a <> b}.
Proof.
  destruct (feqb a b) eqn:E; [left; apply feqb_eq; exact E|right]. intros H. apply feqb_eq in H. congruence.
Qed.

Lemma finv_0 : finv f0 = f0.
Proof. apply fr_ext. vm_compute. reflexivity. Qed.

Lemma fint_exp a e : 0 <= e < W -> fint (fexp a e) = (fint a ^ e) mod P.
Proof.
  intros He. unfold fexp, fint. destruct (exp_is_pow (fw a) e (fr_fe a) He) as [_ [H1 H2]].
  rewrite fw_of_word by exact H1. exact H2.
Qed.

Add Field FrF : Fr_field.

(* keep unification from unfolding the 64-bit arithmetic; vm_compute still computes *)
Global Opaque f0 f1 fadd fsub fmul fneg fsquare fdouble finv fdiv feqb fexp fint fof.
