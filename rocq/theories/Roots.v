(* Roots of unity (constant.rs:54-68), powers and finite sums in F_p and K; integer logarithm. *)
From Verif Require Import Base NumTheory GlModel GlProof GlSqrt FrField F3gModel Cubic F3gProof PolyModel.
Open Scope Z_scope.

(* ---- powers ---- *)
Lemma fpow_add a n m : fpow a (n + m) = fmul (fpow a n) (fpow a m).
Proof. induction n; cbn [Nat.add fpow]; [ring|]. rewrite IHn. ring. Qed.
Lemma fpow_1 n : fpow f1 n = f1.
Proof. induction n; cbn [fpow]; [reflexivity|]. rewrite IHn. ring. Qed.
Lemma fpow_mul a n m : fpow a (n * m) = fpow (fpow a n) m.
Proof.
  induction m; [rewrite Nat.mul_0_r; reflexivity|].
  rewrite Nat.mul_succ_r, fpow_add, IHm. reflexivity.
Qed.
Lemma fpow_prod a b n : fpow (fmul a b) n = fmul (fpow a n) (fpow b n).
Proof. induction n; cbn [fpow]; [ring|]. rewrite IHn. ring. Qed.
Lemma fpow_S a n : fpow a (S n) = fmul (fpow a n) a. Proof. reflexivity. Qed.
Lemma fint_fpow a n : fint (fpow a n) = (fint a ^ Z.of_nat n) mod P.
Proof.
  induction n; cbn [fpow].
  - rewrite fint_1. reflexivity.
  - rewrite fint_mul, IHn, Z.mul_mod_idemp_l by exact Pnz. f_equal.
    rewrite Nat2Z.inj_succ, Z.pow_succ_r by lia. ring.
Qed.

Lemma kpow_1 n : kpow kone n = kone.
Proof. induction n; cbn [kpow]; [reflexivity|]. rewrite IHn. ring. Qed.
Lemma kpow_mul a n m : kpow a (n * m) = kpow (kpow a n) m.
Proof.
  induction m; [rewrite Nat.mul_0_r; reflexivity|].
  rewrite Nat.mul_succ_r, kpow_add, IHm. reflexivity.
Qed.
Lemma kpow_prod a b n : kpow (kmul a b) n = kmul (kpow a n) (kpow b n).
Proof. induction n; cbn [kpow]; [ring|]. rewrite IHn. ring. Qed.
Lemma kpow_S a n : kpow a (S n) = kmul (kpow a n) a. Proof. reflexivity. Qed.
Lemma kconst_mul a b : kconst (fmul a b) = kmul (kconst a) (kconst b).
Proof. apply k_ext; unfold kconst, kmul; cbn [k0 k1 k2]; ring. Qed.
Lemma kconst_add a b : kconst (fadd a b) = kadd (kconst a) (kconst b).
Proof. apply k_ext; unfold kconst, kadd; cbn [k0 k1 k2]; ring. Qed.
Lemma kconst_sub a b : kconst (fsub a b) = ksub (kconst a) (kconst b).
Proof. apply k_ext; unfold kconst, ksub; cbn [k0 k1 k2]; ring. Qed.
Lemma kconst_neg a : kconst (fneg a) = kneg (kconst a).
Proof. apply k_ext; unfold kconst, kneg; cbn [k0 k1 k2]; ring. Qed.
Lemma kconst_1 : kconst f1 = kone. Proof. reflexivity. Qed.
Lemma kconst_0 : kconst f0 = kzero. Proof. reflexivity. Qed.
Lemma kconst_inj a b : kconst a = kconst b -> a = b.
Proof. intros H. apply (f_equal k0) in H. exact H. Qed.
Global Opaque kadd ksub kmul kneg kinv kdiv kconst kzero kone.

Lemma kconst_pow a n : kconst (fpow a n) = kpow (kconst a) n.
Proof. induction n; cbn [fpow kpow]; [reflexivity|]. rewrite kconst_mul, IHn. reflexivity. Qed.

(* ---- the table ---- *)
Definition root (n : nat) : Fr := mg_down (32 - n).

Lemma MG_root n : (n <= 32)%nat -> MG n = Ok (root n).
Proof. intros H. unfold MG. apply Nat.leb_le in H. rewrite H. reflexivity. Qed.

Lemma root_step n : (n < 32)%nat -> root n = fmul (root (S n)) (root (S n)).
Proof.
  intros H. unfold root. replace (32 - n)%nat with (S (32 - S n)) by lia. reflexivity.
Qed.

Lemma mg_down_int k : fint (mg_down k) = (7 ^ ((2 ^ 32 - 1) * 2 ^ Z.of_nat k)) mod P.
Proof.
  assert (G : forall e, 0 <= e < W -> fint (fexp (fof 7) e) = 7 ^ e mod P).
  { intros e He. rewrite fint_exp by exact He. rewrite fint_of. reflexivity. }
  induction k; cbn [mg_down].
  - rewrite G by (split; [discriminate|reflexivity]).
    f_equal.
  - rewrite fint_mul, IHk, <- Z.mul_mod by exact Pnz. f_equal.
    rewrite Nat2Z.inj_succ, Z.pow_succ_r by lia.
    assert (E : forall x, 7 ^ (x * (2 * 2 ^ Z.of_nat k)) = 7 ^ (2 * (x * 2 ^ Z.of_nat k))) by (intros; f_equal; ring).
    rewrite E, Z.pow_twice_r. reflexivity.
Qed.

Lemma root_1 : root 1 = fneg f1.
Proof.
  apply fint_inj. unfold root. change (32 - 1)%nat with 31%nat. vm_compute. reflexivity.
Qed.

Lemma root_half n : (n < 32)%nat -> fpow (root (S n)) (2 ^ n) = fneg f1.
Proof.
  induction n as [|n IH]; intros H.
  - change (2 ^ 0)%nat with 1%nat. cbn [fpow]. rewrite root_1. ring.
  - rewrite Nat.pow_succ_r', fpow_mul. cbn [fpow].
    transitivity (fpow (root (S n)) (2 ^ n)); [|apply IH; lia].
    f_equal. rewrite (root_step (S n)) by lia. ring.
Qed.

Lemma root_0 : root 0 = f1.
Proof. rewrite root_step by lia. rewrite root_1. ring. Qed.

Lemma fneg1_neq : fneg f1 <> f1.
Proof. intros H. apply (f_equal fint) in H. revert H. vm_compute. discriminate. Qed.

Lemma root_full n : (n <= 32)%nat -> fpow (root n) (2 ^ n) = f1.
Proof.
  intros H. destruct n as [|n].
  - rewrite root_0. apply fpow_1.
  - rewrite Nat.pow_succ_r', Nat.mul_comm, fpow_mul, root_half by lia. cbn [fpow]. ring.
Qed.

Lemma fneg1_pow e : fpow (fneg f1) e = f1 -> Nat.Even e.
Proof.
  destruct (Nat.Even_or_Odd e) as [E|[m ->]]; [auto|].
  rewrite fpow_add, fpow_mul. replace (fpow (fneg f1) 2) with f1 by (cbn [fpow]; ring).
  rewrite fpow_1. cbn [fpow]. intros H. exfalso. apply fneg1_neq. rewrite <- H at 2. ring.
Qed.

Lemma root_order n d : (n <= 32)%nat -> (fpow (root n) d = f1 <-> Nat.divide (2 ^ n) d).
Proof.
  intros H. split.
  - revert d. induction n as [|n IH]; intros d Hd.
    + exists d. cbn. lia.
    + assert (D : Nat.divide (2 ^ n) d).
      { apply IH; [lia|]. rewrite root_step by lia. rewrite fpow_prod, Hd. ring. }
      destruct D as [e ->]. rewrite Nat.mul_comm, fpow_mul, root_half in Hd by lia.
      apply fneg1_pow in Hd. destruct Hd as [f ->]. exists f. rewrite Nat.pow_succ_r'. lia.
  - intros [e ->]. rewrite Nat.mul_comm, fpow_mul, root_full by exact H. apply fpow_1.
Qed.

Lemma f1_nz : f1 <> f0. Proof. exact f0_neq_f1. Qed.

Lemma mgi_spec k : fmul (mg_down k) (mgi_down k) = f1.
Proof.
  induction k.
  - change (mgi_down 0) with (finv (mg_down 0)).
    transitivity (fmul (finv (mg_down 0)) (mg_down 0)); [ring|]. apply finv_l.
    intros H. pose proof (root_full 32 (le_n _)) as R. unfold root in R.
    change (32 - 32)%nat with 0%nat in R. rewrite H in R. apply f1_nz. rewrite <- R.
    assert (E : forall m, (0 < m)%nat -> fpow f0 m = f0) by (intros [|m] Hm; [lia|]; cbn [fpow]; ring).
    apply E. pose proof (Nat.pow_nonzero 2 32). lia.
  - cbn [mg_down mgi_down]. transitivity (fmul (fmul (mg_down k) (mgi_down k)) (fmul (mg_down k) (mgi_down k))); [ring|].
    rewrite IHk. ring.
Qed.

Lemma shift_order : fint (fpos (fof 49) 4294967296) <> 1.
Proof. vm_compute. discriminate. Qed.

Lemma fpos_pow a e : fpos a e = fpow a (Pos.to_nat e).
Proof.
  apply fint_inj. rewrite fint_fpos, fint_fpow, positive_nat_Z. reflexivity.
Qed.

Lemma shift_outside n : (n <= 32)%nat -> fpow SHIFT (2 ^ n) <> f1.
Proof.
  intros H E. apply shift_order. rewrite fpos_pow.
  assert (X : Pos.to_nat 4294967296 = (2 ^ 32)%nat).
  { apply Nat2Z.inj. rewrite positive_nat_Z, Nat2Z.inj_pow. reflexivity. }
  rewrite X. replace (2 ^ 32)%nat with (2 ^ n * 2 ^ (32 - n))%nat.
  - rewrite fpow_mul. change (fof 49) with SHIFT. rewrite E, fpow_1. apply fint_1.
  - rewrite <- Nat.pow_add_r. f_equal. lia.
Qed.

(* ---- finite sums in K ---- *)
Fixpoint ksum (n : nat) (f : nat -> K) : K :=
  match n with O => kzero | S m => kadd (ksum m f) (f m) end.

Lemma ksum_ext n f g : (forall i, (i < n)%nat -> f i = g i) -> ksum n f = ksum n g.
Proof.
  induction n; intros H; cbn [ksum]; [reflexivity|]. rewrite IHn, H by auto. reflexivity.
Qed.
Lemma ksum_add n f g : ksum n (fun i => kadd (f i) (g i)) = kadd (ksum n f) (ksum n g).
Proof. induction n; cbn [ksum]; [ring|]. rewrite IHn. ring. Qed.
Lemma ksum_scale n c f : ksum n (fun i => kmul c (f i)) = kmul c (ksum n f).
Proof. induction n; cbn [ksum]; [ring|]. rewrite IHn. ring. Qed.
Lemma ksum_zero n : ksum n (fun _ => kzero) = kzero.
Proof. induction n; cbn [ksum]; [reflexivity|]. rewrite IHn. ring. Qed.
Lemma ksum_swap n m f :
  ksum n (fun i => ksum m (fun j => f i j)) = ksum m (fun j => ksum n (fun i => f i j)).
Proof.
  induction n; cbn [ksum].
  - symmetry. apply ksum_zero.
  - rewrite IHn, <- ksum_add. apply ksum_ext. intros. reflexivity.
Qed.
Lemma ksum_single n k f : (k < n)%nat -> (forall i, (i < n)%nat -> i <> k -> f i = kzero) -> ksum n f = f k.
Proof.
  induction n; intros Hk H; [lia|]. cbn [ksum]. destruct (Nat.eq_dec k n) as [->|N].
  - rewrite (ksum_ext n f (fun _ => kzero)), ksum_zero; [ring|]. intros i Hi. apply H; lia.
  - rewrite IHn by (try lia; intros; apply H; lia). rewrite (H n) by lia. ring.
Qed.
Lemma ksum_shift n f : ksum (S n) f = kadd (f 0%nat) (ksum n (fun i => f (S i))).
Proof. induction n; [cbn [ksum]; ring|]. cbn [ksum] in *. rewrite IHn. ring. Qed.
Lemma ksum_app n m f : ksum (n + m) f = kadd (ksum n f) (ksum m (fun i => f (n + i)%nat)).
Proof.
  induction m; cbn [ksum]; [rewrite Nat.add_0_r; ring|].
  rewrite Nat.add_succ_r. cbn [ksum]. rewrite IHm. ring.
Qed.

Lemma fof_nat_S n : kconst (fof (Z.of_nat (S n))) = kadd (kconst (fof (Z.of_nat n))) kone.
Proof. rewrite Nat2Z.inj_succ, <- Z.add_1_r, fof_add, fof_1, kconst_add. reflexivity. Qed.

Lemma ksum_one n : ksum n (fun _ => kone) = kconst (fof (Z.of_nat n)).
Proof. induction n; cbn [ksum]; [change (Z.of_nat 0) with 0; rewrite fof_0; reflexivity|]. rewrite IHn, fof_nat_S. reflexivity. Qed.

Lemma geometric w n : kmul (ksub w kone) (ksum n (fun i => kpow w i)) = ksub (kpow w n) kone.
Proof. induction n; cbn [ksum kpow]; [ring|]. 
  transitivity (kadd (kmul (ksub w kone) (ksum n (fun i => kpow w i))) (kmul (ksub w kone) (kpow w n))); [ring|].
  rewrite IHn. ring.
Qed.

Definition kroot (s : nat) : K := kconst (root s).

Lemma kroot_order s d : (s <= 32)%nat -> (kpow (kroot s) d = kone <-> Nat.divide (2 ^ s) d).
Proof.
  intros H. unfold kroot. rewrite <- kconst_pow, <- (root_order s d H). split.
  - intros E. apply kconst_inj. exact E.
  - intros ->. reflexivity.
Qed.
Lemma kroot_half n : (n < 32)%nat -> kpow (kroot (S n)) (2 ^ n) = kneg kone.
Proof. intros H. unfold kroot. rewrite <- kconst_pow, root_half by exact H. rewrite kconst_neg. reflexivity. Qed.
Lemma kroot_step n : (n < 32)%nat -> kroot n = kmul (kroot (S n)) (kroot (S n)).
Proof. intros H. unfold kroot. rewrite (root_step n H), kconst_mul. reflexivity. Qed.
Lemma kroot_full s : (s <= 32)%nat -> kpow (kroot s) (2 ^ s) = kone.
Proof. intros H. apply (kroot_order s); [exact H|]. exists 1%nat. lia. Qed.

(* orthogonality *)
Lemma orthogonal s a : (s <= 32)%nat ->
  (Nat.divide (2 ^ s) a -> ksum (2 ^ s) (fun i => kpow (kpow (kroot s) a) i) = kconst (fof (2 ^ Z.of_nat s))) /\
  (~ Nat.divide (2 ^ s) a -> ksum (2 ^ s) (fun i => kpow (kpow (kroot s) a) i) = kzero).
Proof.
  intros H. split.
  - intros D. apply (kroot_order s a H) in D. rewrite D.
    rewrite (ksum_ext _ _ (fun _ => kone)) by (intros; apply kpow_1).
    rewrite ksum_one, Nat2Z.inj_pow. reflexivity.
  - intros D. assert (N : kpow (kroot s) a <> kone) by (intros E; apply D; apply (kroot_order s a H); exact E).
    pose proof (geometric (kpow (kroot s) a) (2 ^ s)) as G.
    rewrite <- kpow_mul, Nat.mul_comm, kpow_mul, (kroot_full s H), kpow_1 in G.
    assert (G' : kmul (ksub (kpow (kroot s) a) kone) (ksum (2 ^ s) (fun i => kpow (kpow (kroot s) a) i)) = kzero)
      by (rewrite G; ring).
    apply k_integral in G'. destruct G' as [E|E]; [|exact E]. exfalso. apply N.
    transitivity (kadd (ksub (kpow (kroot s) a) kone) kone); [ring|]. rewrite E. ring.
Qed.

Lemma two_pow_nz s : (s <= 63)%nat -> kconst (fof (2 ^ Z.of_nat s)) <> kzero.
Proof.
  intros H E. rewrite <- kconst_0 in E. apply kconst_inj in E. apply (f_equal fint) in E.
  rewrite fint_of, fint_0 in E. rewrite Z.mod_small in E.
  - pose proof (Z.pow_pos_nonneg 2 (Z.of_nat s)). lia.
  - split; [apply Z.pow_nonneg; lia|].
    apply Z.le_lt_trans with (2 ^ 63); [apply Z.pow_le_mono_r; lia|reflexivity].
Qed.
