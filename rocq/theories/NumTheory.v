(* Elementary number theory over Z: Fermat's little theorem and a Proth-style primality argument
   for the Goldilocks modulus.  Independent of the model. *)
From Coq Require Import ZArith List Lia Znumtheory Permutation Bool.
Import ListNotations.
Open Scope Z_scope.

Definition zseq (n : nat) : list Z := map Z.of_nat (seq 1 n).

Definition zprod (l : list Z) : Z := fold_right Z.mul 1 l.

Lemma zseq_in n x : In x (zseq n) <-> 1 <= x <= Z.of_nat n.
Proof.
  unfold zseq. rewrite in_map_iff. split.
  - intros [k [<- Hk]]. apply in_seq in Hk. lia.
  - intros H. exists (Z.to_nat x). split; [lia|]. apply in_seq. lia.
Qed.

Lemma zseq_NoDup n : NoDup (zseq n).
Proof. apply FinFun.Injective_map_NoDup; [intros a b; lia | apply seq_NoDup]. Qed.

Lemma zprod_perm l l' : Permutation l l' -> zprod l = zprod l'.
Proof. unfold zprod. induction 1; cbn [fold_right]; try congruence. ring. Qed.

Lemma zprod_map_mod a q l : 0 < q ->
  (zprod (map (fun i => (a * i) mod q) l)) mod q = (a ^ Z.of_nat (length l) * zprod l) mod q.
Proof.
  intros Hq. induction l as [|x l IH].
  - cbn. reflexivity.
  - cbn [map zprod fold_right length]. fold (zprod l). fold (zprod (map (fun i => (a * i) mod q) l)).
    rewrite Nat2Z.inj_succ, Z.pow_succ_r by lia.
    rewrite Z.mul_mod, Z.mod_mod, IH by lia. rewrite <- Z.mul_mod by lia. f_equal. ring.
Qed.

Lemma mod_eq_divide a b q : 0 < q -> a mod q = b mod q <-> (q | a - b).
Proof.
  intros Hq. split.
  - intros H. apply Z.mod_divide; [lia|]. rewrite Zminus_mod, H, Z.sub_diag. apply Z.mod_0_l. lia.
  - intros [k Hk]. replace a with (b + k * q) by lia. apply Z.mod_add. lia.
Qed.

Lemma prime_zprod_coprime q n : prime q -> Z.of_nat n < q -> ~ (q | zprod (zseq n)).
Proof.
  intros Hp Hn. enough (G : forall l, (forall x, In x l -> 1 <= x < q) -> ~ (q | zprod l)).
  { apply G. intros x Hx. apply zseq_in in Hx. lia. }
  induction l as [|x l IH]; intros Hl.
  - cbn. intros H. apply Z.divide_1_r_nonneg in H; destruct Hp; lia.
  - cbn. intros H. apply prime_mult in H; [|exact Hp]. destruct H as [H|H].
    + apply Z.divide_pos_le in H; specialize (Hl x (or_introl eq_refl)); lia.
    + revert H. apply IH. intros y Hy. apply Hl. now right.
Qed.

Theorem fermat q a : prime q -> ~ (q | a) -> a ^ (q - 1) mod q = 1.
Proof.
  intros Hp Ha. assert (Hq : 1 < q) by (destruct Hp; lia).
  set (n := Z.to_nat (q - 1)).
  assert (Hn : Z.of_nat n = q - 1) by (unfold n; lia).
  set (f := fun i => (a * i) mod q).
  assert (HP : Permutation (map f (zseq n)) (zseq n)).
  { apply NoDup_Permutation_bis.
    - assert (Hinj : forall x y, In x (zseq n) -> In y (zseq n) -> f x = f y -> x = y).
      { intros x y Hx Hy H. apply zseq_in in Hx, Hy. unfold f in H.
        apply mod_eq_divide in H; [|lia].
        rewrite <- Z.mul_sub_distr_l in H. apply prime_mult in H; [|exact Hp].
        destruct H as [H|H]; [contradiction|]. destruct H as [k Hk].
        assert (k = 0) by nia. subst k. lia. }
      pose proof (zseq_NoDup n) as HN. revert Hinj HN. generalize (zseq n) as l.
      induction l as [|x l IH]; intros Hinj HN; cbn; constructor.
      + intros Hin. apply in_map_iff in Hin. destruct Hin as [y [Hy1 Hy2]].
        inversion HN as [|? ? Hx Hl]; subst. apply Hx.
        rewrite (Hinj x y); [exact Hy2|now left|now right|now symmetry].
      + inversion HN; subst. apply IH; [|assumption]. intros; apply Hinj; cbn; auto.
    - rewrite map_length. lia.
    - intros y Hy. apply in_map_iff in Hy. destruct Hy as [x [<- Hx]].
      apply zseq_in in Hx. apply zseq_in. unfold f.
      pose proof (Z.mod_pos_bound (a * x) q ltac:(lia)).
      assert ((a * x) mod q <> 0).
      { intros H0. apply Z.mod_divide in H0; [|lia]. apply prime_mult in H0; [|exact Hp].
        destruct H0 as [H0|H0]; [contradiction|]. apply Z.divide_pos_le in H0; lia. }
      lia. }
  apply zprod_perm in HP.
  pose proof (zprod_map_mod a q (zseq n) ltac:(lia)) as HM. fold f in HM.
  rewrite HP in HM. unfold zseq in HM at 2. rewrite map_length, seq_length, Hn in HM.
  symmetry in HM. apply mod_eq_divide in HM; [|lia].
  replace (a ^ (q - 1) * zprod (zseq n) - zprod (zseq n))
    with ((a ^ (q - 1) - 1) * zprod (zseq n)) in HM by ring.
  apply prime_mult in HM; [|exact Hp]. destruct HM as [HM|HM].
  - apply mod_eq_divide in HM; [|lia]. rewrite HM. apply Z.mod_1_l. lia.
  - exfalso. revert HM. apply prime_zprod_coprime; [exact Hp|lia].
Qed.

(* fast modular exponentiation used only for certificates *)
Fixpoint powm_pos (m a : Z) (e : positive) : Z :=
  match e with
  | xH => a mod m
  | xO e => let t := powm_pos m a e in (t * t) mod m
  | xI e => let t := powm_pos m a e in (((t * t) mod m) * a) mod m
  end.
Definition powm (m a e : Z) : Z := match e with Zpos p => powm_pos m a p | _ => 1 mod m end.

Lemma powm_pos_spec m a e : 0 < m -> powm_pos m a e = a ^ Zpos e mod m.
Proof.
  intros Hm. induction e as [e IH|e IH|]; cbn [powm_pos].
  - rewrite IH, <- (Z.mul_mod (a ^ Zpos e)) by lia. rewrite Z.mul_mod_idemp_l by lia.
    f_equal. replace (Zpos e~1) with (Zpos e + Zpos e + 1) by lia.
    rewrite !Z.pow_add_r by lia. ring.
  - rewrite IH, <- Z.mul_mod by lia. f_equal.
    replace (Zpos e~0) with (Zpos e + Zpos e) by lia. rewrite Z.pow_add_r by lia. reflexivity.
  - rewrite Z.pow_1_r. reflexivity.
Qed.

Lemma powm_spec m a e : 0 < m -> 0 <= e -> powm m a e = a ^ e mod m.
Proof.
  intros Hm He. destruct e as [|e|e]; [reflexivity|apply powm_pos_spec; lia|lia].
Qed.

Lemma pow_mod m a e : 0 < m -> (a mod m) ^ e mod m = a ^ e mod m.
Proof.
  intros Hm. destruct (Z_lt_le_dec e 0) as [He|He].
  - rewrite !Z.pow_neg_r by lia. reflexivity.
  - pattern e. apply natlike_ind; [reflexivity| |exact He].
    intros x Hx IH. rewrite !Z.pow_succ_r by lia.
    rewrite Z.mul_mod, IH, Z.mod_mod, <- Z.mul_mod by lia. reflexivity.
Qed.

Lemma mod_divisor a b d n : 0 < d -> 0 < n -> (d | n) -> a mod n = b mod n -> a mod d = b mod d.
Proof.
  intros Hd Hn Hdn H. apply mod_eq_divide; [lia|]. apply mod_eq_divide in H; [|lia].
  eapply Z.divide_trans; eauto.
Qed.

Lemma odd_part_pos (k : positive) : exists e o, 0 <= e /\ Zpos k = 2 ^ e * (2 * o + 1) /\ 0 <= o.
Proof.
  induction k as [k IH|k IH|].
  - exists 0, (Zpos k). lia.
  - destruct IH as [e [o [He [Ho Hoo]]]]. exists (e + 1), o.
    rewrite Z.pow_add_r by lia. lia.
  - exists 0, 0. lia.
Qed.

Lemma pow_m1_odd o d : 0 < d -> 0 <= o -> (-1) ^ (2 * o + 1) mod d = (-1) mod d.
Proof.
  intros Hd Ho. rewrite Z.pow_add_r, Z.pow_mul_r by lia.
  replace ((-1) ^ 2) with 1 by reflexivity. rewrite Z.pow_1_l by lia. reflexivity.
Qed.

(* if b^(2^(k-1)) = -1 modulo an odd d > 1 then the powers of b below 2^k are distinct mod d *)
Section Order.
  Variables d b k : Z.
  Hypothesis Hd : 2 < d.
  Hypothesis Hk : 1 <= k.
  Hypothesis Hb : b ^ (2 ^ (k - 1)) mod d = (-1) mod d.

  Lemma order_full : b ^ (2 ^ k) mod d = 1 mod d.
  Proof.
    replace (2 ^ k) with (2 ^ (k - 1) * 2)
      by (replace k with (k - 1 + 1) at 2 by lia; rewrite Z.pow_add_r by lia; reflexivity).
    rewrite Z.pow_mul_r by (try apply Z.pow_nonneg; lia).
    rewrite <- pow_mod by lia. rewrite Hb. rewrite pow_mod by lia. reflexivity.
  Qed.

  Lemma order_not_one j : 0 < j < 2 ^ k -> b ^ j mod d <> 1 mod d.
  Proof.
    intros [Hj1 Hj2] H1. destruct j as [|j|j]; try lia.
    destruct (odd_part_pos j) as [e [o [He [Heo Ho]]]].
    assert (Hek : e < k).
    { destruct (Z_lt_le_dec e k) as [L|L]; [exact L|].
      pose proof (Z.pow_le_mono_r 2 k e ltac:(lia) L). nia. }
    assert (A : b ^ (Zpos j * 2 ^ (k - 1 - e)) mod d = 1 mod d).
    { rewrite Z.pow_mul_r by (try apply Z.pow_nonneg; lia).
      rewrite <- pow_mod by lia. rewrite H1. rewrite pow_mod by lia.
      rewrite Z.pow_1_l by (apply Z.pow_nonneg; lia). reflexivity. }
    assert (B : b ^ (Zpos j * 2 ^ (k - 1 - e)) mod d = (-1) mod d).
    { rewrite Heo. replace (2 ^ e * (2 * o + 1) * 2 ^ (k - 1 - e))
        with (2 ^ (k - 1) * (2 * o + 1)).
      2:{ replace (k - 1) with (e + (k - 1 - e)) at 1 by lia. rewrite Z.pow_add_r by lia. ring. }
      rewrite Z.pow_mul_r by (try apply Z.pow_nonneg; lia).
      rewrite <- pow_mod by lia. rewrite Hb. rewrite pow_mod by lia.
      apply pow_m1_odd; lia. }
    rewrite A in B. apply mod_eq_divide in B; [|lia].
    replace (1 - -1) with 2 in B by reflexivity. apply Z.divide_pos_le in B; lia.
  Qed.

  Lemma order_inj i j : 0 <= i < 2 ^ k -> 0 <= j < 2 ^ k -> b ^ i mod d = b ^ j mod d -> i = j.
  Proof.
    assert (W : forall i j, 0 <= i -> i < j -> j < 2 ^ k -> b ^ i mod d = b ^ j mod d -> False).
    { clear i j. intros i j Hi Hij Hj H.
      apply (order_not_one (j - i)); [lia|].
      (* multiply by b^(2^k - i) *)
      assert (E : (b ^ i * b ^ (2 ^ k - i)) mod d = (b ^ j * b ^ (2 ^ k - i)) mod d).
      { rewrite Z.mul_mod, H, <- Z.mul_mod by lia. reflexivity. }
      rewrite <- !Z.pow_add_r in E by lia.
      replace (i + (2 ^ k - i)) with (2 ^ k) in E by lia.
      replace (j + (2 ^ k - i)) with (2 ^ k + (j - i)) in E by lia.
      rewrite order_full in E. rewrite Z.pow_add_r in E by lia.
      rewrite Z.mul_mod in E by lia. rewrite order_full in E.
      rewrite <- Z.mul_mod in E by lia. rewrite Z.mul_1_l in E. symmetry. exact E. }
    intros Hi Hj H. destruct (Z.lt_trichotomy i j) as [L|[L|L]]; [|exact L|]; exfalso.
    - apply (W i j); lia.
    - apply (W j i); lia.
  Qed.

  Lemma order_bound : 2 ^ k <= d.
  Proof.
    set (L := map (fun i => b ^ Z.of_nat i mod d) (seq 0 (Z.to_nat (2 ^ k)))).
    assert (H2 : 0 < 2 ^ k) by (apply Z.pow_pos_nonneg; lia).
    assert (NoDup L).
    { unfold L. assert (Hinj : forall x y, In x (seq 0 (Z.to_nat (2 ^ k))) ->
        In y (seq 0 (Z.to_nat (2 ^ k))) -> b ^ Z.of_nat x mod d = b ^ Z.of_nat y mod d -> x = y).
      { intros x y Hx Hy H. apply in_seq in Hx, Hy.
        apply order_inj in H; lia. }
      pose proof (seq_NoDup (Z.to_nat (2 ^ k)) 0) as HN. revert Hinj HN.
      generalize (seq 0 (Z.to_nat (2 ^ k))) as l.
      induction l as [|x l IH]; intros Hinj HN; cbn; constructor.
      + intros Hin. apply in_map_iff in Hin. destruct Hin as [y [Hy1 Hy2]].
        inversion HN as [|? ? Hx Hl]; subst. apply Hx.
        rewrite (Hinj x y); [exact Hy2|now left|now right|now symmetry].
      + inversion HN; subst. apply IH; [|assumption]. intros; apply Hinj; cbn; auto. }
    assert (incl L (map Z.of_nat (seq 0 (Z.to_nat d)))).
    { intros x Hx. unfold L in Hx. apply in_map_iff in Hx. destruct Hx as [i [<- _]].
      pose proof (Z.mod_pos_bound (b ^ Z.of_nat i) d ltac:(lia)).
      apply in_map_iff. exists (Z.to_nat (b ^ Z.of_nat i mod d)). split; [lia|].
      apply in_seq. lia. }
    pose proof (NoDup_incl_length H H0) as HL. unfold L in HL.
    rewrite !map_length, !seq_length in HL. lia.
  Qed.
End Order.

Definition P : Z := 18446744069414584321.

Lemma P_pow_cert : exists b k, k = 32 /\ b ^ (2 ^ (k - 1)) mod P = (-1) mod P.
Proof.
  exists 1753635133440165772, 32. split; [reflexivity|].
  rewrite <- powm_spec; [vm_compute; reflexivity|reflexivity|apply Z.pow_nonneg; discriminate].
Qed.

Lemma P_divisors d : 1 < d -> (d | P) -> 2 ^ 32 <= d.
Proof.
  intros Hd Hdiv.
  destruct (Z.eq_dec d 2) as [->|Hd2].
  { exfalso. destruct Hdiv as [k Hk]. unfold P in Hk. lia. }
  destruct P_pow_cert as [b [k [Hk Hb]]].
  rewrite <- Hk. apply (order_bound d b k); [lia|lia|].
  revert Hb. generalize (b ^ (2 ^ (k - 1))) as t. intros t Hb.
  apply (mod_divisor _ _ d P); [lia|reflexivity|exact Hdiv|exact Hb].
Qed.

Theorem P_prime : prime P.
Proof.
  constructor; [unfold P; lia|]. intros n Hn.
  apply Zgcd_1_rel_prime.
  set (g := Z.gcd n P). destruct (Z.eq_dec g 1) as [E|E]; [exact E|exfalso].
  assert (Hg0 : 0 <= g) by apply Z.gcd_nonneg.
  assert (Hgn : (g | n)) by apply Z.gcd_divide_l.
  assert (HgP : (g | P)) by apply Z.gcd_divide_r.
  assert (Hg : 1 < g).
  { destruct (Z.eq_dec g 0) as [E0|E0]; [|lia]. exfalso.
    apply Z.gcd_eq_0_l in E0. lia. }
  destruct HgP as [h Hh]. assert (Hgle : g <= n) by (apply Z.divide_pos_le in Hgn; lia).
  assert (Hh1 : 1 < h) by (assert (g < P) by lia; nia).
  assert (HhP : (h | P)) by (exists g; lia).
  pose proof (P_divisors g Hg (Z.gcd_divide_r n P)).
  pose proof (P_divisors h Hh1 HhP).
  change (2 ^ 32) with 4294967296 in *. unfold P in *. nia.
Qed.

Lemma fermat_P a : ~ (P | a) -> a ^ (P - 1) mod P = 1.
Proof. apply fermat. exact P_prime. Qed.

Lemma P_no_zero_div a b : (a * b) mod P = 0 -> a mod P = 0 \/ b mod P = 0.
Proof.
  intros H. apply Z.mod_divide in H; [|unfold P; lia].
  apply prime_mult in H; [|exact P_prime].
  destruct H; [left|right]; apply Z.mod_divide; auto; unfold P; lia.
Qed.
