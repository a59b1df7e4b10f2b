From Verif Require Import Base NumTheory GlModel.
From Coq Require Import Znumtheory.
Open Scope Z_scope.

(* a stored word of a field element *)
Definition fe (a : Z) : Prop := 0 <= a < MODULUS.

Lemma MODULUS_P : MODULUS = P. Proof. reflexivity. Qed.
Lemma W_val : W = 18446744073709551616. Proof. reflexivity. Qed.

Ltac wsimp := unfold fe, MODULUS, RR, R2, INV, ZERO, ONE in *; rewrite ?W_val in *.

Lemma reduce_spec a : 0 <= a <= MODULUS -> fe (reduce a) /\ (reduce a = a \/ reduce a = a - MODULUS).
Proof.
  intros H. unfold reduce, is_valid, sub_noborrow, sbb. cbn [fst].
  destruct (Z.ltb_spec a MODULUS) as [L|L].
  - split; [unfold fe; lia|left; reflexivity].
  - assert (a = MODULUS) by lia. subst a. vm_compute. intuition congruence.
Qed.

Lemma reduce_spec2 a : 0 <= a < W -> fe (reduce a) /\ reduce a mod MODULUS = a mod MODULUS.
Proof.
  intros H. unfold reduce, is_valid, sub_noborrow, sbb. cbn [fst].
  destruct (Z.ltb_spec a MODULUS) as [L|L].
  - split; [unfold fe; lia|reflexivity].
  - assert (E : (W + a - MODULUS - 0) mod W = a - MODULUS).
    { replace (W + a - MODULUS - 0) with (a - MODULUS + 1 * W) by ring.
      rewrite Z.mod_add by (rewrite W_val; lia). apply Z.mod_small. unfold MODULUS in *. lia. }
    rewrite E. split; [unfold fe, MODULUS in *; rewrite W_val in H; lia|].
    apply mod_eq_divide; [reflexivity|]. exists (-1). ring.
Qed.

Lemma mont_reduce_spec r0 r1 : 0 <= r0 < W -> 0 <= r1 < W ->
  fe (mont_reduce r0 r1) /\ exists q, mont_reduce r0 r1 * (W * W) = r0 + r1 * W + q * MODULUS.
Proof.
  intros H0 H1. unfold mont_reduce, mac_with_carry, adc. cbn [fst snd].
  set (k := (r0 * INV) mod W).
  set (c1 := (r0 + k * MODULUS + 0) / W).
  set (s := r1 + k * 0 + c1).
  set (r1' := s mod W). set (cc := s / W).
  set (k2 := (r1' * INV) mod W).
  set (c2 := (r1' + k2 * MODULUS + 0) / W).
  assert (Hk : 0 <= k < W) by (apply Z.mod_pos_bound; reflexivity).
  assert (Hk2 : 0 <= k2 < W) by (apply Z.mod_pos_bound; reflexivity).
  assert (Hr1' : 0 <= r1' < W) by (apply Z.mod_pos_bound; reflexivity).
  assert (G : forall r, 0 <= r -> (r + ((r * INV) mod W) * MODULUS + 0) mod W = 0).
  { intros r Hr. rewrite Z.add_0_r. rewrite Z.add_mod, Z.mul_mod, Z.mod_mod by discriminate.
    rewrite <- Z.mul_mod, <- Z.add_mod by discriminate.
    replace (r + r * INV * MODULUS) with ((r * ((INV * MODULUS + 1) / W)) * W).
    - apply Z.mod_mul. discriminate.
    - replace (r + r * INV * MODULUS) with (r * (INV * MODULUS + 1)) by ring.
      rewrite <- Z.mul_assoc. reflexivity. }
  assert (E1 : r0 + k * MODULUS = c1 * W).
  { unfold c1, k. pose proof (G r0 ltac:(lia)) as G0.
    pose proof (Z.div_mod (r0 + (r0 * INV) mod W * MODULUS + 0) W ltac:(discriminate)). lia. }
  assert (E2 : r1' + k2 * MODULUS = c2 * W).
  { unfold c2, k2. pose proof (G r1' ltac:(lia)) as G0.
    pose proof (Z.div_mod (r1' + (r1' * INV) mod W * MODULUS + 0) W ltac:(discriminate)). lia. }
  assert (E3 : r1 + c1 = cc * W + r1').
  { unfold cc, r1'. pose proof (Z.div_mod s W ltac:(discriminate)). unfold s in *. lia. }
  clearbody k k2 c1 c2 r1' cc. clear G s.
  assert (Hcc : 0 <= cc <= 1) by (wsimp; lia).
  assert (Hc2 : 0 <= c2) by (wsimp; lia).
  assert (Hs : 0 <= cc + c2 <= MODULUS) by (wsimp; lia).
  change (0 + 0 + cc) with cc. rewrite (Z.mod_small cc) by (wsimp; lia).
  rewrite Z.mul_0_r, Z.add_0_r.
  rewrite (Z.mod_small (cc + c2)) by (wsimp; lia).
  destruct (reduce_spec (cc + c2) Hs) as [Hfe Hr]. split; [exact Hfe|].
  assert (T : (cc + c2) * (W * W) = r0 + r1 * W + (k + k2 * W) * MODULUS) by (wsimp; lia).
  destruct Hr as [->| ->].
  - eexists. exact T.
  - exists (k + k2 * W - W * W). rewrite Z.mul_sub_distr_r, T. ring.
Qed.

(* 2^-128 mod p *)
Definition RINV : Z := 18446744065119617026 * 0 + powm P (2 ^ 128) (P - 2).

Lemma RINV_ok : (W * W * RINV) mod P = 1. Proof. vm_compute. reflexivity. Qed.

Lemma mont_cancel a b : (a * (W * W)) mod P = (b * (W * W)) mod P -> a mod P = b mod P.
Proof.
  intros H.
  assert (E : (a * (W * W) * RINV) mod P = (b * (W * W) * RINV) mod P).
  { rewrite Z.mul_mod, H, <- Z.mul_mod by discriminate. reflexivity. }
  rewrite <- !Z.mul_assoc in E.
  rewrite (Z.mul_assoc W), Z.mul_mod, (Z.mul_mod b), RINV_ok in E by discriminate.
  rewrite !Z.mul_1_r, !Z.mod_mod in E by discriminate. exact E.
Qed.

Lemma as_int_range a : fe a -> 0 <= as_int a < MODULUS.
Proof.
  intros H. apply (mont_reduce_spec a 0); wsimp; lia.
Qed.

Lemma as_int_spec a : fe a -> (as_int a * (W * W)) mod P = a mod P.
Proof.
  intros H. destruct (mont_reduce_spec a 0) as [_ [q Hq]]; [wsimp; lia..|].
  unfold as_int, into_repr. rewrite Hq. rewrite MODULUS_P.
  replace (a + 0 * W + q * P) with (a + q * P) by ring. apply Z.mod_add. discriminate.
Qed.

(* the canonical integer is characterised by a = n * 2^128 *)
Lemma as_int_unique a n : fe a -> 0 <= n < MODULUS -> (n * (W * W)) mod P = a mod P -> as_int a = n.
Proof.
  intros Ha Hn H. rewrite <- (as_int_spec a Ha) in H. apply mont_cancel in H.
  pose proof (as_int_range a Ha). rewrite MODULUS_P in *.
  rewrite !Z.mod_small in H by lia. congruence.
Qed.

Lemma as_int_mod a n : fe a -> (n * (W * W)) mod P = a mod P -> as_int a = n mod P.
Proof.
  intros Ha H. apply as_int_unique; [exact Ha|apply Z.mod_pos_bound; reflexivity|].
  rewrite Z.mul_mod_idemp_l by discriminate. exact H.
Qed.

Lemma as_int_inj a b : fe a -> fe b -> as_int a = as_int b -> a = b.
Proof.
  intros Ha Hb H. pose proof (as_int_spec a Ha) as A. pose proof (as_int_spec b Hb) as B.
  rewrite H, B in A. unfold fe in *. rewrite MODULUS_P in *. rewrite !Z.mod_small in A by lia. congruence.
Qed.

Lemma mul_spec a b : fe a -> fe b -> fe (mul a b) /\ as_int (mul a b) = (as_int a * as_int b) mod P.
Proof.
  intros Ha Hb. unfold mul, mac_with_carry. cbn [fst snd].
  set (t := 0 + a * b + 0).
  assert (Ht : 0 <= t < W * W) by (unfold t; wsimp; nia).
  assert (H0 : 0 <= t mod W < W) by (apply Z.mod_pos_bound; reflexivity).
  assert (H1 : 0 <= t / W < W).
  { split; [apply Z.div_pos; [lia|reflexivity]|apply Z.div_lt_upper_bound; [reflexivity|lia]]. }
  destruct (mont_reduce_spec (t mod W) (t / W) H0 H1) as [Hfe [q Hq]].
  split; [exact Hfe|]. apply as_int_mod; [exact Hfe|].
  apply mont_cancel. rewrite Hq.
  replace (t mod W + t / W * W) with (a * b)
    by (pose proof (Z.div_mod t W ltac:(discriminate)); unfold t in *; lia).
  rewrite MODULUS_P, Z.mod_add by discriminate.
  rewrite (Z.mul_mod a b), <- (as_int_spec a Ha), <- (as_int_spec b Hb), <- Z.mul_mod by discriminate.
  f_equal. ring.
Qed.

Lemma add_nocarry_spec a b : fe a -> fe b ->
  0 <= add_nocarry a b < W /\ add_nocarry a b mod P = (a + b) mod P /\
  (* the in-place += never overflows *)
  (0 < snd (adc a b 0) -> fst (adc a b 0) + R2 < W).
Proof.
  intros Ha Hb. unfold add_nocarry, adc. cbn [fst snd]. rewrite Z.add_0_r.
  destruct (Z_lt_le_dec (a + b) W) as [L|L].
  - rewrite (Z.div_small (a + b) W), (Z.mod_small (a + b) W) by (wsimp; lia). cbn [Z.ltb Z.compare].
    split; [wsimp; lia|]. split; [reflexivity|lia].
  - assert (D : (a + b) / W = 1) by (symmetry; apply Z.div_unique with (r := a + b - W); wsimp; lia).
    assert (M : (a + b) mod W = a + b - W) by (symmetry; apply Z.mod_unique with (q := 1); wsimp; lia).
    rewrite D, M. cbn [Z.ltb Z.compare]. rewrite (Z.mod_small (a + b - W + R2) W) by (wsimp; lia).
    split; [wsimp; lia|]. split; [|wsimp; lia].
    apply mod_eq_divide; [reflexivity|]. exists (-1). unfold P. wsimp. lia.
Qed.

Lemma add_spec a b : fe a -> fe b -> fe (add a b) /\ as_int (add a b) = (as_int a + as_int b) mod P.
Proof.
  intros Ha Hb. destruct (add_nocarry_spec a b Ha Hb) as [H1 [H2 _]].
  unfold add. destruct (reduce_spec2 _ H1) as [Hfe Hm]. split; [exact Hfe|].
  apply as_int_mod; [exact Hfe|]. rewrite MODULUS_P in Hm. rewrite Hm, H2.
  rewrite Z.mul_add_distr_r, Z.add_mod, !as_int_spec, <- Z.add_mod by (assumption || discriminate).
  reflexivity.
Qed.

Lemma sub_noborrow_small a b : 0 <= b <= a -> a < W -> sub_noborrow a b = a - b.
Proof.
  intros H1 H2. unfold sub_noborrow, sbb. cbn [fst].
  replace (W + a - b - 0) with (a - b + 1 * W) by ring.
  rewrite Z.mod_add by discriminate. apply Z.mod_small. lia.
Qed.

Lemma sub_spec a b : fe a -> fe b -> fe (sub a b) /\ as_int (sub a b) = (as_int a - as_int b) mod P.
Proof.
  intros Ha Hb. unfold sub.
  assert (K : forall r, fe r -> r mod P = (a - b) mod P -> as_int r = (as_int a - as_int b) mod P).
  { intros r Hr H. apply as_int_mod; [exact Hr|]. rewrite H.
    rewrite Z.mul_sub_distr_r, Zminus_mod, !as_int_spec, <- Zminus_mod by assumption. reflexivity. }
  destruct (Z.ltb_spec a b) as [L|L].
  - rewrite (sub_noborrow_small MODULUS b) by (wsimp; lia).
    assert (E : add_nocarry a (MODULUS - b) = a + (MODULUS - b)).
    { unfold add_nocarry, adc. rewrite Z.add_0_r.
      rewrite (Z.div_small (a + (MODULUS - b))), (Z.mod_small (a + (MODULUS - b)) W) by (wsimp; lia). reflexivity. }
    rewrite E. split; [wsimp; lia|]. apply K; [wsimp; lia|].
    apply mod_eq_divide; [reflexivity|]. exists 1. rewrite MODULUS_P. ring.
  - rewrite sub_noborrow_small by (wsimp; lia). split; [wsimp; lia|]. apply K; [wsimp; lia|reflexivity].
Qed.

Lemma neg_spec a : fe a -> fe (neg a) /\ as_int (neg a) = (- as_int a) mod P.
Proof.
  intros Ha. unfold neg.
  assert (K : forall r, fe r -> r mod P = (- a) mod P -> as_int r = (- as_int a) mod P).
  { intros r Hr H. apply as_int_mod; [exact Hr|]. rewrite H.
    pose proof (as_int_spec a Ha) as A. apply mod_eq_divide in A; [|reflexivity].
    apply mod_eq_divide; [reflexivity|].
    replace (- as_int a * (W * W) - - a) with (- (as_int a * (W * W) - a)) by ring.
    apply Z.divide_opp_r. exact A. }
  destruct (Z.eqb_spec a 0) as [->|N].
  - split; [exact Ha|]. apply K; [exact Ha|reflexivity].
  - rewrite sub_noborrow_small by (wsimp; lia). split; [wsimp; lia|]. apply K; [wsimp; lia|].
    apply mod_eq_divide; [reflexivity|]. exists 1. rewrite MODULUS_P. ring.
Qed.

Lemma double_spec a : fe a -> fe (double a) /\ as_int (double a) = (2 * as_int a) mod P.
Proof.
  intros Ha.
  assert (H1 : 0 <= mul2 a < W /\ mul2 a mod P = (a + a) mod P).
  { unfold mul2. destruct (Z_lt_le_dec (a * 2) W) as [L|L].
    - rewrite (Z.div_small a (2 ^ 63)), (Z.mod_small (a * 2) W) by (change (2 ^ 63) with 9223372036854775808; wsimp; lia).
      cbn [Z.ltb Z.compare]. split; [wsimp; lia|f_equal; ring].
    - assert (D : a / 2 ^ 63 = 1) by (symmetry; apply Z.div_unique with (r := a - 2 ^ 63);
        change (2 ^ 63) with 9223372036854775808; wsimp; lia).
      assert (M : (a * 2) mod W = a * 2 - W) by (symmetry; apply Z.mod_unique with (q := 1); wsimp; lia).
      rewrite D, M. cbn [Z.ltb Z.compare]. rewrite (Z.mod_small (a * 2 - W + R2) W) by (wsimp; lia).
      split; [wsimp; lia|]. apply mod_eq_divide; [reflexivity|]. exists (-1). unfold P. wsimp. lia. }
  destruct H1 as [H1 H2]. unfold double. destruct (reduce_spec2 _ H1) as [Hfe Hm].
  split; [exact Hfe|]. apply as_int_mod; [exact Hfe|]. rewrite MODULUS_P in Hm. rewrite Hm, H2.
  pose proof (as_int_spec a Ha) as A. apply mod_eq_divide in A; [|reflexivity].
  apply mod_eq_divide; [reflexivity|].
  replace (2 * as_int a * (W * W) - (a + a)) with (2 * (as_int a * (W * W) - a)) by ring.
  apply Z.divide_mul_r. exact A.
Qed.

Lemma square_spec a : fe a -> fe (square a) /\ as_int (square a) = (as_int a * as_int a) mod P.
Proof. intros Ha. unfold square. exact (mul_spec a a Ha Ha). Qed.

(* conversions *)
Lemma fe_R2 : fe R2. Proof. unfold fe; vm_compute; intuition congruence. Qed.
Lemma as_int_R2 : as_int R2 = (W * W) mod P. Proof. vm_compute. reflexivity. Qed.
Lemma fe_ONE : fe ONE. Proof. unfold fe; vm_compute; intuition congruence. Qed.
Lemma as_int_ONE : as_int ONE = 1. Proof. vm_compute. reflexivity. Qed.
Lemma fe_ZERO : fe ZERO. Proof. unfold fe; vm_compute; intuition congruence. Qed.
Lemma as_int_ZERO : as_int ZERO = 0. Proof. vm_compute. reflexivity. Qed.
Lemma fe_ROOT : fe ROOT_OF_UNITY. Proof. unfold fe; vm_compute; intuition congruence. Qed.

Lemma mulR2_spec n : fe n -> fe (mul n R2) /\ as_int (mul n R2) = n.
Proof.
  intros Hn. destruct (mul_spec n R2 Hn fe_R2) as [Hfe H]. split; [exact Hfe|].
  rewrite H, as_int_R2, Z.mul_mod_idemp_r, as_int_spec by (assumption || discriminate).
  apply Z.mod_small. exact Hn.
Qed.

Lemma from_repr_ok n : fe n -> exists a, from_repr n = Ok a /\ fe a /\ as_int a = n.
Proof.
  intros Hn. unfold from_repr, is_valid.
  destruct (Z.ltb_spec n MODULUS); [|unfold fe in Hn; lia].
  exists (mul n R2). split; [reflexivity|]. apply mulR2_spec. exact Hn.
Qed.

Lemma from_repr_rejects n : MODULUS <= n -> from_repr n = Err /\ from_u64 n = Panic.
Proof.
  intros Hn. unfold from_u64, from_repr, is_valid.
  destruct (Z.ltb_spec n MODULUS); [lia|]. split; reflexivity.
Qed.

Lemma from_into a : fe a -> from_repr (into_repr a) = Ok a.
Proof.
  intros Ha. destruct (from_repr_ok (into_repr a) (as_int_range a Ha)) as [b [Hb [Hfe Hi]]].
  rewrite Hb. f_equal. apply as_int_inj; assumption.
Qed.

(* exponentiation *)
Lemma squares_spec n a : fe a -> fe (squares n a) /\ as_int (squares n a) = (as_int a) ^ (2 ^ Z.of_nat n) mod P.
Proof.
  intros Ha. induction n as [|n [IH1 IH2]].
  - cbn [squares Nat.iter]. split; [exact Ha|]. change (2 ^ Z.of_nat 0) with 1. rewrite Z.pow_1_r.
    rewrite Z.mod_small; [reflexivity|]. apply as_int_range; exact Ha.
  - change (squares (S n) a) with (square (squares n a)).
    destruct (square_spec _ IH1) as [H1 H2]. split; [exact H1|].
    rewrite H2, IH2, <- Z.mul_mod by discriminate.
    rewrite <- Z.pow_add_r by (apply Z.pow_nonneg; lia). f_equal. f_equal.
    rewrite Nat2Z.inj_succ, Z.pow_succ_r by lia. ring.
Qed.

Definition is_pow (a r : Z) (e : Z) : Prop := 0 <= e /\ fe r /\ as_int r = (as_int a) ^ e mod P.

Lemma is_pow_mul a r s e f : is_pow a r e -> is_pow a s f -> is_pow a (mul r s) (e + f).
Proof.
  intros [E [Hr HR]] [F [Hs HS]]. destruct (mul_spec r s Hr Hs) as [H1 H2].
  split; [lia|]. split; [exact H1|]. rewrite H2, HR, HS, <- Z.mul_mod, Z.pow_add_r by (lia || discriminate).
  reflexivity.
Qed.
Lemma is_pow_square a r e : is_pow a r e -> is_pow a (square r) (2 * e).
Proof. intros H. replace (2 * e) with (e + e) by ring. unfold square. exact (is_pow_mul a r r e e H H). Qed.
Lemma is_pow_one a : is_pow a ONE 0.
Proof. split; [lia|]. split; [exact fe_ONE|]. rewrite as_int_ONE. reflexivity. Qed.
Lemma is_pow_self a : fe a -> is_pow a a 1.
Proof.
  intros H. split; [lia|]. split; [exact H|]. rewrite Z.pow_1_r, Z.mod_small; [reflexivity|].
  apply as_int_range; exact H.
Qed.
Lemma is_pow_squares a r e n : is_pow a r e -> is_pow a (squares n r) (2 ^ Z.of_nat n * e).
Proof.
  intros H. induction n as [|n IH].
  - change (2 ^ Z.of_nat 0) with 1. rewrite Z.mul_1_l. exact H.
  - change (squares (S n) r) with (square (squares n r)).
    rewrite Nat2Z.inj_succ, Z.pow_succ_r by lia. rewrite <- Z.mul_assoc. apply is_pow_square. exact IH.
Qed.
Lemma is_pow_exp_acc a n b t e f : is_pow a b e -> is_pow a t f ->
  is_pow a (exp_acc n b t) (2 ^ Z.of_nat n * e + f).
Proof. intros H1 H2. apply is_pow_mul; [apply is_pow_squares; exact H1|exact H2]. Qed.

Lemma inverse_is_pow a : fe a -> exists b, inverse a = Some b /\ is_pow a b (P - 2).
Proof.
  intros Ha. eexists. split; [reflexivity|].
  pose proof (is_pow_self a Ha) as H1.
  pose proof (is_pow_mul _ _ _ _ _ (is_pow_square _ _ _ H1) H1) as Hsf.
  pose proof (is_pow_mul _ _ _ _ _ (is_pow_square _ _ _ Hsf) H1) as Ht3.
  pose proof (is_pow_exp_acc _ 3 _ _ _ _ Ht3 Ht3) as Ht6.
  pose proof (is_pow_exp_acc _ 6 _ _ _ _ Ht6 Ht6) as Ht12.
  pose proof (is_pow_exp_acc _ 12 _ _ _ _ Ht12 Ht12) as Ht24.
  pose proof (is_pow_exp_acc _ 6 _ _ _ _ Ht24 Ht6) as Ht30.
  pose proof (is_pow_mul _ _ _ _ _ (is_pow_square _ _ _ Ht30) H1) as Ht31.
  pose proof (is_pow_exp_acc _ 32 _ _ _ _ Ht31 Ht31) as Ht63.
  pose proof (is_pow_mul _ _ _ _ _ (is_pow_square _ _ _ Ht63) H1) as H.
  match type of H with is_pow _ _ ?e => replace (P - 2) with e by reflexivity end.
  exact H.
Qed.

Lemma fe_nz_ndiv a : fe a -> as_int a <> 0 -> ~ (P | as_int a).
Proof.
  intros Ha Hn H. pose proof (as_int_range a Ha). rewrite MODULUS_P in *.
  apply Z.divide_pos_le in H; lia.
Qed.

Lemma as_int_zero a : fe a -> (as_int a = 0 <-> a = 0).
Proof.
  intros Ha. split.
  - intros H. apply as_int_inj; [exact Ha|exact fe_ZERO|]. rewrite H. reflexivity.
  - intros ->. reflexivity.
Qed.

Lemma inverse_spec a : fe a -> a <> 0 ->
  exists b, inverse a = Some b /\ fe b /\ mul a b = ONE /\ (as_int a * as_int b) mod P = 1.
Proof.
  intros Ha Hn. destruct (inverse_is_pow a Ha) as [b [Hb Hp]].
  exists b. destruct Hp as [_ [Hfb Hib]].
  assert (Hn' : as_int a <> 0) by (rewrite as_int_zero; assumption).
  assert (M : (as_int a * as_int b) mod P = 1).
  { rewrite Hib, Z.mul_mod_idemp_r by discriminate.
    rewrite <- (Z.pow_1_r (as_int a)) at 1. rewrite <- Z.pow_add_r by (unfold P; lia).
    replace (1 + (P - 2)) with (P - 1) by ring.
    apply fermat_P. apply fe_nz_ndiv; assumption. }
  repeat split; try assumption; try apply Hfb.
  destruct (mul_spec a b Ha Hfb) as [Hf Hm]. apply as_int_inj; [exact Hf|exact fe_ONE|].
  rewrite Hm, M, as_int_ONE. reflexivity.
Qed.

(* exp *)
Lemma lxor_select (r b : Z) : 0 <= r < W -> 0 <= b < W ->
  Z.lxor r (Z.land (W - 1) (Z.lxor r b)) = b.
Proof.
  intros Hr Hb.
  assert (E : Z.land (W - 1) (Z.lxor r b) = Z.lxor r b).
  { rewrite Z.land_comm. change (W - 1) with (Z.ones 64). rewrite Z.land_ones by lia.
    apply Z.mod_small. split.
    - apply Z.lxor_nonneg. lia.
    - destruct (Z.eq_dec (Z.lxor r b) 0) as [->|N]; [reflexivity|].
      assert (0 <= Z.lxor r b) by (apply Z.lxor_nonneg; lia).
      apply Z.log2_lt_pow2; [lia|].
      eapply Z.le_lt_trans; [apply Z.log2_lxor; lia|].
      apply Z.max_lub_lt.
      + destruct (Z.eq_dec r 0) as [->|]; [reflexivity|]. apply Z.log2_lt_pow2; [lia|]. apply Hr.
      + destruct (Z.eq_dec b 0) as [->|]; [reflexivity|]. apply Z.log2_lt_pow2; [lia|]. apply Hb. }
  rewrite E, <- Z.lxor_assoc, Z.lxor_nilpotent, Z.lxor_0_l. reflexivity.
Qed.

Lemma fe_W r : fe r -> 0 <= r < W. Proof. wsimp. lia. Qed.

Lemma exp_step_spec a power r i e : fe a -> is_pow a r e ->
  is_pow a (exp_step a power r i) (2 * e + Z.b2z (Z.testbit power i)).
Proof.
  intros Ha Hr. unfold exp_step.
  pose proof (is_pow_square _ _ _ Hr) as H2.
  pose proof (is_pow_mul _ _ _ _ _ H2 (is_pow_self a Ha)) as H3.
  destruct (Z.testbit power i).
  - rewrite lxor_select; [exact H3|apply fe_W; apply H2|apply fe_W; apply H3].
  - rewrite Z.land_0_l, Z.lxor_0_r. cbn [Z.b2z]. rewrite Z.add_0_r. exact H2.
Qed.

(* the high bits of power processed so far *)
Lemma shiftr_step power k : 0 <= k -> 0 <= power ->
  2 * Z.shiftr power (k + 1) + Z.b2z (Z.testbit power k) = Z.shiftr power k.
Proof.
  intros Hk Hp. rewrite (Z.testbit_spec' power k) by lia.
  rewrite !Z.shiftr_div_pow2 by lia.
  rewrite Z.pow_add_r, <- Z.div_div by (try apply Z.pow_pos_nonneg; lia).
  change (2 ^ 1) with 2. rewrite (Z.div_mod (power / 2 ^ k) 2) at 3 by lia. reflexivity.
Qed.

Lemma exp_loop_spec a power r n : fe a -> 0 <= power ->
  is_pow a r (Z.shiftr power (Z.of_nat n)) -> is_pow a (exp_loop a power r n) power.
Proof.
  intros Ha Hp. revert r. induction n as [|n IH]; intros r Hr.
  - cbn [exp_loop]. change (Z.of_nat 0) with 0 in Hr. rewrite Z.shiftr_0_r in Hr. exact Hr.
  - cbn [exp_loop]. apply IH. rewrite <- (shiftr_step power (Z.of_nat n)) by lia.
    apply exp_step_spec; [exact Ha|]. rewrite Nat2Z.inj_succ in Hr. exact Hr.
Qed.

Lemma exp_is_pow a power : fe a -> 0 <= power < W -> is_pow a (exp a power) power.
Proof.
  intros Ha Hp. unfold exp. apply exp_loop_spec; [exact Ha|lia|].
  rewrite Z.shiftr_div_pow2 by lia. change (2 ^ Z.of_nat 64) with W.
  rewrite Z.div_small by lia. apply is_pow_one.
Qed.

Lemma pow_loop_spec a power r found n : fe a -> 0 <= power ->
  is_pow a r (Z.shiftr power (Z.of_nat n)) ->
  (found = false -> Z.shiftr power (Z.of_nat n) = 0 /\ r = ONE) ->
  is_pow a (pow_loop a power r found n) power.
Proof.
  intros Ha Hp. revert r found. induction n as [|n IH]; intros r found Hr Hf.
  - cbn [pow_loop]. change (Z.of_nat 0) with 0 in Hr. rewrite Z.shiftr_0_r in Hr. exact Hr.
  - cbn [pow_loop]. rewrite Nat2Z.inj_succ in Hr, Hf.
    pose proof (shiftr_step power (Z.of_nat n) ltac:(lia) Hp) as Hs.
    change (Z.of_nat n + 1) with (Z.succ (Z.of_nat n)) in Hs || idtac.
    replace (Z.of_nat n + 1) with (Z.succ (Z.of_nat n)) in Hs by lia.
    destruct found.
    + apply IH; [|discriminate]. rewrite <- Hs. pose proof (is_pow_square _ _ _ Hr) as H2.
      destruct (Z.testbit power (Z.of_nat n)); cbn [Z.b2z].
      * apply is_pow_mul; [exact H2|apply is_pow_self; exact Ha].
      * rewrite Z.add_0_r. exact H2.
    + destruct (Hf eq_refl) as [H0 ->]. rewrite H0 in Hs.
      destruct (Z.testbit power (Z.of_nat n)); cbn [Z.b2z] in Hs.
      * apply IH; [|discriminate]. rewrite <- Hs. change (2 * 0 + 1) with (0 + 1).
        apply is_pow_mul; [apply is_pow_one|apply is_pow_self; exact Ha].
      * apply IH; [rewrite <- Hs; apply is_pow_one|]. intros _. split; [lia|reflexivity].
Qed.

Lemma pow_is_pow a power : fe a -> 0 <= power < W -> is_pow a (pow a power) power.
Proof.
  intros Ha Hp.
  assert (E : Z.shiftr power (Z.of_nat 64) = 0).
  { rewrite Z.shiftr_div_pow2 by lia. apply Z.div_small. exact Hp. }
  unfold pow. apply pow_loop_spec; [exact Ha|lia|rewrite E; apply is_pow_one|]. intros _. split; [exact E|reflexivity].
Qed.
