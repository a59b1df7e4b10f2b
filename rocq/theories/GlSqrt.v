From Verif Require Import Base NumTheory GlModel GlProof.
From Coq Require Import Znumtheory.
Open Scope Z_scope.

Definition eqm (a b : Z) : Prop := a mod P = b mod P.
Infix "==" := eqm (at level 70).

Lemma Ppos : 0 < P. Proof. reflexivity. Qed.
Lemma Pnz : P <> 0. Proof. discriminate. Qed.

Lemma eqm_refl a : a == a. Proof. reflexivity. Qed.
Lemma eqm_sym a b : a == b -> b == a. Proof. unfold eqm; congruence. Qed.
Lemma eqm_trans a b c : a == b -> b == c -> a == c. Proof. unfold eqm; congruence. Qed.
Lemma eqm_mul a b c d : a == b -> c == d -> a * c == b * d.
Proof. unfold eqm. intros H1 H2. rewrite Z.mul_mod, H1, H2, <- Z.mul_mod by exact Pnz. reflexivity. Qed.
Lemma eqm_pow a b e : a == b -> a ^ e == b ^ e.
Proof. unfold eqm. intros H. rewrite <- pow_mod, H, pow_mod by exact Ppos. reflexivity. Qed.
Lemma eqm_mod a : a mod P == a.
Proof. unfold eqm. apply Z.mod_mod. exact Pnz. Qed.

Lemma as_int_eq_one a : fe a -> (a = ONE <-> as_int a == 1).
Proof.
  intros Ha. split.
  - intros ->. rewrite as_int_ONE. reflexivity.
  - intros H. apply as_int_inj; [exact Ha|exact fe_ONE|]. rewrite as_int_ONE.
    unfold eqm in H. pose proof (as_int_range a Ha). rewrite MODULUS_P in *.
    rewrite Z.mod_small in H by lia. exact H.
Qed.

Lemma sq_one x : x * x == 1 -> x == 1 \/ x == -1.
Proof.
  unfold eqm. intros H. apply mod_eq_divide in H; [|exact Ppos].
  replace (x * x - 1) with ((x - 1) * (x + 1)) in H by ring.
  apply prime_mult in H; [|exact P_prime]. destruct H as [H|H].
  - left. apply mod_eq_divide; [exact Ppos|exact H].
  - right. apply mod_eq_divide; [exact Ppos|]. replace (x - -1) with (x + 1) by ring. exact H.
Qed.

Lemma one_neq_m1 : ~ (1 == -1). Proof. vm_compute. discriminate. Qed.

(* half order exponent *)
Definition HALF : Z := 9223372034707292160.
Lemma HALF_val : HALF * 2 = P - 1. Proof. reflexivity. Qed.
Lemma HALF_split : HALF = 4294967295 * 2 ^ 31. Proof. reflexivity. Qed.

Lemma fermat_eqm a : ~ (a == 0) -> a ^ (P - 1) == 1.
Proof.
  intros H. unfold eqm. rewrite fermat_P; [reflexivity|].
  intros D. apply H. unfold eqm. apply mod_eq_divide; [exact Ppos|]. rewrite Z.sub_0_r. exact D.
Qed.

Lemma half_pm a : ~ (a == 0) -> a ^ HALF == 1 \/ a ^ HALF == -1.
Proof.
  intros H. apply sq_one. rewrite <- Z.pow_add_r by (unfold HALF; lia).
  replace (HALF + HALF) with (P - 1) by reflexivity. apply fermat_eqm. exact H.
Qed.

Lemma half_of_square b : ~ (b == 0) -> (b * b) ^ HALF == 1.
Proof.
  intros H. rewrite Z.pow_mul_l, <- Z.pow_add_r by (unfold HALF; lia).
  replace (HALF + HALF) with (P - 1) by reflexivity. apply fermat_eqm. exact H.
Qed.

Lemma pow2_succ i : 0 <= i -> 2 ^ (i + 1) = 2 ^ i * 2.
Proof. intros. rewrite Z.pow_add_r by lia. reflexivity. Qed.
Lemma pow2_nn i : 0 <= 2 ^ i. Proof. apply Z.pow_nonneg. lia. Qed.

(* [sqrt_order] finds the least exponent *)
Lemma sqrt_order_spec T M fuel t2i i :
  fe t2i -> as_int t2i == T ^ (2 ^ i) -> 0 <= i <= M -> T ^ (2 ^ M) == 1 ->
  (Z.to_nat (M - i) < fuel)%nat ->
  exists i', sqrt_order fuel t2i i = Some i' /\ i <= i' <= M /\ T ^ (2 ^ i') == 1 /\
             (forall j, i <= j < i' -> ~ T ^ (2 ^ j) == 1).
Proof.
  revert t2i i. induction fuel as [|fuel IH]; intros t2i i Hf Ht Hi HM Hfuel; [lia|].
  cbn [sqrt_order]. destruct (Z.eqb_spec t2i ONE) as [E|E].
  - exists i. split; [reflexivity|]. split; [lia|]. split; [|intros; lia].
    apply as_int_eq_one in E; [|exact Hf]. eapply eqm_trans; [apply eqm_sym; exact Ht|exact E].
  - assert (Hne : ~ T ^ (2 ^ i) == 1).
    { intros H. apply E. apply as_int_eq_one; [exact Hf|]. eapply eqm_trans; eassumption. }
    assert (HiM : i < M).
    { destruct (Z.eq_dec i M) as [->|]; [contradiction|lia]. }
    destruct (square_spec t2i Hf) as [Hf2 Hs].
    destruct (IH (square t2i) (i + 1)) as [i' [H1 [H2 [H3 H4]]]]; try assumption; try lia.
    + rewrite Hs. eapply eqm_trans; [apply eqm_mod|].
      rewrite pow2_succ by lia. rewrite Z.pow_mul_r by (try apply pow2_nn; lia).
      rewrite Z.pow_2_r. apply eqm_mul; exact Ht.
    + exists i'. split; [exact H1|]. split; [lia|]. split; [exact H3|].
      intros j Hj. destruct (Z.eq_dec j i) as [->|]; [exact Hne|]. apply H4. lia.
Qed.

Lemma sqrt_loop_spec A fuel c r t m :
  fe c -> fe r -> fe t -> 1 <= m <= 64 -> (Z.to_nat m <= fuel + 1)%nat ->
  as_int c ^ (2 ^ (m - 1)) == -1 ->
  as_int t ^ (2 ^ (m - 1)) == 1 ->
  as_int r * as_int r == A * as_int t ->
  exists x, sqrt_loop fuel c r t m = Ok x /\ fe x /\ as_int x * as_int x == A.
Proof.
  revert c r t m. induction fuel as [|fuel IH]; intros c r t m Hc Hr Ht Hm Hfuel Hcm Htm Hrr.
  - cbn [sqrt_loop]. assert (m = 1) by lia. subst m. change (2 ^ (1 - 1)) with 1 in Htm.
    rewrite Z.pow_1_r in Htm. pose proof (proj2 (as_int_eq_one t Ht) Htm) as E. rewrite E, Z.eqb_refl.
    exists r. split; [reflexivity|]. split; [exact Hr|]. eapply eqm_trans; [exact Hrr|].
    rewrite <- (Z.mul_1_r A) at 2. apply eqm_mul; [apply eqm_refl|exact Htm].
  - cbn [sqrt_loop]. destruct (Z.eqb_spec t ONE) as [E|E].
    + exists r. split; [reflexivity|]. split; [exact Hr|]. eapply eqm_trans; [exact Hrr|].
      rewrite <- (Z.mul_1_r A) at 2. apply eqm_mul; [apply eqm_refl|].
      apply as_int_eq_one; assumption.
    + assert (Hne : ~ as_int t == 1) by (intros H; apply E; apply as_int_eq_one; assumption).
      assert (Hm2 : 2 <= m).
      { destruct (Z.eq_dec m 1) as [->|]; [|lia]. exfalso. apply Hne.
        change (2 ^ (1 - 1)) with 1 in Htm. rewrite Z.pow_1_r in Htm. exact Htm. }
      destruct (square_spec t Ht) as [Hft2 Hst2].
      destruct (sqrt_order_spec (as_int t) (m - 1) 65 (square t) 1) as [i [Ho [Hi [Hti Hmin]]]];
        try assumption; try lia.
      { rewrite Hst2. eapply eqm_trans; [apply eqm_mod|]. change (2 ^ 1) with 2. rewrite Z.pow_2_r.
        apply eqm_refl. }
      rewrite Ho. destruct (Z.ltb_spec (m - i - 1) 0) as [L|L]; [lia|].
      set (n := Z.to_nat (m - i - 1)).
      assert (Hn : Z.of_nat n = m - i - 1) by (unfold n; lia).
      destruct (squares_spec n c Hc) as [Hfb Hb].
      destruct (mul_spec r (squares n c) Hr Hfb) as [Hfr' Hr'].
      destruct (square_spec (squares n c) Hfb) as [Hfc' Hc'].
      destruct (mul_spec t (square (squares n c)) Ht Hfc') as [Hft' Ht'].
      set (B := as_int (squares n c)) in *.
      assert (HB : B == as_int c ^ (2 ^ (m - i - 1))).
      { rewrite Hb, Hn. apply eqm_mod. }
      assert (HC' : as_int (square (squares n c)) ^ (2 ^ (i - 1)) == -1).
      { eapply eqm_trans; [|exact Hcm].
        eapply eqm_trans. { apply eqm_pow. rewrite Hc'. apply eqm_mod. }
        eapply eqm_trans. { apply eqm_pow. apply eqm_mul; exact HB. }
        rewrite <- Z.pow_add_r, <- Z.pow_mul_r by (repeat apply Z.add_nonneg_nonneg; apply pow2_nn).
        replace ((2 ^ (m - i - 1) + 2 ^ (m - i - 1)) * 2 ^ (i - 1)) with (2 ^ (m - 1)).
        { apply eqm_refl. }
        replace (2 ^ (m - i - 1) + 2 ^ (m - i - 1)) with (2 ^ (m - i - 1 + 1)) by (rewrite pow2_succ by lia; lia).
        rewrite <- Z.pow_add_r by lia. f_equal. lia. }
      apply IH; try assumption; try lia.
      * (* t' *)
        eapply eqm_trans. { apply eqm_pow. rewrite Ht'. apply eqm_mod. }
        rewrite Z.pow_mul_l. change 1 with ((-1) * (-1)). apply eqm_mul; [|exact HC'].
        assert (Hsq : as_int t ^ (2 ^ (i - 1)) * as_int t ^ (2 ^ (i - 1)) == 1).
        { rewrite <- Z.pow_add_r by apply pow2_nn.
          replace (2 ^ (i - 1) + 2 ^ (i - 1)) with (2 ^ i)
            by (replace i with (i - 1 + 1) at 1 by lia; rewrite pow2_succ by lia; lia).
          exact Hti. }
        destruct (sq_one _ Hsq) as [H1|H1]; [|exact H1]. exfalso.
        destruct (Z.eq_dec i 1) as [->|Ni].
        { change (2 ^ (1 - 1)) with 1 in H1. rewrite Z.pow_1_r in H1. contradiction. }
        apply (Hmin (i - 1)); [lia|exact H1].
      * (* r'^2 = A t' *)
        rewrite Hr', Ht'. eapply eqm_trans. { apply eqm_mul; apply eqm_mod. }
        eapply eqm_trans; [|apply eqm_mul; [apply eqm_refl|apply eqm_sym; apply eqm_mod]].
        replace (as_int r * B * (as_int r * B)) with ((as_int r * as_int r) * (B * B)) by ring.
        eapply eqm_trans. { apply eqm_mul; [exact Hrr|apply eqm_refl]. }
        rewrite Hc'. eapply eqm_trans; [|apply eqm_mul; [apply eqm_refl|apply eqm_mul; [apply eqm_refl|
          apply eqm_sym; apply eqm_mod]]].
        rewrite <- Z.mul_assoc. apply eqm_refl.
Qed.

Lemma root_cert : as_int ROOT_OF_UNITY ^ (2 ^ (32 - 1)) == -1.
Proof.
  unfold eqm. rewrite <- powm_spec; [vm_compute; reflexivity|exact Ppos|apply pow2_nn].
Qed.

Lemma fe_eqm0 a : fe a -> (as_int a == 0 <-> a = 0).
Proof.
  intros Ha. rewrite <- (as_int_zero a Ha). unfold eqm.
  pose proof (as_int_range a Ha). rewrite MODULUS_P in *. rewrite Z.mod_small by lia.
  rewrite Z.mod_0_l by exact Pnz. reflexivity.
Qed.

Lemma eqm_0_1 : ~ (0 == 1). Proof. vm_compute. discriminate. Qed.
Lemma eqm_0_m1 : ~ (0 == -1). Proof. vm_compute. discriminate. Qed.

Lemma legendre_aux q X (Z0 : Prop) : fe q -> as_int q == X ->
  (Z0 -> X == 0) -> (~ Z0 -> X == 1 \/ X == -1) -> (Z0 \/ ~ Z0) ->
  let l := if q =? 0 then LZero else if q =? ONE then LResidue else LNonResidue in
  (l = LZero <-> Z0) /\ (l = LResidue <-> ~ Z0 /\ X == 1) /\ (l = LNonResidue <-> ~ Z0 /\ X == -1).
Proof.
  intros Hf Hq HZ HN Hdec l. unfold l. clear l.
  pose proof (fe_eqm0 q Hf) as F0. pose proof (as_int_eq_one q Hf) as F1.
  assert (K : forall x, as_int q == x <-> X == x).
  { intros x. split; intros H; (eapply eqm_trans; [|exact H]); [apply eqm_sym|]; exact Hq. }
  rewrite K in F0, F1.
  pose proof eqm_0_1 as A1. pose proof eqm_0_m1 as A2. pose proof one_neq_m1 as A3.
  assert (C : forall u v, X == u -> X == v -> u == v)
    by (intros u v Hu Hv; eapply eqm_trans; [apply eqm_sym; exact Hu|exact Hv]).
  pose proof (C 0 1) as C1. pose proof (C 0 (-1)) as C2. pose proof (C 1 (-1)) as C3.
  clear C K Hq Hf.
  revert A1 A2 A3 C1 C2 C3 HZ HN F0 F1.
  generalize (X == 0) as x0, (X == 1) as x1, (X == -1) as xm, (0 == 1) as y1, (0 == -1) as y2, (1 == -1) as y3.
  intros.
  destruct (Z.eqb_spec q 0) as [E|E]; [|destruct (Z.eqb_spec q ONE) as [E1|E1]].
  - assert (x0) by tauto. assert Z0 by tauto.
    split; [tauto|]. split; (split; [discriminate|tauto]).
  - assert x1 by tauto. assert (~ Z0) by tauto.
    split; [split; [discriminate|tauto]|]. split; [tauto|split; [discriminate|tauto]].
  - assert (~ x1) by tauto. assert (~ x0) by tauto. assert (~ Z0) by tauto.
    split; [split; [discriminate|tauto]|]. split; [split; [discriminate|tauto]|tauto].
Qed.

Lemma legendre_cases a : fe a ->
  (legendre a = LZero <-> a = 0) /\
  (legendre a = LResidue <-> a <> 0 /\ as_int a ^ HALF == 1) /\
  (legendre a = LNonResidue <-> a <> 0 /\ as_int a ^ HALF == -1).
Proof.
  intros Ha. destruct (pow_is_pow a HALF Ha) as [_ [Hf Hp]]; [unfold HALF; wsimp; lia|].
  assert (Hpe : as_int (pow a HALF) == as_int a ^ HALF) by (rewrite Hp; apply eqm_mod).
  unfold legendre. fold HALF.
  apply (legendre_aux (pow a HALF) (as_int a ^ HALF) (a = 0)); [exact Hf|exact Hpe| | |].
  - intros ->. replace (as_int 0) with 0 by (vm_compute; reflexivity). rewrite Z.pow_0_l by (unfold HALF; lia). apply eqm_refl.
  - intros N. apply half_pm. rewrite fe_eqm0; assumption.
  - destruct (Z.eq_dec a 0); tauto.
Qed.

Lemma sqrt_residue a : fe a -> a <> 0 -> as_int a ^ HALF == 1 ->
  exists x, sqrt a = Ok (Some x) /\ fe x /\ mul x x = a.
Proof.
  intros Ha N0 H1.
  destruct (legendre_cases a Ha) as [_ [HR _]]. 
  assert (HL : legendre a = LResidue) by (apply HR; split; assumption).
  unfold sqrt. rewrite HL.
  destruct (pow_is_pow a 2147483648 Ha) as [_ [Hfr Hr]]; [split; [discriminate|reflexivity]|].
  destruct (pow_is_pow a 4294967295 Ha) as [_ [Hft Ht]]; [split; [discriminate|reflexivity]|].
  destruct (sqrt_loop_spec (as_int a) 65 ROOT_OF_UNITY (pow a 2147483648) (pow a 4294967295) S_ADICITY)
    as [x [Hx [Hfx Hxx]]].
  - exact fe_ROOT.
  - exact Hfr.
  - exact Hft.
  - split; discriminate.
  - apply Nat.leb_le. vm_compute. reflexivity.
  - exact root_cert.
  - eapply eqm_trans. { apply eqm_pow. rewrite Ht. apply eqm_mod. }
    rewrite <- Z.pow_mul_r by (try apply pow2_nn; discriminate).
    change (S_ADICITY - 1) with 31. rewrite <- HALF_split. exact H1.
  - rewrite Hr, Ht. eapply eqm_trans. { apply eqm_mul; apply eqm_mod. }
    eapply eqm_trans; [|apply eqm_mul; [apply eqm_refl|apply eqm_sym; apply eqm_mod]].
    rewrite <- Z.pow_add_r by discriminate. rewrite <- Z.pow_succ_r by discriminate. apply eqm_refl.
  - exists x. rewrite Hx. split; [reflexivity|]. split; [exact Hfx|].
    destruct (mul_spec x x Hfx Hfx) as [Hf Hm]. apply as_int_inj; [exact Hf|exact Ha|].
    rewrite Hm. unfold eqm in Hxx. rewrite Hxx. apply Z.mod_small.
    apply as_int_range in Ha. rewrite MODULUS_P in Ha. exact Ha.
Qed.

(* existence of a root, over field elements *)
Definition is_square (a : Z) : Prop := exists x, fe x /\ mul x x = a.

Lemma residue_iff_square a : fe a -> a <> 0 -> (as_int a ^ HALF == 1 <-> is_square a).
Proof.
  intros Ha N0. split.
  - intros H. destruct (sqrt_residue a Ha N0 H) as [x [_ [Hf Hm]]]. exists x. split; assumption.
  - intros [x [Hf Hm]]. destruct (mul_spec x x Hf Hf) as [_ Hi]. rewrite Hm in Hi.
    eapply eqm_trans. { apply eqm_pow. rewrite Hi. apply eqm_mod. }
    apply half_of_square. rewrite (fe_eqm0 x Hf). intros ->. apply N0. rewrite <- Hm. reflexivity.
Qed.

Lemma legendre_spec a : fe a ->
  (legendre a = LZero <-> a = 0) /\
  (legendre a = LResidue <-> a <> 0 /\ is_square a) /\
  (legendre a = LNonResidue <-> ~ is_square a).
Proof.
  intros Ha. destruct (legendre_cases a Ha) as [H1 [H2 H3]].
  split; [exact H1|]. split.
  - rewrite H2. split; intros [N H]; (split; [exact N|]); apply (residue_iff_square a Ha N); exact H.
  - rewrite H3. split.
    + intros [N H] S. apply (residue_iff_square a Ha N) in S.
      apply one_neq_m1. eapply eqm_trans; [apply eqm_sym; exact S|exact H].
    + intros NS. assert (N : a <> 0) by (intros ->; apply NS; exists 0; split; [exact fe_ZERO|reflexivity]).
      split; [exact N|]. destruct (half_pm (as_int a)) as [K|K]; [rewrite fe_eqm0; assumption| |exact K].
      exfalso. apply NS. apply residue_iff_square; assumption.
Qed.

Lemma sqrt_spec a : fe a ->
  (is_square a -> exists x, sqrt a = Ok (Some x) /\ fe x /\ mul x x = a) /\
  (~ is_square a -> sqrt a = Ok None).
Proof.
  intros Ha. destruct (legendre_spec a Ha) as [H1 [H2 H3]]. split.
  - intros S. destruct (Z.eq_dec a 0) as [->|N].
    + exists 0. split; [reflexivity|]. split; [exact fe_ZERO|reflexivity].
    + apply sqrt_residue; [exact Ha|exact N|]. apply residue_iff_square; assumption.
  - intros NS. unfold sqrt. apply H3 in NS. rewrite NS. reflexivity.
Qed.
