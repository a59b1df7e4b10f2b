(* The circuits of CircModel compute the Goldilocks operations. *)
From Verif Require Import Base NumTheory GlModel FrField Cubic CircModel.
From Coq Require Import Znumtheory.
Open Scope Z_scope.

Lemma gl_p_P : gl_p = P.
Proof. reflexivity. Qed.

Lemma fof_p : fof gl_p = f0.
Proof. apply fint_inj. rewrite fint_of, fint_0, gl_p_P. apply Z_mod_same_full. Qed.

Lemma fof_mul_p k : fof (k * gl_p) = f0.
Proof. rewrite fof_mul, fof_p. ring. Qed.

Lemma fof_red k o : fof (k * gl_p + o) = fof o.
Proof. rewrite fof_add, fof_mul_p. ring. Qed.

Lemma fof_shift a : fof (a + 16 * gl_p) = fof a.
Proof. rewrite fof_add, fof_mul_p. ring. Qed.

Lemma fof_opp a : fof (- a) = fneg (fof a).
Proof.
  assert (H : fadd (fof (- a)) (fof a) = f0) by (rewrite <- fof_add, Z.add_opp_diag_l; apply fof_0).
  transitivity (fsub (fadd (fof (- a)) (fof a)) (fof a)); [ring|]. rewrite H. ring.
Qed.

Lemma fof_sub a b : fof (a - b) = fsub (fof a) (fof b).
Proof. unfold Z.sub. rewrite fof_add, fof_opp. ring. Qed.

(* classes modulo r *)
Lemma eqr_sym r a b : eqr r a b -> eqr r b a.
Proof. unfold eqr. intros ->. reflexivity. Qed.
Lemma eqr_trans r a b c : eqr r a b -> eqr r b c -> eqr r a c.
Proof. unfold eqr. intros -> ->. reflexivity. Qed.
Lemma eqr_refl r a : eqr r a a.
Proof. reflexivity. Qed.
Lemma eqr_add r a b c d : eqr r a b -> eqr r c d -> eqr r (a + c) (b + d).
Proof.
  unfold eqr. intros H1 H2. rewrite Zplus_mod, H1, H2, <- Zplus_mod. reflexivity.
Qed.
Lemma eqr_sub r a b c d : eqr r a b -> eqr r c d -> eqr r (a - c) (b - d).
Proof.
  unfold eqr. intros H1 H2. rewrite Zminus_mod, H1, H2, <- Zminus_mod. reflexivity.
Qed.
Lemma eqr_mul r a b c d : eqr r a b -> eqr r c d -> eqr r (a * c) (b * d).
Proof.
  unfold eqr. intros H1 H2. rewrite Zmult_mod, H1, H2, <- Zmult_mod. reflexivity.
Qed.

Lemma eqr_near r a b : 0 < r -> eqr r a b -> - r < a - b < r -> a = b.
Proof.
  unfold eqr. intros Hr H B.
  assert (D : (r | a - b)). { apply Z.mod_divide; [lia|]. rewrite Zminus_mod, H, Z.sub_diag. reflexivity. }
  destruct D as [q Hq]. assert (q = 0) by nia. nia.
Qed.

Lemma eqr_felt r a b : felt r a -> felt r b -> eqr r a b -> a = b.
Proof. unfold felt, eqr. intros H1 H2 H. rewrite !Z.mod_small in H by assumption. exact H. Qed.

(* bits *)
Definition bit01 (b : Z) : Prop := b = 0 \/ b = 1.

Lemma bit_01 r b : prime r -> is_bit r b -> bit01 b.
Proof.
  intros Hp [Hf H]. unfold eqr in H. rewrite Z.mod_0_l in H by (destruct Hp; lia).
  destruct (prime_mult r Hp b (b - 1)) as [D|D].
  - apply Z.mod_divide; [destruct Hp; lia|exact H].
  - left. destruct D as [q Hq]. unfold felt in Hf. assert (q = 0) by nia. nia.
  - right. destruct D as [q Hq]. unfold felt in Hf. destruct (Z.eq_dec b 0) as [->|Hb]; [|assert (q = 0) by nia; nia].
    destruct Hp as [H1 _]. assert (Hq' : q * r = -1) by lia. exfalso.
    assert (q < 0) by nia. nia.
Qed.

Lemma bits_01 r bs : prime r -> Forall (is_bit r) bs -> Forall bit01 bs.
Proof. intros Hp. apply Forall_impl. intros b. apply bit_01. exact Hp. Qed.

Lemma bit_of_01 r b : 1 < r -> bit01 b -> is_bit r b.
Proof. intros Hr [-> | ->]; (split; [unfold felt; lia|reflexivity]). Qed.

Lemma pow2_S n : 2 ^ Z.of_nat (S n) = 2 * 2 ^ Z.of_nat n.
Proof. rewrite Nat2Z.inj_succ, Z.pow_succ_r by lia. reflexivity. Qed.

Lemma bsum_range bs : Forall bit01 bs -> 0 <= bsum bs < 2 ^ Z.of_nat (length bs).
Proof.
  induction 1 as [|b bs Hb H IH]; cbn [bsum length]; [cbn; lia|].
  rewrite pow2_S. destruct Hb; lia.
Qed.

(* the bits of a number *)
Fixpoint bits_of (n : nat) (x : Z) : list Z :=
  match n with O => [] | S m => x mod 2 :: bits_of m (x / 2) end.

Lemma bits_of_len n : forall x, length (bits_of n x) = n.
Proof. induction n; intros; cbn; [|rewrite IHn]; reflexivity. Qed.

Lemma bits_of_01 n : forall x, Forall bit01 (bits_of n x).
Proof.
  induction n; intros; cbn [bits_of]; constructor; [|apply IHn].
  pose proof (Z.mod_pos_bound x 2 eq_refl). unfold bit01. lia.
Qed.

Lemma bits_of_sum n : forall x, 0 <= x < 2 ^ Z.of_nat n -> bsum (bits_of n x) = x.
Proof.
  induction n; intros x H; [cbn in *; lia|]. cbn [bits_of bsum].
  rewrite pow2_S in H. rewrite IHn by (split; [apply Z.div_pos; lia|apply Z.div_lt_upper_bound; lia]).
  pose proof (Z.div_mod x 2). lia.
Qed.

Lemma ranged_sound r n x : prime r -> 2 ^ Z.of_nat n <= r -> ranged r n x -> 0 <= x < 2 ^ Z.of_nat n.
Proof.
  intros Hp Hn [bs [Hl [Hb [Hf He]]]]. pose proof (bsum_range bs (bits_01 r bs Hp Hb)) as B.
  rewrite Hl in B. assert (bsum bs = x); [|lia].
  apply (eqr_felt r); [unfold felt; lia|exact Hf|exact He].
Qed.

Lemma num2bits_complete r n x : 1 < r -> felt r x -> 0 <= x < 2 ^ Z.of_nat n -> Num2Bits r n x (bits_of n x).
Proof.
  intros Hr Hf H. split; [apply bits_of_len|]. split; [|split; [exact Hf|]].
  - eapply Forall_impl; [|apply bits_of_01]. intros b. apply bit_of_01. exact Hr.
  - rewrite bits_of_sum by exact H. reflexivity.
Qed.

Lemma ranged_complete r n x : 1 < r -> felt r x -> 0 <= x < 2 ^ Z.of_nat n -> ranged r n x.
Proof. intros. exists (bits_of n x). apply num2bits_complete; assumption. Qed.

(* integers small enough for a sum of products of five of them to stay below r *)
Definition small (a : Z) : Prop := - 2 ^ 120 <= a <= 2 ^ 120.
Definition big (r : Z) : Prop := prime r /\ 2 ^ 250 < r.

Lemma p120 : 2 ^ 120 = 1329227995784915872903807060280344576. Proof. reflexivity. Qed.
Lemma p250 : 2 ^ 250 = 1809251394333065553493296640760748560207343510400633813116524750123642650624. Proof. reflexivity. Qed.
Lemma p64 : 2 ^ Z.of_nat 64 = 18446744073709551616. Proof. reflexivity. Qed.
Lemma p80 : 2 ^ Z.of_nat 80 = 1208925819614629174706176. Proof. reflexivity. Qed.
Lemma p10 : 2 ^ Z.of_nat 10 = 1024. Proof. reflexivity. Qed.

Lemma out_range r out : big r -> ranged r 64 out -> 0 <= out < 2 ^ 64.
Proof. intros [Hp Hr] H. apply (ranged_sound r 64); [exact Hp| |exact H]. rewrite p64. rewrite p250 in Hr. lia. Qed.

Lemma reduce_sound r k m m' out : big r -> ranged r 80 k -> ranged r 64 out ->
  eqr r m (k * gl_p + out) -> eqr r m m' -> - 2 ^ 249 < m' < 2 ^ 249 -> m' = k * gl_p + out.
Proof.
  intros Hb Hk Ho E1 E2 B. pose proof (out_range r out Hb Ho) as Bo. destruct Hb as [Hp Hr].
  assert (Bk : 0 <= k < 2 ^ Z.of_nat 80).
  { apply (ranged_sound r 80); [exact Hp| |exact Hk]. rewrite p80. rewrite p250 in Hr. lia. }
  rewrite p80 in Bk. change (2 ^ 64) with 18446744073709551616 in Bo.
  assert (2 ^ 249 * 2 = 2 ^ 250) by reflexivity.
  apply (eqr_near r); [rewrite p250 in Hr; lia|exact (eqr_trans r _ _ _ (eqr_sym r _ _ E2) E1)|].
  rewrite p250 in *. set (h := 2 ^ 249) in *. clearbody h. unfold gl_p. lia.
Qed.

Lemma mul_bound (a b B : Z) : - B <= a <= B -> - B <= b <= B -> - (B * B) <= a * b <= B * B.
Proof. intros. nia. Qed.

Lemma shift_small a : small a -> - 2 ^ 121 <= a + 16 * gl_p <= 2 ^ 121.
Proof. unfold small, gl_p. change (2 ^ 121) with (2 * 2 ^ 120). rewrite p120. lia. Qed.

Lemma p121sq : 2 ^ 121 * 2 ^ 121 = 2 ^ 242. Proof. reflexivity. Qed.
Lemma p249 : 2 ^ 249 = 128 * 2 ^ 242. Proof. reflexivity. Qed.

Lemma small_le_242 a : small a -> - 2 ^ 242 <= a <= 2 ^ 242.
Proof. unfold small. rewrite p120. change (2 ^ 242) with 7067388259113537318333190002971674063309935587502475832486424805170479104. lia. Qed.

Lemma pos242 : 0 < 2 ^ 242. Proof. reflexivity. Qed.

Lemma norm_sound r i out : big r -> small i -> GLNorm r i out -> 0 <= out < 2 ^ 64 /\ fof out = fof i.
Proof.
  intros Hb Hi [k [Hk [Ho E]]]. pose proof (out_range r out Hb Ho) as Bo. split; [exact Bo|].
  destruct Hb as [Hp Hr].
  assert (Bk : 0 <= k < 2 ^ Z.of_nat 10).
  { apply (ranged_sound r 10); [exact Hp| |exact Hk]. rewrite p10. rewrite p250 in Hr. lia. }
  rewrite p10 in Bk.
  assert (H : i + 16 * gl_p = k * gl_p + out).
  { apply (eqr_near r); [rewrite p250 in Hr; lia|exact E|].
    change (2 ^ 64) with 18446744073709551616 in Bo. unfold small in Hi. rewrite p120 in Hi. rewrite p250 in Hr.
    unfold gl_p. lia. }
  rewrite <- (fof_red k), <- H. apply fof_shift.
Qed.

Lemma mul_add_sound r a b c out k m : big r -> small a -> small b -> small c ->
  eqr r m ((a + 16 * gl_p) * (b + 16 * gl_p) + c) -> ranged r 80 k -> ranged r 64 out ->
  eqr r m (k * gl_p + out) -> fof out = fadd (fmul (fof a) (fof b)) (fof c).
Proof.
  intros Hb Ha Hbb Hc Em Hk Ho E.
  pose proof (mul_bound _ _ _ (shift_small a Ha) (shift_small b Hbb)) as M. rewrite p121sq in M.
  pose proof (small_le_242 c Hc) as Mc. pose proof pos242.
  rewrite <- (fof_red k).
  rewrite <- (reduce_sound r k m _ out Hb Hk Ho E Em) by (rewrite p249; lia).
  rewrite fof_add, fof_mul, !fof_shift. reflexivity.
Qed.

Lemma glmul_sound r a b out : big r -> small a -> small b -> GLMul r a b out ->
  0 <= out < 2 ^ 64 /\ fof out = fmul (fof a) (fof b).
Proof.
  intros Hb Ha Hbb [k [m [Em [Hk [Ho E]]]]]. split; [exact (out_range r out Hb Ho)|].
  rewrite (mul_add_sound r a b 0 out k m Hb Ha Hbb); try assumption.
  - rewrite fof_0. ring.
  - unfold small. rewrite p120. lia.
  - rewrite Z.add_0_r. exact Em.
Qed.

Lemma glmuladd_sound r a b c out : big r -> small a -> small b -> small c -> GLMulAdd r a b c out ->
  0 <= out < 2 ^ 64 /\ fof out = fadd (fmul (fof a) (fof b)) (fof c).
Proof.
  intros Hb Ha Hbb Hc [k [m [Em [Hk [Ho E]]]]]. split; [exact (out_range r out Hb Ho)|].
  exact (mul_add_sound r a b c out k m Hb Ha Hbb Hc Em Hk Ho E).
Qed.

Definition small3 (a : sig3) : Prop := let '(a0, a1, a2) := a in small a0 /\ small a1 /\ small a2.
Definition word3 (a : sig3) : Prop :=
  let '(a0, a1, a2) := a in 0 <= a0 < 2 ^ 64 /\ 0 <= a1 < 2 ^ 64 /\ 0 <= a2 < 2 ^ 64.
Definition kadd3 (c : sig3) : sig3 := let '(c0, c1, c2) := c in (c0 + 16 * gl_p, c1 + 16 * gl_p, c2 + 16 * gl_p).

(* what the signals A..G amount to *)
Lemma karatsuba_eq r a0 a1 a2 b0 b1 b2 c0 c1 c2 m0 m1 m2 :
  karatsuba r (a0, a1, a2) (b0, b1, b2) (c0, c1, c2) (m0, m1, m2) ->
  let s x := x + 16 * gl_p in
  eqr r m0 (s a0 * s b0 + s a1 * s b2 + s a2 * s b1 + c0) /\
  eqr r m1 (s a0 * s b1 + s a1 * s b0 + s a1 * s b2 + s a2 * s b1 + s a2 * s b2 + c1) /\
  eqr r m2 (s a0 * s b2 + s a1 * s b1 + s a2 * s b0 + s a2 * s b2 + c2).
Proof.
  unfold karatsuba. set (s := fun x => x + 16 * gl_p).
  intros (A & B & C & D & E & F & G & HA & HB & HC & HD & HE & HF & HG & H0 & H1 & H2).
  assert (HG' := eqr_trans r _ _ _ HG (eqr_sub r _ _ _ _ HD HE)).
  cbv zeta. split; [|split].
  - eapply eqr_trans; [exact H0|]. eapply eqr_trans.
    + apply eqr_add; [apply eqr_sub; [apply eqr_add; [exact HC|exact HG']|exact HF]|apply eqr_refl].
    + unfold eqr. f_equal. ring.
  - eapply eqr_trans; [exact H1|]. eapply eqr_trans.
    + apply eqr_add; [|apply eqr_refl]. apply eqr_sub; [|exact HD]. apply eqr_sub; [|exact HE].
      apply eqr_sub; [|exact HE]. apply eqr_add; [exact HA|exact HC].
    + unfold eqr. f_equal. ring.
  - eapply eqr_trans; [exact H2|]. eapply eqr_trans.
    + apply eqr_add; [|apply eqr_refl]. apply eqr_sub; [exact HB|exact HG'].
    + unfold eqr. f_equal. ring.
Qed.

Lemma reduced_sound r m m' out : big r -> reduced r m out -> eqr r m m' -> - 2 ^ 249 < m' < 2 ^ 249 ->
  0 <= out < 2 ^ 64 /\ fof out = fof m'.
Proof.
  intros Hb [k [Hk [Ho E]]] Em B. split; [exact (out_range r out Hb Ho)|].
  rewrite (reduce_sound r k m m' out Hb Hk Ho E Em B). symmetry. apply fof_red.
Qed.

Lemma cmul_core r a b c m out : big r -> small3 a -> small3 b -> small3 c ->
  karatsuba r a b c m -> on3 (reduced r) m out ->
  word3 out /\ kof out = kadd (kmul (kof a) (kof b)) (kof c).
Proof.
  destruct a as [[a0 a1] a2], b as [[b0 b1] b2], c as [[c0 c1] c2], m as [[m0 m1] m2], out as [[o0 o1] o2].
  intros Hb (A0 & A1 & A2) (B0 & B1 & B2) (C0 & C1 & C2) HK (R0 & R1 & R2).
  apply karatsuba_eq in HK. cbv zeta in HK. destruct HK as (E0 & E1 & E2).
  assert (Q : forall x y, small x -> small y ->
            - 2 ^ 242 <= (x + 16 * gl_p) * (y + 16 * gl_p) <= 2 ^ 242).
  { intros x y Hx Hy. rewrite <- p121sq. apply mul_bound; apply shift_small; assumption. }
  pose proof (Q _ _ A0 B0). pose proof (Q _ _ A0 B1). pose proof (Q _ _ A0 B2).
  pose proof (Q _ _ A1 B0). pose proof (Q _ _ A1 B1). pose proof (Q _ _ A1 B2).
  pose proof (Q _ _ A2 B0). pose proof (Q _ _ A2 B1). pose proof (Q _ _ A2 B2).
  pose proof (small_le_242 _ C0). pose proof (small_le_242 _ C1). pose proof (small_le_242 _ C2).
  pose proof pos242.
  apply (reduced_sound r _ _ _ Hb R0) in E0; [|rewrite p249; clear -H H0 H1 H2 H3 H4 H5 H6 H7 H8 H9 H10 H11; lia].
  apply (reduced_sound r _ _ _ Hb R1) in E1; [|rewrite p249; clear -H H0 H1 H2 H3 H4 H5 H6 H7 H8 H9 H10 H11; lia].
  apply (reduced_sound r _ _ _ Hb R2) in E2; [|rewrite p249; clear -H H0 H1 H2 H3 H4 H5 H6 H7 H8 H9 H10 H11; lia].
  destruct E0 as [W0 E0], E1 as [W1 E1], E2 as [W2 E2]. split; [split; [exact W0|split; [exact W1|exact W2]]|].
  unfold kof. rewrite E0, E1, E2. unfold kadd, kmul. cbn [k0 k1 k2].
  rewrite !fof_add, !fof_mul, !fof_shift. apply k_ext; cbn [k0 k1 k2]; ring.
Qed.

Lemma small_0 : small 0. Proof. unfold small. rewrite p120. lia. Qed.

Lemma glcmul_sound r a b out : big r -> small3 a -> small3 b -> GLCMul r a b out ->
  word3 out /\ kof out = kmul (kof a) (kof b).
Proof.
  intros Hb Ha Hbb [m [HK HR]].
  destruct (cmul_core r a b (0, 0, 0) m out Hb Ha Hbb) as [W E]; try assumption.
  - split; [exact small_0|split; exact small_0].
  - split; [exact W|]. rewrite E. unfold kof at 3. rewrite fof_0. destruct a as [[a0 a1] a2], b as [[b0 b1] b2].
    apply k_ext; cbn [k0 k1 k2 kadd]; ring.
Qed.

Lemma kof_kadd3 c : kof (kadd3 c) = kof c.
Proof. destruct c as [[c0 c1] c2]. unfold kof, kadd3. rewrite !fof_shift. reflexivity. Qed.

(* with room for the shift by 16p *)
Definition small' (a : Z) : Prop := - 2 ^ 119 <= a <= 2 ^ 119.
Definition small3' (a : sig3) : Prop := let '(a0, a1, a2) := a in small' a0 /\ small' a1 /\ small' a2.

Lemma small'_shift a : small' a -> small (a + 16 * gl_p).
Proof. unfold small, small', gl_p. rewrite p120. change (2 ^ 119) with 664613997892457936451903530140172288. lia. Qed.

Lemma glcmuladd_sound r a b c out : big r -> small3 a -> small3 b -> small3' c -> GLCMulAdd r a b c out ->
  word3 out /\ kof out = kadd (kmul (kof a) (kof b)) (kof c).
Proof.
  intros Hb Ha Hbb Hc H. rewrite <- (kof_kadd3 c). destruct c as [[c0 c1] c2]. destruct H as [m [HK HR]].
  apply (cmul_core r a b _ m out Hb Ha Hbb); [|exact HK|exact HR].
  destruct Hc as (H0 & H1 & H2). split; [|split]; apply small'_shift; assumption.
Qed.

Lemma word_small a : 0 <= a < 2 ^ 64 -> small a.
Proof. unfold small. rewrite p120. change (2 ^ 64) with 18446744073709551616. lia. Qed.

Lemma glinv_sound r i out : big r -> small i -> GLInv r i out ->
  0 <= out < 2 ^ 64 /\ fmul (fof i) (fof out) = f1.
Proof.
  intros Hb Hi [Ho [c [Hm Hc]]]. pose proof (out_range r out Hb Ho) as Bo. split; [exact Bo|].
  destruct (glmul_sound r i out c Hb Hi (word_small _ Bo) Hm) as [Bc E]. rewrite <- E.
  assert (c = 1) as ->; [|apply fof_1].
  destruct Hb as [_ Hr]. rewrite p250 in Hr. change (2 ^ 64) with 18446744073709551616 in Bc.
  apply (eqr_felt r); [unfold felt; lia|unfold felt; lia|exact Hc].
Qed.

Lemma word3_small a : word3 a -> small3 a.
Proof. destruct a as [[a0 a1] a2]. intros (H0 & H1 & H2). split; [|split]; apply word_small; assumption. Qed.

Lemma glcinv_sound r i out : big r -> small3 i -> GLCInv r i out ->
  word3 out /\ kmul (kof i) (kof out) = kone.
Proof.
  intros Hb Hi [Ho (c0 & c1 & c2 & Hm & E0 & E1 & E2)].
  assert (W : word3 out).
  { destruct out as [[o0 o1] o2]. destruct Ho as (H0 & H1 & H2).
    split; [|split]; eapply out_range; eassumption. }
  split; [exact W|]. destruct (glcmul_sound r i out _ Hb Hi (word3_small _ W) Hm) as [(W0 & W1 & W2) E].
  rewrite <- E. destruct Hb as [_ Hr]. rewrite p250 in Hr. change (2 ^ 64) with 18446744073709551616 in *.
  assert (F : forall c v, 0 <= c < 18446744073709551616 -> (v = 0 \/ v = 1) -> eqr r c v -> c = v).
  { intros c v Bc Hv He. apply (eqr_felt r); [unfold felt; lia|unfold felt; lia|exact He]. }
  rewrite (F c0 1), (F c1 0), (F c2 0) by (assumption || (now left) || (now right)).
  unfold kof. rewrite fof_0, fof_1. reflexivity.
Qed.

(** * Assignments exist *)

(* the inputs the generated code feeds: not more than 16p below zero, and below 16*2^64 *)
Definition fed (a : Z) : Prop := - 16 * gl_p <= a < 2 ^ 68.
Definition fed3 (a : sig3) : Prop := let '(a0, a1, a2) := a in fed a0 /\ fed a1 /\ fed a2.

Lemma reduced_complete r m : big r -> 0 <= m < 2 ^ 80 * gl_p ->
  ranged r 80 (m / gl_p) /\ ranged r 64 (m mod gl_p) /\ eqr r m (m / gl_p * gl_p + m mod gl_p).
Proof.
  intros [Hp Hr] H. rewrite p250 in Hr.
  assert (Bm : 0 <= m mod gl_p < gl_p) by (apply Z.mod_pos_bound; reflexivity).
  assert (Bk : 0 <= m / gl_p < 2 ^ 80).
  { split; [apply Z.div_pos; [lia|reflexivity]|apply Z.div_lt_upper_bound; [reflexivity|rewrite Z.mul_comm; apply H]]. }
  change (2 ^ 80) with 1208925819614629174706176 in Bk.
  split; [|split].
  - apply ranged_complete; [lia|unfold felt; lia|rewrite p80; exact Bk].
  - apply ranged_complete; [lia|unfold felt, gl_p in *; lia|rewrite p64; unfold gl_p in *; lia].
  - unfold eqr. f_equal. rewrite (Z.div_mod m gl_p) at 1 by discriminate. ring.
Qed.

Lemma norm_complete r i : big r -> - 16 * gl_p <= i < 1000 * gl_p -> GLNorm r i (i mod gl_p).
Proof.
  intros Hb H. exists ((i + 16 * gl_p) / gl_p).
  assert (E : (i + 16 * gl_p) mod gl_p = i mod gl_p) by (apply Z_mod_plus_full).
  rewrite <- E. set (m := i + 16 * gl_p) in *.
  assert (Bm : 0 <= m < 1016 * gl_p) by (unfold m, gl_p in *; lia). clearbody m.
  destruct (reduced_complete r m Hb) as (_ & H2 & H3); [unfold gl_p in *; lia|].
  split; [|split; [exact H2|exact H3]].
  assert (Bk : 0 <= m / gl_p < 1016).
  { split; [apply Z.div_pos; [lia|reflexivity]|apply Z.div_lt_upper_bound; [reflexivity|rewrite Z.mul_comm; apply Bm]]. }
  destruct Hb as [Hp Hr]. rewrite p250 in Hr.
  apply ranged_complete; [lia|unfold felt; lia|rewrite p10; lia].
Qed.

Lemma fed_shift a : fed a -> 0 <= a + 16 * gl_p < 2 ^ 69.
Proof. unfold fed, gl_p. change (2 ^ 69) with (2 * 2 ^ 68). change (2 ^ 68) with 295147905179352825856. lia. Qed.

Lemma fed_prod a b : fed a -> fed b -> 0 <= (a + 16 * gl_p) * (b + 16 * gl_p) < 2 ^ 138.
Proof.
  intros Ha Hb. apply fed_shift in Ha. apply fed_shift in Hb.
  change (2 ^ 138) with (2 ^ 69 * 2 ^ 69). split; [apply Z.mul_nonneg_nonneg; lia|].
  apply Z.mul_lt_mono_nonneg; lia.
Qed.

Lemma room : 33 * 2 ^ 138 < 2 ^ 80 * gl_p. Proof. reflexivity. Qed.

Lemma glmuladd_complete r a b c : big r -> fed a -> fed b -> 0 <= c < 2 ^ 138 ->
  GLMulAdd r a b c ((a * b + c) mod gl_p).
Proof.
  intros Hb Ha Hbb Hc. pose proof (fed_prod a b Ha Hbb) as B. pose proof room.
  set (m := (a + 16 * gl_p) * (b + 16 * gl_p) + c).
  assert (E : m mod gl_p = (a * b + c) mod gl_p).
  { unfold m. replace ((a + 16 * gl_p) * (b + 16 * gl_p) + c)
      with (a * b + c + (16 * (a + b) + 256 * gl_p) * gl_p) by ring. apply Z_mod_plus_full. }
  rewrite <- E. exists (m / gl_p), m. split; [reflexivity|]. apply reduced_complete; [exact Hb|]. unfold m. lia.
Qed.

Lemma glmul_complete r a b : big r -> fed a -> fed b -> GLMul r a b ((a * b) mod gl_p).
Proof.
  intros Hb Ha Hbb. destruct (glmuladd_complete r a b 0 Hb Ha Hbb) as (k & m & E & H).
  - change (2 ^ 138) with 348449143727040986586495598010130648530944. lia.
  - rewrite Z.add_0_r in E, H. exists k, m. split; [exact E|exact H].
Qed.

(* the product of two triples over the integers, and its residues *)
Definition prod3 (a b : sig3) : sig3 :=
  let '(a0, a1, a2) := a in let '(b0, b1, b2) := b in
  (a0 * b0 + a1 * b2 + a2 * b1,
   a0 * b1 + a1 * b0 + a1 * b2 + a2 * b1 + a2 * b2,
   a0 * b2 + a1 * b1 + a2 * b0 + a2 * b2).
Definition add3 (a b : sig3) : sig3 :=
  let '(a0, a1, a2) := a in let '(b0, b1, b2) := b in (a0 + b0, a1 + b1, a2 + b2).
Definition mod3 (a : sig3) : sig3 :=
  let '(a0, a1, a2) := a in (a0 mod gl_p, a1 mod gl_p, a2 mod gl_p).

Lemma cmul_complete_core r a b c : big r -> fed3 a -> fed3 b ->
  (let '(c0, c1, c2) := c in 0 <= c0 < 2 ^ 138 /\ 0 <= c1 < 2 ^ 138 /\ 0 <= c2 < 2 ^ 138) ->
  exists m, karatsuba r a b c m /\ on3 (reduced r) m (mod3 (add3 (prod3 a b) c)).
Proof.
  destruct a as [[a0 a1] a2], b as [[b0 b1] b2], c as [[c0 c1] c2].
  intros Hb (A0 & A1 & A2) (B0 & B1 & B2) (C0 & C1 & C2).
  pose proof (fed_prod _ _ A0 B0). pose proof (fed_prod _ _ A0 B1). pose proof (fed_prod _ _ A0 B2).
  pose proof (fed_prod _ _ A1 B0). pose proof (fed_prod _ _ A1 B1). pose proof (fed_prod _ _ A1 B2).
  pose proof (fed_prod _ _ A2 B0). pose proof (fed_prod _ _ A2 B1). pose proof (fed_prod _ _ A2 B2).
  pose proof room as RM.
  set (s := fun x => x + 16 * gl_p).
  exists (s a0 * s b0 + s a1 * s b2 + s a2 * s b1 + c0,
          s a0 * s b1 + s a1 * s b0 + s a1 * s b2 + s a2 * s b1 + s a2 * s b2 + c1,
          s a0 * s b2 + s a1 * s b1 + s a2 * s b0 + s a2 * s b2 + c2).
  split.
  - unfold karatsuba. exists ((s a0 + s a1) * (s b0 + s b1)), ((s a0 + s a2) * (s b0 + s b2)),
      ((s a1 + s a2) * (s b1 + s b2)), (s a0 * s b0), (s a1 * s b1), (s a2 * s b2), (s a0 * s b0 - s a1 * s b1).
    repeat (split; [reflexivity|]).
    split; [|split]; unfold eqr; f_equal; unfold s; ring.
  - assert (R : forall m v q, 0 <= m < 2 ^ 80 * gl_p -> m = v + q * gl_p -> reduced r m (v mod gl_p)).
    { intros m v q Bm Em. rewrite <- (Z_mod_plus_full v q), <- Em.
      exists (m / gl_p). apply reduced_complete; [exact Hb|exact Bm]. }
    unfold mod3, add3, prod3, on3. unfold s in *. split; [|split].
    + eapply (R _ _ (16 * (a0 + b0 + a1 + b2 + a2 + b1) + 768 * gl_p)); [lia|ring].
    + eapply (R _ _ (16 * (a0 + b1 + a1 + b0 + a1 + b2 + a2 + b1 + a2 + b2) + 1280 * gl_p)); [lia|ring].
    + eapply (R _ _ (16 * (a0 + b2 + a1 + b1 + a2 + b0 + a2 + b2) + 1024 * gl_p)); [lia|ring].
Qed.

Lemma add3_0 a : add3 a (0, 0, 0) = a.
Proof. destruct a as [[a0 a1] a2]. unfold add3. rewrite !Z.add_0_r. reflexivity. Qed.

Lemma glcmul_complete r a b : big r -> fed3 a -> fed3 b -> GLCMul r a b (mod3 (prod3 a b)).
Proof.
  intros Hb Ha Hbb. destruct (cmul_complete_core r a b (0, 0, 0) Hb Ha Hbb) as [m H].
  - change (2 ^ 138) with 348449143727040986586495598010130648530944. lia.
  - rewrite add3_0 in H. exists m. exact H.
Qed.

Lemma glcmuladd_complete r a b c : big r -> fed3 a -> fed3 b -> fed3 c ->
  GLCMulAdd r a b c (mod3 (add3 (prod3 a b) c)).
Proof.
  intros Hb Ha Hbb Hc. destruct c as [[c0 c1] c2].
  destruct (cmul_complete_core r a b (c0 + 16 * gl_p, c1 + 16 * gl_p, c2 + 16 * gl_p) Hb Ha Hbb) as [m [HK HR]].
  - destruct Hc as (H0 & H1 & H2). apply fed_shift in H0, H1, H2.
    change (2 ^ 138) with (590295810358705651712 * 2 ^ 69). change (2 ^ 69) with 590295810358705651712 in *. lia.
  - exists m. split; [exact HK|]. 
    assert (E : mod3 (add3 (prod3 a b) (c0 + 16 * gl_p, c1 + 16 * gl_p, c2 + 16 * gl_p)) = mod3 (add3 (prod3 a b) (c0, c1, c2))).
    { destruct (prod3 a b) as [[x y] z]. unfold mod3, add3.
      rewrite !Z.add_assoc, !Z_mod_plus_full. reflexivity. }
    rewrite <- E. exact HR.
Qed.

Lemma word_fed a : 0 <= a < 2 ^ 64 -> fed a.
Proof. unfold fed, gl_p. change (2 ^ 64) with 18446744073709551616. change (2 ^ 68) with 295147905179352825856. lia. Qed.

Lemma fof_eq_mod a b : fof a = fof b -> a mod gl_p = b mod gl_p.
Proof. intros H. apply (f_equal fint) in H. rewrite !fint_of in H. exact H. Qed.

Lemma glinv_complete r i v : big r -> fed i -> 0 <= v < 2 ^ 64 -> fmul (fof i) (fof v) = f1 -> GLInv r i v.
Proof.
  intros Hb Hi Hv H. split.
  - destruct Hb as [Hp Hr]. rewrite p250 in Hr. apply ranged_complete; [lia| |rewrite p64; exact Hv].
    change (2 ^ 64) with 18446744073709551616 in Hv. unfold felt. lia.
  - exists 1. split; [|reflexivity].
    replace 1 with ((i * v) mod gl_p) by (rewrite <- fof_mul, <- fof_1 in H; apply fof_eq_mod in H; exact H).
    apply glmul_complete; [exact Hb|exact Hi|apply word_fed; exact Hv].
Qed.

Lemma kof_prod3 a b : kof (prod3 a b) = kmul (kof a) (kof b).
Proof.
  destruct a as [[a0 a1] a2], b as [[b0 b1] b2]. unfold prod3, kof, kmul. cbn [k0 k1 k2].
  rewrite !fof_add, !fof_mul. apply k_ext; cbn [k0 k1 k2]; ring.
Qed.

Lemma glcinv_complete r i v : big r -> fed3 i -> word3 v -> kmul (kof i) (kof v) = kone -> GLCInv r i v.
Proof.
  intros Hb Hi Hv H. split.
  - destruct v as [[v0 v1] v2]. destruct Hv as (V0 & V1 & V2). destruct Hb as [Hp Hr]. rewrite p250 in Hr.
    change (2 ^ 64) with 18446744073709551616 in *.
    split; [|split]; (apply ranged_complete; [lia|unfold felt; lia|rewrite p64; assumption]).
  - exists 1, 0, 0. split; [|split; [reflexivity|split; reflexivity]].
    replace (1, 0, 0) with (mod3 (prod3 i v)).
    + apply glcmul_complete; [exact Hb|exact Hi|]. destruct v as [[v0 v1] v2]. destruct Hv as (V0 & V1 & V2).
      split; [|split]; apply word_fed; assumption.
    + rewrite <- kof_prod3 in H. destruct (prod3 i v) as [[x y] z]. unfold kof, kone in H.
      pose proof (f_equal k0 H) as H0. pose proof (f_equal k1 H) as H1. pose proof (f_equal k2 H) as H2.
      cbn [k0 k1 k2] in H0, H1, H2. rewrite <- fof_1 in H0. rewrite <- fof_0 in H1, H2.
      apply fof_eq_mod in H0, H1, H2. unfold mod3. rewrite H0, H1, H2. reflexivity.
Qed.

(** * What fails *)

(* the output need not be the remainder: p more is accepted when it still has 64 bits *)
Lemma norm_two r i : big r -> - 15 * gl_p <= i < 1000 * gl_p -> i mod gl_p < 2 ^ 32 - 1 ->
  GLNorm r i (i mod gl_p) /\ GLNorm r i (i mod gl_p + gl_p).
Proof.
  intros Hb H1 H2. split; [apply norm_complete; [exact Hb|unfold gl_p in *; lia]|].
  destruct Hb as [Hp Hr]. rewrite p250 in Hr.
  assert (Bm : 0 <= i mod gl_p < gl_p) by (apply Z.mod_pos_bound; reflexivity).
  pose proof (Z.div_mod i gl_p ltac:(discriminate)) as D.
  exists (i / gl_p + 15). split; [|split].
  - apply ranged_complete; [lia| |]; unfold felt; try rewrite p10; unfold gl_p in *; lia.
  - apply ranged_complete; [lia| |]; unfold felt; try rewrite p64; change (2 ^ 32) with 4294967296 in *; unfold gl_p in *; lia.
  - unfold eqr. f_equal. rewrite D at 1. ring.
Qed.

(* below -16p no assignment exists: the product is then a negative number *)
Lemma mul_below r a b out : big r -> - 2 ^ 120 <= a < - 16 * gl_p -> - 16 * gl_p < b <= 2 ^ 120 -> ~ GLMul r a b out.
Proof.
  intros Hb Ha Hbb [k [m [Em [Hk [Ho E]]]]].
  assert (Sa : small a) by (unfold small, gl_p in *; rewrite p120 in *; lia).
  assert (Sb : small b) by (unfold small, gl_p in *; rewrite p120 in *; lia).
  pose proof (mul_bound _ _ _ (shift_small a Sa) (shift_small b Sb)) as M. rewrite p121sq in M. pose proof pos242.
  pose proof (reduce_sound r k m _ out Hb Hk Ho E Em ltac:(rewrite p249; lia)) as Q.
  pose proof (out_range r out Hb Ho) as Bo.
  assert (Bk : 0 <= k < 2 ^ Z.of_nat 80).
  { destruct Hb as [Hp Hr]. apply (ranged_sound r 80); [exact Hp| |exact Hk]. rewrite p80. rewrite p250 in Hr. lia. }
  assert ((a + 16 * gl_p) * (b + 16 * gl_p) < 0) by (apply Z.mul_neg_pos; lia).
  assert (0 <= k * gl_p) by (apply Z.mul_nonneg_nonneg; [lia|discriminate]). lia.
Qed.

Lemma kof_scale c x0 x1 x2 : kmul (kconst (fof c)) (kof (x0, x1, x2)) = kof (c * x0, c * x1, c * x2).
Proof. unfold kof, kmul, kconst. cbn [k0 k1 k2]. rewrite !fof_mul. apply k_ext; cbn [k0 k1 k2]; ring. Qed.
Lemma kof_add x0 x1 x2 y0 y1 y2 : kadd (kof (x0, x1, x2)) (kof (y0, y1, y2)) = kof (x0 + y0, x1 + y1, x2 + y2).
Proof. unfold kof, kadd. cbn [k0 k1 k2]. rewrite !fof_add. reflexivity. Qed.
Lemma kof_000 : kof (0, 0, 0) = kzero.
Proof. unfold kof, kzero. rewrite !fof_0. reflexivity. Qed.
Lemma kof_eq3 a b : fof (coord0 a) = fof (coord0 b) -> fof (coord1 a) = fof (coord1 b) ->
  fof (coord2 a) = fof (coord2 b) -> kof a = kof b.
Proof. destruct a as [[a0 a1] a2], b as [[b0 b1] b2]. cbn. intros -> -> ->. reflexivity. Qed.
