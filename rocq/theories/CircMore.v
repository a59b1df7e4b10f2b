(* The other circuits of CircModel: polynomials, bits, comparison, selection, hashing of rows and paths. *)
From Verif Require Import Base NumTheory GlModel FrField Cubic CircModel CircProof.
From Coq Require Import Znumtheory.
Open Scope Z_scope.

(** * evalpol.circom *)

(* the value of the polynomial with these coefficients, the constant one first *)
Fixpoint kvalue (pol : list K) (x : K) : K :=
  match pol with [] => kzero | c :: t => kadd c (kmul x (kvalue t x)) end.


Lemma kvalue_app x : forall l m, kvalue (l ++ m) x = kadd (kvalue l x) (kmul (kpow x (length l)) (kvalue m x)).
Proof.
  induction l as [|c l IH]; intros m; cbn [kvalue app length kpow].
  - apply k_ext; cbn [k0 k1 k2 kadd kmul kzero kone]; ring.
  - rewrite IH. set (u := kvalue l x). set (v := kvalue m x). set (w := kpow x (length l)).
    apply k_ext; cbn [k0 k1 k2 kadd kmul]; ring.
Qed.

Lemma horner_value x : forall l acc,
  fold_left (fun a c => kadd (kmul a x) c) l acc = kvalue (rev l ++ [acc]) x.
Proof.
  induction l as [|c l IH]; intros acc; cbn [fold_left rev app].
  - cbn [kvalue]. apply k_ext; cbn [k0 k1 k2 kadd kmul kzero]; ring.
  - rewrite IH, <- app_assoc. rewrite (kvalue_app x (rev l) [_]), (kvalue_app x (rev l) ([c] ++ [acc])).
    cbn [app kvalue]. set (u := kpow x _). apply k_ext; cbn [k0 k1 k2 kadd kmul kzero]; ring.
Qed.

Lemma small'_small a : small' a -> small a.
Proof. unfold small, small'. rewrite p120. change (2 ^ 119) with 664613997892457936451903530140172288. lia. Qed.
Lemma small3'_small3 a : small3' a -> small3 a.
Proof. destruct a as [[a0 a1] a2]. intros (H0 & H1 & H2). split; [|split]; apply small'_small; assumption. Qed.
Lemma word_small' a : 0 <= a < 2 ^ 64 -> small' a.
Proof. unfold small'. change (2 ^ 119) with 664613997892457936451903530140172288. change (2 ^ 64) with 18446744073709551616. lia. Qed.
Lemma word3_small3' a : word3 a -> small3' a.
Proof. destruct a as [[a0 a1] a2]. intros (H0 & H1 & H2). split; [|split]; apply word_small'; assumption. Qed.

Lemma eval_loop_sound r x : big r -> small3 x -> forall rest acc out,
  small3' acc -> Forall small3' rest -> eval_loop r x acc rest out ->
  exists v, on3 (eqr r) out v /\ (small3' v /\ (word3 acc -> word3 v)) /\
    kof v = fold_left (fun a c => kadd (kmul a (kof x)) c) (map kof rest) (kof acc).
Proof.
  intros Hb Hx. induction rest as [|c rest IH]; intros acc out Ha Hr H.
  - exists acc. split; [exact H|]. split; [split; [exact Ha|intros W; exact W]|reflexivity].
  - destruct H as [y [Hy H]]. inversion Hr as [|? ? Hc Hr']; subst.
    destruct (glcmuladd_sound r acc x c y Hb (small3'_small3 _ Ha) Hx Hc Hy) as [Wy Ey].
    destruct (IH y out (word3_small3' _ Wy) Hr' H) as [v [Hv [Sv Ev]]].
    exists v. split; [exact Hv|]. split; [split; [exact (proj1 Sv)|intros _; exact (proj2 Sv Wy)]|].
    rewrite Ev. cbn [map fold_left]. rewrite Ey. reflexivity.
Qed.

Lemma evalpol_words r pol x out : big r -> small3 x -> Forall small3' pol -> EvalPol r pol x out ->
  exists v, on3 (eqr r) out v /\ (small3' v /\ (Forall word3 pol -> word3 v)) /\ kof v = kvalue (map kof pol) (kof x).
Proof.
  intros Hb Hx Hp H. unfold EvalPol in H. destruct (rev pol) as [|h t] eqn:E; [destruct H|].
  assert (Ep : pol = rev t ++ [h]) by (rewrite <- (rev_involutive pol), E; reflexivity).
  assert (Hf : Forall small3' (h :: t)) by (rewrite <- E; apply Forall_rev; exact Hp).
  pose proof (Forall_inv Hf) as Hh. pose proof (Forall_inv_tail Hf) as Ht.
  destruct (eval_loop_sound r x Hb Hx t h out Hh Ht H) as [v [H1 [H2 H3]]].
  exists v. split; [exact H1|]. split; [|rewrite H3, horner_value, Ep, map_app, map_rev; reflexivity].
  split; [exact (proj1 H2)|]. intros W. apply (proj2 H2). apply Forall_rev in W. rewrite E in W. exact (Forall_inv W).
Qed.
Lemma evalpol_sound r pol x out : big r -> small3 x -> Forall small3' pol -> EvalPol r pol x out ->
  exists v, on3 (eqr r) out v /\ small3' v /\ kof v = kvalue (map kof pol) (kof x).
Proof.
  intros Hb Hx Hp H. destruct (evalpol_words r pol x out Hb Hx Hp H) as [v [H1 [[H2 _] H3]]].
  exists v. split; [exact H1|]. split; [exact H2|exact H3].
Qed.

Lemma mod3_word a : word3 (mod3 a).
Proof.
  destruct a as [[a0 a1] a2]. assert (H : forall z, 0 <= z mod gl_p < 2 ^ 64).
  { intros z. assert (0 <= z mod gl_p < gl_p) by (apply Z.mod_pos_bound; reflexivity).
    change (2 ^ 64) with 18446744073709551616. unfold gl_p in *. lia. }
  split; [|split]; apply H.
Qed.
Lemma word3_fed3 a : word3 a -> fed3 a.
Proof. destruct a as [[a0 a1] a2]. intros (H0 & H1 & H2). split; [|split]; apply word_fed; assumption. Qed.

Lemma evalpol_complete r pol x : big r -> fed3 x -> Forall fed3 pol -> pol <> [] -> exists out, EvalPol r pol x out.
Proof.
  intros Hb Hx Hp Hn. unfold EvalPol. assert (Hf : Forall fed3 (rev pol)) by (apply Forall_rev; exact Hp).
  destruct (rev pol) as [|h t] eqn:E.
  - destruct Hn. rewrite <- (rev_involutive pol), E. reflexivity.
  - pose proof (Forall_inv Hf) as Hh. pose proof (Forall_inv_tail Hf) as Ht. clear - Hb Hx Hh Ht. revert h Hh.
    induction t as [|c t IH]; intros h Hh.
    + exists h. destruct h as [[h0 h1] h2]. split; [reflexivity|split; reflexivity].
    + pose proof (Forall_inv Ht) as Hc. pose proof (Forall_inv_tail Ht) as Ht'.
      destruct (IH Ht' (mod3 (add3 (prod3 h x) c)) (word3_fed3 _ (mod3_word _))) as [out Ho].
      exists out. exists (mod3 (add3 (prod3 h x) c)). split; [|exact Ho].
      apply glcmuladd_complete; assumption.
Qed.

(** * Bits *)

Lemma bits_unique r n x bs bs' : prime r -> 2 ^ Z.of_nat n <= r ->
  Num2Bits r n x bs -> Num2Bits r n x bs' -> bs = bs'.
Proof.
  intros Hp Hn (L1 & B1 & F1 & E1) (L2 & B2 & F2 & E2).
  apply (bits_01 r) in B1; [|exact Hp]. apply (bits_01 r) in B2; [|exact Hp].
  pose proof (bsum_range _ B1) as R1. pose proof (bsum_range _ B2) as R2. rewrite L1 in R1. rewrite L2 in R2.
  assert (E : bsum bs = bsum bs').
  { apply (eqr_felt r); [unfold felt; lia|unfold felt; lia|]. exact (eqr_trans _ _ _ _ E1 (eqr_sym _ _ _ E2)). }
  rewrite <- L2 in L1. clear - L1 B1 B2 E. revert bs' L1 B2 E.
  induction B1 as [|b bs Hb B1 IH]; intros [|b' bs'] L B2 E; try discriminate; [reflexivity|].
  pose proof (Forall_inv B2) as Hb'. pose proof (Forall_inv_tail B2) as B2'. cbn [bsum] in E. cbn [length] in L.
  assert (b = b') by (destruct Hb, Hb'; lia). subst b'. f_equal. apply IH; [congruence|exact B2'|lia].
Qed.

(* the three low words *)
Definition words3 (x : Z) : sig3 := (x mod 2 ^ 64, x / 2 ^ 64 mod 2 ^ 64, x / 2 ^ 128 mod 2 ^ 64).

Lemma bsum_firstn n : forall bs, Forall bit01 bs -> bsum (firstn n bs) = bsum bs mod 2 ^ Z.of_nat n.
Proof.
  induction n as [|n IH]; intros bs H; [cbn [firstn bsum]; rewrite Z.mod_1_r; reflexivity|].
  destruct H as [|b bs Hb H]; [cbn [firstn bsum]; rewrite Z.mod_0_l; [reflexivity|apply Z.pow_nonzero; lia]|].
  cbn [firstn bsum]. rewrite IH by exact H. rewrite pow2_S.
  assert (Hp : 0 < 2 ^ Z.of_nat n) by (apply Z.pow_pos_nonneg; lia).
  rewrite Z.rem_mul_r by lia.
  replace ((b + 2 * bsum bs) mod 2) with b; [replace ((b + 2 * bsum bs) / 2) with (bsum bs); [reflexivity|]|].
  - rewrite Z.mul_comm, Z.div_add by lia. destruct Hb as [-> | ->]; reflexivity.
  - rewrite Z.mul_comm, Z_mod_plus_full. destruct Hb as [-> | ->]; reflexivity.
Qed.

Lemma bsum_skipn n : forall bs, Forall bit01 bs -> bsum (skipn n bs) = bsum bs / 2 ^ Z.of_nat n.
Proof.
  induction n as [|n IH]; intros bs H; [cbn [skipn]; rewrite Z.div_1_r; reflexivity|].
  destruct H as [|b bs Hb H]; [cbn [skipn bsum]; rewrite Z.div_0_l; [reflexivity|apply Z.pow_nonzero; lia]|].
  cbn [skipn bsum]. rewrite IH by exact H. rewrite pow2_S.
  assert (Hp : 0 < 2 ^ Z.of_nat n) by (apply Z.pow_pos_nonneg; lia).
  rewrite <- Z.div_div by lia.
  replace ((b + 2 * bsum bs) / 2) with (bsum bs); [reflexivity|].
  rewrite Z.mul_comm, Z.div_add by lia. destruct Hb as [-> | ->]; reflexivity.
Qed.

Lemma forall_skipn {A} (Q : A -> Prop) n : forall l, Forall Q l -> Forall Q (skipn n l).
Proof. induction n; intros l H; [exact H|]. destruct H; [constructor|apply IHn; assumption]. Qed.

Lemma words_bits bs : Forall bit01 bs ->
  (bsum (firstn 64 bs), bsum (firstn 64 (skipn 64 bs)), bsum (firstn 64 (skipn 128 bs))) = words3 (bsum bs).
Proof.
  intros H. rewrite !bsum_firstn, !bsum_skipn; try exact H; try (apply forall_skipn; exact H). reflexivity.
Qed.

Lemma words3_felt r x : 2 ^ 64 <= r -> let '(a, b, c) := words3 x in felt r a /\ felt r b /\ felt r c.
Proof.
  intros Hr. unfold words3, felt.
  assert (H : forall z, 0 <= z mod 2 ^ 64 < 2 ^ 64) by (intros z; apply Z.mod_pos_bound; reflexivity).
  pose proof (H x). pose proof (H (x / 2 ^ 64)). pose proof (H (x / 2 ^ 128)). lia.
Qed.

(* every v congruent to the input with at most 255 bits gives outputs *)
Lemma bn1_complete r i v : 1 < r -> felt r i -> 0 <= v < 2 ^ 255 -> eqr r v i -> BN1toGL3 r i (words3 v).
Proof.
  intros Hr Hi Hv E. unfold words3. exists (bits_of 255 v).
  pose proof (words_bits (bits_of 255 v) (bits_of_01 255 v)) as W.
  assert (S : bsum (bits_of 255 v) = v) by (apply bits_of_sum; exact Hv). rewrite S in W. unfold words3 in W.
  split.
  - split; [apply bits_of_len|]. split; [eapply Forall_impl; [|apply bits_of_01]; intros b; apply bit_of_01; exact Hr|].
    split; [exact Hi|]. rewrite S. exact E.
  - pose proof (f_equal fst (f_equal fst W)) as W0. pose proof (f_equal snd (f_equal fst W)) as W1.
    pose proof (f_equal snd W) as W2. cbn [fst snd] in W0, W1, W2. clear W.
    set (bs := bits_of 255 v) in *. clearbody bs. rewrite W0, W1, W2.
    split; [reflexivity|split; reflexivity].
Qed.

Lemma bn1_sound r i o : prime r -> 2 ^ 254 < r -> BN1toGL3 r i o ->
  exists v, (v = i \/ v = i + r) /\ 0 <= v < 2 ^ 255 /\ on3 (eqr r) o (words3 v).
Proof.
  intros Hp Hr H. destruct o as [[o0 o1] o2]. destruct H as [bs [(L & B & F & E) (E0 & E1 & E2)]].
  apply (bits_01 r) in B; [|exact Hp]. pose proof (bsum_range _ B) as R. rewrite L in R.
  pose proof (words_bits bs B) as W. exists (bsum bs).
  change (2 ^ Z.of_nat 255) with (2 * 2 ^ 254) in R. split; [|split; [exact R|]].
  - unfold felt in F. unfold eqr in E. rewrite (Z.mod_small i) in E by exact F.
    set (t := 2 ^ 254) in *. clearbody t. set (s := bsum bs) in *. clearbody s.
    pose proof (Z.div_mod s r ltac:(lia)). rewrite E in H.
    assert (0 <= s / r) by (apply Z.div_pos; lia).
    assert (s / r < 2) by (apply Z.div_lt_upper_bound; lia).
    assert (s / r = 0 \/ s / r = 1) as [Q|Q] by lia; rewrite Q in H; [left|right]; lia.
  - rewrite <- W. split; [exact E0|split; [exact E1|exact E2]].
Qed.

(* two outputs for every input that has two representations of 255 bits *)
Lemma bn1_two r i : 1 < r -> Z.odd r = true -> 2 ^ 64 <= r -> 0 <= i < 2 ^ 255 - r -> i < r ->
  BN1toGL3 r i (words3 i) /\ BN1toGL3 r i (words3 (i + r)) /\ words3 i <> words3 (i + r).
Proof.
  intros Hr Ho H64 Hi Hir. split; [|split].
  - apply bn1_complete; [exact Hr|unfold felt; lia|lia|reflexivity].
  - apply bn1_complete; [exact Hr|unfold felt; lia|lia|].
    unfold eqr. rewrite <- (Z.mul_1_l r) at 1. apply Z_mod_plus_full.
  - intros E. pose proof (f_equal fst (f_equal fst E)) as E0. unfold words3 in E0. cbn [fst] in E0.
    assert (P2 : forall z, (z mod 2 ^ 64) mod 2 = z mod 2).
    { intros z. symmetry. apply Zmod_div_mod; [reflexivity|reflexivity|]. exists (2 ^ 63). reflexivity. }
    apply (f_equal (fun z => z mod 2)) in E0. rewrite !P2 in E0. rewrite !Zmod_odd in E0.
    rewrite Z.odd_add, Ho in E0. destruct (Z.odd i); discriminate E0.
Qed.

(** * compconstant64.circom *)

Lemma part_sign cl cm e sl sm : bit01 sl -> bit01 sm ->
  part cl cm e sl sm = e * Z.sgn (sl + 2 * sm - (Z.b2z cl + 2 * Z.b2z cm)).
Proof. intros [-> | ->] [-> | ->]; destruct cl, cm; cbn [part Z.b2z];
  match goal with |- context [Z.sgn ?x] => let v := eval vm_compute in (Z.sgn x) in change (Z.sgn x) with v end; ring.
Qed.

Lemma testbit_mod2 a i : 0 <= i -> Z.b2z (Z.testbit a i) = a / 2 ^ i mod 2.
Proof. intros. apply Z.testbit_spec'. assumption. Qed.

Lemma parts_sign ct : 0 <= ct -> forall n i ins, length ins = (2 * n)%nat -> Forall bit01 ins ->
  exists s, parts_sum ct i ins = 2 ^ Z.of_nat i * s /\ - 2 ^ Z.of_nat n < s < 2 ^ Z.of_nat n /\
    Z.sgn s = Z.sgn (bsum ins - (ct / 4 ^ Z.of_nat i) mod 4 ^ Z.of_nat n).
Proof.
  intros Hct. induction n as [|n IH]; intros i ins L B.
  - destruct ins; [|discriminate]. exists 0. cbn [parts_sum bsum]. split; [ring|]. split; [cbn; lia|].
    change (4 ^ Z.of_nat 0) with 1. rewrite Z.mod_1_r. reflexivity.
  - destruct ins as [|sl [|sm ins]]; cbn [length] in L; try lia.
    inversion B as [|? ? Bl B']; subst. inversion B' as [|? ? Bm B'']; subst.
    destruct (IH (S i) ins ltac:(lia) B'') as [s [Es [Bs Gs]]].
    set (cl := Z.testbit ct (Z.of_nat i * 2)). set (cm := Z.testbit ct (Z.of_nat i * 2 + 1)).
    set (d := sl + 2 * sm - (Z.b2z cl + 2 * Z.b2z cm)).
    exists (Z.sgn d + 2 * s). cbn [parts_sum]. fold cl cm. rewrite part_sign by assumption. fold d. rewrite Es.
    split; [rewrite pow2_S; ring|].
    assert (Sd : -1 <= Z.sgn d <= 1) by (destruct (Z.sgn_spec d) as [[_ ->]|[[_ ->]|[_ ->]]]; lia).
    split; [rewrite pow2_S; lia|].
    cbn [bsum].
    assert (HC : (ct / 4 ^ Z.of_nat i) mod 4 ^ Z.of_nat (S n)
      = Z.b2z cl + 2 * Z.b2z cm + 4 * ((ct / 4 ^ Z.of_nat (S i)) mod 4 ^ Z.of_nat n)).
    { rewrite !Nat2Z.inj_succ, !Z.pow_succ_r by lia.
      assert (P4' : 0 < 4 ^ Z.of_nat n) by (apply Z.pow_pos_nonneg; lia).
      assert (P5 : 0 < 4 ^ Z.of_nat i) by (apply Z.pow_pos_nonneg; lia).
      rewrite Z.rem_mul_r by lia. rewrite Z.div_div by lia. rewrite (Z.mul_comm 4 (4 ^ Z.of_nat i)).
      f_equal. unfold cl, cm. rewrite !testbit_mod2 by lia.
      rewrite Z.pow_add_r, <- Z.div_div by (try apply Z.pow_nonzero; try (apply Z.pow_pos_nonneg); lia).
      replace (2 ^ (Z.of_nat i * 2)) with (4 ^ Z.of_nat i)
        by (rewrite Z.mul_comm, Z.pow_mul_r by lia; reflexivity).
      set (q := ct / 4 ^ Z.of_nat i). change (2 ^ 1) with 2. change 4 with (2 * 2). rewrite Z.rem_mul_r by lia. reflexivity. }
    rewrite HC. set (C := (ct / 4 ^ Z.of_nat (S i)) mod 4 ^ Z.of_nat n) in *. clearbody C.
    set (V := bsum ins) in *. clearbody V.
    replace (sl + 2 * (sm + 2 * V) - (Z.b2z cl + 2 * Z.b2z cm + 4 * C)) with (d + 4 * (V - C)) by (unfold d; ring).
    assert (Bd : -3 <= d <= 3) by (unfold d; destruct Bl as [-> | ->], Bm as [-> | ->], cl, cm; cbn; lia).
    clearbody d. clear - Gs Bd.
    destruct (Z.sgn_spec s) as [[? Q]|[[? Q]|[? Q]]]; rewrite Q in Gs; symmetry in Gs.
    + apply (proj1 (Z.sgn_pos_iff _)) in Gs. rewrite (Z.sgn_pos (d + 4 * (V - C))) by lia. apply Z.sgn_pos.
      destruct (Z.sgn_spec d) as [[_ ->]|[[_ ->]|[_ ->]]]; lia.
    + apply (proj1 (Z.sgn_null_iff _)) in Gs. subst s. rewrite Gs, !Z.mul_0_r, !Z.add_0_r. destruct (Z.sgn_spec d) as [[? ->]|[[? ->]|[? ->]]]; reflexivity.
    + apply (proj1 (Z.sgn_neg_iff _)) in Gs. rewrite (Z.sgn_neg (d + 4 * (V - C))) by lia. apply Z.sgn_neg.
      destruct (Z.sgn_spec d) as [[_ ->]|[[_ ->]|[_ ->]]]; lia.
Qed.

Lemma last_bit n bs : Forall bit01 bs -> length bs = S n ->
  nth n bs 0 = if 2 ^ Z.of_nat n <=? bsum bs then 1 else 0.
Proof.
  revert bs. induction n as [|n IH]; intros bs H L.
  - destruct H as [|b bs Hb H]; [discriminate|]. destruct bs; [|discriminate]. cbn [nth bsum].
    destruct Hb as [-> | ->]; reflexivity.
  - destruct H as [|b bs Hb H]; [discriminate|]. cbn [length] in L. cbn [nth bsum].
    rewrite IH by (assumption || lia). rewrite pow2_S.
    destruct (Z.leb_spec (2 ^ Z.of_nat n) (bsum bs)); destruct (Z.leb_spec (2 * 2 ^ Z.of_nat n) (b + 2 * bsum bs));
      try reflexivity; destruct Hb; lia.
Qed.

Lemma comp_sound r ct ins out : prime r -> 2 ^ 34 < r -> 0 <= ct < 2 ^ 64 -> length ins = 64%nat ->
  Forall bit01 ins -> CompConstant64 r ct ins out ->
  eqr r out (if ct <? bsum ins then 1 else 0).
Proof.
  intros Hp Hr Hct L B (s & bs & Es & (Lb & Bb & Fs & Eb) & Eo).
  apply (bits_01 r) in Bb; [|exact Hp]. pose proof (bsum_range _ Bb) as R. rewrite Lb in R.
  destruct (parts_sign ct ltac:(lia) 32 0 ins L B) as [v [Ev [Bv Gv]]].
  rewrite Ev in Es. change (2 ^ Z.of_nat 0) with 1 in Es.
  change (4 ^ Z.of_nat 0) with 1 in Gv. rewrite Z.div_1_r in Gv. change (4 ^ Z.of_nat 32) with (2 ^ 64) in Gv.
  rewrite (Z.mod_small ct) in Gv by exact Hct.
  assert (E : bsum bs = 2 ^ 32 - 1 + 1 * v).
  { apply (eqr_felt r); [unfold felt| |exact (eqr_trans _ _ _ _ Eb Es)].
    - change (2 ^ Z.of_nat 33) with 8589934592 in R. change (2 ^ 34) with 17179869184 in Hr. lia.
    - unfold felt. change (2 ^ Z.of_nat 32) with 4294967296 in Bv. change (2 ^ 32) with 4294967296.
      change (2 ^ 34) with 17179869184 in Hr. lia. }
  eapply eqr_trans; [exact Eo|]. rewrite (last_bit 32 bs Bb Lb), E.
  change (2 ^ Z.of_nat 32) with 4294967296. change (2 ^ 32) with 4294967296.
  unfold eqr. f_equal. clear - Gv.
  destruct (Z.sgn_spec v) as [[? Q]|[[? Q]|[? Q]]]; rewrite Q in Gv; symmetry in Gv.
  - apply (proj1 (Z.sgn_pos_iff _)) in Gv. rewrite (proj2 (Z.leb_le _ _)), (proj2 (Z.ltb_lt _ _)) by lia. reflexivity.
  - apply (proj1 (Z.sgn_null_iff _)) in Gv. rewrite (proj2 (Z.leb_gt _ _)), (proj2 (Z.ltb_ge _ _)) by lia. reflexivity.
  - apply (proj1 (Z.sgn_neg_iff _)) in Gv. rewrite (proj2 (Z.leb_gt _ _)), (proj2 (Z.ltb_ge _ _)) by lia. reflexivity.
Qed.

Lemma comp_complete r ct ins : 2 ^ 34 < r -> 0 <= ct < 2 ^ 64 -> length ins = 64%nat -> Forall bit01 ins ->
  exists out, CompConstant64 r ct ins out.
Proof.
  intros Hr Hct L B. destruct (parts_sign ct ltac:(lia) 32 0 ins L B) as [v [Ev [Bv _]]].
  set (s := 2 ^ 32 - 1 + parts_sum ct 0 ins).
  assert (Bs : 0 <= s < 2 ^ 33).
  { unfold s. rewrite Ev. change (2 ^ Z.of_nat 32) with 4294967296 in Bv. change (2 ^ 32) with 4294967296.
    change (2 ^ 33) with 8589934592. change (2 ^ Z.of_nat 0) with 1. lia. }
  exists (nth 32 (bits_of 33 s) 0), s, (bits_of 33 s). split; [reflexivity|]. split; [|reflexivity].
  change (2 ^ 33) with 8589934592 in Bs. change (2 ^ 34) with 17179869184 in Hr.
  apply num2bits_complete; [lia|unfold felt; lia|exact Bs].
Qed.

(** * treeselector.circom *)

Lemma select_level_nth r k : bit01 k -> forall vs out, select_level r k vs out ->
  length vs = (2 * length out)%nat /\
  forall j, eqr r (nth j out 0) (nth (Z.to_nat k + 2 * j) vs 0).
Proof.
  intros Hk vs out. revert vs. induction out as [|o out IH]; intros [|v0 [|v1 vs]] H; try (destruct H; fail).
  - split; [reflexivity|]. intros j. replace (nth j [] 0) with 0 by (destruct j; reflexivity).
    rewrite (nth_overflow []) by (cbn; lia). reflexivity.
  - destruct H as [E H]. apply IH in H. destruct H as [L H]. split; [cbn [length]; lia|].
    intros [|j].
    + cbn [nth]. eapply eqr_trans; [exact E|]. unfold eqr. f_equal. destruct Hk as [-> | ->].
      * change (Z.to_nat 0 + 2 * 0)%nat with 0%nat. cbn [nth]. ring.
      * change (Z.to_nat 1 + 2 * 0)%nat with 1%nat. cbn [nth]. ring.
    + replace (Z.to_nat k + 2 * S j)%nat with (S (S (Z.to_nat k + 2 * j))) by lia. cbn [nth]. apply H.
Qed.

Lemma select_levels_nth r : forall ks vs out, Forall bit01 ks -> select_levels r ks vs out ->
  length vs = (2 ^ length ks)%nat /\ eqr r out (nth (Z.to_nat (bsum ks)) vs 0).
Proof.
  induction ks as [|k ks IH]; intros vs out B H.
  - cbn [select_levels] in H. destruct vs as [|v [|? ?]]; try (destruct H; fail). split; [reflexivity|exact H].
  - destruct H as [im [H1 H2]]. inversion B as [|? ? Hk B']; subst.
    destruct (select_level_nth r k Hk vs im H1) as [L1 N1]. destruct (IH im out B' H2) as [L2 N2].
    split; [cbn [length]; rewrite Nat.pow_succ_r', <- L2; exact L1|].
    eapply eqr_trans; [exact N2|]. eapply eqr_trans; [apply N1|].
    cbn [bsum]. pose proof (bsum_range _ B'). unfold eqr. do 2 f_equal.
    destruct Hk as [-> | ->]; lia.
Qed.

Lemma select_level_ex r k : forall n vs, length vs = (2 * n)%nat -> exists im, select_level r k vs im /\ length im = n.
Proof.
  induction n; intros vs L.
  - destruct vs; [|discriminate]. exists []. split; [exact I|reflexivity].
  - destruct vs as [|v0 [|v1 vs]]; cbn [length] in L; try lia.
    destruct (IHn vs ltac:(lia)) as [im [H1 H2]]. exists ((k * (v1 - v0) + v0) :: im).
    split; [split; [reflexivity|exact H1]|cbn [length]; rewrite H2; reflexivity].
Qed.

Lemma select_levels_ex r : forall ks vs, length vs = (2 ^ length ks)%nat -> exists out, select_levels r ks vs out.
Proof.
  induction ks as [|k ks IH]; intros vs L.
  - destruct vs as [|v [|? ?]]; try discriminate. exists v. reflexivity.
  - cbn [length] in L. rewrite Nat.pow_succ_r' in L. destruct (select_level_ex r k _ vs L) as [im [H1 H2]].
    destruct (IH im H2) as [out Ho]. exists out, im. split; assumption.
Qed.
