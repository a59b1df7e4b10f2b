(* Correctness of polutils.rs and fft.rs over K, then transferred to F3G through [val]. *)
From Verif Require Import Base ListAux NumTheory GlModel GlProof GlSqrt FrField F3gModel Cubic F3gProof PolyModel Roots.
From Coq Require Import Field.
Open Scope Z_scope.

Definition opsK : FOps := mkOps K kzero kone kadd ksub kmul kinv kconst.

Ltac kn := cbn [o_mul o_add o_sub o_inv o_zero o_one o_of opsK] in *; change (car opsK) with K in *.
Ltac kring := cbv [opsK car o_zero o_one o_add o_sub o_mul o_inv o_of] in *; ring.

(* value of a coefficient list at a point *)
Fixpoint peval (p : list K) (x : K) : K :=
  match p with [] => kzero | a :: q => kadd a (kmul x (peval q x)) end.

(* ---------- log2_any ---------- *)
Lemma mask_step v base h M : 0 < v -> 0 <= base -> 0 < h ->
  (forall i, Z.testbit v i = true -> base <= i < base + 2 * h) ->
  (forall i, base <= i < base + 2 * h -> Z.testbit M i = (base + h <=? i)) ->
  (Z.land v M = 0 -> forall i, Z.testbit v i = true -> base <= i < base + h) /\
  (Z.land v M <> 0 -> 0 < Z.land v M /\ Z.log2 (Z.land v M) = Z.log2 v /\
     forall i, Z.testbit (Z.land v M) i = true -> base + h <= i < base + 2 * h).
Proof.
  intros Hv Hb Hh HB HM. split.
  - intros H i Hi. pose proof (HB i Hi). destruct (Z.leb_spec (base + h) i); [|lia].
    exfalso. assert (E : Z.testbit (Z.land v M) i = true).
    { rewrite Z.land_spec, Hi, HM by lia. apply Z.leb_le. lia. }
    rewrite H, Z.bits_0 in E. discriminate.
  - intros H. assert (L : 0 <= Z.land v M) by (apply Z.land_nonneg; left; lia).
    assert (HI : forall i, Z.testbit (Z.land v M) i = true -> base + h <= i < base + 2 * h).
    { intros i Hi. rewrite Z.land_spec in Hi. apply andb_prop in Hi. destruct Hi as [H1 H2].
      pose proof (HB i H1). rewrite HM in H2 by lia. apply Z.leb_le in H2. lia. }
    split; [lia|]. split; [|exact HI].
    assert (Hl : 0 < Z.land v M) by lia.
    pose proof (Z.bit_log2 _ Hl) as T. pose proof (HI _ T) as R.
    assert (LE : Z.log2 (Z.land v M) <= Z.log2 v).
    { destruct (Z.le_gt_cases (Z.log2 (Z.land v M)) (Z.log2 v)); [assumption|].
      rewrite Z.land_spec in T. apply andb_prop in T. destruct T as [T _].
      rewrite Z.bits_above_log2 in T by lia. discriminate. }
    apply Z.le_antisymm; [exact LE|].
    assert (Tv : Z.testbit v (Z.log2 v) = true) by (apply Z.bit_log2; exact Hv).
    pose proof (HB _ Tv) as Rv.
    assert (X : Z.testbit (Z.land v M) (Z.log2 v) = true).
    { rewrite Z.land_spec, Tv, HM by lia. apply Z.leb_le. lia. }
    destruct (Z.le_gt_cases (Z.log2 v) (Z.log2 (Z.land v M))); [assumption|].
    rewrite Z.bits_above_log2 in X by lia. discriminate.
Qed.

Definition mask_ok (M base h : Z) : bool :=
  forallb (fun k => Bool.eqb (Z.testbit M (base + Z.of_nat k)) (base + h <=? base + Z.of_nat k)) (seq 0 (Z.to_nat (2 * h))).

Lemma mask_ok_spec M base h : 0 < h -> mask_ok M base h = true ->
  forall i, base <= i < base + 2 * h -> Z.testbit M i = (base + h <=? i).
Proof.
  intros Hh H i Hi. unfold mask_ok in H. rewrite forallb_forall in H.
  specialize (H (Z.to_nat (i - base))). replace (base + Z.of_nat (Z.to_nat (i - base))) with i in H by lia.
  apply Bool.eqb_prop. apply H. apply in_seq. lia.
Qed.

(* invariant: the bits of v lie in [base, base+2h) *)
Definition inblk (v base h : Z) : Prop := 0 < v /\ forall i, Z.testbit v i = true -> base <= i < base + h.

Lemma blk_step v base h M : inblk v base (2 * h) -> 0 <= base -> 0 < h -> mask_ok M base h = true ->
  (Z.land v M = 0 /\ inblk v base h) \/
  (Z.land v M <> 0 /\ inblk (Z.land v M) (base + h) h /\ Z.log2 (Z.land v M) = Z.log2 v).
Proof.
  intros [Hv HB] Hb Hh HM. pose proof (mask_ok_spec M base h Hh HM) as HM'.
  destruct (mask_step v base h M Hv Hb Hh HB HM') as [A B].
  destruct (Z.eq_dec (Z.land v M) 0) as [E|E].
  - left. split; [exact E|]. split; [exact Hv|]. exact (A E).
  - right. destruct (B E) as [B1 [B2 B3]]. split; [exact E|]. split; [|exact B2].
    split; [exact B1|]. intros i Hi. pose proof (B3 i Hi). lia.
Qed.

Lemma blk_one v base : inblk v base 1 -> Z.log2 v = base.
Proof. intros [Hv HB]. pose proof (HB _ (Z.bit_log2 v Hv)). lia. Qed.

Ltac blk_go H :=
  match type of H with
  | inblk ?v ?base 1 => apply blk_one in H
  | inblk ?v ?base ?h =>
    let h2 := eval vm_compute in (h / 2) in
    change h with (2 * h2) in H;
    match goal with |- context [Z.land v ?M] =>
      let E := fresh "E" in let H' := fresh "H" in let L := fresh "L" in
      destruct (blk_step v base h2 M H ltac:(lia) ltac:(lia) eq_refl) as [[E H']|[E [H' L]]];
      [rewrite E; change (0 =? 0) with true
      |replace (Z.land v M =? 0) with false by (symmetry; apply Z.eqb_neq; exact E);
       let b := eval vm_compute in (base + h2) in change (base + h2) with b in H'];
      cbv iota beta; blk_go H'
    end
  end.

Lemma log2_any_spec v : 0 < v < 2 ^ 32 -> log2_any v = Z.log2 v.
Proof.
  intros Hv. unfold log2_any.
  assert (H : inblk v 0 32).
  { split; [lia|]. intros i Hi. destruct (Z.neg_nonneg_cases i).
    - rewrite Z.testbit_neg_r in Hi by assumption. discriminate.
    - split; [assumption|]. destruct (Z.lt_ge_cases i 32); [assumption|].
      rewrite Z.bits_above_log2 in Hi; [discriminate|lia|].
      apply Z.log2_lt_pow2; [lia|]. apply Z.lt_le_trans with (2 ^ 32); [lia|]. apply Z.pow_le_mono_r; lia. }
  cbv zeta. blk_go H;
  match goal with |- ?x = Z.log2 _ => let y := eval vm_compute in x in change x with y end; congruence.
Qed.

Lemma log2_any_le v : 0 <= log2_any v <= 31.
Proof.
  unfold log2_any. cbv zeta.
  destruct (Z.land v 4294901760 =? 0); destruct (Z.land _ 4278255360 =? 0);
  destruct (Z.land _ 4042322160 =? 0); destruct (Z.land _ 3435973836 =? 0); destruct (Z.land _ 2863311530 =? 0);
  match goal with |- 0 <= ?x <= 31 => let y := eval vm_compute in x in change x with y end; lia.
Qed.

(* ---------- bit reversal ---------- *)
Lemma rev_bits_range n x : 0 <= rev_bits n x < 2 ^ Z.of_nat n.
Proof.
  revert x. induction n; intros x; cbn [rev_bits]; [change (2 ^ Z.of_nat 0) with 1; lia|].
  rewrite Nat2Z.inj_succ, Z.pow_succ_r by lia. pose proof (IHn (x / 2)).
  pose proof (Z.mod_pos_bound x 2 ltac:(lia)). nia.
Qed.

Lemma rev_bits_msb n x : 0 <= x < 2 ^ Z.of_nat (S n) ->
  rev_bits (S n) x = x / 2 ^ Z.of_nat n + 2 * rev_bits n (x mod 2 ^ Z.of_nat n).
Proof.
  revert x. induction n; intros x Hx.
  - cbn [rev_bits]. change (2 ^ Z.of_nat 0) with 1 in *. change (2 ^ Z.of_nat 1) with 2 in Hx.
    rewrite Z.div_1_r, Z.mod_small by lia. lia.
  - remember (S n) as m. cbn [rev_bits]. subst m.
    rewrite (Nat2Z.inj_succ (S n)), Z.pow_succ_r in Hx by lia.
    assert (H2 : 0 <= x / 2 < 2 ^ Z.of_nat (S n)) by (split; [apply Z.div_pos; lia|apply Z.div_lt_upper_bound; lia]).
    rewrite (IHn (x / 2) H2).
    cbn [rev_bits]. set (N := 2 ^ Z.of_nat n). assert (HN : 0 < N) by (apply Z.pow_pos_nonneg; lia).
    assert (ES : 2 ^ Z.of_nat (S n) = 2 * N) by (rewrite Nat2Z.inj_succ, Z.pow_succ_r by lia; reflexivity).
    rewrite ES. rewrite !Z.div_div by lia.
    assert (M1 : (x mod (2 * N)) mod 2 = x mod 2).
    { rewrite Z.rem_mul_r by lia. rewrite (Z.mul_comm 2 (_ mod N)), Z.mod_add, Z.mod_mod by lia. reflexivity. }
    assert (M2 : (x mod (2 * N)) / 2 = (x / 2) mod N).
    { rewrite Z.rem_mul_r by lia.
      replace (x mod 2 + 2 * ((x / 2) mod N)) with ((x / 2) mod N * 2 + x mod 2) by ring.
      rewrite Z.div_add_l by lia. rewrite (Z.div_small (x mod 2) 2) by (apply Z.mod_pos_bound; lia). lia. }
    rewrite M1, M2. ring.
Qed.

Lemma rev_bits_invol n x : 0 <= x < 2 ^ Z.of_nat n -> rev_bits n (rev_bits n x) = x.
Proof.
  revert x. induction n; intros x Hx.
  - change (2 ^ Z.of_nat 0) with 1 in Hx. cbn. lia.
  - rewrite rev_bits_msb by apply rev_bits_range. cbn [rev_bits].
    pose proof (rev_bits_range n (x / 2)) as R.
    rewrite Z.div_add_l, (Z.div_small (rev_bits n (x / 2))) by lia.
    rewrite Z.add_comm with (m := rev_bits n (x / 2)), Z.mod_add, (Z.mod_small (rev_bits n (x/2))) by lia.
    rewrite Nat2Z.inj_succ, Z.pow_succ_r in Hx by lia.
    rewrite IHn by (split; [apply Z.div_pos; lia|apply Z.div_lt_upper_bound; lia]).
    pose proof (Z.div_mod x 2). lia.
Qed.

Lemma rev_bits_0 n : rev_bits n 0 = 0.
Proof. induction n; cbn [rev_bits]; [reflexivity|]. change (0 / 2) with 0. rewrite IHn. reflexivity. Qed.

Lemma rev_bits_split a b x : rev_bits (a + b) x = rev_bits a x * 2 ^ Z.of_nat b + rev_bits b (x / 2 ^ Z.of_nat a).
Proof.
  revert x. induction a; intros x; cbn [Nat.add rev_bits].
  - change (2 ^ Z.of_nat 0) with 1. rewrite Z.div_1_r. lia.
  - rewrite IHa, Nat2Z.inj_add, Z.pow_add_r by lia.
    rewrite Z.div_div by (try lia; apply Z.pow_pos_nonneg; lia).
    rewrite (Nat2Z.inj_succ a), Z.pow_succ_r by lia. ring.
Qed.

Lemma rev_bits_shift bits x : (bits <= 32)%nat -> 0 <= x < 2 ^ Z.of_nat bits ->
  Z.shiftr (rev_bits 32 x) (32 - Z.of_nat bits) = rev_bits bits x.
Proof.
  intros Hb Hx. replace 32%nat with (bits + (32 - bits))%nat at 1 by lia.
  rewrite rev_bits_split, Z.div_small, rev_bits_0, Z.add_0_r by lia.
  replace (32 - Z.of_nat bits) with (Z.of_nat (32 - bits)) by lia.
  rewrite Z.shiftr_div_pow2 by lia. apply Z.div_mul. apply Z.pow_nonzero; lia.
Qed.

(* ---------- evaluation ---------- *)
Lemma peval_app p q x : peval (p ++ q) x = kadd (peval p x) (kmul (kpow x (length p)) (peval q x)).
Proof.
  induction p as [|a p IH]; cbn [app peval length kpow]; [kring|]. rewrite IH. kring.
Qed.

Lemma eval_pol_K (p : list opsK) x : eval_pol (F := opsK) p x = peval p x.
Proof.
  assert (E : forall (l : list opsK) (acc : opsK), fold_left (horner (F := opsK) x) l acc =
     kadd (peval (rev l) x) (kmul (kpow x (length l)) acc)).
  { induction l as [|a l IH]; intros acc; cbn [fold_left length kpow rev peval]; [kring|].
    rewrite IH, peval_app, rev_length. cbn [peval]. unfold horner. cbn [o_add o_mul opsK]. kring. }
  unfold eval_pol. destruct (rev p) as [|z l] eqn:R.
  - destruct p; [reflexivity|]. cbn in R. apply app_eq_nil in R. destruct R; discriminate.
  - rewrite E. rewrite <- (rev_involutive p), R. cbn [rev]. rewrite peval_app, rev_length.
    cbn [peval]. kring.
Qed.

Lemma pol_mul_axi_K (p : list opsK) r acc x :
  peval (pol_mul_axi (F := opsK) p r acc) x = kmul r (peval p (kmul acc x)).
Proof.
  revert r. induction p as [|a p IH]; intros r; cbn [pol_mul_axi peval]; [kring|].
  rewrite IH. cbn [o_mul opsK]. kring.
Qed.

Lemma pol_mul_axi_len {F : FOps} (p : list F) r acc : length (pol_mul_axi p r acc) = length p.
Proof. revert r. induction p; intros r; cbn; [reflexivity|]. rewrite IHp. reflexivity. Qed.

Lemma peval_zeros n x : peval (repeat kzero n) x = kzero.
Proof. induction n; cbn [repeat peval]; [reflexivity|]. rewrite IHn. kring. Qed.

Lemma peval_sum p x : peval p x = ksum (length p) (fun k => kmul (nth k p kzero) (kpow x k)).
Proof.
  induction p as [|a p IH]; [reflexivity|]. cbn [length]. rewrite ksum_shift. cbn [nth kpow peval].
  rewrite IH, <- ksum_scale.
  rewrite (ksum_ext _ (fun i => kmul (nth i p kzero) (kmul (kpow x i) x)) (fun i => kmul x (kmul (nth i p kzero) (kpow x i)))).
  - kring.
  - intros; kring.
Qed.

(* ---------- batch inverse ---------- *)
Lemma last_cons_app {A} (l : list A) x d : last (l ++ [x]) d = x.
Proof. apply last_last. Qed.

Lemma prefix_app {F : FOps} (l : list F) e x :
  prefix e (l ++ [x]) = prefix e l ++ [o_mul x (last (e :: prefix e l) o_zero)].
Proof.
  revert e. induction l as [|a l IH]; intros e; cbn [app prefix]; [reflexivity|].
  rewrite IH. cbn [app]. f_equal.
Qed.

Lemma kinv_mul a b : a <> kzero -> b <> kzero -> kmul (kinv (kmul a b)) a = kinv b.
Proof.
  intros Ha Hb. assert (Hab : kmul a b <> kzero) by (intros E; apply k_integral in E; tauto).
  field. auto.
Qed.

Lemma k_mul_nz a b : a <> kzero -> b <> kzero -> kmul a b <> kzero.
Proof. intros Ha Hb E. apply k_integral in E. tauto. Qed.

Lemma prefix_last_nz (l : list opsK) e : e <> kzero -> Forall (fun x => x <> kzero) l ->
  last (e :: prefix (F := opsK) e l) kzero <> kzero.
Proof.
  intros He H. induction l as [|x l IH] using rev_ind; [exact He|].
  apply Forall_app in H. destruct H as [H1 H2]. inversion H2; subst.
  rewrite (prefix_app (F := opsK)), app_comm_cons, last_last. cbn [o_mul opsK o_zero].
  apply k_mul_nz; auto.
Qed.

Lemma batch_back_K (rest : list opsK) e0 acc : e0 <> kzero -> Forall (fun x => x <> kzero) rest ->
  binv_back (F := opsK) (rev rest) (tl (rev (e0 :: prefix (F := opsK) e0 rest)))
    (kinv (last (e0 :: prefix (F := opsK) e0 rest) kzero)) acc = map kinv (e0 :: rest) ++ acc.
Proof.
  intros He. revert acc. induction rest as [|x rest IH] using rev_ind; intros acc H.
  - reflexivity.
  - apply Forall_app in H. destruct H as [H1 H2]. inversion H2 as [|? ? Hx _]; subst.
    rewrite (prefix_app (F := opsK)), app_comm_cons, last_last, rev_app_distr, rev_app_distr.
    cbn [rev app tl].
    kn. set (tmp := e0 :: prefix (F := opsK) e0 rest) in *. 
    set (T := last tmp kzero) in *.
    assert (HT : T <> kzero) by (apply prefix_last_nz; assumption).
    assert (RT : rev tmp = T :: tl (rev tmp)).
    { unfold T. assert (tmp <> []) by discriminate. destruct (exists_last H) as [l' [a ->]].
      rewrite rev_app_distr, last_last. reflexivity. }
    change (rev (prefix (F := opsK) e0 rest) ++ [e0]) with (rev tmp). rewrite RT. cbn [binv_back o_mul opsK].
    replace (kmul (kinv (kmul x T)) x) with (kinv T) by (symmetry; apply kinv_mul; assumption).
    kn. rewrite IH by exact H1. cbn [map]. rewrite map_app. cbn [map app]. rewrite <- app_assoc. cbn [app].
    f_equal. f_equal. f_equal. transitivity (kmul (kinv (kmul T x)) T); [f_equal; f_equal; kring|].
    apply kinv_mul; assumption.
Qed.

Lemma batch_inverse_K (l : list opsK) : Forall (fun x => x <> kzero) l ->
  batch_inverse (F := opsK) l = map kinv l.
Proof.
  intros H. destruct l as [|e0 rest]; [reflexivity|]. inversion H; subst.
  unfold batch_inverse. cbn [o_inv o_zero opsK]. rewrite batch_back_K by assumption.
  apply app_nil_r.
Qed.

Lemma kinv_0 : kinv kzero = kzero.
Proof. rewrite <- kconst_0, <- finv_K, finv_0. reflexivity. Qed.

Lemma prefix_zero (l : list opsK) e : (e = kzero \/ In kzero l) -> last (e :: prefix (F := opsK) e l) kzero = kzero.
Proof.
  revert e. induction l as [|x l IH]; intros e H.
  - destruct H as [->|[]]; reflexivity.
  - cbn [prefix]. change (last (kmul x e :: prefix (F := opsK) (kmul x e) l) kzero = kzero). apply IH.
    destruct H as [->|[->|H]]; [left; kring|left; kring|right; exact H].
Qed.

Lemma binv_zero (es ts acc : list opsK) : Forall (fun x => x = kzero) acc ->
  Forall (fun x => x = kzero) (binv_back (F := opsK) es ts kzero acc).
Proof.
  revert ts acc. induction es as [|e es IH]; intros ts acc H; cbn [binv_back]; [constructor; auto|].
  destruct ts as [|t ts]; [constructor; auto|].
  cbn [o_mul opsK]. replace (kmul kzero e) with kzero by kring. apply IH.
  constructor; [kring|exact H].
Qed.

Lemma batch_inverse_zero_K (l : list opsK) : In kzero l ->
  Forall (fun x => x = kzero) (batch_inverse (F := opsK) l).
Proof.
  destruct l as [|e0 rest]; [intros []|]. intros H. unfold batch_inverse. cbn [o_inv o_zero opsK].
  pose proof (prefix_zero rest e0) as PZ. kn. rewrite PZ, kinv_0.
  - apply binv_zero. constructor.
  - destruct H as [->|H]; auto.
Qed.
