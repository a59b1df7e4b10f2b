(* The folding of a layer, over K and over the extension of f3g.rs. *)
From Verif Require Import Base ListAux GlModel FrField F3gModel Cubic F3gProof PolyModel Roots PolyProof FftProof FftTop HashModel FriModel.
From Coq Require Import Field.
Open Scope nat_scope.
Add Field KFf : K_field.

(* p(X) = sum_j X^j p_j(X^R); the folded polynomial is sum_j x^j p_j *)
Definition part (R M : nat) (p : list K) (j : nat) (z : K) : K := ksum M (fun k => kmul (nth (k * R + j) p kzero) (kpow z k)).
Definition kfold (R M : nat) (x : K) (p : list K) : list K :=
  map (fun k => ksum R (fun j => kmul (nth (k * R + j) p kzero) (kpow x j))) (seq 0 M).

Lemma kfold_len R M x p : length (kfold R M x p) = M.
Proof. unfold kfold. rewrite map_length, seq_length. reflexivity. Qed.

Lemma peval_map_seq f n x : peval (map f (seq 0 n)) x = ksum n (fun k => kmul (f k) (kpow x k)).
Proof.
  rewrite peval_sum, map_length, seq_length. apply ksum_ext. intros i Hi. rewrite nth_map_seq by exact Hi. reflexivity.
Qed.

Lemma ksum_block M R f : ksum (M * R) f = ksum M (fun k => ksum R (fun j => f (k * R + j))).
Proof.
  induction M; cbn [Nat.mul ksum]; [reflexivity|]. rewrite Nat.add_comm, ksum_app, IHM. reflexivity.
Qed.

Lemma peval_parts R M p y : length p = M * R ->
  peval p y = ksum R (fun j => kmul (kpow y j) (part R M p j (kpow y R))).
Proof.
  intros H. rewrite peval_sum, H, ksum_block, ksum_swap. apply ksum_ext. intros j _. unfold part.
  rewrite <- ksum_scale. apply ksum_ext. intros k _. rewrite kpow_add, (Nat.mul_comm k R), kpow_mul. ring.
Qed.

Lemma kfold_eval R M p x z : peval (kfold R M x p) z = ksum R (fun j => kmul (kpow x j) (part R M p j z)).
Proof.
  unfold kfold. rewrite peval_map_seq.
  rewrite (ksum_ext M _ (fun k => ksum R (fun j => kmul (kmul (nth (k * R + j) p kzero) (kpow x j)) (kpow z k)))).
  - rewrite ksum_swap. apply ksum_ext. intros j _. unfold part. rewrite <- ksum_scale. apply ksum_ext. intros k _. ring.
  - intros k _. rewrite (ksum_ext R (fun j => kmul (kmul (nth (k * R + j) p kzero) (kpow x j)) (kpow z k))
      (fun j => kmul (kpow z k) (kmul (nth (k * R + j) p kzero) (kpow x j)))) by (intros; ring).
    rewrite ksum_scale. ring.
Qed.

(* evaluations on the coset s * <w_B> *)
Definition coset (s : K) (B : nat) (p : list K) : list K := map (fun i => peval p (kmul s (kpow (kroot B) i))) (seq 0 (pow2 B)).
Lemma coset_len s B p : length (coset s B p) = pow2 B.
Proof. unfold coset. rewrite map_length, seq_length. reflexivity. Qed.

(* the values of one group and their interpolation *)
Definition group_vals (p : list K) (y : K) (r : nat) : list K := map (fun i => peval p (kmul y (kpow (kroot r) i))) (seq 0 (pow2 r)).
Lemma group_interp r M p y : r <= 31 -> length p = M * pow2 r ->
  idft r (group_vals p y r) = map (fun j => kmul (kpow y j) (part (pow2 r) M p j (kpow y (pow2 r)))) (seq 0 (pow2 r)).
Proof.
  intros Hr Hp. set (l := map _ _).
  assert (El : length l = pow2 r) by (unfold l; rewrite map_length, seq_length; reflexivity).
  rewrite <- (idft_dft r l Hr El). f_equal. unfold group_vals, dft. apply map_ext_in. intros i _.
  rewrite (peval_parts (pow2 r) M) by exact Hp. unfold l. rewrite peval_map_seq. apply ksum_ext. intros j _.
  rewrite !kpow_prod. rewrite <- (kpow_mul (kroot r) i (pow2 r)), (Nat.mul_comm i), (kpow_mul (kroot r) (pow2 r) i), kroot_full by lia.
  rewrite kpow_1. replace (kmul (kpow y (pow2 r)) kone) with (kpow y (pow2 r)) by ring.
  rewrite <- !kpow_mul, (Nat.mul_comm i j). ring.
Qed.

Lemma fold_value r M p y x si : r <= 31 -> length p = M * pow2 r -> kmul y si = kone ->
  peval (idft r (group_vals p y r)) (kmul x si) = peval (kfold (pow2 r) M x p) (kpow y (pow2 r)).
Proof.
  intros Hr Hp Hy. rewrite (group_interp r M) by assumption. rewrite peval_map_seq, kfold_eval. apply ksum_ext. intros j _.
  rewrite kpow_prod. replace (kpow x j) with (kmul (kpow x j) (kpow (kmul y si) j)) at 2 by (rewrite Hy, kpow_1; ring).
  rewrite kpow_prod. ring.
Qed.

Lemma kroot_down B r : r <= B -> B <= 32 -> kpow (kroot B) (pow2 r) = kroot (B - r).
Proof.
  intros Hr HB. revert B Hr HB. induction r; intros B Hr HB.
  - cbn [Nat.pow kpow]. rewrite Nat.sub_0_r. ring.
  - destruct B as [|B]; [lia|]. rewrite Nat.pow_succ_r', kpow_mul.
    replace (kpow (kroot (S B)) 2) with (kroot B) by (rewrite (kroot_step B) by lia; cbn [kpow]; ring).
    rewrite IHr by lia. f_equal.
Qed.

(* the group at g of a layer is taken at the points y * w_r^i with y = s * w_B^g *)
Lemma coset_group s B b p g i : b <= B -> B <= 32 -> i < pow2 (B - b) -> g < pow2 b ->
  nth_error (coset s B p) (i * pow2 b + g) =
  Some (peval p (kmul (kmul s (kpow (kroot B) g)) (kpow (kroot (B - b)) i))).
Proof.
  intros Hb HB Hi Hg. unfold coset.
  assert (L : i * pow2 b + g < pow2 B).
  { replace (pow2 B) with (pow2 (B - b) * pow2 b) by (rewrite <- Nat.pow_add_r; f_equal; lia). nia. }
  rewrite nth_error_map, (nth_error_nth' _ 0) by (rewrite seq_length; exact L). rewrite seq_nth by exact L. cbn [option_map].
  f_equal. f_equal. rewrite Nat.add_0_l, kpow_add, (Nat.mul_comm i), kpow_mul, kroot_down by lia. ring.
Qed.

(* the next coset *)
Lemma next_point s B b g : b <= B -> B <= 32 ->
  kpow (kmul s (kpow (kroot B) g)) (pow2 (B - b)) = kmul (kpow s (pow2 (B - b))) (kpow (kroot b) g).
Proof.
  intros Hb HB. rewrite kpow_prod, <- kpow_mul, (Nat.mul_comm g), kpow_mul, kroot_down by lia.
  replace (B - (B - b)) with b by lia. reflexivity.
Qed.

(* the positions of the group at g *)
Definition group (pol : list F3G) (B b g : nat) : res (list F3G) := mapM (fun i => vget pol (i * pow2 b + g)) (seq 0 (pow2 (B - b))).

Lemma mapM_seq_vals (pol : list F3G) n pos (f : nat -> K) :
  (forall i, i < n -> nth_error (map val pol) (pos i) = Some (f i)) ->
  exists l, mapM (fun i => vget pol (pos i)) (seq 0 n) = Ok l /\ map val l = map f (seq 0 n).
Proof.
  intros H.
  assert (G : forall a m, a + m <= n -> exists l, mapM (fun i => vget pol (pos i)) (seq a m) = Ok l /\ map val l = map f (seq a m)).
  { intros a m. revert a. induction m; intros a Ha; cbn [seq mapM map]; [exists []; split; reflexivity|].
    pose proof (H a ltac:(lia)) as E. rewrite nth_error_map in E.
    destruct (nth_error pol (pos a)) as [v|] eqn:Ev; [|discriminate E]. cbn [option_map] in E.
    destruct (IHm (S a) ltac:(lia)) as [l [El Vl]].
    exists (v :: l). rewrite (vget_some _ _ _ Ev). cbn [bind]. rewrite El. cbn [bind map]. split; [reflexivity|].
    rewrite Vl. f_equal. congruence. }
  apply (G 0 n). lia.
Qed.

Lemma group_ok pol s B b p g : b <= B -> B <= 32 -> map val pol = coset s B p -> g < pow2 b ->
  exists l, group pol B b g = Ok l /\ map val l = group_vals p (kmul s (kpow (kroot B) g)) (B - b).
Proof.
  intros Hb HB HV Hg. unfold group.
  destruct (mapM_seq_vals pol (pow2 (B - b)) (fun i => i * pow2 b + g)
    (fun i => peval p (kmul (kmul s (kpow (kroot B) g)) (kpow (kroot (B - b)) i)))) as [l [El Vl]].
  - intros i Hi. rewrite HV. apply coset_group; assumption.
  - exists l. split; [exact El|]. exact Vl.
Qed.

Lemma layer_size (pol : list F3G) s B b p : b <= B -> map val pol = coset s B p ->
  length pol = pow2 B /\ length pol / pow2 b = pow2 (B - b) /\ length pol / pow2 (B - b) = pow2 b.
Proof.
  intros Hb HV. assert (L : length pol = pow2 B) by (rewrite <- (map_length val), HV, coset_len; reflexivity).
  rewrite L. assert (E : pow2 B = pow2 (B - b) * pow2 b) by (rewrite <- Nat.pow_add_r; f_equal; lia).
  pose proof (pow2_pos b). pose proof (pow2_pos (B - b)).
  split; [reflexivity|]. rewrite E. split; [apply Nat.div_mul; lia|]. rewrite Nat.mul_comm. apply Nat.div_mul. lia.
Qed.

Definition dim3 (x : F3G) : Prop := d3 x = true.
Lemma dim3_uni l : Forall dim3 l <-> Forall (uni true) l.
Proof.
  split; apply Forall_impl; unfold dim3, uni; [|tauto]. intros a H. split; [|exact H]. intros E. congruence.
Qed.
Lemma d3_add_r a b : d3 b = true -> d3 (e_add a b) = true.
Proof. unfold e_add. intros ->. destruct (d3 a); reflexivity. Qed.
Lemma d3_mul_l a b : d3 a = true -> d3 (e_mul a b) = true.
Proof. unfold e_mul. intros ->. destruct (d3 b); reflexivity. Qed.
Lemma mul_axi_dim3 l : forall r a, Forall dim3 l -> Forall dim3 (pol_mul_axi (F := opsE) l r a).
Proof.
  induction l as [|x l IH]; intros r a H; cbn [pol_mul_axi]; [constructor|]. inversion H as [|? ? H1 H2]; subst.
  constructor; [apply d3_mul_l; exact H1|apply IH; exact H2].
Qed.
Lemma eval_dim3 (l : list F3G) x : l <> [] -> Forall dim3 l -> dim3 (eval_pol (F := opsE) l x).
Proof.
  intros N H. unfold eval_pol. change (car opsE) with F3G. destruct (rev l) as [|z r] eqn:E.
  { exfalso. apply N. rewrite <- (rev_involutive l), E. reflexivity. }
  apply Forall_rev in H. rewrite E in H. inversion H as [|? ? Hz Hr]; subst. clear E H.
  revert z Hz. induction r as [|a r IH]; intros z Hz; cbn [fold_left]; [exact Hz|].
  inversion Hr as [|? ? H1 H2]; subst. apply IH; [exact H2|]. apply d3_add_r. exact H1.
Qed.

Lemma group_dim3 pol B b g l : group pol B b g = Ok l -> Forall dim3 pol -> Forall dim3 l.
Proof.
  unfold group. intros El H3. apply Forall_forall. intros z Hz. rewrite Forall_forall in H3. apply H3.
  revert El Hz. generalize (seq 0 (pow2 (B - b))). intros q. revert l.
  induction q as [|a q IH]; intros l El Hz; cbn [mapM] in El.
  - injection El as <-. destruct Hz.
  - destruct (vget pol (a * pow2 b + g)) eqn:Ea; try discriminate El. cbn [bind] in El.
    destruct (mapM _ q) eqn:Eq; try discriminate El. cbn [bind] in El. injection El as <-. destruct Hz as [<-|Hz].
    + apply vget_inv in Ea. apply nth_error_In in Ea. exact Ea.
    + apply (IH a1); auto.
Qed.

(* what the prover computes at g *)
Lemma fold_one_ok pol s B b p g sinv x : b <= B -> B <= 31 -> map val pol = coset s B p -> length p = pow2 B -> g < pow2 b ->
  kmul (kmul s (kpow (kroot B) g)) (val sinv) = kone -> Forall dim3 pol ->
  exists v, fold_one pol (pow2 (B - b)) (pow2 b) g sinv x = Ok v /\ dim3 v /\
    val v = peval (kfold (pow2 (B - b)) (pow2 b) (val x) p) (kmul (kpow s (pow2 (B - b))) (kpow (kroot b) g)).
Proof.
  intros Hb HB HV Hp Hg Hs H3. unfold fold_one.
  destruct (group_ok pol s B b p g Hb ltac:(lia) HV Hg) as [l [El Vl]]. unfold group in El. rewrite El. cbn [bind].
  assert (Ll : length l = pow2 (B - b)) by (rewrite <- (map_length val), Vl; unfold group_vals; rewrite map_length, seq_length; reflexivity).
  destruct (ifft_E (B - b) l ltac:(lia) Ll) as [c [Ec Vc]]. rewrite Ec. cbn [bind].
  assert (U : Forall (uni true) l) by (apply dim3_uni; apply (group_dim3 pol B b g); [exact El|exact H3]).
  pose proof (uni_ifft true (B - b) l c ltac:(lia) Ll U Ec) as Uc.
  eexists. split; [reflexivity|]. split.
  - apply eval_dim3.
    + intros E. assert (L : length (pol_mul_axi (F := opsE) c e_ONE sinv) = length c) by (apply (coset_E c e_ONE sinv e_ONE)).
      rewrite E in L. change (0 = @length F3G c) in L. assert (Lc : @length F3G c = pow2 (B - b)) by (rewrite <- (map_length val), Vc, idft_len; reflexivity).
      pose proof (pow2_pos (B - b)). lia.
    + apply mul_axi_dim3. apply dim3_uni. exact Uc.
  - rewrite eval_E, mul_axi_E, Vc, Vl, val_ONE.
    replace (kmul (val sinv) (val x)) with (kmul (val x) (val sinv)) by ring.
    rewrite (fold_value (B - b) (pow2 b)); [|lia|rewrite Hp, <- Nat.pow_add_r; f_equal; lia|exact Hs].
    rewrite next_point by lia. ring.
Qed.

(* what the verifier recomputes from the opened group *)
Lemma fold_check_ok pol s B b p g l shift x : b <= B -> B <= 31 -> map val pol = coset s B p -> length p = pow2 B -> g < pow2 b ->
  val shift = s -> s <> kzero -> group pol B b g = Ok l -> Forall dim3 pol ->
  exists v, fold_check l B g shift x = Ok v /\ dim3 v /\
    val v = peval (kfold (pow2 (B - b)) (pow2 b) (val x) p) (kmul (kpow s (pow2 (B - b))) (kpow (kroot b) g)).
Proof.
  intros Hb HB HV Hp Hg Hs Hnz El H3.
  destruct (group_ok pol s B b p g Hb ltac:(lia) HV Hg) as [l' [El' Vl]]. rewrite El in El'. injection El' as <-.
  assert (Ll : length l = pow2 (B - b)) by (rewrite <- (map_length val), Vl; unfold group_vals; rewrite map_length, seq_length; reflexivity).
  destruct (ifft_E (B - b) l ltac:(lia) Ll) as [c [Ec Vc]]. unfold fold_check. rewrite Ec. cbn [bind].
  rewrite MG_root by lia. cbn [bind]. eexists. split; [reflexivity|].
  assert (U : Forall (uni true) l) by (apply dim3_uni; apply (group_dim3 pol B b g); [exact El|exact H3]).
  pose proof (uni_ifft true (B - b) l c ltac:(lia) Ll U Ec) as Uc.
  assert (Lc : @length F3G c = pow2 (B - b)) by (rewrite <- (map_length val), Vc, idft_len; reflexivity).
  split.
  { apply eval_dim3; [|apply dim3_uni; exact Uc]. intros E. rewrite E in Lc. cbn [length] in Lc. pose proof (pow2_pos (B - b)). lia. }
  rewrite eval_E, Vc, Vl, val_mul, val_inv, val_mul, val_exp, val_from, Nat2Z.id, Hs by lia. fold (kroot B).
  assert (Hr : kpow (kroot B) g <> kzero).
  { intros E. pose proof (kroot_full B ltac:(lia)) as F. pose proof (kpow_add (kroot B) g (pow2 B * S g - g)) as A.
    replace (g + (pow2 B * S g - g)) with (pow2 B * S g) in A by (pose proof (pow2_pos B); nia).
    rewrite kpow_mul, F, kpow_1, E in A. apply kone_neq. rewrite A. ring. }
  assert (Hy : kmul s (kpow (kroot B) g) <> kzero).
  { intros E. apply Hnz. transitivity (kmul (kmul s (kpow (kroot B) g)) (kinv (kpow (kroot B) g))); [field; exact Hr|]. rewrite E. ring. }
  rewrite (fold_value (B - b) (pow2 b)); [|lia|rewrite Hp, <- Nat.pow_add_r; f_equal; lia|field; split; [exact Hr|exact Hnz]].
  rewrite next_point by lia. reflexivity.
Qed.

(* the whole layer *)
Lemma fold_from_ok pol s B b p wi x : b <= B -> B <= 31 -> map val pol = coset s B p -> length p = pow2 B -> Forall dim3 pol ->
  kmul (kroot B) (val wi) = kone ->
  forall cnt g sinv, g + cnt <= pow2 b -> kmul (kmul s (kpow (kroot B) g)) (val sinv) = kone ->
  exists l, fold_from cnt g pol (pow2 (B - b)) (pow2 b) sinv wi x = Ok l /\ Forall dim3 l /\
    map val l = map (fun i => peval (kfold (pow2 (B - b)) (pow2 b) (val x) p) (kmul (kpow s (pow2 (B - b))) (kpow (kroot b) i))) (seq g cnt).
Proof.
  intros Hb HB HV Hp H3 Hw. induction cnt; intros g sinv Hg Hs; cbn [fold_from seq map].
  - exists []. repeat split; constructor.
  - destruct (fold_one_ok pol s B b p g sinv x Hb HB HV Hp ltac:(lia) Hs H3) as [v [Ev [Dv Vv]]]. rewrite Ev. cbn [bind].
    destruct (IHcnt (S g) (e_mul sinv wi) ltac:(lia)) as [l [El [Dl Vl]]].
    { rewrite val_mul. cbn [kpow]. transitivity (kmul (kmul (kmul s (kpow (kroot B) g)) (val sinv)) (kmul (kroot B) (val wi))); [ring|].
      rewrite Hs, Hw. ring. }
    rewrite El. cbn [bind]. exists (v :: l). split; [reflexivity|]. split; [constructor; assumption|]. cbn [map]. rewrite Vv, Vl. reflexivity.
Qed.

Lemma kfold_1 M x p : length p = M -> kfold 1 M x p = p.
Proof.
  intros H. unfold kfold. apply list_eq_map_seq; [exact H|]. intros k _. cbn [ksum kpow]. rewrite Nat.mul_1_r, Nat.add_0_r. ring.
Qed.
Lemma mapM_vget_all {A} (l : list A) : mapM (vget l) (seq 0 (length l)) = Ok l.
Proof.
  assert (G : forall pre, mapM (vget (pre ++ l)) (seq (length pre) (length l)) = Ok l); [|apply (G [])].
  induction l as [|a l IH]; intros pre; cbn [length seq mapM]; [reflexivity|].
  rewrite (vget_some (pre ++ a :: l) (length pre) a) by (rewrite nth_error_app2, Nat.sub_diag by lia; reflexivity). cbn [bind].
  pose proof (IH (pre ++ [a])) as E. rewrite app_length, <- app_assoc in E. cbn [length app] in E.
  replace (S (length pre)) with (length pre + 1) by lia. rewrite E. reflexivity.
Qed.

Lemma fold_layer_ok first pol s B b p sinv x : b <= B -> B <= 31 -> (first = true -> b = B) ->
  map val pol = coset s B p -> length p = pow2 B -> Forall dim3 pol -> kmul s (val sinv) = kone ->
  exists l, fold_layer first pol B b sinv x = Ok l /\ Forall dim3 l /\
    map val l = coset (kpow s (pow2 (B - b))) b (kfold (pow2 (B - b)) (pow2 b) (val x) p).
Proof.
  intros Hb HB Hf HV Hp H3 Hs. unfold fold_layer.
  destruct (layer_size pol s B b p Hb HV) as [L1 [L2 L3]].
  replace (B <? b) with false by (symmetry; apply Nat.ltb_ge; lia). cbv zeta. rewrite L2.
  pose proof (pow2_pos (B - b)). replace (pow2 (B - b) =? 0) with false by (symmetry; apply Nat.eqb_neq; lia).
  rewrite MG_root by lia. cbn [bind]. rewrite L3. destruct first.
  - rewrite (Hf eq_refl), Nat.sub_diag. exists pol. rewrite <- L1, mapM_vget_all. split; [reflexivity|]. split; [exact H3|].
    rewrite L1. cbn [Nat.pow]. rewrite kfold_1 by exact Hp. replace (kpow s 1) with s by (cbn [kpow]; ring). exact HV.
  - apply (fold_from_ok pol s B b p (e_inv (e_from (root B))) x Hb HB HV Hp H3); [|lia|cbn [kpow]; transitivity (kmul s (val sinv)); [ring|exact Hs]].
    rewrite val_inv, val_from. fold (kroot B). field.
    intros E. pose proof (kroot_full B ltac:(lia)) as F. rewrite E in F.
    assert (Z0 : forall n, 0 < n -> kpow kzero n = kzero) by (intros [|n] Hn; [lia|]; cbn [kpow]; ring).
    rewrite Z0 in F by apply pow2_pos. apply kone_neq. symmetry. exact F.
Qed.
