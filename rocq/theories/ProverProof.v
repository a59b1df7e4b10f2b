(* Proofs about ProverModel.v. *)
From Coq Require Import Field Permutation.
From Verif Require Import Base GlModel NumTheory FrField F3gModel Cubic F3gProof ListAux PolyModel Roots PolyProof FftTop ProverModel.
Open Scope nat_scope.
Open Scope res_scope.

Add Ring Kr_prover : K_ring.

(* ---------- vanishing polynomial ---------- *)
Lemma zh_shift_val n : forall sn, val (zh_shift n sn) = kpow (val sn) (2 ^ n).
Proof.
  induction n as [|n IH]; intros sn; cbn [zh_shift].
  - cbn [Nat.pow kpow]. ring.
  - rewrite IH, val_mul. rewrite Nat.pow_succ_r', kpow_mul.
    apply (f_equal (fun z => kpow z (2 ^ n))). cbn [kpow]. ring.
Qed.
Lemma zh_table_len n : forall sn w g, length (zh_table n sn w g) = n.
Proof. induction n as [|n IH]; intros; cbn [zh_table length]; [reflexivity | now rewrite IH]. Qed.
Lemma zh_table_nth n : forall sn w g i, i < n ->
  exists x, nth_error (zh_table n sn w g) i = Some x /\
    val x = kinv (ksub (kmul (val sn) (kmul (val w) (kpow (val g) i))) kone).
Proof.
  induction n as [|n IH]; intros sn w g i Hi; [lia|].
  cbn [zh_table]. destruct i as [|i].
  - eexists. split; [reflexivity|]. rewrite val_inv, val_sub, val_mul, val_ONE.
    apply (f_equal (fun z => kinv (ksub z kone))). cbn [kpow]. ring.
  - destruct (IH sn (e_mul w g) g i ltac:(lia)) as [x [Hx Hv]].
    exists x. split; [exact Hx|]. rewrite Hv. apply (f_equal (fun z => kinv (ksub z kone))).
    rewrite val_mul. cbn [kpow]. ring.
Qed.

Lemma kroot_down a b : a + b <= 32 -> kpow (kroot (a + b)) (2 ^ a) = kroot b.
Proof.
  intros H. induction a as [|a IH]; [cbn [Nat.add Nat.pow kpow]; ring|].
  rewrite Nat.pow_succ_r', kpow_mul.
  replace (kpow (kroot (S a + b)) 2) with (kroot (a + b)); [apply IH; lia|].
  cbn [Nat.add]. rewrite (kroot_step (a + b)) by lia. cbn [kpow]. ring.
Qed.

Lemma kpow_comm_exp x a b : kpow (kpow x a) b = kpow (kpow x b) a.
Proof. rewrite <- !kpow_mul. f_equal. lia. Qed.

Theorem zh_inv_spec nbits ext offset i : nbits + ext <= 32 ->
  exists w z, MG (nbits + ext) = Ok w /\ build_Zh_Inv nbits ext offset i = Ok z /\
    kmul (val z) (ksub (kpow (kmul (kconst SHIFT) (kpow (kconst w) (i + offset))) (2 ^ nbits)) kone) = kone.
Proof.
  intros H. exists (root (nbits + ext)). unfold build_Zh_Inv.
  rewrite MG_root by lia. rewrite (MG_root ext) by lia. cbn [bind].
  rewrite zh_table_len.
  pose (m := 2 ^ ext). fold m.
  assert (Hm : m <> 0) by (apply Nat.pow_nonzero; lia).
  pose proof (Nat.mod_upper_bound (i + offset) m Hm) as Hlt.
  destruct (zh_table_nth m (zh_shift nbits (e_from SHIFT)) e_ONE (e_from (root ext)) _ Hlt) as [x [Hx Hv]].
  exists x. split; [reflexivity|]. split; [now apply vget_some|].
  rewrite Hv. rewrite zh_shift_val, val_from, val_ONE, val_from.
  replace (kpow (kmul (kconst SHIFT) (kpow (kconst (root (nbits + ext))) (i + offset))) (2 ^ nbits))
    with (kmul (kpow (kconst SHIFT) (2 ^ nbits)) (kmul kone (kpow (kconst (root ext)) ((i + offset) mod m)))).
  - apply kinv_l. intros E.
    assert (E1 : kmul (kpow (kconst SHIFT) (2 ^ nbits)) (kpow (kconst (root ext)) ((i + offset) mod m)) = kone).
    { set (a := kpow (kconst SHIFT) (2 ^ nbits)) in *. set (b := kpow (kconst (root ext)) _) in *.
      transitivity (kadd (ksub (kmul a (kmul kone b)) kone) kone); [ring|]. rewrite E. ring. }
    assert (E2 : kpow (kconst SHIFT) (2 ^ (nbits + ext)) = kone).
    { rewrite Nat.pow_add_r, kpow_mul.
      apply (f_equal (fun x => kpow x m)) in E1.
      rewrite kpow_prod, kpow_1 in E1.
      rewrite (kpow_comm_exp (kconst (root ext))) in E1.
      fold (kroot ext) in E1. unfold m in E1 at 2. rewrite kroot_full in E1 by lia.
      rewrite kpow_1 in E1. fold m. rewrite <- E1. ring. }
    rewrite <- kconst_pow in E2. apply (kconst_inj _ f1) in E2.
    exact (shift_outside (nbits + ext) ltac:(lia) E2).
  - rewrite kpow_prod. f_equal. rewrite kpow_comm_exp.
    fold (kroot (nbits + ext)). rewrite kroot_down by lia. fold (kroot ext).
    rewrite (Nat.div_mod (i + offset) m Hm) at 2.
    rewrite (Nat.add_comm (m * _)). unfold m. rewrite (kroot_period ext) by lia. ring.
Qed.

(* ---------- H1, H2 ---------- *)
Definition bk (l : list (F3G * nat)) (k : nat) := filter (fun p => snd p =? k) l.
Definition bks (l : list (F3G * nat)) (a m : nat) := concat (map (bk l) (seq a m)).

Lemma bks_ge l a m : Forall (fun p => a <= snd p) (bks l a m).
Proof.
  unfold bks. apply Forall_forall. intros p Hp. apply in_concat in Hp. destruct Hp as [b [Hb Hp]].
  apply in_map_iff in Hb. destruct Hb as [k [<- Hk]]. apply in_seq in Hk.
  unfold bk in Hp. apply filter_In in Hp. destruct Hp as [_ Hp]. apply Nat.eqb_eq in Hp. lia.
Qed.
Lemma ins_front p l : Forall (fun q => snd p <= snd q) l -> ins_by p l = p :: l.
Proof. intros H. destruct H as [|q r Hq _]; [reflexivity|]. cbn [ins_by]. now rewrite (proj2 (Nat.leb_le _ _) Hq). Qed.
Lemma ins_after p l r : Forall (fun q => snd q < snd p) l -> ins_by p (l ++ r) = l ++ ins_by p r.
Proof.
  induction l as [|q l IH]; intros H; [reflexivity|].
  inversion H as [|? ? Hq Hl]; subst. cbn [app ins_by].
  rewrite (proj2 (Nat.leb_gt _ _) Hq). now rewrite (IH Hl).
Qed.
Lemma bks_cons_out p r m : forall a, (snd p < a \/ a + m <= snd p) -> bks (p :: r) a m = bks r a m.
Proof.
  induction m as [|m IH]; intros a H; [reflexivity|].
  unfold bks in *. cbn [seq map concat]. rewrite IH by lia. f_equal.
  unfold bk. cbn [filter]. destruct (Nat.eqb_spec (snd p) a); [lia | reflexivity].
Qed.
Lemma ins_bks p r m : forall a, a <= snd p < a + m -> ins_by p (bks r a m) = bks (p :: r) a m.
Proof.
  induction m as [|m IH]; intros a H; [lia|].
  unfold bks. cbn [seq map concat]. fold (bks r (S a) m). fold (bks (p :: r) (S a) m).
  destruct (Nat.eq_dec (snd p) a) as [E|E].
  - rewrite bks_cons_out by lia. unfold bk at 2. cbn [filter]. rewrite (proj2 (Nat.eqb_eq _ _) E).
    fold (bk r a). cbn [app]. apply ins_front. apply Forall_app. split.
    + apply Forall_forall. intros q Hq. apply filter_In in Hq. destruct Hq as [_ Hq]. apply Nat.eqb_eq in Hq. lia.
    + eapply Forall_impl; [|apply bks_ge]. intros q Hq. cbv beta in Hq. lia.
  - rewrite ins_after.
    + rewrite IH by lia. f_equal. unfold bk. cbn [filter].
      destruct (Nat.eqb_spec (snd p) a); [lia | reflexivity].
    + apply Forall_forall. intros q Hq. apply filter_In in Hq. destruct Hq as [_ Hq]. apply Nat.eqb_eq in Hq. lia.
Qed.
Lemma sort_bks l m : Forall (fun p => snd p < m) l -> sort_by l = bks l 0 m.
Proof.
  induction l as [|p r IH]; intros H.
  - cbn [sort_by]. unfold bks. generalize 0. induction m as [|m IHm]; intros a; [reflexivity|].
    cbn [seq map concat]. rewrite <- IHm by constructor. reflexivity.
  - inversion H; subst. cbn [sort_by]. rewrite IH by assumption. apply ins_bks. lia.
Qed.

Lemma ins_perm p l : Permutation (ins_by p l) (p :: l).
Proof.
  induction l as [|q r IH]; [reflexivity|]. cbn [ins_by]. destruct (snd p <=? snd q); [reflexivity|].
  rewrite IH. apply perm_swap.
Qed.
Lemma sort_perm l : Permutation (sort_by l) l.
Proof. induction l as [|p r IH]; [reflexivity|]. cbn [sort_by]. rewrite ins_perm. now constructor. Qed.

Lemma idx_get_some t : forall i e k, idx_get t i e = Some k -> i <= k < i + length t /\ nth_error t (k - i) = Some e.
Proof.
  induction t as [|x r IH]; intros i e k H; [discriminate H|]. cbn [idx_get] in H.
  destruct (idx_get r (S i) e) as [k'|] eqn:E.
  - injection H as <-. destruct (IH _ _ _ E) as [H1 H2]. cbn [length]. split; [lia|].
    replace (k' - i) with (S (k' - S i)) by lia. exact H2.
  - destruct (e_eqb x e) eqn:Ex; [|discriminate H]. injection H as <-. apply e_eqb_eq in Ex. subst.
    cbn [length]. split; [lia|]. now rewrite Nat.sub_diag.
Qed.
Lemma idx_get_in t : forall i e, In e t -> exists k, idx_get t i e = Some k.
Proof.
  induction t as [|x r IH]; intros i e H; [destruct H|]. cbn [idx_get].
  destruct (idx_get r (S i) e) as [k'|] eqn:E; [now exists k'|].
  destruct H as [->|H].
  - exists i. now rewrite (proj2 (e_eqb_eq e e) eq_refl).
  - destruct (IH (S i) e H) as [k Hk]. congruence.
Qed.

Lemma f_pairs_ok t : forall f fp, f_pairs f t = Ok fp ->
  map fst fp = f /\ Forall (fun p => snd p < length t /\ nth_error t (snd p) = Some (fst p)) fp.
Proof.
  unfold f_pairs. induction f as [|e f IH]; intros fp H; cbn [mapM] in H.
  - injection H as <-. split; [reflexivity | constructor].
  - destruct (idx_get t 0 e) as [k|] eqn:E; [|discriminate H]. cbn [bind] in H.
    destruct (mapM _ f) as [fp'| | |]; try discriminate H. cbn [bind] in H. injection H as <-.
    destruct (IH fp' eq_refl) as [H1 H2]. apply idx_get_some in E. rewrite Nat.sub_0_r in E.
    cbn [map fst]. split; [now rewrite H1|]. constructor; [|exact H2]. cbn [fst snd]. split; [lia | apply E].
Qed.
Lemma f_pairs_total f t : incl f t -> exists fp, f_pairs f t = Ok fp.
Proof.
  unfold f_pairs. induction f as [|e f IH]; intros H; [now exists []|]. cbn [mapM].
  destruct (idx_get_in t 0 e (H e (or_introl eq_refl))) as [k Hk]. rewrite Hk. cbn [bind].
  destruct (IH (fun x Hx => H x (or_intror Hx))) as [fp Hfp]. rewrite Hfp. eexists. reflexivity.
Qed.
Lemma f_pairs_refuse f t : ~ incl f t -> f_pairs f t = Panic.
Proof.
  unfold f_pairs. induction f as [|e f IH]; intros H.
  - destruct H. intros x [].
  - cbn [mapM]. destruct (idx_get t 0 e) as [k|] eqn:E; [|reflexivity]. cbn [bind].
    rewrite IH; [reflexivity|]. intros Hf. apply H. intros x [<-|Hx]; [|now apply Hf].
    apply idx_get_some in E. destruct E as [_ E]. exact (nth_error_In _ _ E).
Qed.

Lemma number_len t : forall i, length (number_from i t) = length t.
Proof. induction t as [|x r IH]; intros i; cbn [number_from length]; [reflexivity | now rewrite IH]. Qed.
Lemma number_fst t : forall i, map fst (number_from i t) = t.
Proof. induction t as [|x r IH]; intros i; cbn [number_from map fst]; [reflexivity | now rewrite IH]. Qed.
Lemma number_snd t : forall i, Forall (fun p => i <= snd p < i + length t) (number_from i t).
Proof.
  induction t as [|x r IH]; intros i; cbn [number_from length]; constructor; [cbn; lia|].
  eapply Forall_impl; [|apply IH]. intros p Hp. cbv beta in Hp. lia.
Qed.
Lemma number_bk_out t : forall i k, (k < i \/ i + length t <= k) -> bk (number_from i t) k = [].
Proof.
  induction t as [|x r IH]; intros i k H; [reflexivity|]. cbn [number_from length] in *.
  unfold bk. cbn [filter snd]. destruct (Nat.eqb_spec i k); [lia|]. apply IH. lia.
Qed.
Lemma bk_app l r k : bk (l ++ r) k = bk l k ++ bk r k.
Proof. apply filter_app. Qed.

Lemma same_repeat (x : F3G) (l : list (F3G * nat)) : Forall (fun p => fst p = x) l -> map fst l = repeat x (length l).
Proof. induction 1 as [|p r Hp _ IH]; [reflexivity|]. cbn [map length repeat]. now rewrite Hp, IH. Qed.

(* the sorted list, read in runs *)
Lemma runs_aux fp t : forall i, Forall (fun p => i <= snd p -> nth_error t (snd p - i) = Some (fst p)) fp ->
  map fst (concat (map (bk (number_from i t ++ fp)) (seq i (length t)))) =
  concat (map (fun p => repeat (fst p) (S (snd p))) (combine t (map (fun k => length (bk fp k)) (seq i (length t))))).
Proof.
  induction t as [|x r IH]; intros i H; [reflexivity|].
  cbn [length seq map combine concat]. rewrite map_app. f_equal.
  - rewrite bk_app. cbn [number_from]. unfold bk at 1. cbn [filter snd].
    rewrite Nat.eqb_refl. fold (bk (number_from (S i) r) i). rewrite number_bk_out by lia.
    cbn [app map fst snd repeat]. f_equal. apply same_repeat.
    apply Forall_forall. intros p Hp. apply filter_In in Hp. destruct Hp as [Hp E]. apply Nat.eqb_eq in E.
    rewrite Forall_forall in H. specialize (H p Hp ltac:(lia)). rewrite E, Nat.sub_diag in H. cbn in H. congruence.
  - assert (E : map (bk (number_from i (x :: r) ++ fp)) (seq (S i) (length r)) =
                map (bk (number_from (S i) r ++ fp)) (seq (S i) (length r))).
    { apply map_ext_in. intros k Hk. apply in_seq in Hk. cbn [number_from app].
      unfold bk. cbn [filter snd]. destruct (Nat.eqb_spec i k); [lia | reflexivity]. }
    rewrite E. apply IH. eapply Forall_impl; [|exact H]. intros p Hp Hi. cbv beta in Hp.
    specialize (Hp ltac:(lia)). replace (snd p - i) with (S (snd p - S i)) in Hp by lia. exact Hp.
Qed.

(* reading a list two by two *)
Definition interleave (h1 h2 : list F3G) : list F3G := flat_map (fun p => [fst p; snd p]) (combine h1 h2).

Lemma skipn_at {A} (s : list A) : forall k x, nth_error s k = Some x -> skipn k s = x :: skipn (S k) s.
Proof.
  induction s as [|y s IH]; intros [|k] x H; try discriminate H.
  - injection H as ->. reflexivity.
  - exact (IH k x H).
Qed.
Lemma pick_all s n : forall a, 2 * (a + n) <= length s ->
  exists h, mapM (pick s) (seq a n) = Ok h /\ length h = n /\
    flat_map (fun p => [fst p; snd p]) h = map fst (firstn (2 * n) (skipn (2 * a) s)).
Proof.
  induction n as [|n IH]; intros a H; [exists []; repeat split|].
  cbn [seq mapM]. unfold pick at 1.
  destruct (vget_ok s (2 * a) ltac:(lia)) as [x [Hx Hx']].
  destruct (vget_ok s (2 * a + 1) ltac:(lia)) as [y [Hy Hy']].
  rewrite Hx, Hy. cbn [bind].
  destruct (IH (S a) ltac:(lia)) as [h [Hh [Hl Hf]]]. rewrite Hh. cbn [bind].
  eexists. split; [reflexivity|]. split; [cbn [length]; now rewrite Hl|].
  cbn [flat_map fst snd app]. rewrite Hf.
  assert (E : skipn (2 * a) s = x :: y :: skipn (2 * S a) s).
  { rewrite (skipn_at s _ x Hx'). replace (S (2 * a)) with (2 * a + 1) by lia.
    rewrite (skipn_at s _ y Hy'). do 2 f_equal. f_equal. lia. }
  rewrite E. replace (2 * S n) with (S (S (2 * n))) by lia. reflexivity.
Qed.
Lemma combine_fst_snd {A B} (h : list (A * B)) : combine (map fst h) (map snd h) = h.
Proof. induction h as [|[a b] h IH]; cbn [map combine fst snd]; [reflexivity | now rewrite IH]. Qed.

Theorem h1h2_spec f t h1 h2 : calculate_H1H2 f t = Ok (h1, h2) ->
  length h1 = length f /\ length h2 = length f /\ length f <= length t /\ incl f t /\
  exists s counts, length counts = length t /\
    s = concat (map (fun p => repeat (fst p) (S (snd p))) (combine t counts)) /\
    Permutation s (t ++ f) /\ interleave h1 h2 = firstn (2 * length f) s.
Proof.
  intros H. unfold calculate_H1H2 in H.
  destruct (f_pairs f t) as [fp| | |] eqn:Ef; try discriminate H. cbn [bind] in H.
  destruct (f_pairs_ok t f fp Ef) as [H1 H2].
  set (s := sort_by (number_from 0 t ++ fp)) in *.
  assert (Hlf : length fp = length f) by (rewrite <- H1; now rewrite map_length).
  assert (Hls : length s = length t + length f).
  { unfold s. rewrite (Permutation_length (sort_perm _)), app_length, number_len. lia. }
  destruct (le_lt_dec (length f) (length t)) as [L|L].
  - destruct (pick_all s (length f) 0 ltac:(lia)) as [h [Hh [Hl Hfm]]].
    rewrite Hh in H. cbn [bind] in H. injection H as <- <-.
    rewrite !map_length, Hl. split; [reflexivity|]. split; [reflexivity|]. split; [exact L|].
    split.
    { intros e He. rewrite <- H1 in He. apply in_map_iff in He. destruct He as [p [<- Hp]].
      rewrite Forall_forall in H2. destruct (H2 p Hp) as [_ Hn]. exact (nth_error_In _ _ Hn). }
    exists (map fst s), (map (fun k => length (bk fp k)) (seq 0 (length t))).
    split; [now rewrite map_length, seq_length|]. split; [|split].
    + unfold s. rewrite (sort_bks _ (length t)).
      * unfold bks. apply runs_aux. eapply Forall_impl; [|exact H2]. intros p [_ Hp] _. now rewrite Nat.sub_0_r.
      * apply Forall_app. split; [exact (Forall_impl _ (fun p Hp => proj2 Hp) (number_snd t 0)) |
          exact (Forall_impl _ (fun p Hp => proj1 Hp) H2)].
    + unfold s. eapply Permutation_trans; [apply Permutation_map, sort_perm|].
      rewrite map_app, number_fst, H1. apply Permutation_refl.
    + unfold interleave. rewrite combine_fst_snd, Hfm. cbn [skipn Nat.mul]. now rewrite firstn_map.
  - exfalso. destruct f as [|e f']; [cbn in L; lia|]. set (f := e :: f') in *.
    assert (E : mapM (pick s) (seq 0 (length f)) = Panic).
    { replace (length f) with (length f - 1 + 1) by (cbn; lia). rewrite seq_app.
      set (l := seq 0 (length f - 1)).
      assert (Hgen : forall l, (forall x, In x l -> (exists v, pick s x = Ok v) \/ pick s x = Panic) ->
        forall y, pick s y = Panic -> mapM (pick s) (l ++ [y]) = Panic).
      { clear. induction l as [|x l IH]; intros Hall y Hy; cbn [app mapM].
        - now rewrite Hy.
        - destruct (Hall x (or_introl eq_refl)) as [[v Hv]|Hv]; rewrite Hv; cbn [bind]; [|reflexivity].
          rewrite IH; [reflexivity | | exact Hy]. intros z Hz. apply Hall. now right. }
      apply Hgen.
      - intros x _. unfold pick. destruct (vget s (2 * x)) as [a| | |] eqn:Ea;
          [|exfalso; revert Ea; unfold vget; destruct (nth_error _ _); discriminate | now right |
           exfalso; revert Ea; unfold vget; destruct (nth_error _ _); discriminate].
        cbn [bind]. destruct (vget s (2 * x + 1)) as [b| | |] eqn:Eb;
          [left; eexists; reflexivity |exfalso; revert Eb; unfold vget; destruct (nth_error _ _); discriminate | now right |
           exfalso; revert Eb; unfold vget; destruct (nth_error _ _); discriminate].
      - unfold pick. replace (2 * (0 + (length f - 1)) + 1) with (2 * length f - 1) by (cbn; lia).
        rewrite (vget_oob s (2 * length f - 1)) by lia.
        destruct (vget s (2 * (0 + (length f - 1)))) as [a| | |] eqn:Ea; cbn [bind]; try reflexivity;
        exfalso; revert Ea; unfold vget; destruct (nth_error _ _); discriminate. }
    rewrite E in H. discriminate H.
Qed.

Theorem h1h2_total f t : incl f t -> length f <= length t -> exists h1 h2, calculate_H1H2 f t = Ok (h1, h2).
Proof.
  intros Hi Hl. unfold calculate_H1H2. destruct (f_pairs_total f t Hi) as [fp Hfp]. rewrite Hfp. cbn [bind].
  destruct (f_pairs_ok t f fp Hfp) as [H1 _].
  assert (Hlf : length fp = length f) by (rewrite <- H1; now rewrite map_length).
  destruct (pick_all (sort_by (number_from 0 t ++ fp)) (length f) 0) as [h [Hh _]].
  - rewrite (Permutation_length (sort_perm _)), app_length, number_len. lia.
  - rewrite Hh. cbn [bind]. eexists. eexists. reflexivity.
Qed.
Theorem h1h2_refuses f t : ~ incl f t -> calculate_H1H2 f t = Panic.
Proof. intros H. unfold calculate_H1H2. now rewrite f_pairs_refuse. Qed.

(* ---------- grand product ---------- *)
Fixpoint kprod (l : list K) : K := match l with [] => kone | x :: r => kmul x (kprod r) end.

Lemma z_tail_len : forall ns ds z, length ns = length ds -> length (z_tail z ns ds) = length ns.
Proof. induction ns as [|n ns IH]; intros [|d ds] z H; cbn in *; try lia. rewrite IH; lia. Qed.
Lemma z_tail_step : forall ns ds z i, length ns = length ds -> i < length ns ->
  val (nth (S i) (z :: z_tail z ns ds) e_ZERO) =
  kmul (val (nth i (z :: z_tail z ns ds) e_ZERO)) (kmul (val (nth i ns e_ZERO)) (val (nth i ds e_ZERO))).
Proof.
  induction ns as [|n ns IH]; intros [|d ds] z i H Hi; cbn [length] in *; try lia.
  destruct i as [|i].
  - cbn [z_tail nth]. now rewrite val_mul, val_mul.
  - cbn [z_tail]. exact (IH ds (e_mul z (e_mul n d)) i ltac:(lia) ltac:(lia)).
Qed.
Lemma z_tail_last : forall ns ds z, length ns = length ds ->
  val (last (z :: z_tail z ns ds) e_ZERO) = kmul (val z) (kmul (kprod (map val ns)) (kprod (map val ds))).
Proof.
  induction ns as [|n ns IH]; intros [|d ds] z H; cbn [length] in *; try lia.
  - cbn [z_tail last map kprod]. ring.
  - change (last (z :: z_tail z (n :: ns) (d :: ds)) e_ZERO) with (last (z_tail z (n :: ns) (d :: ds)) e_ZERO).
    cbn [z_tail]. rewrite IH by lia. rewrite val_mul, val_mul. cbn [map kprod]. ring.
Qed.
Lemma z_tail_wf : forall ns ds z, wf z -> Forall wf (z :: z_tail z ns ds).
Proof.
  induction ns as [|n ns IH]; intros [|d ds] z H; cbn [z_tail]; try (constructor; [exact H | apply Forall_nil]).
  constructor; [exact H|]. apply IH. apply wf_mul.
Qed.
Lemma last_nth {A} (l : list A) d : last l d = nth (length l - 1) l d.
Proof.
  induction l as [|x [|y r] IH]; [reflexivity | reflexivity |].
  change (last (x :: y :: r) d) with (last (y :: r) d). rewrite IH. cbn [length].
  replace (S (S (length r)) - 1) with (S (S (length r) - 1)) by lia. reflexivity.
Qed.
Lemma last_forall {A} (Q : A -> Prop) l d : l <> [] -> Forall Q l -> Q (last l d).
Proof.
  intros Hn H. induction H as [|x r Hx Hr IH]; [now destruct Hn|].
  destruct r as [|y r]; [exact Hx|]. apply IH. discriminate.
Qed.

Lemma kprod_inv l : Forall (fun x => x <> kzero) l -> kmul (kprod (map kinv l)) (kprod l) = kone.
Proof.
  induction 1 as [|x r Hx _ IH]; cbn [map kprod]; [ring|].
  transitivity (kmul (kmul (kinv x) x) (kmul (kprod (map kinv r)) (kprod r))); [ring|].
  rewrite IH, (kinv_l x Hx). ring.
Qed.
Lemma kprod_zero l : l <> [] -> Forall (fun x => x = kzero) l -> kprod l = kzero.
Proof. intros Hn H. destruct H as [|x r Hx _]; [now destruct Hn|]. cbn. rewrite Hx. ring. Qed.

Lemma wf_ONE : wf e_ONE. Proof. apply wf_from. Qed.

Lemma z_check (num den : list F3G) : length num = length den -> num <> [] ->
  (e__eq (last (e_ONE :: z_tail e_ONE num (batch_inverse (F := opsE) den)) e_ZERO) e_ONE = true <->
   Forall (fun x => val x <> kzero) den /\ kprod (map val num) = kprod (map val den)).
Proof.
  intros Hl Hn.
  assert (Hlb : length num = length (batch_inverse (F := opsE) den)) by (rewrite batch_len; exact Hl).
  rewrite e_eqs; [| apply last_forall; [discriminate | apply z_tail_wf, wf_ONE] | apply wf_ONE].
  rewrite z_tail_last by exact Hlb. rewrite val_ONE.
  destruct (Forall_Exists_dec (fun x => val x <> kzero)) with (l := den) as [Hz|Hz].
  { intros x. destruct (k_dec (val x) kzero) as [E|E]; [right; intros H; exact (H E) | left; exact E]. }
  - pose proof (batch_E den Hz) as Hb.
    rewrite Hb.
    assert (Hz' : Forall (fun x => x <> kzero) (map val den)).
    { apply Forall_map. exact Hz. }
    pose proof (kprod_inv _ Hz') as Hp.
    rewrite map_map in Hp.
    set (n := kprod (map val num)) in *. set (d := kprod (map val den)) in *.
    set (di := kprod (map (fun x : F3G => kinv (val x)) den)) in *.
    split.
    + intros E. split; [exact Hz|].
      transitivity (kmul (kmul kone (kmul n di)) d); [|rewrite E; ring].
      transitivity (kmul n (kmul di d)); [rewrite Hp; ring | ring].
    + intros [_ E]. rewrite E. transitivity (kmul di d); [ring | exact Hp].
  - split; [|intros [Hc _]; exfalso; apply Exists_exists in Hz; destruct Hz as [x [Hx Hx']];
      rewrite Forall_forall in Hc; exact (Hx' (Hc x Hx))].
    intros E. exfalso.
    assert (Hbz : exists x, In x den /\ val x = kzero).
    { apply Exists_exists in Hz. destruct Hz as [x [Hx Hx']]. exists x. split; [exact Hx|].
      destruct (k_dec (val x) kzero) as [Ez|Ez]; [exact Ez | now destruct Hx']. }
    pose proof (batch_zero_E den Hbz) as Hb.
    rewrite (kprod_zero (map val (batch_inverse (F := opsE) den))) in E.
    + apply kone_neq. rewrite <- E. ring.
    + destruct (batch_inverse (F := opsE) den) eqn:Eb; [|discriminate].
      exfalso. apply Hn. apply length_0_nil. rewrite Hlb. reflexivity.
    + apply Forall_map. exact Hb.
Qed.

Theorem calculate_Z_iff (num den : list F3G) :
  (exists z, calculate_Z num den = Ok z) <->
  length num = length den /\ num <> [] /\ Forall (fun x => val x <> kzero) den /\
  kprod (map val num) = kprod (map val den).
Proof.
  unfold calculate_Z. destruct (Nat.eqb_spec (length num) (length den)) as [Hl|Hl]; cbn [negb].
  2:{ split; [intros [z Hz]; discriminate Hz | intros [H _]; contradiction]. }
  destruct num as [|n0 nr] eqn:En.
  - split; [intros [z Hz]; discriminate Hz | intros [_ [H _]]; now destruct H].
  - rewrite <- En in *. assert (Hn : num <> []) by (rewrite En; discriminate).
    pose proof (z_check num den Hl Hn) as Hc.
    destruct (e__eq _ e_ONE) eqn:Ee.
    + split; [|intros _; eexists; reflexivity]. intros _. split; [exact Hl|]. split; [exact Hn|]. now apply Hc.
    + split; [intros [z Hz]; discriminate Hz|]. intros [_ [_ H]]. apply Hc in H. discriminate H.
Qed.

Theorem calculate_Z_spec (num den z : list F3G) : calculate_Z num den = Ok z ->
  length z = length num /\ val (nth 0 z e_ZERO) = kone /\
  forall i, i < length num ->
    kmul (val (nth ((i + 1) mod length num) z e_ZERO)) (val (nth i den e_ZERO)) =
    kmul (val (nth i z e_ZERO)) (val (nth i num e_ZERO)).
Proof.
  intros H. pose proof (proj1 (calculate_Z_iff num den) (ex_intro _ z H)) as [Hl [Hn [Hz _]]].
  unfold calculate_Z in H. rewrite (proj2 (Nat.eqb_eq _ _) Hl) in H. cbn [negb] in H.
  destruct num as [|n0 nr] eqn:En; [now destruct Hn|]. rewrite <- En in *.
  pose (den' := batch_inverse (F := opsE) den : list F3G).
  change (batch_inverse (F := opsE) den) with den' in H.
  change (list (car opsE)) with (list F3G) in *.
  assert (Hlb : length num = length den') by (unfold den'; rewrite batch_len; exact Hl).
  set (all := e_ONE :: z_tail e_ONE num den') in *.
  destruct (e__eq (last all e_ZERO) e_ONE) eqn:Ee; [|discriminate H].
  assert (Hz' : z = firstn (length num) all) by congruence. clear H.
  assert (Hall : length all = S (length num)) by (unfold all; cbn [length]; rewrite z_tail_len by exact Hlb; reflexivity).
  assert (Hpos : 0 < length num) by (rewrite En; cbn; lia).
  split; [rewrite Hz', firstn_length; lia|].
  split; [rewrite Hz', nth_firstn_lt by exact Hpos; unfold all; cbn [nth]; exact val_ONE|].
  intros i Hi.
  assert (Hd : kmul (val (nth i den' e_ZERO)) (val (nth i den e_ZERO)) = kone).
  { pose proof (batch_E den Hz) as Hb. change (batch_inverse (F := opsE) den) with den' in Hb.
    assert (E : nth i (map val den') (kinv (val e_ZERO)) = nth i (map (fun x => kinv (val x)) den) (kinv (val e_ZERO)))
      by (rewrite Hb; reflexivity).
    rewrite (nth_indep (map val den') (kinv (val e_ZERO)) (val e_ZERO)) in E by (rewrite map_length; exact (eq_ind _ (fun n => i < n) Hi _ Hlb)).
    rewrite map_nth in E. rewrite (map_nth (fun x => kinv (val x)) den e_ZERO i) in E.
    rewrite E. apply kinv_l. rewrite Forall_forall in Hz. apply Hz. apply nth_In. rewrite <- Hl. exact Hi. }
  assert (Hstep : val (nth (S i) all e_ZERO) = kmul (val (nth i all e_ZERO)) (kmul (val (nth i num e_ZERO)) (val (nth i den' e_ZERO))))
    by (apply z_tail_step; assumption).
  assert (Hnext : val (nth ((i + 1) mod length num) z e_ZERO) = val (nth (S i) all e_ZERO)).
  { destruct (Nat.eq_dec (S i) (length num)) as [E|E].
    - replace (i + 1) with (length num) by lia. rewrite Nat.mod_same by lia.
      rewrite Hz', nth_firstn_lt by exact Hpos. unfold all at 1. cbn [nth]. rewrite val_ONE.
      rewrite E. replace (length num) with (length all - 1) by lia. rewrite <- last_nth.
      symmetry. apply e_eqs in Ee; [exact Ee | | apply wf_ONE].
      apply last_forall; [discriminate | apply z_tail_wf, wf_ONE].
    - rewrite Nat.mod_small by lia. rewrite Hz', nth_firstn_lt by lia. f_equal. f_equal. lia. }
  rewrite Hnext, Hstep. rewrite Hz', nth_firstn_lt by exact Hi.
  set (a := val (nth i all e_ZERO)) in *. set (n := val (nth i num e_ZERO)) in *.
  set (d := val (nth i den e_ZERO)) in *. set (di := val (nth i den' e_ZERO)) in *.
  transitivity (kmul (kmul a n) (kmul di d)); [ring | rewrite Hd; ring].
Qed.

(* ---------- columns ---------- *)
Definition coord (dim : nat) (e : F3G) (j : nat) : F3G :=
  if dim =? 1 then e else
  match j with
  | O => e_from (c0 e)
  | S O => if d3 e then e_from (c1 e) else e_ZERO
  | _ => if d3 e then e_from (c2 e) else e_ZERO
  end.

Lemma vset_spec {A} (l : list A) i y : i < length l ->
  exists l', vset l i y = Ok l' /\ length l' = length l /\ forall x, nth_error l' x = if x =? i then Some y else nth_error l x.
Proof.
  intros H. destruct (nth_error l i) as [z|] eqn:E; [|apply nth_error_None in E; lia].
  destruct (nth_split_at l i z E) as [a [b [-> Hl]]]. exists (a ++ y :: b).
  split; [apply vset_app'; now symmetry|]. split; [rewrite !app_length; reflexivity|].
  intros x. destruct (Nat.eqb_spec x i) as [->|Hne].
  - rewrite nth_error_app2 by lia. rewrite Hl, Nat.sub_diag. reflexivity.
  - destruct (lt_dec x i).
    + rewrite !nth_error_app1 by lia. reflexivity.
    + rewrite !nth_error_app2 by lia. replace (x - length a) with (S (x - length a - 1)) by lia. reflexivity.
Qed.

Lemma set_row_spec p v buf i e : p_dim p = 1 \/ p_dim p = 3 -> nth_error v i = Some e ->
  p_offset p + i * p_size p + p_dim p <= length buf ->
  exists buf', set_row p v buf i = Ok buf' /\ length buf' = length buf /\
    (forall j, j < p_dim p -> nth_error buf' (p_offset p + i * p_size p + j) = Some (coord (p_dim p) e j)) /\
    (forall x, (forall j, j < p_dim p -> x <> p_offset p + i * p_size p + j) -> nth_error buf' x = nth_error buf x).
Proof.
  intros Hd He Hlen. unfold set_row. rewrite (vget_some _ _ _ He). cbn [bind].
  set (a := p_offset p + i * p_size p) in *. unfold coord.
  destruct Hd as [Hd|Hd]; rewrite Hd in *; cbn [Nat.eqb].
  - destruct (vset_spec buf a e ltac:(lia)) as [b [Hb [Hl Hn]]]. exists b. split; [exact Hb|]. split; [exact Hl|]. split.
    + intros j Hj. rewrite Hn. destruct (Nat.eqb_spec (a + j) a); [reflexivity | lia].
    + intros x Hx. rewrite Hn. specialize (Hx 0 ltac:(lia)). destruct (Nat.eqb_spec x a); [lia | reflexivity].
  - set (y := if d3 e then e_from (c1 e) else e_ZERO). set (z := if d3 e then e_from (c2 e) else e_ZERO).
    replace (if d3 e then (e_from (c0 e), e_from (c1 e), e_from (c2 e)) else (e_from (c0 e), e_ZERO, e_ZERO))
      with (e_from (c0 e), y, z) by (unfold y, z; destruct (d3 e); reflexivity).
    destruct (vset_spec buf a (e_from (c0 e)) ltac:(lia)) as [b1 [Hb1 [Hl1 Hn1]]].
    destruct (vset_spec b1 (a + 1) y ltac:(lia)) as [b2 [Hb2 [Hl2 Hn2]]].
    destruct (vset_spec b2 (a + 2) z ltac:(lia)) as [b3 [Hb3 [Hl3 Hn3]]].
    rewrite Hb1. cbn [bind]. rewrite Hb2. cbn [bind]. exists b3. split; [exact Hb3|]. split; [lia|]. split.
    + intros j Hj. rewrite Hn3, Hn2, Hn1.
      destruct (Nat.eqb_spec (a + j) (a + 2)); [replace j with 2 by lia; reflexivity|].
      destruct (Nat.eqb_spec (a + j) (a + 1)); [replace j with 1 by lia; reflexivity|].
      destruct (Nat.eqb_spec (a + j) a); [replace j with 0 by lia; reflexivity | lia].
    + intros x Hx. rewrite Hn3, Hn2, Hn1. pose proof (Hx 0 ltac:(lia)). pose proof (Hx 1 ltac:(lia)). pose proof (Hx 2 ltac:(lia)).
      destruct (Nat.eqb_spec x (a + 2)); [lia|]. destruct (Nat.eqb_spec x (a + 1)); [lia|].
      destruct (Nat.eqb_spec x a); [lia | reflexivity].
Qed.

Lemma cell_inj size i i' a a' : a < size -> a' < size -> a + i * size = a' + i' * size -> i = i' /\ a = a'.
Proof.
  intros H H' E.
  assert (i = i').
  { apply (f_equal (fun x => x / size)) in E. rewrite !Nat.div_add, !Nat.div_small in E by lia. exact E. }
  subst. lia.
Qed.

Lemma set_rows_spec p v : p_dim p = 1 \/ p_dim p = 3 -> p_offset p + p_dim p <= p_size p ->
  forall n a buf, a + n <= length v -> (a + n) * p_size p <= length buf ->
  exists buf', foldM (set_row p v) (seq a n) buf = Ok buf' /\ length buf' = length buf /\
    (forall i j e, a <= i < a + n -> j < p_dim p -> nth_error v i = Some e ->
      nth_error buf' (p_offset p + i * p_size p + j) = Some (coord (p_dim p) e j)) /\
    (forall x, (forall i j, a <= i < a + n -> j < p_dim p -> x <> p_offset p + i * p_size p + j) ->
      nth_error buf' x = nth_error buf x).
Proof.
  intros Hd Hs. induction n as [|n IH]; intros a buf Hv Hb.
  - exists buf. split; [reflexivity|]. split; [reflexivity|]. split; [intros; lia | reflexivity].
  - cbn [seq foldM].
    destruct (nth_error v a) as [e|] eqn:He; [|apply nth_error_None in He; lia].
    assert (Hlen : p_offset p + a * p_size p + p_dim p <= length buf).
    { assert ((a + 1) * p_size p <= (a + S n) * p_size p) by (apply Nat.mul_le_mono_r; lia). lia. }
    destruct (set_row_spec p v buf a e Hd He Hlen) as [b1 [Hb1 [Hl1 [Hin Hout]]]].
    rewrite Hb1. cbn [bind].
    destruct (IH (S a) b1 ltac:(lia)) as [b2 [Hb2 [Hl2 [Hin2 Hout2]]]].
    { rewrite Hl1. replace (S a + n) with (a + S n) by lia. exact Hb. }
    exists b2. split; [exact Hb2|]. split; [lia|]. split.
    + intros i j e' Hi Hj He'. destruct (Nat.eq_dec i a) as [->|Hne].
      * rewrite Hout2.
        -- rewrite Hin by exact Hj. congruence.
        -- intros i' j' Hi' Hj' E.
           destruct (cell_inj (p_size p) a i' (p_offset p + j) (p_offset p + j')); lia.
      * apply Hin2; [lia | exact Hj | exact He'].
    + intros x Hx. rewrite Hout2; [apply Hout|].
      * intros j Hj. apply Hx; [lia | exact Hj].
      * intros i j Hi Hj. apply Hx; [lia | exact Hj].
Qed.

Lemma get_row_ext p b1 b2 i : (forall j, j < p_dim p -> nth_error b1 (p_offset p + i * p_size p + j) = nth_error b2 (p_offset p + i * p_size p + j)) ->
  p_dim p = 1 \/ p_dim p = 3 -> get_row p b1 i = get_row p b2 i.
Proof.
  intros H Hd. unfold get_row, vget. destruct Hd as [Hd|Hd]; rewrite Hd in *; cbn [Nat.eqb].
  - pose proof (H 0 ltac:(lia)) as H0. rewrite Nat.add_0_r in H0. now rewrite H0.
  - pose proof (H 0 ltac:(lia)) as H0. rewrite Nat.add_0_r in H0.
    rewrite H0, (H 1 ltac:(lia)), (H 2 ltac:(lia)). reflexivity.
Qed.
Lemma mapM_ext_in {A B} (f g : A -> res B) l : (forall x, In x l -> f x = g x) -> mapM f l = mapM g l.
Proof.
  induction l as [|x l IH]; intros H; [reflexivity|]. cbn [mapM]. rewrite (H x (or_introl eq_refl)), IH; [reflexivity|].
  intros y Hy. apply H. now right.
Qed.

Theorem set_get_pol p v buf : p_dim p = 1 \/ p_dim p = 3 -> p_offset p + p_dim p <= p_size p ->
  p_deg p <= length v -> p_deg p * p_size p <= length buf ->
  exists buf' r, set_pol p v buf = Ok buf' /\ length buf' = length buf /\ get_pol p buf' = Ok r /\
    map val r = map val (firstn (p_deg p) v) /\
    (forall q, p_size q = p_size p -> p_deg q = p_deg p -> p_dim q = 1 \/ p_dim q = 3 -> p_offset q + p_dim q <= p_size q ->
      p_offset q + p_dim q <= p_offset p \/ p_offset p + p_dim p <= p_offset q -> get_pol q buf' = get_pol q buf).
Proof.
  intros Hd Hs Hv Hb.
  destruct (set_rows_spec p v Hd Hs (p_deg p) 0 buf Hv Hb) as [buf' [Hf [Hl [Hin Hout]]]].
  assert (Ht : forall q, p_dim q = 1 \/ p_dim q = 3 -> (p_dim q =? 1) || (p_dim q =? 3) = true)
    by (intros q [E|E]; rewrite E; reflexivity).
  exists buf'. unfold set_pol, get_pol. rewrite (Ht p Hd).
  set (g := fun i => let e := nth i v e_ZERO in if p_dim p =? 1 then e else
                     if d3 e then e_new (c0 e) (c1 e) (c2 e) else e_new (c0 e) f0 f0).
  exists (map g (seq 0 (p_deg p))). split; [exact Hf|]. split; [exact Hl|]. split; [|split].
  - apply mapM_ok. intros i Hi. apply in_seq in Hi.
    assert (He : nth_error v i = Some (nth i v e_ZERO)) by (apply nth_error_nth_lt; lia).
    pose proof (fun j Hj => Hin i j _ ltac:(lia) Hj He) as Hc. unfold get_row, g.
    set (a := p_offset p + i * p_size p) in *. unfold coord in Hc.
    destruct Hd as [Hd|Hd]; rewrite Hd in *; cbn [Nat.eqb] in *.
    + pose proof (Hc 0 ltac:(lia)) as H0. rewrite Nat.add_0_r in H0. now apply vget_some.
    + pose proof (Hc 0 ltac:(lia)) as H0. rewrite Nat.add_0_r in H0.
      rewrite (vget_some _ _ _ H0), (vget_some _ _ _ (Hc 1 ltac:(lia))), (vget_some _ _ _ (Hc 2 ltac:(lia))).
      destruct (d3 (nth i v e_ZERO)); reflexivity.
  - transitivity (map val (map (fun i => nth i v e_ZERO) (seq 0 (p_deg p)))).
    + rewrite !map_map. apply map_ext_in. intros i Hi. unfold g. destruct (p_dim p =? 1); [reflexivity|].
      unfold val. destruct (d3 (nth i v e_ZERO)); reflexivity.
    + f_equal. apply nth_error_ext_len.
      * rewrite map_length, seq_length, firstn_length. lia.
      * intros i Hi. rewrite map_length, seq_length in Hi.
        rewrite nth_error_map. rewrite (nth_error_nth_lt (seq 0 (p_deg p)) i 0) by (rewrite seq_length; lia).
        rewrite seq_nth by lia. cbn [option_map Nat.add].
        rewrite (nth_error_nth_lt (firstn (p_deg p) v) i e_ZERO) by (rewrite firstn_length; lia).
        rewrite nth_firstn_lt by lia. reflexivity.
  - intros q Eqs Eqd Hqd Hqs Hdis. rewrite (Ht q Hqd). apply mapM_ext_in. intros i Hi. apply in_seq in Hi.
    apply get_row_ext; [|exact Hqd]. intros j Hj. apply Hout. intros i' j' Hi' Hj' E.
    destruct (cell_inj (p_size p) i i' (p_offset q + j) (p_offset p + j')); lia.
Qed.

Lemma kprod_fold l : kprod l = fold_right kmul kone l.
Proof. induction l as [|x l IH]; [reflexivity|]. cbn [kprod fold_right]. now rewrite IH. Qed.
Theorem calculate_Z_iff' (num den : list F3G) :
  (exists z, calculate_Z num den = Ok z) <->
  length num = length den /\ num <> [] /\ Forall (fun x => val x <> kzero) den /\
  fold_right kmul kone (map val num) = fold_right kmul kone (map val den).
Proof. rewrite <- !kprod_fold. apply calculate_Z_iff. Qed.
