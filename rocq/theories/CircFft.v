(* fft.circom with inv: the coefficients of the interpolating polynomial. *)
From Verif Require Import Base ListAux NumTheory GlModel FrField Cubic CircModel CircProof.
From Verif Require Import PolyModel Roots PolyProof FftProof FftTop.
From Coq Require Import Znumtheory.
Open Scope Z_scope.

Lemma roots_table : forall s, (s <= 32)%nat -> nth s circ_roots 0 = fint (root s).
Proof.
  assert (H : forallb (fun s => nth s circ_roots 0 =? fint (root s)) (seq 0 33) = true) by (vm_compute; reflexivity).
  intros s Hs. rewrite forallb_forall in H. apply Z.eqb_eq. apply H. apply in_seq. lia.
Qed.

Lemma inv1_roots : forall s, (s <= 32)%nat ->
  (inv1 (nth s circ_roots 0) * nth s circ_roots 0) mod gl_p = 1 /\ 0 <= inv1 (nth s circ_roots 0) < gl_p.
Proof.
  assert (H : forallb (fun s => ((inv1 (nth s circ_roots 0) * nth s circ_roots 0) mod gl_p =? 1)
     && (0 <=? inv1 (nth s circ_roots 0)) && (inv1 (nth s circ_roots 0) <? gl_p)) (seq 0 33) = true)
    by (vm_compute; reflexivity).
  intros s Hs. rewrite forallb_forall in H. specialize (H s ltac:(apply in_seq; lia)).
  apply andb_prop in H. destruct H as [H H3]. apply andb_prop in H. destruct H as [H1 H2].
  apply Z.eqb_eq in H1. apply Z.leb_le in H2. apply Z.ltb_lt in H3. split; [exact H1|split; assumption].
Qed.

Lemma inv1_size : forall s, (s <= 31)%nat ->
  (inv1 (2 ^ Z.of_nat s) * 2 ^ Z.of_nat s) mod gl_p = 1 /\ 0 <= inv1 (2 ^ Z.of_nat s) < gl_p.
Proof.
  assert (H : forallb (fun s => ((inv1 (2 ^ Z.of_nat s) * 2 ^ Z.of_nat s) mod gl_p =? 1)
     && (0 <=? inv1 (2 ^ Z.of_nat s)) && (inv1 (2 ^ Z.of_nat s) <? gl_p)) (seq 0 33) = true)
    by (vm_compute; reflexivity).
  intros s Hs. rewrite forallb_forall in H. specialize (H s ltac:(apply in_seq; lia)).
  apply andb_prop in H. destruct H as [H H3]. apply andb_prop in H. destruct H as [H1 H2].
  apply Z.eqb_eq in H1. apply Z.leb_le in H2. apply Z.ltb_lt in H3. split; [exact H1|split; assumption].
Qed.

Lemma ws_nth w : forall n cur i, (i < n)%nat -> 0 <= cur < gl_p ->
  fof (nth i (ws_from n cur w) 0) = fmul (fof cur) (fpow (fof w) i) /\ 0 <= nth i (ws_from n cur w) 0 < gl_p.
Proof.
  induction n; intros cur i Hi Hc; [lia|]. destruct i as [|i]; cbn [ws_from nth fpow].
  - split; [ring|exact Hc].
  - destruct (IHn ((cur * w) mod gl_p) i ltac:(lia)) as [H1 H2]; [apply Z.mod_pos_bound; reflexivity|].
    split; [|exact H2]. rewrite H1. rewrite gl_p_P, fof_mod, fof_mul. ring.
Qed.

Lemma fold_plus_acc {A} (f : A -> Z) : forall l a, fold_left (fun s x => s + f x) l a = a + fold_left (fun s x => s + f x) l 0.
Proof.
  induction l as [|x l IH]; intros a; cbn [fold_left]; [ring|]. rewrite IH, (IH (0 + f x)). ring.
Qed.

(* the sums as sums over the positions *)
Fixpoint zsum (n : nat) (f : nat -> Z) : Z := match n with O => 0 | S m => zsum m f + f m end.

Lemma combine_app_last {A} (xs : list A) x :
  combine (seq 0 (length (xs ++ [x]))) (xs ++ [x]) = combine (seq 0 (length xs)) xs ++ [(length xs, x)].
Proof.
  rewrite app_length, Nat.add_comm. cbn [length Nat.add]. rewrite seq_S. cbn [Nat.add].
  assert (G : forall (l : list nat) (ys : list A) a y, length l = length ys ->
            combine (l ++ [a]) (ys ++ [y]) = combine l ys ++ [(a, y)]).
  { induction l as [|b l IH]; intros [|z ys] a y L; try discriminate; [reflexivity|].
    cbn [app combine]. rewrite IH by (cbn in L; lia). reflexivity. }
  apply G. apply seq_length.
Qed.

Lemma fft_sum_z ws n i : forall xs, fft_sum ws n i xs
  = zsum (length xs) (fun j => nth ((i * j) mod n) ws 0 * nth j xs 0).
Proof.
  assert (Z1 : forall m f g, (forall j, (j < m)%nat -> f j = g j) -> zsum m f = zsum m g).
  { induction m; intros f g H; [reflexivity|]. cbn [zsum]. rewrite (IHm f g), (H m) by (intros; try apply H; lia). reflexivity. }
  intros xs. induction xs as [|x xs IH] using rev_ind; [reflexivity|].
  unfold fft_sum. rewrite combine_app_last, fold_left_app. cbn [fold_left fst snd].
  fold (fft_sum ws n i xs). rewrite IH, app_length, Nat.add_comm. cbn [length Nat.add zsum].
  rewrite app_nth2, Nat.sub_diag by lia. cbn [nth]. f_equal. apply Z1. intros j Hj. rewrite app_nth1 by exact Hj. reflexivity.
Qed.

Lemma zsum_bound B : 0 <= B -> forall n f, (forall j, (j < n)%nat -> - B <= f j <= B) ->
  - (Z.of_nat n * B) <= zsum n f <= Z.of_nat n * B.
Proof.
  intros HB. induction n; intros f H; cbn [zsum]; [lia|].
  pose proof (IHn f ltac:(intros; apply H; lia)). pose proof (H n ltac:(lia)).
  rewrite Nat2Z.inj_succ, Z.mul_succ_l. lia.
Qed.

Lemma kof_zsum c (x : nat -> sig3) : forall n,
  kof (zsum n (fun j => c j * coord0 (x j)), zsum n (fun j => c j * coord1 (x j)), zsum n (fun j => c j * coord2 (x j)))
  = ksum n (fun j => kmul (kconst (fof (c j))) (kof (x j))).
Proof.
  induction n; cbn [zsum ksum]; [apply kof_000|].
  rewrite <- IHn. destruct (x n) as [[a b] d] eqn:E. rewrite kof_scale, kof_add. cbn. reflexivity.
Qed.

Lemma fft_bound s ws i xs : (s <= 32)%nat -> length xs = (2 ^ s)%nat ->
  (forall j, 0 <= nth j ws 0 < gl_p) -> Forall small' xs ->
  - 2 ^ 249 < fft_sum ws (2 ^ s) i xs < 2 ^ 249.
Proof.
  intros Hs L Hw Hx. rewrite fft_sum_z, L.
  assert (B : - (Z.of_nat (2 ^ s) * (2 ^ 64 * 2 ^ 119)) <=
     zsum (2 ^ s) (fun j => nth ((i * j) mod 2 ^ s) ws 0 * nth j xs 0) <= Z.of_nat (2 ^ s) * (2 ^ 64 * 2 ^ 119)).
  { apply zsum_bound; [apply Z.mul_nonneg_nonneg; apply Z.pow_nonneg; lia|]. intros j Hj.
    pose proof (Hw ((i * j) mod 2 ^ s)%nat) as W.
    assert (X : small' (nth j xs 0)).
    { rewrite Forall_forall in Hx. apply Hx. apply nth_In. rewrite L. exact Hj. }
    unfold small' in X. set (h := 2 ^ 119) in *. set (u := nth j xs 0) in *. set (v := nth _ ws 0) in *.
    assert (0 < h) by reflexivity. clearbody h u v.
    assert (v <= 2 ^ 64) by (change (2 ^ 64) with 18446744073709551616; unfold gl_p in W; lia).
    set (k := 2 ^ 64) in *. clearbody k. nia. }
  rewrite Nat2Z.inj_pow in B. change (Z.of_nat 2) with 2 in B.
  assert (2 ^ Z.of_nat s <= 2 ^ 32) by (apply Z.pow_le_mono_r; lia).
  assert (E : 2 ^ 32 * (2 ^ 64 * 2 ^ 119) < 2 ^ 249) by reflexivity.
  set (k := 2 ^ 64 * 2 ^ 119) in *. assert (0 < k) by reflexivity. clearbody k.
  assert (2 ^ Z.of_nat s * k <= 2 ^ 32 * k) by (apply Z.mul_le_mono_nonneg_r; lia). lia.
Qed.

Lemma fft_sound r s ws xs outs i : big r -> (s <= 32)%nat -> (forall j, 0 <= nth j ws 0 < gl_p) -> Forall small' xs ->
  FFT r s ws xs outs -> (i < 2 ^ s)%nat ->
  0 <= nth i outs 0 < 2 ^ 64 /\ fof (nth i outs 0) = fof (fft_sum ws (2 ^ s) i xs).
Proof.
  intros Hb Hs Hw Hx (L1 & L2 & H) Hi. destruct (H i Hi) as [k [Hk [Ho E]]].
  pose proof (out_range r _ Hb Ho) as Bo. split; [exact Bo|].
  pose proof (fft_bound s ws i xs Hs L1 Hw Hx) as B.
  assert (Bk : 0 <= k < 2 ^ 97).
  { destruct Hb as [Hp Hr]. assert (Q : 2 ^ Z.of_nat (64 + s + 1) <= 2 ^ 97) by (apply Z.pow_le_mono_r; lia).
    assert (2 ^ 97 < 2 ^ 250) by reflexivity.
    pose proof (ranged_sound r (64 + s + 1) k Hp ltac:(lia) Hk). lia. }
  rewrite <- (fof_red k (nth i outs 0)). f_equal. destruct Hb as [Hp Hr].
  apply (eqr_near r); [rewrite p250 in Hr; lia|exact E|].
  assert (2 ^ 249 * 2 = 2 ^ 250) by reflexivity. assert (0 < 2 ^ 249) by reflexivity.
  assert (Q1 : 0 <= k * gl_p < 2 ^ 97 * gl_p).
  { split; [apply Z.mul_nonneg_nonneg; [lia|discriminate]|apply Z.mul_lt_mono_pos_r; [reflexivity|apply Bk]]. }
  assert (Q2 : 2 ^ 97 * gl_p + 2 ^ 64 < 2 ^ 249) by reflexivity.
  set (a := 2 ^ 249) in *. set (b := 2 ^ 97 * gl_p) in *. set (c := 2 ^ 64) in *. set (u := fft_sum _ _ _ _) in *.
  set (v := k * gl_p) in *. clearbody a b c u v. lia.
Qed.

Definition small3_all (xs : list sig3) : Prop := Forall small3' xs.

Lemma ws_ok s : (s <= 31)%nat -> forall t,
  0 <= nth t (fft_ws true s) 0 < gl_p /\
  ((t < 2 ^ s)%nat -> fof (nth t (fft_ws true s) 0) = fmul (fof (inv1 (2 ^ Z.of_nat s))) (fpow (fof (inv1 (nth s circ_roots 0))) t)).
Proof.
  intros Hs t. unfold fft_ws. destruct (inv1_size s Hs) as [_ B].
  destruct (Nat.lt_ge_cases t (2 ^ s)) as [Ht|Ht].
  - destruct (ws_nth (inv1 (nth s circ_roots 0)) (2 ^ s) _ t Ht B) as [H1 H2]. split; [exact H2|intros _; exact H1].
  - split; [|intros; lia]. rewrite nth_overflow; [unfold gl_p; lia|].
    assert (G : forall n c w, length (ws_from n c w) = n) by (induction n; intros; cbn [ws_from length]; [|rewrite IHn]; reflexivity).
    rewrite G. exact Ht.
Qed.

Lemma winv_root s : (s <= 31)%nat -> fmul (fof (inv1 (nth s circ_roots 0))) (root s) = f1.
Proof.
  intros Hs. destruct (inv1_roots s ltac:(lia)) as [H _]. rewrite (roots_table s ltac:(lia)) in H at 2.
  rewrite <- (fof_int (root s)), <- fof_mul, <- fof_mod, <- fof_1. rewrite <- gl_p_P, H. reflexivity.
Qed.

Lemma winv_pow s i : (s <= 31)%nat -> (i <= 2 ^ s)%nat ->
  fpow (fof (inv1 (nth s circ_roots 0))) i = fpow (root s) (2 ^ s - i).
Proof.
  intros Hs Hi. set (w := fof _). 
  assert (F : fpow (root s) (2 ^ s) = f1).
  { apply kconst_inj. rewrite kconst_pow, kconst_1. apply kroot_full. lia. }
  assert (E : fmul (fpow w i) (fpow (root s) i) = f1).
  { rewrite <- fpow_prod. unfold w. rewrite winv_root by exact Hs. apply fpow_1. }
  replace (2 ^ s)%nat with (2 ^ s - i + i)%nat in F by lia. rewrite fpow_add in F.
  transitivity (fmul (fpow w i) (fmul (fpow (root s) (2 ^ s - i)) (fpow (root s) i))); [rewrite F; ring|].
  transitivity (fmul (fmul (fpow w i) (fpow (root s) i)) (fpow (root s) (2 ^ s - i))); [ring|]. rewrite E. ring.
Qed.

Lemma winv_period s t : (s <= 31)%nat ->
  fpow (fof (inv1 (nth s circ_roots 0))) (t mod 2 ^ s) = fpow (fof (inv1 (nth s circ_roots 0))) t.
Proof.
  intros Hs. set (w := fof _). assert (F : fpow w (2 ^ s) = f1).
  { unfold w. rewrite winv_pow by (assumption || lia). rewrite Nat.sub_diag. reflexivity. }
  rewrite (Nat.div_mod t (2 ^ s)) at 2 by (apply Nat.pow_nonzero; lia).
  rewrite fpow_add, fpow_mul, F, fpow_1. ring.
Qed.

Lemma nth_coord (f : sig3 -> Z) xs j : f (0, 0, 0) = 0 -> nth j (map f xs) 0 = f (nth j xs (0, 0, 0)).
Proof. intros H. rewrite <- H at 1. apply map_nth. Qed.

Lemma fft3_sound r s xs outs : big r -> (s <= 31)%nat -> Forall small3' xs ->
  FFT3 r s (fft_ws true s) xs outs -> Forall word3 outs /\ map kof outs = idft s (map kof xs).
Proof.
  intros Hb Hs Hx (H0 & H1 & H2).
  assert (Lx : length xs = (2 ^ s)%nat) by (destruct H0 as [L _]; rewrite map_length in L; exact L).
  assert (Lo : length outs = (2 ^ s)%nat) by (destruct H0 as [_ [L _]]; rewrite map_length in L; exact L).
  assert (Hw : forall t, 0 <= nth t (fft_ws true s) 0 < gl_p) by (intros t; apply (ws_ok s Hs)).
  assert (S0 : Forall small' (map coord0 xs)).
  { rewrite Forall_map. eapply Forall_impl; [|exact Hx]. intros [[a b] c] (A & _ & _). exact A. }
  assert (S1 : Forall small' (map coord1 xs)).
  { rewrite Forall_map. eapply Forall_impl; [|exact Hx]. intros [[a b] c] (_ & A & _). exact A. }
  assert (S2 : Forall small' (map coord2 xs)).
  { rewrite Forall_map. eapply Forall_impl; [|exact Hx]. intros [[a b] c] (_ & _ & A). exact A. }
  set (z3 := (0, 0, 0) : sig3).
  assert (N0 : forall j l, nth j (map coord0 l) 0 = coord0 (nth j l z3)) by (intros; apply nth_coord; reflexivity).
  assert (N1 : forall j l, nth j (map coord1 l) 0 = coord1 (nth j l z3)) by (intros; apply nth_coord; reflexivity).
  assert (N2 : forall j l, nth j (map coord2 l) 0 = coord2 (nth j l z3)) by (intros; apply nth_coord; reflexivity).
  assert (G : forall i, (i < 2 ^ s)%nat -> word3 (nth i outs z3) /\
     kof (nth i outs z3) = ksum (2 ^ s) (fun j => kmul (kconst (fof (nth ((i * j) mod 2 ^ s) (fft_ws true s) 0))) (kof (nth j xs z3)))).
  { intros i Hi.
    destruct (fft_sound r s _ _ _ i Hb ltac:(lia) Hw S0 H0 Hi) as [W0 E0].
    destruct (fft_sound r s _ _ _ i Hb ltac:(lia) Hw S1 H1 Hi) as [W1 E1].
    destruct (fft_sound r s _ _ _ i Hb ltac:(lia) Hw S2 H2 Hi) as [W2 E2].
    rewrite N0 in W0, E0. rewrite N1 in W1, E1. rewrite N2 in W2, E2.
    split; [destruct (nth i outs z3) as [[a b] c]; split; [exact W0|split; [exact W1|exact W2]]|].
    rewrite <- (kof_zsum (fun j => nth ((i * j) mod 2 ^ s) (fft_ws true s) 0) (fun j => nth j xs z3)).
    rewrite fft_sum_z, map_length, Lx in E0, E1, E2.
    assert (Z1 : forall m f g, (forall j, f j = g j) -> zsum m f = zsum m g).
    { induction m; intros f g H; [reflexivity|]. cbn [zsum]. rewrite (IHm f g H), H. reflexivity. }
    apply kof_eq3; unfold coord0, coord1, coord2 in *; cbn [fst snd].
    - rewrite E0. f_equal. apply Z1. intros j. rewrite N0. reflexivity.
    - rewrite E1. f_equal. apply Z1. intros j. rewrite N1. reflexivity.
    - rewrite E2. f_equal. apply Z1. intros j. rewrite N2. reflexivity. }
  split.
  - apply Forall_forall. intros x Hin. destruct (In_nth _ _ z3 Hin) as [i [Hi <-]]. apply G. lia.
  - symmetry. unfold idft. apply list_eq_map_seq; [rewrite map_length; exact Lo|].
    intros i Hi'. assert (Hi : (i < 2 ^ s)%nat) by exact Hi'. clear Hi'.
    rewrite (nth_indep (map kof outs) kzero (kof z3)) by (rewrite map_length; change (i < length outs)%nat; rewrite Lo; exact Hi). rewrite map_nth.
    transitivity (kof (nth i outs z3)); [reflexivity|]. destruct (G i Hi) as [_ ->]. clear G.
    rewrite peval_sum, map_length. change (@length zt xs) with (length xs). rewrite Lx.
    assert (NV : ninv s = kconst (fof (inv1 (2 ^ Z.of_nat s)))).
    { pose proof (ninv_ok s Hs) as E. destruct (inv1_size s Hs) as [M _].
      assert (E' : kmul (kconst (fof (inv1 (2 ^ Z.of_nat s)))) (kconst (fof (2 ^ Z.of_nat s))) = kone).
      { rewrite <- kconst_mul, <- fof_mul, <- fof_mod, <- gl_p_P, M, fof_1. reflexivity. }
      transitivity (kmul (kmul (kconst (fof (inv1 (2 ^ Z.of_nat s)))) (kconst (fof (2 ^ Z.of_nat s)))) (ninv s)).
      - rewrite E'. ring.
      - transitivity (kmul (kconst (fof (inv1 (2 ^ Z.of_nat s)))) (kmul (kconst (fof (2 ^ Z.of_nat s))) (ninv s))); [ring|].
        rewrite E. ring. }
    transitivity (kmul (kconst (fof (inv1 (2 ^ Z.of_nat s)))) (ksum (2 ^ s)
       (fun k => kmul (nth k (map kof xs) kzero) (kpow (kpow (kroot s) (pow2 s - i)) k)))); [|rewrite NV; ring].
    rewrite <- ksum_scale. apply ksum_ext. intros j Hj.
    rewrite (nth_indep (map kof xs) kzero (kof z3)) by (rewrite map_length; change (j < length xs)%nat; rewrite Lx; exact Hj). rewrite map_nth.
    change (@nth zt j xs z3) with (nth j xs z3).
    pose proof (Nat.mod_upper_bound (i * j) (2 ^ s) ltac:(apply Nat.pow_nonzero; lia)) as M.
    destruct (ws_ok s Hs ((i * j) mod 2 ^ s)%nat) as [_ ->]; [|exact M].
    rewrite winv_period by exact Hs. rewrite kconst_mul, fpow_mul, winv_pow by (assumption || lia).
    rewrite !kconst_pow. unfold kroot. ring.
Qed.
