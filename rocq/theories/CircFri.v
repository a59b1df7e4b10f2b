(* The FRI step of the circuit is the FRI step of the verifier. *)
From Verif Require Import Base ListAux NumTheory GlModel FrField F3gModel Cubic F3gProof CircModel CircProof CircMore.
From Verif Require Import PolyModel Roots PolyProof FftProof FftTop HashModel FriModel CircFft CircFriModel.
From Verif Require StarkMath FriProof FriMath SoundFri.
From Coq Require Import Znumtheory Ring Field.
Open Scope Z_scope.

Local Transparent kconst kzero.
Lemma kof_const X : kof (X, 0, 0) = kconst (fof X).
Proof. unfold kof, kconst. rewrite fof_0. reflexivity. Qed.
Lemma val_c0 a x : val a = kconst x -> c0 a = x.
Proof. unfold val, kconst. destruct (d3 a); intros H; exact (f_equal k0 H). Qed.
Lemma kof_zero : kof (0, 0, 0) = kzero.
Proof. rewrite kof_const, fof_0. reflexivity. Qed.
Local Opaque kconst kzero.

Lemma as_int_fof a x : val a = kconst x -> fof (e_as_int a) = x.
Proof. intros H. unfold e_as_int. rewrite fof_int. apply val_c0. exact H. Qed.

Lemma as_int_word a : 0 <= e_as_int a < gl_p.
Proof. unfold e_as_int. rewrite gl_p_P. apply fint_range. Qed.

Definition sh (ext pb : nat) : Fr := fpow SHIFT (Z.to_nat (2 ^ Z.of_nat (ext - pb))).

Lemma shift_val ext pb : val (fold_shift ext pb) = kconst (sh ext pb).
Proof. unfold fold_shift, sh. rewrite val_exp, val_from, kconst_pow by lia. reflexivity. Qed.

Lemma e0_val ext pb : fof (fold_e0 ext pb) = finv (sh ext pb).
Proof. apply as_int_fof. rewrite val_inv, shift_val, finv_K. reflexivity. Qed.
Lemma e1_val ext pb : fof (fold_e1 ext pb) = finv (fmul (sh ext pb) (root pb)).
Proof. apply as_int_fof. rewrite val_inv, val_mul, shift_val, val_from, finv_K, kconst_mul. reflexivity. Qed.


Lemma sh_nz ext pb : kconst (sh ext pb) <> kzero.
Proof. unfold sh. rewrite kconst_pow. apply StarkMath.kpow_nz. exact FriProof.K_shift_nz. Qed.

Lemma kpow_1 a : kpow a 1 = a.
Proof. cbn [kpow]. ring. Qed.
Lemma kpow_0 a : kpow a 0 = kone.
Proof. reflexivity. Qed.

Definition bz (y : Z) : nat := Z.to_nat y.

(* the factor of one bit *)
Lemma bit_factor_gen w R y n : bit01 y -> kmul (kconst (fof w)) (kpow R n) = kone ->
  kmul (kconst (fof (y * (w - 1) + 1))) (kpow R (bz y * n)) = kone.
Proof.
  intros [-> | ->] H.
  - rewrite Z.mul_0_l, Z.add_0_l, fof_1, kconst_1. change (bz 0) with O. rewrite Nat.mul_0_l, kpow_0. ring.
  - replace (1 * (w - 1) + 1) with w by ring. change (bz 1) with 1%nat. rewrite Nat.mul_1_l. exact H.
Qed.
Lemma bit_small w y : bit01 y -> 0 <= w < gl_p -> small (y * (w - 1) + 1).
Proof. intros [-> | ->] B; unfold small; rewrite p120; unfold gl_p in B; lia. Qed.
Lemma root_factor pb i : (i <= pb)%nat -> (pb <= 31)%nat ->
  kmul (kconst (fof (inv1 (nth (pb - i) circ_roots 0)))) (kpow (kroot pb) (2 ^ i)) = kone.
Proof.
  intros Hi Hp. rewrite (FriMath.kroot_down pb i Hi ltac:(lia)). unfold kroot.
  rewrite <- kconst_mul, winv_root by lia. exact kconst_1.
Qed.
Lemma bit_factor pb i y : bit01 y -> (i <= pb)%nat -> (pb <= 31)%nat ->
  kmul (kconst (fof (y * (inv1 (nth (pb - i) circ_roots 0) - 1) + 1))) (kpow (kroot pb) (bz y * 2 ^ i)) = kone /\
  small (y * (inv1 (nth (pb - i) circ_roots 0) - 1) + 1).
Proof.
  intros Hy Hi Hp. split.
  - exact (bit_factor_gen _ _ y _ Hy (root_factor pb i Hi Hp)).
  - exact (bit_small _ y Hy (proj2 (inv1_roots (pb - i) ltac:(lia)))).
Qed.

Lemma bsum_cons_nat y t : bit01 y -> Forall bit01 t -> Z.to_nat (bsum (y :: t)) = (bz y + 2 * Z.to_nat (bsum t))%nat.
Proof. intros Hy Ht. pose proof (bsum_range t Ht). cbn [bsum]. unfold bz. destruct Hy as [-> | ->]; lia. Qed.

Lemma sx_sound r pb : big r -> (pb <= 31)%nat -> forall ys i acc out A, Forall bit01 ys -> (i + length ys <= pb)%nat ->
  small acc -> kmul (kconst (fof acc)) A = kone -> sx_loop r pb i ys acc out ->
  small out /\ kmul (kconst (fof out)) (kmul A (kpow (kroot pb) (2 ^ i * Z.to_nat (bsum ys)))) = kone.
Proof.
  intros Hb Hp. induction ys as [|y t IH]; intros i acc out A B L S E H.
  - cbn [sx_loop] in H. subst out. split; [exact S|]. cbn [bsum]. change (Z.to_nat 0) with O.
    rewrite Nat.mul_0_r, kpow_0. transitivity (kmul (kconst (fof acc)) A); [ring|exact E].
  - destruct H as [o [M H]]. pose proof (Forall_inv B) as By. apply Forall_inv_tail in B. cbn [length] in L.
    destruct (bit_factor pb i y By ltac:(lia) Hp) as [F Sf].
    set (f := y * (inv1 (nth (pb - i) circ_roots 0) - 1) + 1) in *. clearbody f.
    destruct (glmul_sound r acc f o Hb S Sf M) as [Wo Eo].
    destruct (IH (Datatypes.S i) o out (kmul A (kpow (kroot pb) (bz y * 2 ^ i))) B ltac:(lia) (word_small o Wo)) as [So Ho]; [|exact H|].
    + rewrite Eo, kconst_mul.
      transitivity (kmul (kmul (kconst (fof acc)) A) (kmul (kconst (fof f)) (kpow (kroot pb) (bz y * 2 ^ i)))); [ring|].
      rewrite E, F. ring.
    + split; [exact So|]. rewrite <- Ho. f_equal. rewrite bsum_cons_nat by assumption.
      replace (2 ^ i * (bz y + 2 * Z.to_nat (bsum t)))%nat with (bz y * 2 ^ i + 2 ^ Datatypes.S i * Z.to_nat (bsum t))%nat
        by (rewrite Nat.pow_succ_r'; generalize (2 ^ i)%nat; intros; lia).
      rewrite kpow_add. ring.
Qed.

Lemma first_bit ext pb y : bit01 y -> (pb <= 31)%nat ->
  small (y * (fold_e1 ext pb - fold_e0 ext pb) + fold_e0 ext pb) /\
  kmul (kconst (fof (y * (fold_e1 ext pb - fold_e0 ext pb) + fold_e0 ext pb))) (kmul (kconst (sh ext pb)) (kpow (kroot pb) (bz y))) = kone.
Proof.
  intros Hy Hp. pose proof (as_int_word (e_inv (fold_shift ext pb))) as B0. fold (fold_e0 ext pb) in B0.
  pose proof (as_int_word (e_inv (e_mul (fold_shift ext pb) (e_from (mg_down (32 - pb)))))) as B1. fold (fold_e1 ext pb) in B1.
  pose proof (e0_val ext pb) as V0. pose proof (e1_val ext pb) as V1. pose proof (sh_nz ext pb) as Ns.
  set (e0 := fold_e0 ext pb) in *. set (e1 := fold_e1 ext pb) in *. clearbody e0 e1. set (s := sh ext pb) in *. clearbody s.
  split; [destruct Hy as [-> | ->]; unfold small; rewrite p120; unfold gl_p in *; lia|].
  destruct Hy as [-> | ->].
  - replace (0 * (e1 - e0) + e0) with e0 by ring. change (bz 0) with O. rewrite kpow_0, V0, finv_K.
    field. exact Ns.
  - replace (1 * (e1 - e0) + e0) with e1 by ring. change (bz 1) with 1%nat. rewrite kpow_1, V1, finv_K, kconst_mul.
    unfold kroot. field. split; [|exact Ns]. apply (StarkMath.kroot_nz pb). lia.
Qed.

Lemma point_sound r ext pb ys X : big r -> (pb <= 31)%nat -> Forall bit01 ys -> (length ys <= pb)%nat ->
  fold_point r ext pb ys X ->
  small X /\ kconst (fof X) = kinv (kmul (kconst (sh ext pb)) (kpow (kroot pb) (Z.to_nat (bsum ys)))).
Proof.
  intros Hb Hp B L H. destruct ys as [|y0 [|y1 t]]; try (destruct H; fail). unfold fold_point in H.
  pose proof (Forall_inv B) as B0. apply Forall_inv_tail in B.
  destruct (first_bit ext pb y0 B0 Hp) as [S0 E0].
  set (a := y0 * (fold_e1 ext pb - fold_e0 ext pb) + fold_e0 ext pb) in *. clearbody a.
  destruct (sx_sound r pb Hb Hp (y1 :: t) 1 a X _ B ltac:(cbn [length] in *; lia) S0 E0 H) as [SX EX].
  split; [exact SX|]. rewrite bsum_cons_nat by assumption.
  change (2 ^ 1)%nat with 2%nat in EX. rewrite kpow_add.
  set (b := kpow (kroot pb) (2 * Z.to_nat (bsum (y1 :: t)))) in *.
  set (c := kpow (kroot pb) (bz y0)) in *. set (s := kconst (sh ext pb)) in *.
  assert (Nb : b <> kzero) by (apply StarkMath.kpow_nz, StarkMath.kroot_nz; lia).
  assert (Nc : c <> kzero) by (apply StarkMath.kpow_nz, StarkMath.kroot_nz; lia).
  assert (Ns : s <> kzero) by apply sh_nz.
  set (x := kconst (fof X)) in *. clearbody x b c s.
  transitivity (kmul (kmul x (kmul (kmul s c) b)) (kinv (kmul s (kmul c b)))).
  - field. repeat split; assumption.
  - rewrite EX. ring.
Qed.

(** * One query *)

Definition sub3 (a b : sig3) : sig3 := (coord0 a - coord0 b, coord1 a - coord1 b, coord2 a - coord2 b).

Lemma norm_cong r i j out : eqr r i j -> GLNorm r i out -> GLNorm r j out.
Proof.
  intros E [k [A [B C]]]. exists k. split; [exact A|]. split; [exact B|].
  eapply eqr_trans; [|exact C]. apply eqr_add; [apply eqr_sym; exact E|reflexivity].
Qed.

Lemma norm_zero r a b a' b' : big r -> small' a' -> small' b' -> eqr r a a' -> eqr r b b' ->
  GLNorm r (a - b + gl_p) 0 -> fof a' = fof b'.
Proof.
  intros Hb Sa Sb Ea Eb H. assert (Q : eqr r (a - b + gl_p) (a' - b' + gl_p)).
  { apply eqr_add; [apply eqr_sub; assumption|reflexivity]. }
  apply (norm_cong r _ _ 0 Q) in H. destruct H as [k [Hk [Ho E]]]. destruct Hb as [Hp Hr].
  assert (Bk : 0 <= k < 2 ^ Z.of_nat 10).
  { apply (ranged_sound r 10); [exact Hp| |exact Hk]. rewrite p10. rewrite p250 in Hr. lia. }
  rewrite p10 in Bk. unfold small' in *. change (2 ^ 119) with 664613997892457936451903530140172288 in *.
  assert (H : a' - b' + gl_p + 16 * gl_p = k * gl_p + 0).
  { apply (eqr_near r); [rewrite p250 in Hr; lia|exact E|]. rewrite p250 in Hr. unfold gl_p. lia. }
  replace a' with ((k - 17) * gl_p + b') by lia. apply fof_red.
Qed.

Lemma nth_coord3 (xs : list sig3) j : nth j xs (0, 0, 0) =
  (nth j (map coord0 xs) 0, nth j (map coord1 xs) 0, nth j (map coord2 xs) 0).
Proof.
  rewrite !nth_coord by reflexivity. destruct (nth j xs (0, 0, 0)) as [[a b] c]. reflexivity.
Qed.

Lemma nth_small (xs : list sig3) j : Forall small3' xs -> small3' (nth j xs (0, 0, 0)).
Proof.
  intros H. destruct (Nat.lt_ge_cases j (length xs)) as [Hj|Hj].
  - rewrite Forall_forall in H. apply H. apply nth_In. exact Hj.
  - rewrite nth_overflow by exact Hj. unfold small3', small'. lia.
Qed.

Lemma kvalue_peval p x : kvalue p x = peval p x.
Proof. induction p as [|a p IH]; [reflexivity|]. cbn [kvalue peval]. rewrite IH. reflexivity. Qed.

Lemma fold_step_sound r ext pb nb nb2 ys xs sx vals : big r -> (pb <= 31)%nat -> (nb <= pb)%nat -> length ys = nb ->
  Forall bit01 ys -> Forall small3' xs -> small3 sx -> Forall small3' vals ->
  fold_step r ext pb nb nb2 ys xs sx vals ->
  forall pg shift x, map val pg = map kof xs -> val shift = kpow (kconst SHIFT) (Z.to_nat (2 ^ Z.of_nat (ext - pb))) ->
  val x = kof sx -> let y := Z.to_nat (bsum ys) in
  exists v, fold_check pg pb y shift x = Ok v /\ val v = kof (nth (y / 2 ^ nb2) vals (0, 0, 0)).
Proof.
  intros Hb Hp Hn L B Sx Ss Sv (X & xp & cs & ev & low & H1 & H2 & H3 & H4 & H5 & H6) pg shift x Epg Esh Ex y.
  destruct (point_sound r ext pb ys X Hb Hp B ltac:(lia) H1) as [SX VX].
  assert (SX3 : small3 (X, 0, 0)) by (split; [exact SX|split; apply small_0]).
  destruct (glcmul_sound r sx (X, 0, 0) xp Hb Ss SX3 H2) as [Wxp Vxp].
  assert (Lx : length xs = (2 ^ (pb - nb))%nat) by (destruct H3 as [[A _] _]; rewrite map_length in A; exact A).
  destruct (fft3_sound r (pb - nb) xs cs Hb ltac:(lia) Sx H3) as [Wcs Vcs].
  assert (Scs : Forall small3' cs) by (eapply Forall_impl; [|exact Wcs]; intros a; apply word3_small3').
  destruct (evalpol_sound r cs xp ev Hb (word3_small _ Wxp) Scs H4) as [w [Ew [Sw Vw]]].
  assert (Lpg : length pg = (2 ^ (pb - nb))%nat).
  { rewrite <- (map_length val pg), Epg, map_length. exact Lx. }
  destruct (ifft_E (pb - nb) pg ltac:(lia) Lpg) as [c [Ec Vc]].
  assert (EF : exists v, fold_check pg pb y shift x = Ok v /\
    val v = peval (idft (pb - nb) (map val pg)) (kmul (val x) (kinv (kmul (val shift) (kpow (kroot pb) y))))).
  { unfold fold_check. rewrite Ec. cbn [bind]. rewrite MG_root by lia. cbn [bind].
    eexists. split; [reflexivity|]. rewrite eval_E, Vc, val_mul, val_inv, val_mul, val_exp, val_from, Nat2Z.id by lia. reflexivity. }
  destruct EF as [v [Ev Vv]]. exists v. split; [exact Ev|]. rewrite Vv.
  rewrite Epg, Ex, Esh, <- kconst_pow. fold (sh ext pb). unfold y. rewrite <- VX, <- kof_const, <- Vxp, <- Vcs.
  rewrite <- kvalue_peval, <- Vw. clear Ev Vv.
  destruct H5 as ([_ T0] & [_ T1] & [_ T2]). pose proof (forall_skipn bit01 nb2 ys B) as Bk.
  destruct (select_levels_nth r _ _ _ Bk T0) as [_ E0]. destruct (select_levels_nth r _ _ _ Bk T1) as [_ E1].
  destruct (select_levels_nth r _ _ _ Bk T2) as [_ E2].
  assert (Ey : Z.to_nat (bsum (skipn nb2 ys)) = (y / 2 ^ nb2)%nat).
  { rewrite bsum_skipn by exact B. unfold y. pose proof (bsum_range ys B).
    rewrite Z2Nat.inj_div by (try apply Z.pow_nonneg; lia). f_equal.
    rewrite <- (Nat2Z.id (2 ^ nb2)). f_equal. rewrite Nat2Z.inj_pow. reflexivity. }
  rewrite Ey in E0, E1, E2. pose proof (nth_small vals (y / 2 ^ nb2) Sv) as Sn. fold y.
  rewrite nth_coord3 in *. set (n0 := nth (y / 2 ^ nb2) (map coord0 vals) 0) in *.
  set (n1 := nth (y / 2 ^ nb2) (map coord1 vals) 0) in *. set (n2 := nth (y / 2 ^ nb2) (map coord2 vals) 0) in *.
  clearbody n0 n1 n2. destruct Sn as (S0 & S1 & S2). destruct w as [[w0 w1] w2]. destruct Sw as (U0 & U1 & U2).
  destruct ev as [[v0 v1] v2]. destruct Ew as (Q0 & Q1 & Q2). destruct H6 as (N0 & N1 & N2).
  apply kof_eq3.
  - exact (norm_zero r _ _ w0 n0 Hb U0 S0 Q0 E0 N0).
  - exact (norm_zero r _ _ w1 n1 Hb U1 S1 Q1 E1 N1).
  - exact (norm_zero r _ _ w2 n2 Hb U2 S2 Q2 E2 N2).
Qed.

(* the verifier's comparison is then passed *)
Lemma fold_step_accepts r ext pb nb nb2 ys xs sx vals : big r -> (pb <= 31)%nat -> (nb <= pb)%nat -> length ys = nb ->
  Forall bit01 ys -> Forall small3' xs -> small3 sx -> Forall small3' vals ->
  fold_step r ext pb nb nb2 ys xs sx vals ->
  forall pg shift x want, map val pg = map kof xs -> val shift = kpow (kconst SHIFT) (Z.to_nat (2 ^ Z.of_nat (ext - pb))) ->
  val x = kof sx -> wf want -> let y := Z.to_nat (bsum ys) in val want = kof (nth (y / 2 ^ nb2) vals (0, 0, 0)) ->
  exists v, fold_check pg pb y shift x = Ok v /\ e__eq v want = true.
Proof.
  intros Hb Hp Hn L B Sx Ss Sv H pg shift x want Epg Esh Ex Ww y Ew.
  destruct (fold_step_sound r ext pb nb nb2 ys xs sx vals Hb Hp Hn L B Sx Ss Sv H pg shift x Epg Esh Ex) as [v [E V]].
  fold y in E, V. exists v. split; [exact E|].
  assert (Nz : val shift <> kzero) by (rewrite Esh, <- kconst_pow; apply sh_nz).
  destruct (SoundFri.fold_check_folds pg pb y shift x v Hp Nz E) as [_ Wv].
  apply (proj2 (e_eqs v want Wv Ww)). rewrite V, Ew. reflexivity.
Qed.

(** * Every right opening is accepted *)

Lemma fft_sum_bound ws n i : (forall j, 0 <= nth j ws 0 < gl_p) -> forall xs, Forall (fun x => 0 <= x < 2 ^ 64) xs ->
  0 <= fft_sum ws n i xs <= Z.of_nat (length xs) * (gl_p * 2 ^ 64).
Proof.
  intros Hw xs. induction xs as [|x xs IH] using rev_ind; intros H.
  - unfold fft_sum. cbn. lia.
  - apply Forall_app in H. destruct H as [H1 H2]. apply Forall_inv in H2. specialize (IH H1).
    unfold fft_sum in *. rewrite combine_app_last, fold_left_app. cbn [fold_left fst snd].
    rewrite app_length. cbn [length]. rewrite Nat2Z.inj_add. change (Z.of_nat 1) with 1.
    specialize (Hw ((i * length xs) mod n)%nat). set (w := nth ((i * length xs) mod n) ws 0) in *. clearbody w.
    set (s := fold_left _ _ 0) in *. clearbody s. set (l := Z.of_nat (length xs)) in *. clearbody l.
    assert (0 <= w * x) by nia. assert (w * x <= gl_p * 2 ^ 64) by nia.
    set (B := gl_p * 2 ^ 64) in *. clearbody B. lia.
Qed.

Lemma fft_complete r s ws xs : big r -> (s <= 31)%nat -> (forall j, 0 <= nth j ws 0 < gl_p) ->
  length xs = (2 ^ s)%nat -> Forall (fun x => 0 <= x < 2 ^ 64) xs ->
  FFT r s ws xs (map (fun i => fft_sum ws (2 ^ s) i xs mod gl_p) (seq 0 (2 ^ s))).
Proof.
  intros Hb Hs Hw L H. split; [exact L|]. split; [rewrite map_length, seq_length; reflexivity|].
  intros i Hi. pose proof (fft_sum_bound ws (2 ^ s) i Hw xs H) as B. rewrite L in B.
  set (f := fun i => fft_sum ws (2 ^ s) i xs mod gl_p).
  assert (E : nth i (map f (seq 0 (2 ^ s))) 0 = f i).
  { rewrite (nth_indep _ 0 (f O)) by (rewrite map_length, seq_length; exact Hi). rewrite (map_nth f), seq_nth by exact Hi. reflexivity. }
  rewrite E. unfold f. set (S := fft_sum ws (2 ^ s) i xs) in *. clearbody S. clear E f.
  assert (Hp2 : Z.of_nat (2 ^ s) = 2 ^ Z.of_nat s) by (rewrite Nat2Z.inj_pow; reflexivity). rewrite Hp2 in B.
  assert (P0 : 0 < 2 ^ Z.of_nat s) by (apply Z.pow_pos_nonneg; lia).
  assert (Pm : 2 ^ Z.of_nat s <= 2 ^ 31) by (apply Z.pow_le_mono_r; lia).
  assert (Pk : 2 ^ Z.of_nat (64 + s + 1) = 2 ^ 65 * 2 ^ Z.of_nat s).
  { rewrite <- Z.pow_add_r by lia. f_equal. lia. }
  destruct Hb as [Hpr Hr]. assert (Hr1 : 1 < r) by (rewrite p250 in Hr; lia).
  assert (Bk : 0 <= S / gl_p <= 2 ^ 64 * 2 ^ Z.of_nat s).
  { assert (G : 0 < gl_p) by reflexivity. split; [apply Z.div_pos; lia|].
    apply Z.div_le_upper_bound; [exact G|]. 
    replace (gl_p * (2 ^ 64 * 2 ^ Z.of_nat s)) with (2 ^ Z.of_nat s * (gl_p * 2 ^ 64)) by ring. lia. }
  pose proof (Z.mod_pos_bound S gl_p ltac:(reflexivity)) as Bm.
  change (2 ^ 64) with 18446744073709551616 in *. change (2 ^ 65) with 36893488147419103232 in *.
  change (2 ^ 31) with 2147483648 in *. rewrite p250 in Hr.
  exists (S / gl_p). split; [|split].
  - apply ranged_complete; [exact Hr1|unfold felt; lia|rewrite Pk; lia].
  - apply ranged_complete; [exact Hr1|unfold felt; unfold gl_p in *; lia|rewrite p64; unfold gl_p in *; lia].
  - unfold eqr. f_equal. rewrite (Z.div_mod S gl_p) at 3 by discriminate. ring.
Qed.

Lemma fft3_complete r s xs : big r -> (s <= 31)%nat -> length xs = (2 ^ s)%nat -> Forall word3 xs ->
  exists cs, FFT3 r s (fft_ws true s) xs cs.
Proof.
  intros Hb Hs L H.
  assert (Hw : forall t, 0 <= nth t (fft_ws true s) 0 < gl_p) by (intros t; apply (ws_ok s Hs)).
  set (g := fun (c : sig3 -> Z) i => fft_sum (fft_ws true s) (2 ^ s) i (map c xs) mod gl_p).
  exists (map (fun i => (g coord0 i, g coord1 i, g coord2 i)) (seq 0 (2 ^ s))).
  assert (C : forall c, (forall x, In x xs -> 0 <= c x < 2 ^ 64) ->
    FFT r s (fft_ws true s) (map c xs) (map (g c) (seq 0 (2 ^ s)))).
  { intros c Hc. apply fft_complete; [exact Hb|exact Hs|exact Hw|rewrite map_length; exact L|].
    apply Forall_forall. intros z Hz. apply in_map_iff in Hz. destruct Hz as [x [<- Hx]]. apply Hc. exact Hx. }
  rewrite Forall_forall in H. unfold FFT3. rewrite !map_map.
  split; [|split]; (match goal with |- FFT _ _ _ (map ?c _) _ => change (FFT r s (fft_ws true s) (map c xs) (map (g c) (seq 0 (2 ^ s)))) end);
    apply C; intros x Hx; specialize (H x Hx); destruct x as [[a b] d]; destruct H as (A0 & A1 & A2); assumption.
Qed.

Lemma bit_fed w y : bit01 y -> 0 <= w < gl_p -> fed (y * (w - 1) + 1).
Proof. intros [-> | ->] B; unfold fed, gl_p in *; change (2 ^ 68) with 295147905179352825856; lia. Qed.

Lemma mod_p_word a : 0 <= a mod gl_p < 2 ^ 64.
Proof. pose proof (Z.mod_pos_bound a gl_p ltac:(reflexivity)). unfold gl_p in *. change (2 ^ 64) with 18446744073709551616. lia. Qed.

Lemma sx_complete r pb : big r -> (pb <= 32)%nat -> forall ys i acc, Forall bit01 ys -> fed acc ->
  exists out, sx_loop r pb i ys acc out /\ fed out.
Proof.
  intros Hb Hp. induction ys as [|y t IH]; intros i acc B F.
  - exists acc. split; [reflexivity|exact F].
  - pose proof (Forall_inv B) as By. apply Forall_inv_tail in B.
    pose proof (bit_fed _ y By (proj2 (inv1_roots (pb - i) ltac:(lia)))) as Fb.
    destruct (IH (S i) _ B (word_fed _ (mod_p_word (acc * (y * (inv1 (nth (pb - i) circ_roots 0) - 1) + 1))))) as [out [H Fo]].
    exists out. split; [|exact Fo]. exists ((acc * (y * (inv1 (nth (pb - i) circ_roots 0) - 1) + 1)) mod gl_p).
    split; [|exact H]. apply glmul_complete; assumption.
Qed.

Lemma point_complete r ext pb ys : big r -> (pb <= 32)%nat -> Forall bit01 ys -> (2 <= length ys)%nat ->
  exists X, fold_point r ext pb ys X /\ fed X.
Proof.
  intros Hb Hp B L. destruct ys as [|y0 [|y1 t]]; [cbn in L; lia|cbn in L; lia|].
  apply sx_complete; [exact Hb|exact Hp|exact (Forall_inv_tail B)|].
  pose proof (as_int_word (e_inv (fold_shift ext pb))) as B0. fold (fold_e0 ext pb) in B0.
  pose proof (as_int_word (e_inv (e_mul (fold_shift ext pb) (e_from (mg_down (32 - pb)))))) as B1. fold (fold_e1 ext pb) in B1.
  set (e0 := fold_e0 ext pb) in *. set (e1 := fold_e1 ext pb) in *. clearbody e0 e1. apply Forall_inv in B.
  unfold fed, gl_p in *. change (2 ^ 68) with 295147905179352825856. destruct B as [-> | ->]; lia.
Qed.

Lemma norm_to_zero r a b a' b' : big r -> 0 <= a' < 2 ^ 64 -> 0 <= b' < 2 ^ 64 -> eqr r a a' -> eqr r b b' ->
  fof a' = fof b' -> GLNorm r (a - b + gl_p) 0.
Proof.
  intros Hb Wa Wb Ea Eb E. apply (norm_cong r (a' - b' + gl_p)).
  { apply eqr_sym. apply eqr_add; [apply eqr_sub; assumption|reflexivity]. }
  replace 0 with ((a' - b' + gl_p) mod gl_p).
  - apply norm_complete; [exact Hb|]. unfold gl_p. change (2 ^ 64) with 18446744073709551616 in *. lia.
  - rewrite <- (Z.mul_1_l gl_p) at 1. rewrite Z_mod_plus_full. apply fof_eq_mod in E.
    rewrite Zminus_mod, E, Z.sub_diag. reflexivity.
Qed.

Lemma fold_step_complete r ext pb nb nb2 ys xs sx vals : big r -> (pb <= 31)%nat -> (nb <= pb)%nat -> (2 <= nb)%nat -> (nb2 < nb)%nat ->
  length ys = nb -> Forall bit01 ys -> length xs = (2 ^ (pb - nb))%nat -> length vals = (2 ^ (nb - nb2))%nat ->
  Forall word3 xs -> word3 sx -> Forall word3 vals ->
  forall pg shift x v, map val pg = map kof xs -> val shift = kpow (kconst SHIFT) (Z.to_nat (2 ^ Z.of_nat (ext - pb))) ->
  val x = kof sx -> let y := Z.to_nat (bsum ys) in
  fold_check pg pb y shift x = Ok v -> val v = kof (nth (y / 2 ^ nb2) vals (0, 0, 0)) ->
  fold_step r ext pb nb nb2 ys xs sx vals.
Proof.
  intros Hb Hp Hn H2n Hnb2 L B Lx Lv Wx Ws Wv pg shift x v Epg Esh Ex y Ef Vf.
  destruct (point_complete r ext pb ys Hb ltac:(lia) B ltac:(lia)) as [X [HX FX]].
  destruct (point_sound r ext pb ys X Hb Hp B ltac:(lia) HX) as [SX VX].
  assert (F0 : fed 0) by (unfold fed, gl_p; change (2 ^ 68) with 295147905179352825856; lia).
  set (xp := mod3 (prod3 sx (X, 0, 0))).
  assert (Hxp : GLCMul r sx (X, 0, 0) xp) by (apply glcmul_complete; [exact Hb|apply word3_fed3; exact Ws|split; [exact FX|split; exact F0]]).
  assert (SX3 : small3 (X, 0, 0)) by (split; [exact SX|split; apply small_0]).
  destruct (glcmul_sound r sx (X, 0, 0) xp Hb (word3_small _ Ws) SX3 Hxp) as [Wxp Vxp].
  destruct (fft3_complete r (pb - nb) xs Hb ltac:(lia) Lx Wx) as [cs Hcs].
  assert (Sx : Forall small3' xs) by (eapply Forall_impl; [|exact Wx]; intros a; apply word3_small3').
  destruct (fft3_sound r (pb - nb) xs cs Hb ltac:(lia) Sx Hcs) as [Wcs Vcs].
  assert (Ncs : cs <> []).
  { destruct Hcs as [[_ [A _]] _]. rewrite map_length in A. intros ->. cbn [length] in A.
    pose proof (Nat.pow_nonzero 2 (pb - nb) ltac:(lia)). lia. }
  assert (Fcs : Forall fed3 cs) by (eapply Forall_impl; [|exact Wcs]; intros a; apply word3_fed3).
  destruct (evalpol_complete r cs xp Hb (word3_fed3 _ Wxp) Fcs Ncs) as [ev Hev].
  assert (Scs : Forall small3' cs) by (eapply Forall_impl; [|exact Wcs]; intros a; apply word3_small3').
  destruct (evalpol_words r cs xp ev Hb (word3_small _ Wxp) Scs Hev) as [w [Ew [[Sw Ww] Vw]]]. specialize (Ww Wcs).
  assert (Lpg : length pg = (2 ^ (pb - nb))%nat) by (rewrite <- (map_length val pg), Epg, map_length; exact Lx).
  destruct (ifft_E (pb - nb) pg ltac:(lia) Lpg) as [c [Ec Vc]].
  assert (Vv : val v = peval (idft (pb - nb) (map val pg)) (kmul (val x) (kinv (kmul (val shift) (kpow (kroot pb) y))))).
  { unfold fold_check in Ef. rewrite Ec in Ef. cbn [bind] in Ef. rewrite MG_root in Ef by lia. cbn [bind] in Ef.
    injection Ef as <-. rewrite eval_E, Vc, val_mul, val_inv, val_mul, val_exp, val_from, Nat2Z.id by lia. reflexivity. }
  rewrite Vf, Epg, Ex, Esh, <- kconst_pow in Vv. fold (sh ext pb) in Vv. unfold y in Vv at 2.
  rewrite <- VX, <- kof_const, <- Vxp, <- Vcs, <- kvalue_peval, <- Vw in Vv.
  pose proof (forall_skipn bit01 nb2 ys B) as Bk.
  assert (Lk : length (skipn nb2 ys) = (nb - nb2)%nat) by (rewrite skipn_length; lia).
  assert (Nk : skipn nb2 ys <> []) by (intros Q; rewrite Q in Lk; cbn [length] in Lk; lia).
  assert (SEL : forall cc : sig3 -> Z, exists o, TreeSelector r (map cc vals) (skipn nb2 ys) o).
  { intros cc. destruct (select_levels_ex r (skipn nb2 ys) (map cc vals)) as [o Ho]; [rewrite map_length, Lv, Lk; reflexivity|].
    exists o. split; [exact Nk|exact Ho]. }
  destruct (SEL coord0) as [o0 T0], (SEL coord1) as [o1 T1], (SEL coord2) as [o2 T2].
  destruct (select_levels_nth r _ _ _ Bk (proj2 T0)) as [_ E0]. destruct (select_levels_nth r _ _ _ Bk (proj2 T1)) as [_ E1].
  destruct (select_levels_nth r _ _ _ Bk (proj2 T2)) as [_ E2].
  assert (Ey : Z.to_nat (bsum (skipn nb2 ys)) = (y / 2 ^ nb2)%nat).
  { rewrite bsum_skipn by exact B. unfold y. pose proof (bsum_range ys B).
    rewrite Z2Nat.inj_div by (try apply Z.pow_nonneg; lia). f_equal.
    rewrite <- (Nat2Z.id (2 ^ nb2)). f_equal. rewrite Nat2Z.inj_pow. reflexivity. }
  rewrite Ey in E0, E1, E2.
  assert (Wn : word3 (nth (y / 2 ^ nb2) vals (0, 0, 0))).
  { destruct (Nat.lt_ge_cases (y / 2 ^ nb2) (length vals)) as [Hj|Hj].
    - rewrite Forall_forall in Wv. apply Wv. apply nth_In. exact Hj.
    - rewrite nth_overflow by exact Hj. unfold word3. change (2 ^ 64) with 18446744073709551616. lia. }
  exists X, xp, cs, ev, (o0, o1, o2). split; [exact HX|]. split; [exact Hxp|]. split; [exact Hcs|]. split; [exact Hev|].
  split; [split; [exact T0|split; [exact T1|exact T2]]|].
  rewrite nth_coord3 in *. set (n0 := nth (y / 2 ^ nb2) (map coord0 vals) 0) in *.
  set (n1 := nth (y / 2 ^ nb2) (map coord1 vals) 0) in *. set (n2 := nth (y / 2 ^ nb2) (map coord2 vals) 0) in *.
  clearbody n0 n1 n2. destruct Wn as (N0 & N1 & N2). destruct w as [[w0 w1] w2]. destruct Ww as (U0 & U1 & U2).
  destruct ev as [[v0 v1] v2]. destruct Ew as (Q0 & Q1 & Q2).
  assert (KE : fof w0 = fof n0 /\ fof w1 = fof n1 /\ fof w2 = fof n2).
  { clear -Vv. unfold kof in Vv. split; [exact (eq_sym (f_equal k0 Vv))|]. split; [exact (eq_sym (f_equal k1 Vv))|exact (eq_sym (f_equal k2 Vv))]. }
  destruct KE as (K0 & K1 & K2). unfold GLCNorm, diff_p, on3. cbn [coord0 coord1 coord2 fst snd].
  split; [exact (norm_to_zero r _ _ w0 n0 Hb U0 N0 Q0 E0 K0)|].
  split; [exact (norm_to_zero r _ _ w1 n1 Hb U1 N1 Q1 E1 K1)|exact (norm_to_zero r _ _ w2 n2 Hb U2 N2 Q2 E2 K2)].
Qed.

(** * The last polynomial *)

Lemma last_sound r nb maxdeg final : big r -> (nb <= 31)%nat -> Forall small3' final -> last_pol r nb maxdeg final ->
  forall l, map val l = map kof final -> check_last l (2 ^ maxdeg) = Ok true.
Proof.
  intros Hb Hn Sf [cs [H3 Z0]] l El.
  destruct (fft3_sound r nb final cs Hb Hn Sf H3) as [_ Vcs].
  assert (Lf : length final = (2 ^ nb)%nat) by (destruct H3 as [[A _] _]; rewrite map_length in A; exact A).
  assert (Ll : length l = (2 ^ nb)%nat) by (rewrite <- (map_length val l), El, map_length; exact Lf).
  destruct (ifft_E nb l Hn Ll) as [c [Ec Vc]]. unfold check_last. rewrite Ec. cbn [bind]. f_equal.
  rewrite El, <- Vcs in Vc. destruct (SoundFri.ifft_wf l c Ec) as [Wc _].
  assert (Lc : length (c : list F3G) = length cs).
  { rewrite <- (map_length val c), Vc, map_length. reflexivity. }
  assert (Lcs : length cs = (2 ^ nb)%nat) by (destruct H3 as [[_ [A _]] _]; rewrite map_length in A; exact A).
  change (car opsE) with F3G in *. apply forallb_forall. intros z Hz. apply In_nth with (d := e_ZERO) in Hz. destruct Hz as [i [Hi <-]].
  rewrite skipn_length in Hi. rewrite nth_skipn'. set (k := (2 ^ maxdeg + 1 + i)%nat) in *.
  assert (Hk : (k < length (c : list F3G))%nat) by (unfold k; clear -Hi; revert Hi; generalize (2 ^ maxdeg)%nat; intros; lia).
  apply (proj2 (e_is_zero_spec _ (proj1 (Forall_forall _ _) Wc _ (nth_In _ _ Hk)))).
  rewrite <- (map_nth val). rewrite Vc. rewrite (nth_indep _ _ (kof (0, 0, 0))) by (rewrite map_length; change (@length zt cs) with (length cs); rewrite <- Lc; exact Hk).
  rewrite (map_nth kof). change zt with sig3. rewrite Z0; [exact kof_zero|lia].
Qed.

(* X itself where only constants are allowed *)
Definition over : list sig3 := [(1, 0, 0); (gl_p - 1, 0, 0)].
Definition over_l : list F3G := [e_from (fof 1); e_from (fof (gl_p - 1))].

Lemma over_coef : match ifft (F := opsE) over_l with Ok (_ :: b :: _) => e_is_zero b = false | _ => False end.
Proof. vm_compute. reflexivity. Qed.

Lemma last_stricter r : big r -> map val over_l = map kof over /\ Forall word3 over /\
  check_last over_l (2 ^ 0) = Ok true /\ ~ last_pol r 1 0 over.
Proof.
  intros Hb. assert (E : map val over_l = map kof over).
  { unfold over_l, over. cbn [map]. rewrite !val_from, !kof_const. reflexivity. }
  assert (W : Forall word3 over).
  { unfold over. repeat (apply Forall_cons; [unfold word3, gl_p; repeat split; try reflexivity; discriminate|]). apply Forall_nil. }
  split; [exact E|]. split; [exact W|]. split; [vm_compute; reflexivity|].
  intros [cs [H3 Z0]]. assert (Sf : Forall small3' over) by (eapply Forall_impl; [|exact W]; intros a; apply word3_small3').
  destruct (fft3_sound r 1 over cs Hb ltac:(lia) Sf H3) as [_ Vcs].
  destruct (ifft_E 1 over_l ltac:(lia) eq_refl) as [c [Ec Vc]].
  pose proof over_coef as O. rewrite Ec in O. destruct (SoundFri.ifft_wf _ c Ec) as [Wc _].
  rewrite E, <- Vcs in Vc. destruct c as [|a [|b c]]; try (destruct O; fail).
  specialize (Z0 1%nat ltac:(cbn; lia)).
  pose proof (f_equal (fun l => nth 1 l (kof (0, 0, 0))) Vc) as V1. cbv beta in V1.
  rewrite (map_nth kof) in V1. change zt with sig3 in V1. rewrite Z0, kof_zero in V1. cbn [map nth] in V1.
  pose proof (Forall_inv (Forall_inv_tail Wc)) as Wb. apply (proj2 (e_is_zero_spec b Wb)) in V1. congruence.
Qed.
