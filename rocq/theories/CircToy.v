(* Concrete instances for the circuits. *)
From Verif Require Import Base NumTheory GlModel FrField F3gModel Cubic F3gProof CircModel CircProof CircMore BnModel PrimeCert.
From Verif Require Import PolyModel FftTop HashModel FriModel CircFriModel CircFri CircHash.
From Verif Require Import PolyProof.
From Verif Require Roots.
From Coq Require Import Znumtheory.
Open Scope Z_scope.

Lemma bls_big : big bls_q.
Proof. split; [exact bls_q_prime|reflexivity]. Qed.

Lemma toy_fold : exists vals, Forall word3 vals /\ fold_step bls_q 3 3 2 0 [1; 0] [(1, 0, 0); (2, 7, 0)] (5, 0, 1) vals.
Proof.
  set (w := fun z => e_from (fof z)).
  set (pg := [mkF3 (fof 1) (fof 0) (fof 0) true; mkF3 (fof 2) (fof 7) (fof 0) true]).
  set (x := mkF3 (fof 5) (fof 0) (fof 1) true). set (shift := fold_shift 3 3).
  assert (E : exists v, fold_check pg 3 1 shift x = Ok v).
  { destruct (ifft_E 1 pg ltac:(lia) eq_refl) as [c [Ec _]]. unfold fold_check. rewrite Ec. cbn [bind].
    rewrite Roots.MG_root by lia. cbn [bind]. eexists. reflexivity. }
  destruct E as [v E].
  set (t := (fint (k0 (val v)), fint (k1 (val v)), fint (k2 (val v))) : sig3).
  assert (W : word3 t).
  { unfold t, word3. pose proof (fint_range (k0 (val v))). pose proof (fint_range (k1 (val v))). pose proof (fint_range (k2 (val v))).
    unfold P in *. change (2 ^ 64) with 18446744073709551616. lia. }
  assert (Vt : kof t = val v) by (unfold t, kof; rewrite !fof_int; destruct (val v); reflexivity).
  clearbody t.
  assert (Wv : Forall word3 (repeat t 4)) by (cbn [repeat]; repeat (apply Forall_cons; [exact W|]); apply Forall_nil).
  exists (repeat t 4). split; [exact Wv|].
  assert (B : Forall bit01 [1; 0]).
  { apply Forall_cons; [right; reflexivity|]. apply Forall_cons; [left; reflexivity|apply Forall_nil]. }
  assert (WX : Forall word3 [(1, 0, 0); (2, 7, 0)]).
  { repeat (apply Forall_cons; [unfold word3; change (2 ^ 64) with 18446744073709551616; lia|]). apply Forall_nil. }
  assert (WS : word3 (5, 0, 1)) by (unfold word3; change (2 ^ 64) with 18446744073709551616; lia).
  apply (fold_step_complete bls_q 3 3 2 0 [1; 0] [(1, 0, 0); (2, 7, 0)] (5, 0, 1) (repeat t 4) bls_big
    ltac:(lia) ltac:(lia) ltac:(lia) ltac:(lia) eq_refl B eq_refl eq_refl WX WS Wv pg shift x v); [reflexivity| |reflexivity|exact E|].
  - unfold shift. rewrite shift_val. unfold sh. apply Roots.kconst_pow.
  - symmetry. exact Vt.
Qed.

Lemma arith_sound : forall r, big r ->
  (forall i out, small i -> GLNorm r i out -> 0 <= out < 2 ^ 64 /\ fof out = fof i) /\
  (forall a b out, small a -> small b -> GLMul r a b out -> 0 <= out < 2 ^ 64 /\ fof out = fmul (fof a) (fof b)) /\
  (forall a b c out, small a -> small b -> small c -> GLMulAdd r a b c out ->
    0 <= out < 2 ^ 64 /\ fof out = fadd (fmul (fof a) (fof b)) (fof c)) /\
  (forall a b out, small3 a -> small3 b -> GLCMul r a b out -> word3 out /\ kof out = kmul (kof a) (kof b)) /\
  (forall a b c out, small3 a -> small3 b -> small3' c -> GLCMulAdd r a b c out ->
    word3 out /\ kof out = kadd (kmul (kof a) (kof b)) (kof c)) /\
  (forall i out, small i -> GLInv r i out -> 0 <= out < 2 ^ 64 /\ fmul (fof i) (fof out) = f1) /\
  (forall i out, small3 i -> GLCInv r i out -> word3 out /\ kmul (kof i) (kof out) = kone).
Proof.
  intros r Hb. split; [intros i out; exact (norm_sound r i out Hb)|]. split; [intros a b out; exact (glmul_sound r a b out Hb)|].
  split; [intros a b c out; exact (glmuladd_sound r a b c out Hb)|]. split; [intros a b out; exact (glcmul_sound r a b out Hb)|].
  split; [intros a b c out; exact (glcmuladd_sound r a b c out Hb)|]. split; [intros i out; exact (glinv_sound r i out Hb)|].
  intros i out; exact (glcinv_sound r i out Hb).
Qed.

Lemma arith_complete : forall r, big r ->
  (forall i, - 16 * gl_p <= i < 1000 * gl_p -> GLNorm r i (i mod gl_p)) /\
  (forall a b, fed a -> fed b -> GLMul r a b ((a * b) mod gl_p)) /\
  (forall a b c, fed a -> fed b -> 0 <= c < 2 ^ 138 -> GLMulAdd r a b c ((a * b + c) mod gl_p)) /\
  (forall a b, fed3 a -> fed3 b -> GLCMul r a b (mod3 (prod3 a b))) /\
  (forall a b c, fed3 a -> fed3 b -> fed3 c -> GLCMulAdd r a b c (mod3 (add3 (prod3 a b) c))) /\
  (forall i v, fed i -> 0 <= v < 2 ^ 64 -> fmul (fof i) (fof v) = f1 -> GLInv r i v) /\
  (forall i v, fed3 i -> word3 v -> kmul (kof i) (kof v) = kone -> GLCInv r i v).
Proof.
  intros r Hb. split; [intros i; exact (norm_complete r i Hb)|]. split; [intros a b; exact (glmul_complete r a b Hb)|].
  split; [intros a b c; exact (glmuladd_complete r a b c Hb)|]. split; [intros a b; exact (glcmul_complete r a b Hb)|].
  split; [intros a b c; exact (glcmuladd_complete r a b c Hb)|]. split; [intros i v; exact (glinv_complete r i v Hb)|].
  intros i v; exact (glcinv_complete r i v Hb).
Qed.

Lemma norm_not_unique : ~ (forall r i o o', big r -> small i -> GLNorm r i o -> GLNorm r i o' -> o = o').
Proof.
  intros H. destruct (norm_two bls_q 5 bls_big ltac:(unfold gl_p; lia) ltac:(reflexivity)) as [A B].
  assert (S5 : small 5) by (unfold small; rewrite p120; lia).
  pose proof (H bls_q 5 _ _ bls_big S5 A B) as E. discriminate E.
Qed.

Lemma mul_not_total : ~ (forall r a b, big r -> small a -> small b -> exists out, GLMul r a b out).
Proof.
  intros H. assert (Sa : small (-17 * gl_p)) by (unfold small, gl_p; rewrite p120; lia).
  assert (S5 : small 5) by (unfold small; rewrite p120; lia).
  destruct (H bls_q (-17 * gl_p) 5 bls_big Sa S5) as [out Ho]. revert Ho.
  apply mul_below; [exact bls_big| |]; rewrite p120; unfold gl_p; lia.
Qed.

Lemma toy_cmul : GLCMul bls_q (1, 2, 0) (0, 0, 1) (2, 2, 1).
Proof.
  change (2, 2, 1) with (mod3 (prod3 (1, 2, 0) (0, 0, 1))).
  assert (F : forall a, 0 <= a <= 2 -> fed a) by (intros a Ha; unfold fed, gl_p; change (2 ^ 68) with 295147905179352825856; lia).
  apply glcmul_complete; [exact bls_big|unfold fed3; repeat split; apply F; lia|unfold fed3; repeat split; apply F; lia].
Qed.

Lemma toy_inv : GLInv bls_q 2 9223372034707292161.
Proof.
  apply glinv_complete; [exact bls_big|unfold fed, gl_p; change (2 ^ 68) with 295147905179352825856; lia|
    change (2 ^ 64) with 18446744073709551616; lia|].
  rewrite <- fof_mul. rewrite <- fof_mod. change ((2 * 9223372034707292161) mod P) with 1. apply fof_1.
Qed.

Lemma bn1_total : forall r i, 1 < r -> 0 <= i < r -> i < 2 ^ 255 ->
  BN1toGL3 r i (i mod 2 ^ 64, i / 2 ^ 64 mod 2 ^ 64, i / 2 ^ 128 mod 2 ^ 64).
Proof. intros r i Hr Hi H. apply (bn1_complete r i i Hr Hi); [split; [apply Hi|exact H]|reflexivity]. Qed.

Lemma bn1_bls : forall i, 0 <= i < 2 ^ 255 - bls_q ->
  BN1toGL3 bls_q i (words3 i) /\ BN1toGL3 bls_q i (words3 (i + bls_q)) /\ words3 i <> words3 (i + bls_q).
Proof.
  intros i Hi. apply bn1_two; [reflexivity|reflexivity|discriminate|exact Hi|].
  eapply Z.lt_trans; [apply Hi|reflexivity].
Qed.

Lemma select_total : forall r ks vs, ks <> [] -> length vs = (2 ^ length ks)%nat -> exists out, TreeSelector r vs ks out.
Proof.
  intros r ks vs N L. destruct (select_levels_ex r ks vs L) as [out H]. exists out. split; [exact N|exact H].
Qed.

Lemma bits_determined : forall r n x bs bs', prime r -> 2 ^ Z.of_nat n <= r -> Num2Bits r n x bs -> Num2Bits r n x bs' -> bs = bs' /\ bsum bs = x.
Proof.
  intros r n x bs bs' Hp Hn H H'. split; [exact (bits_unique r n x bs bs' Hp Hn H H')|].
  destruct H as (L & B & F & E). apply bits_01 in B; [|exact Hp]. pose proof (bsum_range bs B) as R. rewrite L in R.
  apply (eqr_felt r); [unfold felt; lia|exact F|exact E].
Qed.

Lemma toy_select : (exists out, CompConstant64 bls_q 5 (bits_of 64 6) out) /\ bsum (bits_of 64 6) = 6 /\
  TreeSelector bls_q [4; 5; 6; 7] [0; 1] 6.
Proof.
  split; [|split; [reflexivity|]].
  - apply comp_complete; [reflexivity|change (2 ^ 64) with 18446744073709551616; lia|reflexivity|apply bits_of_01].
  - split; [discriminate|]. exists [4; 6]. split; [repeat split; reflexivity|]. exists [6]. repeat split; reflexivity.
Qed.

Lemma fft3_ifft : forall r s xs cs, big r -> (s <= 31)%nat -> Forall small3' xs -> FFT3 r s (fft_ws true s) xs cs ->
  Forall word3 cs /\ ifft (F := opsK) (map kof xs) = Ok (map kof cs).
Proof.
  intros r s xs cs Hb Hs Sx H. destruct (CircFft.fft3_sound r s xs cs Hb Hs Sx H) as [W V]. split; [exact W|].
  rewrite V. apply ifft_K; [exact Hs|]. rewrite map_length. destruct H as [[L _] _]. rewrite map_length in L. exact L.
Qed.

Lemma evalpol_same : forall r pol x out, big r -> small3 x -> Forall small3' pol -> EvalPol r pol x out ->
  exists v, on3 (eqr r) out v /\ small3' v /\ kof v = eval_pol (F := opsK) (map kof pol) (kof x).
Proof.
  intros r pol x out Hb Hx Hp H. destruct (evalpol_sound r pol x out Hb Hx Hp H) as [v [E [S V]]].
  exists v. split; [exact E|]. split; [exact S|]. rewrite V, kvalue_peval, <- PolyProof.eval_pol_K. reflexivity.
Qed.

Lemma last_not_same : ~ (forall r nb maxdeg final l, big r -> (nb <= 31)%nat -> Forall word3 final -> map val l = map kof final ->
  check_last l (2 ^ maxdeg) = Ok true -> last_pol r nb maxdeg final).
Proof.
  intros H. destruct (last_stricter bls_q bls_big) as (E & W & C & N). apply N.
  exact (H bls_q 1%nat 0%nat over over_l bls_big ltac:(lia) W E C).
Qed.

Lemma toy_last : Forall word3 [(7, 0, 0); (7, 0, 0)] /\ last_pol bls_q 1 0 [(7, 0, 0); (7, 0, 0)].
Proof.
  split.
  { repeat (apply Forall_cons; [unfold word3; change (2 ^ 64) with 18446744073709551616; lia|]). apply Forall_nil. }
  assert (Hw : forall t, 0 <= nth t (fft_ws true 1) 0 < gl_p) by (intros t; apply (CircFft.ws_ok 1 ltac:(lia))).
  assert (W7 : Forall (fun x => 0 <= x < 2 ^ 64) [7; 7]).
  { repeat (apply Forall_cons; [change (2 ^ 64) with 18446744073709551616; lia|]). apply Forall_nil. }
  assert (W0 : Forall (fun x => 0 <= x < 2 ^ 64) [0; 0]).
  { repeat (apply Forall_cons; [change (2 ^ 64) with 18446744073709551616; lia|]). apply Forall_nil. }
  pose proof (fft_complete bls_q 1 (fft_ws true 1) [7; 7] bls_big ltac:(lia) Hw eq_refl W7) as H7.
  pose proof (fft_complete bls_q 1 (fft_ws true 1) [0; 0] bls_big ltac:(lia) Hw eq_refl W0) as H0.
  assert (E7 : map (fun i => fft_sum (fft_ws true 1) (2 ^ 1) i [7; 7] mod gl_p) (seq 0 (2 ^ 1)) = [7; 0]) by (vm_compute; reflexivity).
  assert (E0 : map (fun i => fft_sum (fft_ws true 1) (2 ^ 1) i [0; 0] mod gl_p) (seq 0 (2 ^ 1)) = [0; 0]) by (vm_compute; reflexivity).
  rewrite E7 in H7. rewrite E0 in H0. exists [(7, 0, 0); (0, 0, 0)]. split; [split; [exact H7|split; exact H0]|].
  intros k Hk. assert (k = 1%nat) by (cbn in Hk; lia). subst k. reflexivity.
Qed.
