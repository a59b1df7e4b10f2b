(* Inverse transform, low degree extension, and transfer of the K results to F3G. *)
From Verif Require Import Base ListAux NumTheory GlModel GlProof GlSqrt FrField F3gModel Cubic F3gProof PolyModel Roots PolyProof FftProof.
From Coq Require Import Field.
Open Scope nat_scope.

Lemma rev_map_seq {A} (f : nat -> A) m : rev (map f (seq 1 m)) = map (fun j => f (S m - j)) (seq 1 m).
Proof.
  induction m; [reflexivity|]. rewrite seq_S at 1. rewrite map_app, rev_app_distr, IHm. cbn [map rev app].
  cbn [seq map]. f_equal. rewrite <- (seq_shift m 1), map_map. apply map_ext. intros. f_equal.
Qed.

Definition ninv (s : nat) : K := kinv (kconst (fof (2 ^ Z.of_nat s))).
Definition idft (s : nat) (e : list K) : list K :=
  map (fun j => kmul (peval e (kpow (kroot s) (pow2 s - j))) (ninv s)) (seq 0 (pow2 s)).

Lemma ifft_K s (e : list K) : s <= 31 -> length e = pow2 s -> ifft (F := opsK) e = Ok (idft s e).
Proof.
  intros Hs He. unfold ifft. rewrite (fft_K s) by assumption. cbn [bind].
  unfold dft, idft. pose proof (pow2_pos s) as Pp. destruct (pow2 s) as [|m] eqn:E; [lia|]. cbn [seq map].
  assert (N : kinv (kconst (fof (Z.of_nat (length e)))) = ninv s).
  { unfold ninv. rewrite He, <- E. rewrite Nat2Z.inj_pow. reflexivity. }
  kn. rewrite N. apply (f_equal (@Ok _)). apply f_equal2.
  - apply (f_equal (fun x => kmul (peval e x) (ninv s))). rewrite Nat.sub_0_r, <- E. rewrite kroot_full by lia. reflexivity.
  - rewrite rev_map_seq, map_map. reflexivity.
Qed.

Lemma idft_len s e : length (idft s e) = pow2 s.
Proof. unfold idft. rewrite map_length, seq_length. reflexivity. Qed.
Lemma dft_len s e : length (dft s e) = pow2 s.
Proof. unfold dft. rewrite map_length, seq_length. reflexivity. Qed.

Lemma nth_map_seq (f : nat -> K) n k : k < n -> nth k (map f (seq 0 n)) kzero = f k.
Proof.
  intros H. rewrite (nth_indep _ kzero (f 0)) by (rewrite map_length, seq_length; exact H).
  rewrite map_nth, seq_nth by exact H. reflexivity.
Qed.

Lemma list_eq_map_seq (l : list K) n f : length l = n -> (forall k, k < n -> nth k l kzero = f k) -> map f (seq 0 n) = l.
Proof.
  intros HL H. apply nth_ext with kzero kzero; [rewrite map_length, seq_length; auto|].
  intros k Hk. rewrite map_length, seq_length in Hk. rewrite nth_map_seq by exact Hk. symmetry. auto.
Qed.

Lemma div_range n a : n <> 0 -> 0 < a < n + n -> Nat.divide n a -> a = n.
Proof. intros Hn [H1 H2] [q ->]. destruct q as [|[|q]]; nia. Qed.

Lemma ninv_ok s : s <= 31 -> kmul (kconst (fof (2 ^ Z.of_nat s))) (ninv s) = kone.
Proof.
  intros H. unfold ninv. pose proof (two_pow_nz s ltac:(lia)) as N. field. exact N.
Qed.

Lemma kroot_period s a b : s <= 32 -> kpow (kroot s) (a + pow2 s * b) = kpow (kroot s) a.
Proof. intros H. rewrite kpow_add, kpow_mul, kroot_full, kpow_1 by exact H. ring. Qed.

Lemma idft_dft s p : s <= 31 -> length p = pow2 s -> idft s (dft s p) = p.
Proof.
  intros Hs Hp. unfold idft. set (w := kroot s). set (n := pow2 s) in *. pose proof (pow2_pos s) as Pn. fold n in Pn.
  apply list_eq_map_seq; [exact Hp|]. intros j Hj.
  rewrite peval_sum, dft_len. fold n.
  transitivity (kmul (ksum n (fun k => kmul (nth k p kzero) (ksum n (fun i => kpow (kpow w (k + n - j)) i)))) (ninv s)).
  - rewrite (ksum_single n j).
    + replace (j + n - j) with n by lia.
      destruct (orthogonal s n ltac:(lia)) as [O _]. fold n w in O. rewrite O by (exists 1; lia).
      transitivity (kmul (nth j p kzero) (kmul (kconst (fof (2 ^ Z.of_nat s))) (ninv s))); [rewrite (ninv_ok s Hs); ring|ring].
    + exact Hj.
    + intros k Hk Nk. destruct (orthogonal s (k + n - j) ltac:(lia)) as [_ O]. fold n w in O. rewrite O; [ring|].
      intros D. apply div_range in D; lia.
  - f_equal. rewrite (ksum_ext n (fun k => kmul (nth k p kzero) (ksum n (fun i => kpow (kpow w (k + n - j)) i)))
        (fun k => ksum n (fun i => kmul (nth k p kzero) (kpow (kpow w (k + n - j)) i)))).
    2:{ intros k Hk. rewrite ksum_scale. reflexivity. }
    rewrite ksum_swap. apply ksum_ext. intros i Hi.
    unfold dft. fold n w. rewrite nth_map_seq by exact Hi.
    rewrite peval_sum, Hp.
    transitivity (kmul (kpow (kpow w (n - j)) i) (ksum n (fun k => kmul (nth k p kzero) (kpow (kpow w i) k)))); [|ring].
    rewrite <- ksum_scale. apply ksum_ext. intros k Hk.
    transitivity (kmul (nth k p kzero) (kmul (kpow (kpow w i) k) (kpow (kpow w (n - j)) i))); [|ring]. f_equal.
    rewrite <- !kpow_mul, <- kpow_add. f_equal. nia.
Qed.

Lemma dft_idft s e : s <= 31 -> length e = pow2 s -> dft s (idft s e) = e.
Proof.
  intros Hs He. unfold dft. set (w := kroot s). set (n := pow2 s) in *. pose proof (pow2_pos s) as Pn. fold n in Pn.
  apply list_eq_map_seq; [exact He|]. intros i Hi.
  rewrite peval_sum, idft_len. fold n.
  transitivity (kmul (ksum n (fun k => kmul (nth k e kzero) (ksum n (fun j => kpow (kpow w (i + n - k)) j)))) (ninv s)).
  - rewrite (ksum_single n i).
    + replace (i + n - i) with n by lia.
      destruct (orthogonal s n ltac:(lia)) as [O _]. fold n w in O. rewrite O by (exists 1; lia).
      transitivity (kmul (nth i e kzero) (kmul (kconst (fof (2 ^ Z.of_nat s))) (ninv s))); [rewrite (ninv_ok s Hs); ring|ring].
    + exact Hi.
    + intros k Hk Nk. destruct (orthogonal s (i + n - k) ltac:(lia)) as [_ O]. fold n w in O. rewrite O; [ring|].
      intros D. apply div_range in D; lia.
  - rewrite (ksum_ext n (fun k => kmul (nth k e kzero) (ksum n (fun j => kpow (kpow w (i + n - k)) j)))
        (fun k => ksum n (fun j => kmul (nth k e kzero) (kpow (kpow w (i + n - k)) j)))).
    2:{ intros k Hk. rewrite ksum_scale. reflexivity. }
    rewrite ksum_swap.
    transitivity (kmul (ninv s) (ksum n (fun j => ksum n (fun k => kmul (nth k e kzero) (kpow (kpow w (i + n - k)) j))))); [ring|].
    rewrite <- ksum_scale. apply ksum_ext. intros j Hj.
    unfold idft. fold n w. rewrite nth_map_seq by exact Hj.
    rewrite peval_sum, He.
    transitivity (kmul (ninv s) (kmul (kpow (kpow w i) j) (ksum n (fun k => kmul (nth k e kzero) (kpow (kpow w (n - j)) k))))); [|ring].
    f_equal. rewrite <- ksum_scale. apply ksum_ext. intros k Hk.
    transitivity (kmul (nth k e kzero) (kmul (kpow (kpow w (n - j)) k) (kpow (kpow w i) j))); [|ring]. f_equal.
    rewrite <- !kpow_mul, <- kpow_add.
    unfold w. rewrite <- (kroot_period s ((i + n - k) * j) k) by lia.
    rewrite <- (kroot_period s ((n - j) * k + i * j) j) by lia. fold n. f_equal. nia.
Qed.

(* low degree extension *)
Definition lde (s eb : nat) (p : list K) : list K :=
  map (fun i => peval p (kmul (kconst SHIFT) (kpow (kroot (s + eb)) i))) (seq 0 (pow2 (s + eb))).

Lemma extend_pol_K s eb p : s + eb <= 31 -> length p = pow2 s ->
  extend_pol (F := opsK) (dft s p) eb = Ok (lde s eb p).
Proof.
  intros Hs Hp. unfold extend_pol. rewrite (ifft_K s) by (try apply dft_len; lia). cbn [bind].
  rewrite idft_dft by (try exact Hp; lia). rewrite dft_len. kn.
  set (c := pol_mul_axi (F := opsK) p kone (kconst SHIFT)).
  assert (Lc : length c = pow2 s) by (unfold c; rewrite (pol_mul_axi_len (F := opsK)); exact Hp).
  assert (LP : pow2 s * pow2 eb = pow2 (s + eb)) by (rewrite Nat.pow_add_r; reflexivity).
  pose proof (pow2_pos eb).
  rewrite (fft_K (s + eb)).
  - f_equal. unfold dft, lde. apply map_ext. intros i. rewrite peval_app, peval_zeros.
    unfold c. rewrite (pol_mul_axi_K p kone (kconst SHIFT)). ring.
  - exact Hs.
  - rewrite app_length, repeat_length. kn. rewrite Lc. nia.
Qed.

(* ---- transfer along a homomorphism ---- *)
Record hom (F G : FOps) (v : F -> G) : Prop := mkHom {
  h_zero : v o_zero = o_zero; h_one : v o_one = o_one;
  h_add : forall a b, v (o_add a b) = o_add (v a) (v b);
  h_sub : forall a b, v (o_sub a b) = o_sub (v a) (v b);
  h_mul : forall a b, v (o_mul a b) = o_mul (v a) (v b);
  h_inv : forall a, v (o_inv a) = o_inv (v a);
  h_of : forall x, v (o_of x) = o_of x }.

Lemma rmap_bind {A B C} (f : B -> C) (r : res A) (g : A -> res B) : rmap f (bind r g) = bind r (fun a => rmap f (g a)).
Proof. destruct r; reflexivity. Qed.
Lemma bind_rmap {A B C} (f : A -> B) (r : res A) (g : B -> res C) : bind (rmap f r) g = bind r (fun a => g (f a)).
Proof. destruct r; reflexivity. Qed.
Lemma bind_ext {A B} (r : res A) (f g : A -> res B) : (forall a, r = Ok a -> f a = g a) -> bind r f = bind r g.
Proof. intros H. destruct r; cbn; auto. Qed.

Lemma map_repeat {A B} (f : A -> B) x n : map f (repeat x n) = repeat (f x) n.
Proof. induction n; cbn; congruence. Qed.

Section Transfer.
  Variables F G : FOps.
  Variable v : F -> G.
  Hypothesis H : hom F G v.

  Lemma t_pol_mul_axi p r acc : map v (pol_mul_axi p r acc) = pol_mul_axi (map v p) (v r) (v acc).
  Proof. revert r. induction p; intros r; cbn; [reflexivity|]. rewrite IHp, !(h_mul _ _ _ H). reflexivity. Qed.

  Lemma t_eval_pol p x : v (eval_pol p x) = eval_pol (map v p) (v x).
  Proof.
    unfold eval_pol. rewrite <- map_rev. destruct (rev p) as [|z l]; cbn [map]; [apply (h_zero _ _ _ H)|].
    revert z. induction l as [|a l IH]; intros z; cbn [map fold_left]; [reflexivity|].
    rewrite IH. f_equal. unfold horner. rewrite (h_add _ _ _ H), (h_mul _ _ _ H). reflexivity.
  Qed.

  Lemma t_prefix e l : map v (prefix e l) = prefix (v e) (map v l).
  Proof. revert e. induction l; intros e; cbn; [reflexivity|]. rewrite IHl, (h_mul _ _ _ H). reflexivity. Qed.

  Lemma t_binv es ts z acc : map v (binv_back es ts z acc) = binv_back (map v es) (map v ts) (v z) (map v acc).
  Proof.
    revert ts z acc. induction es; intros ts z acc; cbn; [reflexivity|].
    destruct ts; cbn; [reflexivity|]. rewrite IHes. cbn. rewrite !(h_mul _ _ _ H). reflexivity.
  Qed.

  Lemma map_last l d : v (last l d) = last (map v l) (v d).
  Proof. induction l as [|a [|b l] IH]; [reflexivity|reflexivity|]. cbn [last map] in *. exact IH. Qed.

  Lemma t_batch l : map v (batch_inverse l) = batch_inverse (map v l).
  Proof.
    destruct l as [|e0 rest]; [reflexivity|]. unfold batch_inverse. cbn [map].
    rewrite t_binv, (h_inv _ _ _ H), map_last, (h_zero _ _ _ H). cbn [map]. rewrite t_prefix.
    f_equal.
    - apply map_rev.
    - rewrite <- t_prefix. change (v e0 :: map v (prefix e0 rest)) with (map v (e0 :: prefix e0 rest)).
      rewrite <- map_rev. destruct (rev (e0 :: prefix e0 rest)); reflexivity.
  Qed.

  Lemma t_scatter bits p : forall i buff,
    rmap (map v) (scatter bits i p buff) = scatter bits i (map v p) (map v buff).
  Proof.
    induction p as [|x p IH]; intros i buff; cbn [scatter map]; [reflexivity|].
    rewrite rmap_bind, vset_map, bind_rmap. apply bind_ext. intros. apply IH.
  Qed.

  Lemma t_butterflies cnt : forall k j m w g buff,
    rmap (map v) (butterflies cnt k j m w g buff) = butterflies cnt k j m (v w) (v g) (map v buff).
  Proof.
    induction cnt; intros k j m w g buff; cbn [butterflies]; [reflexivity|].
    rewrite rmap_bind, vget_map, bind_rmap. apply bind_ext. intros b _.
    rewrite rmap_bind, vget_map, bind_rmap. apply bind_ext. intros u _.
    rewrite <- (h_mul _ _ _ H w b), <- (h_add _ _ _ H), <- (h_sub _ _ _ H).
    rewrite rmap_bind, vset_map, bind_rmap. apply bind_ext. intros l1 _.
    rewrite rmap_bind, vset_map, bind_rmap. apply bind_ext. intros l2 _.
    rewrite IHcnt, (h_mul _ _ _ H). reflexivity.
  Qed.

  Lemma t_blocks cnt : forall k m g buff,
    rmap (map v) (blocks cnt k m g buff) = blocks cnt k m (v g) (map v buff).
  Proof.
    induction cnt; intros k m g buff; cbn [blocks]; [reflexivity|].
    rewrite <- (h_one _ _ _ H), <- t_butterflies.
    rewrite rmap_bind, bind_rmap. apply bind_ext. intros. apply IHcnt.
  Qed.

  Lemma t_stages cnt : forall s n buff,
    rmap (map v) (stages cnt s n buff) = stages cnt s n (map v buff).
  Proof.
    induction cnt; intros s n buff; cbn [stages]; [reflexivity|].
    rewrite rmap_bind. apply bind_ext. intros g _.
    rewrite <- (h_one _ _ _ H), <- (h_of _ _ _ H), <- (h_mul _ _ _ H), <- t_blocks.
    rewrite rmap_bind, bind_rmap. apply bind_ext. intros. apply IHcnt.
  Qed.

  Lemma t_fft p : rmap (map v) (fft p) = fft (map v p).
  Proof.
    unfold fft. destruct p as [|a [|b p]]; [reflexivity|reflexivity|].
    set (q := a :: b :: p). change (map v q) with (v a :: v b :: map v p).
    change (v a :: v b :: map v p) with (map v q). cbv zeta. rewrite map_length.
    destruct (32 <=? _); [reflexivity|]. destruct (negb _); [reflexivity|].
    rewrite rmap_bind, <- (h_zero _ _ _ H), <- map_repeat.
    rewrite <- t_scatter, bind_rmap. apply bind_ext. intros. apply t_stages.
  Qed.

  Lemma t_ifft p : rmap (map v) (ifft p) = ifft (map v p).
  Proof.
    unfold ifft. rewrite <- t_fft, rmap_bind, bind_rmap, map_length. apply bind_ext. intros [|q0 rest] _; [reflexivity|].
    cbn [map]. rewrite <- (h_of _ _ _ H), <- (h_inv _ _ _ H), <- (h_mul _ _ _ H).
    unfold rmap, bind. cbn [map]. f_equal. f_equal. rewrite <- map_rev, !map_map. apply map_ext.
    intros. apply (h_mul _ _ _ H).
  Qed.

  Lemma t_extend p eb : rmap (map v) (extend_pol p eb) = extend_pol (map v p) eb.
  Proof.
    unfold extend_pol. rewrite <- t_ifft, rmap_bind, bind_rmap, map_length. apply bind_ext. intros c _.
    rewrite t_fft, map_app, t_pol_mul_axi, map_repeat, (h_one _ _ _ H), (h_of _ _ _ H), (h_zero _ _ _ H). reflexivity.
  Qed.
End Transfer.

Lemma val_hom : hom opsE opsK val.
Proof.
  constructor; cbn.
  - apply val_ZERO.
  - apply val_ONE.
  - apply val_add.
  - apply val_sub.
  - apply val_mul.
  - apply val_inv.
  - apply val_from.
Qed.

(* ---- uniform dimension ---- *)
Section Uniform.
  Variable d : bool.
  Definition uni (x : F3G) : Prop := wf x /\ d3 x = d.

  Lemma uni_step w u b : d3 w = false -> uni u -> uni b ->
    uni (e_add u (e_mul w b)) /\ uni (e_sub u (e_mul w b)).
  Proof.
    intros Hw [_ Hu] [_ Hb]. split; split; try apply wf_add; try apply wf_sub.
    - rewrite dim_add, dim_mul, Hw, Hu, Hb. destruct d; reflexivity.
    - rewrite dim_sub, dim_mul, Hw, Hu, Hb. destruct d; reflexivity.
  Qed.

  Lemma vget_uni l i x : Forall uni l -> vget l i = Ok x -> uni x.
  Proof. intros H E. apply vget_inv in E. apply nth_error_In in E. rewrite Forall_forall in H. auto. Qed.
  Lemma vset_uni l i x l' : Forall uni l -> uni x -> vset l i x = Ok l' -> Forall uni l'.
  Proof.
    unfold vset. intros H Hx. destruct (vset_aux l i x) as [r|] eqn:E; [|discriminate]. intros [= <-].
    revert i r E. induction H as [|a l Ha Hl IH]; intros [|i] r E; cbn in E; try discriminate.
    - injection E as <-. constructor; assumption.
    - destruct (vset_aux l i x) eqn:E2; [|discriminate]. injection E as <-. constructor; eauto.
  Qed.

  Lemma uni_butterflies cnt : forall k j m w g buff r, d3 w = false -> d3 g = false -> Forall uni buff ->
    butterflies (F := opsE) cnt k j m w g buff = Ok r -> Forall uni r.
  Proof.
    induction cnt; intros k j m w g buff r Hw Hg HB E; cbn [butterflies] in E.
    - injection E as <-. exact HB.
    - apply bind_ok in E. destruct E as [b [E1 E]]. apply bind_ok in E. destruct E as [u [E2 E]].
      apply bind_ok in E. destruct E as [l1 [E3 E]]. apply bind_ok in E. destruct E as [l2 [E4 E]].
      pose proof (vget_uni _ _ _ HB E1) as Ub. pose proof (vget_uni _ _ _ HB E2) as Uu.
      destruct (uni_step w u b Hw Uu Ub) as [S1 S2].
      pose proof (vset_uni _ _ _ _ HB S1 E3) as H1. pose proof (vset_uni _ _ _ _ H1 S2 E4) as H2.
      eapply IHcnt; [| |exact H2|exact E]; [|exact Hg]. cbn. rewrite dim_mul, Hw, Hg. reflexivity.
  Qed.

  Lemma uni_blocks cnt : forall k m g buff r, d3 g = false -> Forall uni buff ->
    blocks (F := opsE) cnt k m g buff = Ok r -> Forall uni r.
  Proof.
    induction cnt; intros k m g buff r Hg HB E; cbn [blocks] in E.
    - injection E as <-. exact HB.
    - apply bind_ok in E. destruct E as [l1 [E1 E]].
      eapply IHcnt; [exact Hg| |exact E]. eapply uni_butterflies; [| | |exact E1]; auto.
  Qed.

  Lemma uni_stages cnt : forall s n buff r, Forall uni buff ->
    stages (F := opsE) cnt s n buff = Ok r -> Forall uni r.
  Proof.
    induction cnt; intros s n buff r HB E; cbn [stages] in E.
    - injection E as <-. exact HB.
    - apply bind_ok in E. destruct E as [g [E0 E]]. apply bind_ok in E. destruct E as [l1 [E1 E]].
      eapply IHcnt; [|exact E]. eapply uni_blocks; [|exact HB|exact E1]. reflexivity.
  Qed.

  Lemma uni_brp s : forall p, Forall uni p -> Forall uni (brp s p).
  Proof.
    induction s; intros p H; cbn [brp]; [exact H|]. apply Forall_app.
    split; apply IHs; rewrite Forall_forall in *; intros x Hx; apply In_nth_error in Hx; destruct Hx as [i Hi];
      [rewrite evens_nth in Hi|rewrite odds_nth in Hi]; apply nth_error_In in Hi; auto.
  Qed.

  Lemma uni_fft s p r : s <= 31 -> length p = pow2 s -> Forall uni p -> fft (F := opsE) p = Ok r -> Forall uni r.
  Proof.
    intros Hs Hp HU E. unfold fft in E. destruct p as [|a [|b p]]; [injection E as <-; exact HU|injection E as <-; exact HU|].
    set (q := a :: b :: p) in *. cbv zeta in E. set (bits := Z.to_nat _) in E.
    destruct (32 <=? bits) eqn:B; [discriminate|]. apply Nat.leb_gt in B.
    destruct (negb _) eqn:B2 in E; [discriminate|]. apply negb_false_iff, Z.eqb_eq in B2. rename B2 into E2.
    change (car opsE) with F3G in *.
    assert (Lq : length q = pow2 bits) by (apply Nat2Z.inj; rewrite E2, Nat2Z.inj_pow; reflexivity).
    pose proof (scatter_brp (F := opsE) bits q ltac:(lia) Lq) as SC.
    change (car opsE) with F3G in *. rewrite SC in E. cbn [bind] in E.
    eapply uni_stages; [|exact E]. apply uni_brp. exact HU.
  Qed.

  Lemma uni_ifft s p r : s <= 31 -> length p = pow2 s -> Forall uni p -> ifft (F := opsE) p = Ok r -> Forall uni r.
  Proof.
    intros Hs Hp HU E. unfold ifft in E. apply bind_ok in E. destruct E as [q [E1 E]].
    pose proof (uni_fft s p q Hs Hp HU E1) as UQ. destruct q as [|q0 rest]; [discriminate|]. injection E as <-.
    inversion UQ as [|? ? U0 UR]; subst.
    assert (M : forall x, uni x -> uni (e_mul x (e_inv (e_from (fof (Z.of_nat (length p))))))).
    { intros x [_ Hx]. split; [apply wf_mul|]. rewrite dim_mul, dim_inv, Hx. cbn. destruct d; reflexivity. }
    constructor; [apply M; exact U0|]. apply Forall_forall. intros y Hy. apply in_map_iff in Hy.
    destruct Hy as [x [<- Hx]]. apply M. apply in_rev in Hx. rewrite Forall_forall in UR. auto.
  Qed.

  Lemma uni_inj l r : Forall uni l -> Forall uni r -> map val l = map val r -> l = r.
  Proof.
    revert r. induction l as [|a l IH]; intros [|b r] HL HR E; try discriminate; [reflexivity|].
    inversion HL as [|? ? [Wa Da] HL']; inversion HR as [|? ? [Wb Db] HR']; subst.
    cbn in E. injection E as E1 E2. f_equal; [|apply IH; assumption].
    apply val_inj; try assumption; congruence.
  Qed.
End Uniform.

(* ---- statements for F3G ---- *)
Lemma rmap_ok_inv {A B} (f : A -> B) r b : rmap f r = Ok b -> exists a, r = Ok a /\ f a = b.
Proof. destruct r; cbn; try discriminate. intros [= <-]. eauto. Qed.

Lemma fft_E s (p : list F3G) : s <= 31 -> length p = pow2 s ->
  exists r, fft (F := opsE) p = Ok r /\ map val r = dft s (map val p).
Proof.
  intros Hs Hp. apply rmap_ok_inv. rewrite (t_fft opsE opsK val val_hom).
  apply (fft_K s); [exact Hs|]. rewrite map_length. exact Hp.
Qed.

Lemma ifft_E s (p : list F3G) : s <= 31 -> length p = pow2 s ->
  exists r, ifft (F := opsE) p = Ok r /\ map val r = idft s (map val p).
Proof.
  intros Hs Hp. apply rmap_ok_inv. rewrite (t_ifft opsE opsK val val_hom).
  apply (ifft_K s); [exact Hs|]. rewrite map_length. exact Hp.
Qed.

Lemma val_len (r : list F3G) s l : map val r = l -> length l = pow2 s -> length r = pow2 s.
Proof. intros <- H. rewrite map_length in H. exact H. Qed.

Lemma roundtrip_E s (p : list F3G) : s <= 31 -> length p = pow2 s ->
  exists a b, bind (fft (F := opsE) p) (ifft (F := opsE)) = Ok a /\ map val a = map val p /\
              bind (ifft (F := opsE) p) (fft (F := opsE)) = Ok b /\ map val b = map val p.
Proof.
  intros Hs Hp.
  destruct (fft_E s p Hs Hp) as [q [E1 V1]]. destruct (ifft_E s p Hs Hp) as [t [E2 V2]].
  assert (Lq : length q = pow2 s) by (apply (val_len _ _ _ V1); apply dft_len).
  assert (Lt : length t = pow2 s) by (apply (val_len _ _ _ V2); apply idft_len).
  destruct (ifft_E s q Hs Lq) as [a [Ea Va]]. destruct (fft_E s t Hs Lt) as [b [Eb Vb]].
  exists a, b. rewrite E1, E2. cbn [bind]. split; [exact Ea|]. split.
  - rewrite Va, V1. apply idft_dft; [exact Hs|]. rewrite map_length. exact Hp.
  - split; [exact Eb|]. rewrite Vb, V2. apply dft_idft; [exact Hs|]. rewrite map_length. exact Hp.
Qed.

Lemma roundtrip_exact s d (p : list F3G) : s <= 31 -> length p = pow2 s -> Forall (uni d) p ->
  bind (fft (F := opsE) p) (ifft (F := opsE)) = Ok p /\ bind (ifft (F := opsE) p) (fft (F := opsE)) = Ok p.
Proof.
  intros Hs Hp HU. destruct (roundtrip_E s p Hs Hp) as [a [b [Ea [Va [Eb Vb]]]]].
  rewrite Ea, Eb. apply bind_ok in Ea, Eb. destruct Ea as [q [E1 Ea]]. destruct Eb as [t [E2 Eb]].
  assert (Lq : length q = pow2 s).
  { destruct (fft_E s p Hs Hp) as [q' [E1' V1]]. rewrite E1 in E1'. injection E1' as <-.
    apply (val_len _ _ _ V1). apply dft_len. }
  assert (Lt : length t = pow2 s).
  { destruct (ifft_E s p Hs Hp) as [q' [E1' V1]]. rewrite E2 in E1'. injection E1' as <-.
    apply (val_len _ _ _ V1). apply idft_len. }
  pose proof (uni_fft d s p q Hs Hp HU E1) as Uq. pose proof (uni_ifft d s p t Hs Hp HU E2) as Ut.
  pose proof (uni_ifft d s q a Hs Lq Uq Ea) as Ua. pose proof (uni_fft d s t b Hs Lt Ut Eb) as Ub.
  rewrite (uni_inj d a p), (uni_inj d b p); auto.
Qed.

Lemma extend_E s eb (evals : list F3G) (p : list K) : s + eb <= 31 -> length p = pow2 s ->
  map val evals = dft s p ->
  exists r, extend_pol (F := opsE) evals eb = Ok r /\ map val r = lde s eb p.
Proof.
  intros Hs Hp He. apply rmap_ok_inv. rewrite (t_extend opsE opsK val val_hom).
  pose proof (extend_pol_K s eb p Hs Hp) as X. rewrite <- He in X. exact X.
Qed.

Lemma eval_E (p : list F3G) x : val (eval_pol (F := opsE) p x) = peval (map val p) (val x).
Proof. rewrite (t_eval_pol opsE opsK val val_hom). apply eval_pol_K. Qed.

Lemma mul_axi_E (p : list F3G) r acc x :
  peval (map val (pol_mul_axi (F := opsE) p r acc)) x = kmul (val r) (peval (map val p) (kmul (val acc) x)).
Proof. pose proof (t_pol_mul_axi opsE opsK val val_hom p r acc) as T. kn. cbn in T. rewrite T. apply pol_mul_axi_K. Qed.

Lemma batch_E (l : list F3G) : Forall (fun x => val x <> kzero) l ->
  map val (batch_inverse (F := opsE) l) = map (fun x => kinv (val x)) l.
Proof.
  intros H. pose proof (t_batch opsE opsK val val_hom l) as T. cbn in T. rewrite T.
  pose proof (batch_inverse_K (map val l)) as B. kn. rewrite B.
  - apply map_map.
  - apply Forall_forall. intros y Hy. apply in_map_iff in Hy. destruct Hy as [x [<- Hx]].
    rewrite Forall_forall in H. apply H. exact Hx.
Qed.

Lemma batch_zero_E (l : list F3G) : (exists x, In x l /\ val x = kzero) ->
  Forall (fun y => val y = kzero) (batch_inverse (F := opsE) l).
Proof.
  intros [x [Hx Hz]]. pose proof (t_batch opsE opsK val val_hom l) as T. cbn in T.
  assert (Z : In kzero (map val l)) by (rewrite <- Hz; apply in_map; exact Hx).
  pose proof (batch_inverse_zero_K (map val l) Z) as B. kn. rewrite <- T in B.
  rewrite Forall_forall in *. intros y Hy. apply B. apply in_map. exact Hy.
Qed.

Lemma binv_len {F : FOps} (es ts : list F) z acc : length es = length ts ->
  length (binv_back es ts z acc) = S (length es + length acc).
Proof.
  revert ts z acc. induction es; intros [|t ts] z acc H; cbn in *; try lia.
  rewrite IHes by lia. cbn. lia.
Qed.

Lemma batch_len (l : list F3G) : length (batch_inverse (F := opsE) l) = length l.
Proof.
  destruct l as [|e rest]; [reflexivity|]. unfold batch_inverse.
  assert (PL : forall e l, length (prefix (F := opsE) e l) = length l).
  { intros e' l. revert e'. induction l; intros e'; cbn; [reflexivity|]. rewrite IHl. reflexivity. }
  rewrite (binv_len (F := opsE)).
  - rewrite rev_length. cbn. lia.
  - assert (TL : forall (A : Type) (l : list A), length (tl l) = length l - 1) by (intros A [|? ?]; cbn; lia).
    rewrite TL, !rev_length. cbn [length]. rewrite PL. cbn. lia.
Qed.

(* ---- statements used by PolyProps ---- *)
Lemma eval_sum_E (p : list F3G) (x : F3G) :
  val (eval_pol (F := opsE) p x) = ksum (length p) (fun k => kmul (nth k (map val p) kzero) (kpow (val x) k)).
Proof. rewrite eval_E, peval_sum, map_length. reflexivity. Qed.

Lemma coset_E (p : list F3G) (r acc x : F3G) :
  length (pol_mul_axi (F := opsE) p r acc) = length p /\
  val (eval_pol (F := opsE) (pol_mul_axi (F := opsE) p r acc) x) =
  kmul (val r) (val (eval_pol (F := opsE) p (e_mul acc x))).
Proof. split; [exact (pol_mul_axi_len (F := opsE) p r acc)|]. rewrite !eval_E, mul_axi_E, val_mul. reflexivity. Qed.

Lemma roots_E n : n <= 32 ->
  exists w wi, MG n = Ok w /\ MGI n = Ok wi /\
  (forall d, fpow w d = f1 <-> Nat.divide (2 ^ n) d) /\
  fmul w wi = f1 /\
  (n < 32 -> exists w', MG (S n) = Ok w' /\ w = fmul w' w').
Proof.
  intros H. exists (root n), (mgi_down (32 - n)). split; [apply MG_root; exact H|]. split.
  - unfold MGI. apply Nat.leb_le in H. rewrite H. reflexivity.
  - split; [intros d; apply root_order; exact H|]. split; [apply mgi_spec|].
    intros H2. exists (root (S n)). split; [apply MG_root; lia|]. apply root_step. exact H2.
Qed.

Lemma shift_E n : n <= 32 ->
  fmul SHIFT SHIFT_INV = f1 /\ fpow SHIFT (2 ^ n) <> f1 /\
  (forall w i, MG n = Ok w -> fpow (fmul SHIFT (fpow w i)) (2 ^ n) <> f1).
Proof.
  intros H. split; [|split; [apply shift_outside; exact H|]].
  - apply fr_ext. vm_compute. reflexivity.
  - intros w i E. rewrite MG_root in E by exact H. injection E as <-.
    rewrite fpow_prod, <- fpow_mul, Nat.mul_comm, fpow_mul, root_full, fpow_1 by exact H.
    replace (fmul (fpow SHIFT (2 ^ n)) f1) with (fpow SHIFT (2 ^ n)) by ring. apply shift_outside. exact H.
Qed.

Lemma fft_dft_E s (p : list F3G) : s <= 31 -> length p = 2 ^ s ->
  exists w r, MG s = Ok w /\ fft (F := opsE) p = Ok r /\
    map val r = map (fun i => peval (map val p) (kpow (kconst w) i)) (seq 0 (2 ^ s)).
Proof.
  intros Hs Hp. destruct (fft_E s p Hs Hp) as [r [E V]]. exists (root s), r.
  split; [apply MG_root; lia|]. split; [exact E|exact V].
Qed.

Lemma fft_refuses_E (p : list F3G) :
  (forall s, s <= 31 -> length p <> 2 ^ s) -> 2 <= length p -> fft (F := opsE) p = Panic /\ ifft (F := opsE) p = Panic.
Proof.
  intros H H2. pose proof (fft_panics (F := opsE) p H H2) as E. split; [exact E|]. unfold ifft. rewrite E. reflexivity.
Qed.

Lemma lde_E s eb (evals : list F3G) (p : list K) :
  s + eb <= 31 -> length p = 2 ^ s ->
  map val evals = map (fun i => peval p (kpow (kconst (root s)) i)) (seq 0 (2 ^ s)) ->
  exists w r, MG (s + eb) = Ok w /\ extend_pol (F := opsE) evals eb = Ok r /\
    map val r = map (fun i => peval p (kmul (kconst SHIFT) (kpow (kconst w) i))) (seq 0 (2 ^ (s + eb))).
Proof.
  intros Hs Hp He. destruct (extend_E s eb evals p Hs Hp He) as [r [E V]]. exists (root (s + eb)), r.
  split; [apply MG_root; lia|]. split; [exact E|exact V].
Qed.

Lemma every_vector_E s (evals : list F3G) : s <= 31 -> length evals = 2 ^ s ->
  exists p, length p = 2 ^ s /\ map val evals = map (fun i => peval p (kpow (kconst (root s)) i)) (seq 0 (2 ^ s)).
Proof.
  intros Hs He. exists (idft s (map val evals)). split; [apply idft_len|].
  symmetry. apply (dft_idft s (map val evals) Hs). rewrite map_length. exact He.
Qed.

Lemma log2_any_wrong v : (2 ^ 32 <= v)%Z -> log2_any v <> Z.log2 v.
Proof.
  intros H E. pose proof (log2_any_le v) as B. pose proof (Z.log2_le_mono (2 ^ 32) v H) as M.
  rewrite Z.log2_pow2 in M by lia. lia.
Qed.
