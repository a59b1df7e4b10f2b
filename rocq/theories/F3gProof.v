From Verif Require Import Base NumTheory GlModel GlProof GlSqrt FrField F3gModel Cubic.
Open Scope Z_scope.

(* the polynomial an extension element denotes *)
Definition val (a : F3G) : K := if d3 a then mkK (c0 a) (c1 a) (c2 a) else kconst (c0 a).
(* one dimensional elements carry no higher coefficients *)
Definition wf (a : F3G) : Prop := d3 a = false -> c1 a = f0 /\ c2 a = f0.

Ltac e_case a := let d := fresh "d" in destruct a as [? ? ? d]; destruct d; cbn.
Ltac e_solve := unfold val; cbn; apply k_ext; cbn; try ring.

Lemma val_from x : val (e_from x) = kconst x. Proof. reflexivity. Qed.
Lemma val_ZERO : val e_ZERO = kzero. Proof. reflexivity. Qed.
Lemma val_ONE : val e_ONE = kone. Proof. reflexivity. Qed.
Lemma val_ZEROS : val e_ZEROS = kzero. Proof. reflexivity. Qed.
Lemma val_ONES : val e_ONES = kone. Proof. reflexivity. Qed.

Lemma val_add a b : val (e_add a b) = kadd (val a) (val b).
Proof. destruct a as [a0 a1 a2 [|]], b as [b0 b1 b2 [|]]; e_solve. Qed.
Lemma val_sub a b : val (e_sub a b) = ksub (val a) (val b).
Proof. destruct a as [a0 a1 a2 [|]], b as [b0 b1 b2 [|]]; e_solve. Qed.
Lemma val_neg a : val (e_neg a) = kneg (val a).
Proof. destruct a as [a0 a1 a2 [|]]; e_solve. Qed.
Lemma val_mul a b : val (e_mul a b) = kmul (val a) (val b).
Proof. destruct a as [a0 a1 a2 [|]], b as [b0 b1 b2 [|]]; e_solve. Qed.
Lemma val_square a : val (e_square a) = kmul (val a) (val a).
Proof. destruct a as [a0 a1 a2 [|]]; unfold val; cbn; rewrite ?fsquare_mul; e_solve. Qed.
Lemma val_double a : val (e_double a) = kadd (val a) (val a).
Proof. apply val_add. Qed.

Lemma wf_from x : wf (e_from x). Proof. split; reflexivity. Qed.
Lemma wf_new a b c : wf (e_new a b c). Proof. discriminate. Qed.
Lemma wf_add a b : wf (e_add a b).
Proof. destruct a as [a0 a1 a2 [|]], b as [b0 b1 b2 [|]]; cbn; try discriminate; split; reflexivity. Qed.
Lemma wf_sub a b : wf (e_sub a b).
Proof. destruct a as [a0 a1 a2 [|]], b as [b0 b1 b2 [|]]; cbn; try discriminate; split; reflexivity. Qed.
Lemma wf_mul a b : wf (e_mul a b).
Proof. destruct a as [a0 a1 a2 [|]], b as [b0 b1 b2 [|]]; cbn; try discriminate; split; reflexivity. Qed.
Lemma wf_neg a : wf (e_neg a).
Proof. destruct a as [a0 a1 a2 [|]]; cbn; try discriminate; split; reflexivity. Qed.
Lemma wf_square a : wf (e_square a).
Proof. destruct a as [a0 a1 a2 [|]]; cbn; try discriminate; split; reflexivity. Qed.
Lemma wf_inv a : wf (e_inv a).
Proof. destruct a as [a0 a1 a2 [|]]; cbn; try discriminate; split; reflexivity. Qed.

Lemma dim_add a b : d3 (e_add a b) = d3 a || d3 b.
Proof. destruct a as [a0 a1 a2 [|]], b as [b0 b1 b2 [|]]; reflexivity. Qed.
Lemma dim_sub a b : d3 (e_sub a b) = d3 a || d3 b.
Proof. destruct a as [a0 a1 a2 [|]], b as [b0 b1 b2 [|]]; reflexivity. Qed.
Lemma dim_mul a b : d3 (e_mul a b) = d3 a || d3 b.
Proof. destruct a as [a0 a1 a2 [|]], b as [b0 b1 b2 [|]]; reflexivity. Qed.
Lemma dim_neg a : d3 (e_neg a) = d3 a.
Proof. destruct a as [a0 a1 a2 [|]]; reflexivity. Qed.
Lemma dim_square a : d3 (e_square a) = d3 a.
Proof. destruct a as [a0 a1 a2 [|]]; reflexivity. Qed.
Lemma dim_inv a : d3 (e_inv a) = d3 a.
Proof. destruct a as [a0 a1 a2 [|]]; reflexivity. Qed.

Lemma val_inj a b : wf a -> wf b -> d3 a = d3 b -> val a = val b -> a = b.
Proof.
  destruct a as [a0 a1 a2 [|]], b as [b0 b1 b2 [|]]; unfold wf, val; cbn; intros Wa Wb D H; try discriminate.
  - injection H. congruence.
  - injection H as ->. destruct (Wa eq_refl) as [-> ->], (Wb eq_refl) as [-> ->]. reflexivity.
Qed.

Lemma finv_K x : kconst (finv x) = kinv (kconst x).
Proof.
  destruct (feq_dec x f0) as [->|N].
  - rewrite finv_0. unfold kinv, knorm, kconst. cbn [k0 k1 k2].
    apply k_ext; cbn [k0 k1 k2]; ring.
  - assert (N' : kconst x <> kzero) by (intros H; apply N; apply (f_equal k0) in H; exact H).
    assert (E : kmul (kconst (finv x)) (kconst x) = kone).
    { pose proof (finv_l x N). apply k_ext; unfold kmul, kconst, kone; cbn [k0 k1 k2]; [rewrite <- H|..]; ring. }
    pose proof (kinv_l _ N') as E2.
    transitivity (kmul (kconst (finv x)) (kmul (kinv (kconst x)) (kconst x))); [rewrite E2; ring|].
    transitivity (kmul (kinv (kconst x)) (kmul (kconst (finv x)) (kconst x))); [ring|]. rewrite E. ring.
Qed.

Lemma val_inv a : val (e_inv a) = kinv (val a).
Proof.
  destruct a as [a0 a1 a2 [|]].
  - unfold val, e_inv, e__inv, kinv, knorm. cbn [k0 k1 k2 d3 c0 c1 c2].
    assert (E : forall x y z u v w t s : Fr, x = u -> y = v -> z = w -> t = s ->
      mkK (x * t)%fr (y * t)%fr (z * t)%fr = mkK (u * s)%fr (v * s)%fr (w * s)%fr)
      by (intros; congruence).
    apply E; [ring|ring|ring|]. apply (f_equal finv). ring.
  - apply finv_K.
Qed.

Lemma val_div a b : val (e_div a b) = kdiv (val a) (val b).
Proof. unfold e_div. rewrite val_mul, val_inv. reflexivity. Qed.

Lemma mul_inv_one a : val a <> kzero -> val (e_mul a (e_inv a)) = kone.
Proof.
  intros N. rewrite val_mul, val_inv. transitivity (kmul (kinv (val a)) (val a)); [ring|].
  apply kinv_l. exact N.
Qed.

Lemma kpow_add a n m : kpow a (n + m) = kmul (kpow a n) (kpow a m).
Proof.
  induction n; cbn [Nat.add kpow]; [ring|]. rewrite IHn. ring.
Qed.

Lemma val_exp_pos a e : val (e_exp_pos a e) = kpow (val a) (Pos.to_nat e).
Proof.
  induction e; cbn [e_exp_pos].
  - rewrite val_mul, val_square, IHe. rewrite Pos2Nat.inj_xI. cbn [kpow].
    replace (2 * Pos.to_nat e)%nat with (Pos.to_nat e + Pos.to_nat e)%nat by lia.
    rewrite kpow_add. reflexivity.
  - rewrite val_square, IHe. rewrite Pos2Nat.inj_xO.
    replace (2 * Pos.to_nat e)%nat with (Pos.to_nat e + Pos.to_nat e)%nat by lia.
    rewrite kpow_add. reflexivity.
  - cbn [kpow]. change (Pos.to_nat 1) with 1%nat. cbn [kpow]. ring.
Qed.

Lemma val_exp a e : 0 <= e -> val (e_exp a e) = kpow (val a) (Z.to_nat e).
Proof.
  intros He. destruct e as [|p|p]; [reflexivity|apply val_exp_pos|lia].
Qed.

Lemma wf_exp a e : wf a -> wf (e_exp a e).
Proof.
  intros W. destruct e as [|p|p]; cbn; try apply wf_from.
  destruct p; cbn; [apply wf_mul|apply wf_square|exact W].
Qed.

Lemma e_eqb_eq a b : e_eqb a b = true <-> a = b.
Proof.
  unfold e_eqb. rewrite !Bool.andb_true_iff, !feqb_eq, Bool.eqb_true_iff.
  destruct a, b; cbn. split; [intros [[[-> ->] ->] ->]; reflexivity|intros [= -> -> -> ->]; auto].
Qed.

Lemma e_eqs a b : wf a -> wf b -> (e__eq a b = true <-> val a = val b).
Proof.
  destruct a as [a0 a1 a2 [|]], b as [b0 b1 b2 [|]]; unfold wf, val, e__eq, kconst; cbn; intros Wa Wb;
    rewrite !Bool.andb_true_iff, !feqb_eq.
  - split; [intros [[-> ->] ->]; reflexivity|intros [= -> -> ->]; auto].
  - split; [intros [[-> ->] ->]; reflexivity|intros [= -> -> ->]; auto].
  - split; [intros [[-> ->] ->]; reflexivity|intros [= -> H1 H2]; auto].
  - destruct (Wa eq_refl) as [-> ->], (Wb eq_refl) as [-> ->].
    split; [intros [[-> _] _]; reflexivity|intros [= ->]; auto].
Qed.

Lemma e_is_zero_spec a : wf a -> (e_is_zero a = true <-> val a = kzero).
Proof.
  intros W. unfold e_is_zero. destruct (d3 a) eqn:D.
  - rewrite e_eqs; [rewrite val_ZEROS; reflexivity|exact W|apply wf_new].
  - rewrite e_eqs; [rewrite val_ZERO; reflexivity|exact W|apply wf_from].
Qed.

(* a dim-1 constant multiplied in *)
Lemma val_mul_scalar a b r : e_mul_scalar a b = Ok r -> val r = kmul (val a) (kconst (fof b)).
Proof.
  unfold e_mul_scalar. destruct ((b <? 0) || (MODULUS <=? b)); [discriminate|].
  intros [= <-]. destruct a as [a0 a1 a2 [|]]; unfold val; cbn; apply k_ext; cbn [kmul kconst k0 k1 k2]; ring.
Qed.

(* order: lexicographic on canonical integers *)
Lemma fgtb_spec a b : fgtb a b = (fint b <? fint a).
Proof.
  unfold fgtb, fr_cmp. change (into_repr (fw a)) with (fint a). change (into_repr (fw b)) with (fint b).
  destruct (Z.compare_spec (fint a) (fint b)); symmetry; [apply Z.ltb_ge|apply Z.ltb_ge|apply Z.ltb_lt]; lia.
Qed.

Lemma feqb_spec a b : feqb a b = (fint a =? fint b).
Proof.
  destruct (feqb a b) eqn:E.
  - apply feqb_eq in E. subst. symmetry. apply Z.eqb_refl.
  - symmetry. apply Z.eqb_neq. intros H. apply fint_inj in H. apply feqb_eq in H. congruence.
Qed.

Definition key (a : F3G) : Z * Z * Z := (fint (k0 (val a)), fint (k1 (val a)), fint (k2 (val a))).
Definition lex_lt (s t : Z * Z * Z) : Prop :=
  let '(s0, s1, s2) := s in let '(t0, t1, t2) := t in
  s0 < t0 \/ (s0 = t0 /\ (s1 < t1 \/ (s1 = t1 /\ s2 < t2))).

Lemma e_gt_spec a b : d3 a = d3 b -> exists r, e_gt a b = Ok r /\ (r = true <-> lex_lt (key b) (key a)).
Proof.
  destruct a as [a0 a1 a2 [|]], b as [b0 b1 b2 [|]]; unfold e_gt, key, lex_lt, val, kconst; cbn [d3 c0 c1 c2 k0 k1 k2 Bool.eqb negb];
    intros D; try discriminate; eexists; split; try reflexivity;
    rewrite ?fgtb_spec, ?feqb_spec;
    rewrite ?Bool.orb_true_iff, ?Bool.andb_true_iff, ?Z.ltb_lt, ?Z.eqb_eq, ?fint_0; intuition lia.
Qed.

Lemma key_inj a b : key a = key b -> val a = val b.
Proof. unfold key. intros [= H0 H1 H2]. apply k_ext; apply fint_inj; assumption. Qed.

Lemma e_order a b : wf a -> wf b -> d3 a = d3 b ->
  exists g ge l le, e_gt a b = Ok g /\ e_geq a b = Ok ge /\ e_lt a b = Ok l /\ e_leq a b = Ok le /\
   (g = true <-> lex_lt (key b) (key a)) /\ (l = true <-> lex_lt (key a) (key b)) /\
   (ge = true <-> ~ lex_lt (key a) (key b)) /\ (le = true <-> ~ lex_lt (key b) (key a)).
Proof.
  intros Wa Wb D. destruct (e_gt_spec a b D) as [g [Hg Sg]].
  assert (T : lex_lt (key a) (key b) \/ key a = key b \/ lex_lt (key b) (key a)).
  { destruct (key a) as [[z z0] z1], (key b) as [[z2 z3] z4]. unfold lex_lt.
    destruct (Z.lt_trichotomy z z2) as [|[->|]]; [left; lia| |right; right; lia].
    destruct (Z.lt_trichotomy z0 z3) as [|[->|]]; [left; lia| |right; right; lia].
    destruct (Z.lt_trichotomy z1 z4) as [|[->|]]; [left; lia|right; left; reflexivity|right; right; lia]. }
  assert (I : ~ (lex_lt (key a) (key b) /\ lex_lt (key b) (key a))).
  { destruct (key a) as [[z z0] z1], (key b) as [[z2 z3] z4]. unfold lex_lt. intros [X Y]. lia. }
  assert (R : key a = key b -> ~ lex_lt (key a) (key b) /\ ~ lex_lt (key b) (key a)).
  { intros ->. destruct (key b) as [[z2 z3] z4]. unfold lex_lt. split; intros X; lia. }
  exists g, (e__eq a b || g), (negb (e__eq a b || g)), (negb g).
  pose proof (e_eqs a b Wa Wb) as Q.
  assert (Hge : e_geq a b = Ok (e__eq a b || g)).
  { unfold e_geq. rewrite Hg. destruct (e__eq a b); reflexivity. }
  split; [exact Hg|]. split; [exact Hge|].
  split; [unfold e_lt; rewrite Hge; reflexivity|]. split; [unfold e_leq; rewrite Hg; reflexivity|].
  assert (Q' : e__eq a b = true <-> key a = key b).
  { rewrite Q. split; [intros E; unfold key; rewrite E; reflexivity|apply key_inj]. }
  split; [exact Sg|]. rewrite Bool.negb_true_iff, Bool.orb_false_iff, Bool.orb_true_iff, Bool.negb_true_iff.
  rewrite <- !Bool.not_true_iff_false, Sg, Q'. tauto.
Qed.

Lemma k_integral a b : kmul a b = kzero -> a = kzero \/ b = kzero.
Proof.
  intros H. destruct (k_dec a kzero) as [|N]; [left; assumption|right].
  transitivity (kmul (kmul (kinv a) a) b); [rewrite kinv_l by exact N; ring|].
  transitivity (kmul (kinv a) (kmul a b)); [ring|]. rewrite H. ring.
Qed.

Lemma div_mul_cancel a b : val b <> kzero -> val (e_mul (e_div a b) b) = val a.
Proof.
  intros N. rewrite val_mul, val_div. unfold kdiv.
  transitivity (kmul (val a) (kmul (kinv (val b)) (val b))); [ring|]. rewrite kinv_l by exact N. ring.
Qed.

Lemma quotient_ring :
  ring_theory kzero kone kadd kmul ksub kneg eq /\
  kmul (kmul kX kX) kX = kadd kX kone /\
  (forall a b c, mkK a b c = kadd (kconst a) (kadd (kmul (kconst b) kX) (kmul (kconst c) (kmul kX kX)))).
Proof.
  split; [exact K_ring|]. split.
  - apply k_ext; cbn [kmul kadd kX kone k0 k1 k2]; ring.
  - intros a b c. apply k_ext; cbn [kmul kadd kX kconst k0 k1 k2]; ring.
Qed.
