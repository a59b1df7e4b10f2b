(* Values of an expression under two readings of its references, and in the next row. *)
From Coq Require Import Arith.
From Verif Require Import Base GlModel FrField F3gModel Cubic F3gProof ListAux PolyModel CodegenModel CodegenProof InterpModel VerifierModel VerifierProof StarkModel StarkSrc StarkStages NTop.
Open Scope nat_scope.
Open Scope list_scope.

Section DenRel.
  Variables (T tbl : list expr) (rho rho' : node -> F3G) (P : node -> Prop) (R : bool * nat -> Prop) (rel : F3G -> F3G -> Prop).
  Hypothesis Radd : forall a b x y, rel a x -> rel b y -> rel (e_add a b) (e_add x y).
  Hypothesis Rsub : forall a b x y, rel a x -> rel b y -> rel (e_sub a b) (e_sub x y).
  Hypothesis Rmul : forall a b x y, rel a x -> rel b y -> rel (e_mul a b) (e_mul x y).
  Hypothesis Rneg : forall a x, rel a x -> rel (e_neg a) (e_neg x).
  Hypothesis Hleaf : forall r, n_ty r <> Nexp -> P r -> rel (rho' r) (rho r).
  Hypothesis Hexp : forall p i e', R (p, i) -> nth_error T i = Some e' ->
    (nth_error tbl i = Some e' /\ labs P false p e' /\ forall k, In k (exp_refs p e') -> R k) \/
    exists e, nth_error tbl i = Some e /\ forall v', den T rho p e' v' -> exists v, den tbl rho' p e v /\ rel v v'.
  Lemma den_rel p e v' : den T rho p e v' -> labs P false p e -> (forall k, In k (exp_refs p e) -> R k) -> exists v, den tbl rho' p e v /\ rel v v'.
  Proof.
    intros D. induction D; intros L K; pose proof (labs_values _ _ _ _ L) as LV; pose proof (labs_lab _ _ _ _ L) as LL;
      assert (KV : forall x, In x (e_values e) -> forall k, In k (exp_refs p x) -> R k)
        by (intros x0 Hx0 k0 Hk0; apply K; rewrite exp_refs_eq; apply in_or_app; right; exact (in_exps_refs p x0 _ Hx0 k0 Hk0));
      unfold lab in LL; rewrite H in LL;
      try (match goal with A : e_values e = _ |- _ => rewrite A in LV, KV end;
           repeat match goal with A : Forall _ (_ :: _) |- _ => inversion A; clear A; subst end).
    - destruct IHD1 as [v1 [A1 B1]]; [assumption | apply KV; cbn; auto|]. destruct IHD2 as [v2 [A2 B2]]; [assumption | apply KV; cbn; auto|].
      exists (e_add v1 v2). split; [eapply D_add; eassumption | apply Radd; assumption].
    - destruct IHD1 as [v1 [A1 B1]]; [assumption | apply KV; cbn; auto|]. destruct IHD2 as [v2 [A2 B2]]; [assumption | apply KV; cbn; auto|].
      exists (e_sub v1 v2). split; [eapply D_sub; eassumption | apply Rsub; assumption].
    - destruct IHD1 as [v1 [A1 B1]]; [assumption | apply KV; cbn; auto|]. destruct IHD2 as [v2 [A2 B2]]; [assumption | apply KV; cbn; auto|].
      exists (e_mul v1 v2). split; [eapply D_mul; eassumption | apply Rmul; assumption].
    - discriminate LL.
    - destruct IHD as [v1 [A1 B1]]; [assumption | apply KV; cbn; auto|]. exists (e_add v1 (num rho' k)). split; [eapply D_addc; eassumption|].
      apply Radd; [exact B1|]. apply Hleaf; [discriminate | exact (LL _ H1)].
    - destruct IHD as [v1 [A1 B1]]; [assumption | apply KV; cbn; auto|]. exists (e_mul v1 (num rho' k)). split; [eapply D_mulc; eassumption|].
      apply Rmul; [exact B1|]. apply Hleaf; [discriminate | exact (LL _ H1)].
    - destruct IHD as [v1 [A1 B1]]; [assumption | apply KV; cbn; auto|]. exists (e_neg v1). split; [eapply D_neg; eassumption | apply Rneg; exact B1].
    - assert (HR : R (e_next e || p, i)) by (apply K; rewrite exp_refs_eq, H, H0; now left).
      destruct (Hexp _ _ _ HR H2) as [[E1 [E2 E3]]|[e1 [E1 E2]]].
      + destruct (IHD E2 E3) as [v1 [A1 B1]]. exists v1. split; [eapply D_exp; eassumption | exact B1].
      + destruct (E2 v D) as [v1 [A1 B1]]. exists v1. split; [eapply D_exp; eassumption | exact B1].
    - eexists. split; [apply D_cm; eassumption|]. apply Hleaf; [discriminate | exact (LL _ H0)].
    - eexists. split; [apply D_const; eassumption|]. apply Hleaf; [discriminate | exact (LL _ H0)].
    - eexists. split; [apply D_q; eassumption|]. apply Hleaf; [discriminate | exact (LL _ H0)].
    - eexists. split; [apply D_number; eassumption|]. apply Hleaf; [discriminate | exact LL].
    - eexists. split; [apply D_public; eassumption|]. apply Hleaf; [discriminate | exact (LL _ H0)].
    - eexists. split; [apply D_challenge; eassumption|]. apply Hleaf; [discriminate | exact (LL _ H0)].
    - eexists. split; [apply D_eval; eassumption|]. apply Hleaf; [discriminate | exact (LL _ H0)].
    - eexists. split; [apply D_xdiv; eassumption|]. apply Hleaf; [discriminate | exact LL].
    - eexists. split; [apply D_xdivw; eassumption|]. apply Hleaf; [discriminate | exact LL].
    - eexists. split; [apply D_x; eassumption|]. apply Hleaf; [discriminate | exact LL].
  Qed.
End DenRel.

(* two readings that agree on the references of the expressions in question *)
Lemma den_agree tbl rho rho' (P : node -> Prop) (R : bool * nat -> Prop) : (forall r, n_ty r <> Nexp -> P r -> rho' r = rho r) ->
  (forall p i e, R (p, i) -> nth_error tbl i = Some e -> labs P false p e /\ forall k, In k (exp_refs p e) -> R k) ->
  forall p i e v, R (p, i) -> nth_error tbl i = Some e -> den tbl rho p e v -> den tbl rho' p e v.
Proof.
  intros HL HR p i e v Hi He D. destruct (HR p i e Hi He) as [L K].
  destruct (den_rel tbl tbl rho rho' P R eq) with (p := p) (e := e) (v' := v) as [w [D' ->]]; try assumption; try congruence.
  - intros q j e' Hj He'. left. split; [exact He' | exact (HR q j e' Hj He')].
Qed.
Definition same_val (a b : F3G) : Prop := val a = val b.
Lemma sv_add a b x y : same_val a x -> same_val b y -> same_val (e_add a b) (e_add x y). Proof. unfold same_val. rewrite !val_add. congruence. Qed.
Lemma sv_sub a b x y : same_val a x -> same_val b y -> same_val (e_sub a b) (e_sub x y). Proof. unfold same_val. rewrite !val_sub. congruence. Qed.
Lemma sv_mul a b x y : same_val a x -> same_val b y -> same_val (e_mul a b) (e_mul x y). Proof. unfold same_val. rewrite !val_mul. congruence. Qed.
Lemma sv_neg a x : same_val a x -> same_val (e_neg a) (e_neg x). Proof. unfold same_val. rewrite !val_neg. congruence. Qed.

(* an expression without primes, in the next row *)
Definition flat_node (r : node) : Prop := n_prime r = false /\ n_ty r <> Nx.
Lemma den_lift si m tbl (R : bool * nat -> Prop) i : (forall k e, R (true, k) -> nth_error tbl k = Some e -> labs flat_node false false e /\ forall k', In k' (exp_refs true e) -> R k') ->
  forall p e v, den tbl (row_of si m (nrow si i true)) p e v -> p = false -> labs flat_node false false e -> (forall k, In k (exp_refs true e) -> R k) -> den tbl (row_of si m i) true e v.
Proof.
  intros HR p e v D. induction D; intros -> L K; pose proof (labs_values _ _ _ _ L) as LV; pose proof (labs_lab _ _ _ _ L) as LL;
    assert (KV : forall x, In x (e_values e) -> forall k, In k (exp_refs true x) -> R k)
      by (intros x0 Hx0 k0 Hk0; apply K; rewrite exp_refs_eq; apply in_or_app; right; exact (in_exps_refs true x0 _ Hx0 k0 Hk0));
    unfold lab in LL; rewrite H in LL;
    try (match goal with A : e_values e = _ |- _ => rewrite A in LV, KV end;
         repeat match goal with A : Forall _ (_ :: _) |- _ => inversion A; clear A; subst end).
  - eapply D_add; [eassumption | eassumption | apply IHD1; [reflexivity | assumption | apply KV; cbn; auto] | apply IHD2; [reflexivity | assumption | apply KV; cbn; auto]].
  - eapply D_sub; [eassumption | eassumption | apply IHD1; [reflexivity | assumption | apply KV; cbn; auto] | apply IHD2; [reflexivity | assumption | apply KV; cbn; auto]].
  - eapply D_mul; [eassumption | eassumption | apply IHD1; [reflexivity | assumption | apply KV; cbn; auto] | apply IHD2; [reflexivity | assumption | apply KV; cbn; auto]].
  - discriminate LL.
  - refine (D_addc _ _ _ _ _ _ _ _ H H0 H1 _). apply IHD; [reflexivity | assumption | apply KV; cbn; auto].
  - refine (D_mulc _ _ _ _ _ _ _ _ H H0 H1 _). apply IHD; [reflexivity | assumption | apply KV; cbn; auto].
  - eapply D_neg; [eassumption | eassumption | apply IHD; [reflexivity | assumption | apply KV; cbn; auto]].
  - destruct (LL _ H0) as [F _]. cbn [n_prime N_new] in F. apply orb_false_iff in F. destruct F as [F _]. rewrite F in *. cbn [orb] in *.
    assert (Hi : R (true, i0)) by (apply K; rewrite exp_refs_eq, H, H0, F; now left). destruct (HR _ _ Hi H2) as [L' K'].
    eapply D_exp; [exact H | exact H0 | rewrite F; reflexivity | exact H2|]. rewrite F. cbn [orb]. apply IHD; [reflexivity | exact L' | exact K'].
  - destruct (LL _ H0) as [F _]. cbn [n_prime N_new] in F. apply orb_false_iff in F. destruct F as [F _].
    pose proof (D_cm tbl (row_of si m i) true e i0 H H0) as DD. rewrite F in *. cbn [orb andb] in *. exact (DD eq_refl).
  - destruct (LL _ H0) as [F _]. cbn [n_prime N_new] in F. apply orb_false_iff in F. destruct F as [F _].
    pose proof (D_const tbl (row_of si m i) true e i0 H H0) as DD. rewrite F in *. cbn [orb andb] in *. exact (DD eq_refl).
  - destruct (LL _ H0) as [F _]. cbn [n_prime N_new] in F. apply orb_false_iff in F. destruct F as [F _].
    pose proof (D_q tbl (row_of si m i) true e i0 H H0) as DD. rewrite F in *. cbn [orb andb] in *. exact (DD eq_refl).
  - exact (D_number tbl (row_of si m i) true e H).
  - exact (D_public tbl (row_of si m i) true e i0 H H0).
  - exact (D_challenge tbl (row_of si m i) true e i0 H H0).
  - exact (D_eval tbl (row_of si m i) true e i0 H H0).
  - exact (D_xdiv tbl (row_of si m i) true e H).
  - exact (D_xdivw tbl (row_of si m i) true e H).
  - destruct LL as [_ LL]. exfalso. apply LL. reflexivity.
Qed.
