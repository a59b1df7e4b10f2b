(* The constraint as a polynomial: its degree and the quotient by the vanishing polynomial. *)
From Coq Require Import Ring Field Arith.
From Verif Require Import Base GlModel FrField F3gModel Cubic F3gProof ListAux PolyModel Roots PolyProof CodegenModel CodegenProof InterpModel
  VerifierModel VerifierProof ImModel ImProof FftProof FftTop FriMath StarkModel StarkMath StarkGen StarkSrc.
Open Scope nat_scope.
Open Scope res_scope.
Add Field K_field_sp : K_field.

(* ---------- expressions as functions of a point ---------- *)
Section Bridge.
  Variables (tbl tblD : list expr) (im : list (nat * nat)) (T : list nat) (L : node -> K -> K) (P : node -> Prop).
  Hypothesis HT : forall i, In i T <-> exists c, assoc Nat.eqb im i = Some c.
  Hypothesis Htbl : forall p, Forall (labs P false p) tbl.
  Hypothesis HD : forall r, P r -> n_ty r = Nexp -> exists e, nth_error tbl (n_id r) = Some e /\ nth_error tblD (n_id r) = Some e.
  Hypothesis HPq : forall r, P r -> n_ty r <> Nq /\ n_ty r <> NxDivXSubXi /\ n_ty r <> NxDivXSubWXi.
  Hypothesis HLx : forall x, L (N_new Nx 0 None false) x = x.

  (* a valuation of the labels at the point x *)
  Definition at_point (x : K) (rho : node -> F3G) : Prop :=
    (forall r, P r -> n_ty r <> Nexp -> val (rho r) = L r x) /\
    (forall i c p, assoc Nat.eqb im i = Some c -> val (rho (N_new Ncm c None p)) = L (N_new Nexp i None p) x).

  Lemma den_pval rho0 p e v0 : den (with_im im tblD) rho0 p e v0 -> labs P false p e ->
    exists f, pval tbl L T p e f /\ forall x rho v, at_point x rho -> den (with_im im tblD) rho p e v -> val v = f x.
  Proof.
    induction 1 as [p e a b r x y Ho Hv Ha IHa Hb IHb|p e a b r x y Ho Hv Ha IHa Hb IHb|p e a b r x y Ho Hv Ha IHa Hb IHb
      |p e a b c r x y z Ho Hv Ha IHa Hb IHb Hc IHc|p e a r k x Ho Hv Hk Ha IHa|p e a r k x Ho Hv Hk Ha IHa|p e a r x Ho Hv Ha IHa
      |p e i e' v Ho Hi Hp Hn Hd IH|p e i Ho Hi Hp|p e i Ho Hi Hp|p e i Ho Hi Hp|p e Ho|p e i Ho Hi|p e i Ho Hi|p e i Ho Hi|p e Ho|p e Ho|p e Ho]; intros HL.
    1-7: pose proof (labs_values _ _ _ _ HL) as HV; rewrite Hv in HV; pose proof (labs_lab _ _ _ _ HL) as HL1; unfold lab in HL1; rewrite Ho in HL1.
    8-18: pose proof (labs_lab _ _ _ _ HL) as HL1; unfold lab in HL1; rewrite Ho in HL1.
    - destruct (IHa (Forall_inv HV)) as [f [F1 F2]]. destruct (IHb (Forall_inv (Forall_inv_tail HV))) as [g [G1 G2]].
      eexists. split; [eapply P_add; eassumption|]. intros x1 rho v Hat Hd. inversion Hd; subst; try congruence.
      match goal with A : e_values e = _ :: _ |- _ => rewrite Hv in A; injection A as <- <- <- end. rewrite val_add. cbv beta. now rewrite (F2 x1 rho x0), (G2 x1 rho y0).
    - destruct (IHa (Forall_inv HV)) as [f [F1 F2]]. destruct (IHb (Forall_inv (Forall_inv_tail HV))) as [g [G1 G2]].
      eexists. split; [eapply P_sub; eassumption|]. intros x1 rho v Hat Hd. inversion Hd; subst; try congruence.
      match goal with A : e_values e = _ :: _ |- _ => rewrite Hv in A; injection A as <- <- <- end. rewrite val_sub. cbv beta. now rewrite (F2 x1 rho x0), (G2 x1 rho y0).
    - destruct (IHa (Forall_inv HV)) as [f [F1 F2]]. destruct (IHb (Forall_inv (Forall_inv_tail HV))) as [g [G1 G2]].
      eexists. split; [eapply P_mul; eassumption|]. intros x1 rho v Hat Hd. inversion Hd; subst; try congruence.
      match goal with A : e_values e = _ :: _ |- _ => rewrite Hv in A; injection A as <- <- <- end. rewrite val_mul. cbv beta. now rewrite (F2 x1 rho x0), (G2 x1 rho y0).
    - discriminate HL1.
    - destruct (IHa (Forall_inv HV)) as [f [F1 F2]].
      eexists. split; [eapply (P_addc _ _ _ p e a r (Some k)); eassumption|]. intros x1 rho v Hat Hd. inversion Hd; subst; try congruence.
      match goal with A : e_values e = _ :: _ |- _ => rewrite Hv in A; injection A as <- <- end. rewrite Hk in *. match goal with A : Some _ = Some _ |- _ => injection A as <- end.
      rewrite val_add. cbv beta. rewrite (F2 x1 rho x0) by assumption. refine (f_equal2 kadd eq_refl _). apply (proj1 Hat); [apply HL1; reflexivity | discriminate].
    - destruct (IHa (Forall_inv HV)) as [f [F1 F2]].
      eexists. split; [eapply (P_mulc _ _ _ p e a r (Some k)); eassumption|]. intros x1 rho v Hat Hd. inversion Hd; subst; try congruence.
      match goal with A : e_values e = _ :: _ |- _ => rewrite Hv in A; injection A as <- <- end. rewrite Hk in *. match goal with A : Some _ = Some _ |- _ => injection A as <- end.
      rewrite val_mul. cbv beta. rewrite (F2 x1 rho x0) by assumption. refine (f_equal2 kmul eq_refl _). apply (proj1 Hat); [apply HL1; reflexivity | discriminate].
    - destruct (IHa (Forall_inv HV)) as [f [F1 F2]].
      eexists. split; [eapply P_neg; eassumption|]. intros x1 rho v Hat Hd. inversion Hd; subst; try congruence.
      match goal with A : e_values e = _ :: _ |- _ => rewrite Hv in A; injection A as <- <- end. rewrite val_neg. cbv beta. now rewrite (F2 x1 rho x0).
    - specialize (HL1 i Hi). destruct (HD _ HL1 eq_refl) as [e0 [E1 E2]]. cbn [n_id N_new] in E1, E2. rewrite with_im_nth, E2 in Hn.
      destruct (assoc Nat.eqb im i) as [c|] eqn:Ea.
      + exists (L (N_new Nexp i None (e_next e || p))). split; [apply P_im; [exact Ho | exact Hi | apply HT; eauto]|].
        intros x1 rho w Hat Hw. inversion Hw; subst; try congruence. assert (i0 = i) by congruence. subst i0.
        match goal with A : nth_error (with_im im tblD) i = Some ?q |- _ => rewrite with_im_nth, E2, Ea in A; injection A as <- end.
        match goal with A : den _ rho _ (E_cm c false) w |- _ => inversion A; subst; try discriminate end.
        match goal with A : e_id (E_cm c false) = Some _ |- _ => injection A as <- end. cbn [e_next E_cm orb]. exact (proj2 Hat i c (e_next e || p) Ea).
      + injection Hn as <-. assert (Hl : labs P false (e_next e || p) e0) by (apply (proj1 (Forall_forall _ _) (Htbl _)); eapply nth_error_In, E1).
        destruct (IH Hl) as [f [F1 F2]]. exists f. split; [eapply P_exp; try eassumption; intros C; apply HT in C; destruct C as [c C]; congruence|].
        intros x1 rho w Hat Hw. inversion Hw; subst; try congruence. assert (i0 = i) by congruence. subst i0.
        match goal with A : nth_error (with_im im tblD) i = Some ?q |- _ => rewrite with_im_nth, E2, Ea in A; injection A as <- end. now apply (F2 x1 rho).
    - exists (L (N_new Ncm i None (e_next e || p))). split; [now apply P_cm|]. intros x1 rho w Hat Hw. inversion Hw; subst; try congruence.
      assert (i0 = i) by congruence. subst i0. apply (proj1 Hat); [now apply HL1 | discriminate].
    - exists (L (N_new Nconst i None (e_next e || p))). split; [now apply P_const|]. intros x1 rho w Hat Hw. inversion Hw; subst; try congruence.
      assert (i0 = i) by congruence. subst i0. apply (proj1 Hat); [now apply HL1 | discriminate].
    - exfalso. destruct (HPq _ (HL1 i Hi)) as [C _]. now apply C.
    - eexists. split; [now apply P_number|]. intros x1 rho w Hat Hw. inversion Hw; subst; try congruence. apply (proj1 Hat); [exact HL1 | discriminate].
    - eexists. split; [eapply P_public; eassumption|]. intros x1 rho w Hat Hw. inversion Hw; subst; try congruence.
      assert (i0 = i) by congruence. subst i0. apply (proj1 Hat); [now apply HL1 | discriminate].
    - eexists. split; [eapply P_challenge; eassumption|]. intros x1 rho w Hat Hw. inversion Hw; subst; try congruence.
      assert (i0 = i) by congruence. subst i0. apply (proj1 Hat); [now apply HL1 | discriminate].
    - eexists. split; [eapply P_eval; eassumption|]. intros x1 rho w Hat Hw. inversion Hw; subst; try congruence.
      assert (i0 = i) by congruence. subst i0. apply (proj1 Hat); [now apply HL1 | discriminate].
    - exfalso. destruct (HPq _ HL1) as [_ [C _]]. now apply C.
    - exfalso. destruct (HPq _ HL1) as [_ [_ C]]. now apply C.
    - exists (fun x => x). split; [now apply P_x|]. intros x1 rho w Hat Hw. inversion Hw; subst; try congruence.
      rewrite (proj1 Hat); [apply HLx | exact HL1 | discriminate].
  Qed.
End Bridge.

(* ---------- the degree of the constraint ---------- *)
Lemma nins_in n l x : In x (nins n l) <-> x = n \/ In x l.
Proof.
  induction l as [|m r IH]; cbn [nins In]; [intuition|]. destruct (n <=? m); cbn [In]; [intuition|]. rewrite IH. intuition.
Qed.
Lemma nsort_in l x : In x (nsort l) <-> In x l.
Proof. induction l as [|n r IH]; cbn [nsort In]; [tauto|]. rewrite nins_in, IH. intuition. Qed.
Lemma nins_len n l : length (nins n l) = S (length l).
Proof. induction l as [|m r IH]; cbn [nins length]; [reflexivity|]. destruct (n <=? m); cbn [length]; [reflexivity | now rewrite IH]. Qed.
Lemma nsort_len l : length (nsort l) = length l.
Proof. induction l as [|n r IH]; cbn [nsort length]; [reflexivity|]. now rewrite nins_len, IH. Qed.
Lemma assoc_combine l : forall a k i, length l = k -> (exists c, assoc Nat.eqb (combine l (seq a k)) i = Some c) <-> In i l.
Proof.
  induction l as [|x l IH]; intros a k i H; cbn [length] in H; subst k; cbn [seq combine assoc In].
  - split; [intros [c C]; discriminate C | intros []].
  - destruct (Nat.eqb_spec x i) as [->|Hn]; [split; eauto|]. rewrite IH by reflexivity. split; [auto | intros [C|C]; [contradiction | exact C]].
Qed.
Lemma assoc_range l : forall a k i c, length l = k -> assoc Nat.eqb (combine l (seq a k)) i = Some c -> a <= c < a + k.
Proof.
  induction l as [|x l IH]; intros a k i c H E; cbn [length] in H; subst k; cbn [seq combine assoc] in E; [discriminate E|].
  destruct (x =? i); [injection E as <-; lia|]. apply IH in E; [lia | reflexivity].
Qed.
Lemma combine_range (l : list nat) : forall a k x c, length l = k -> In (x, c) (combine l (seq a k)) -> In x l /\ a <= c < a + k.
Proof.
  intros a k x c H E. split; [eapply in_combine_l, E|]. apply in_combine_r in E. apply in_seq in E. lia.
Qed.

Definition joined (tbl : list expr) (im : list (nat * nat)) (c0 : expr) : res expr :=
  foldM (fun c kc => do e <- vget tbl (fst kc); Ok (join_vc c (E_sub e (E_cm (snd kc) false)))) im c0.
Lemma gen_constraint_inv fuel tbl ids ncm md ce : gen_constraint fuel tbl ids ncm md = Ok ce ->
  exists s q c, choose_im fuel tbl (identities ids) md = Ok (s, q) /\ ce_im ce = combine (nsort s) (seq ncm (length s)) /\
    joined tbl (ce_im ce) (identities ids) = Ok c /\ ce_tbl ce = tbl ++ [c] /\ ce_id ce = length tbl /\
    ce_qs ce = seq (ncm + length s) (Z.to_nat q) /\ ce_ncm ce = ncm + length s + Z.to_nat q.
Proof.
  unfold gen_constraint. intros H. destruct (choose_im fuel tbl (identities ids) md) as [[s q]| | |]; try discriminate H. cbn [bind] in H. cbv zeta in H.
  fold (joined tbl (combine (nsort s) (seq ncm (length s))) (identities ids)) in H.
  destruct (joined tbl (combine (nsort s) (seq ncm (length s))) (identities ids)) as [c| | |] eqn:E; try discriminate H. cbn [bind] in H. injection H as <-.
  exists s, q, c. cbn. auto 10.
Qed.

Section Deg.
  Variables (tbl : list expr) (L : node -> K -> K) (T : list nat) (n B : nat).
  Hypothesis Hle : leaf_le n L.
  Hypothesis HB : n <= B.
  Lemma pv_challenge i f : pval tbl L T false (E_challenge i) f -> poly_le 0 f.
  Proof. intros H. inversion H; subst; try discriminate. match goal with A : e_id _ = Some _ |- _ => injection A as <- end. apply (Hle (N_new Nchallenge i None false)). Qed.
  Lemma pv_cm i f : pval tbl L T false (E_cm i false) f -> poly_le n f.
  Proof. intros H. inversion H; subst; try discriminate. match goal with A : e_id _ = Some _ |- _ => injection A as <- end. apply (Hle (N_new Ncm i None false)). Qed.
  Lemma join_deg c e : (forall f, pval tbl L T false c f -> poly_le B f) -> (forall f, pval tbl L T false e f -> poly_le B f) ->
    forall f, pval tbl L T false (join_vc c e) f -> poly_le B f.
  Proof.
    intros Hc He f Hf. unfold join_vc in Hf. destruct (is_nop c); [now apply He|].
    inversion Hf; subst; try discriminate. match goal with A : e_values _ = _ |- _ => cbn in A; injection A as <- <- <- end.
    apply poly_add; [|now apply He]. match goal with A : pval _ _ _ _ (E_mul _ _) _ |- _ => inversion A; subst; try discriminate end.
    match goal with A : e_values (E_mul _ _) = _ |- _ => cbn in A; injection A as <- <- <- end.
    match goal with A : pval _ _ _ _ (E_challenge 4) ?f1, B' : pval _ _ _ _ c ?g1 |- _ => apply pv_challenge in A; apply Hc in B' end.
    apply (poly_mul 0 B); assumption.
  Qed.
  Lemma joined_deg im : forall c c', (forall f, pval tbl L T false c f -> poly_le B f) ->
    (forall k x e, In (k, x) im -> nth_error tbl k = Some e -> forall f, pval tbl L T false e f -> poly_le B f) ->
    joined tbl im c = Ok c' -> forall f, pval tbl L T false c' f -> poly_le B f.
  Proof.
    induction im as [|[k x] im IH]; intros c c' Hc Hi H; unfold joined in H; cbn [foldM] in H; [injection H as <-; exact Hc|].
    cbn [fst snd] in H. destruct (vget tbl k) as [e| | |] eqn:Ek; try discriminate H. cbn [bind] in H. fold (joined tbl im (join_vc c (E_sub e (E_cm x false)))) in H.
    refine (IH _ _ _ _ H); [|intros k' x' e' I'; apply (Hi k' x' e'); now right]. apply join_deg; [exact Hc|].
    intros f Hf. inversion Hf; subst; try discriminate. match goal with A : e_values _ = _ |- _ => cbn in A; injection A as <- <- <- end.
    apply vget_inv in Ek. apply poly_sub; [eapply (Hi k x e); [now left | exact Ek | assumption]|].
    match goal with A : pval _ _ _ _ (E_cm _ _) _ |- _ => apply pv_cm in A end. eapply poly_mono; [|eassumption]. exact HB.
  Qed.
End Deg.

Theorem constraint_deg fuel tbl ids ncm md ce n L : gen_constraint fuel tbl ids ncm md = Ok ce -> ce_qs ce <> [] -> 1 <= n -> leaf_le n L ->
  exists c, ce_tbl ce = tbl ++ [c] /\ length (ce_qs ce) + 1 <= md /\
  forall T, (forall i, In i T <-> exists c, assoc Nat.eqb (ce_im ce) i = Some c) ->
  forall f, pval tbl L T false c f -> poly_le ((length (ce_qs ce) + 1) * n) f.
Proof.
  intros H Hq Hn HL. destruct (gen_constraint_inv _ _ _ _ _ _ H) as [s [q [c [C1 [C2 [C3 [C4 [C5 [C6 C7]]]]]]]]].
  exists c. split; [exact C4|]. destruct (choose_ok tbl fuel (identities ids) md s q n L C1 Hn HL) as [[-> ->]|[Q0 [Q1 [Q2 Q3]]]].
  { exfalso. apply Hq. rewrite C6. reflexivity. }
  rewrite C6, seq_length. split; [lia|]. intros T HT f Hf.
  assert (HTs : forall i, In i T <-> In i s).
  { intros i. rewrite HT, C2, assoc_combine by apply nsort_len. apply nsort_in. }
  assert (Hsub : forall p e g, pval tbl L T p e g -> pval tbl L s p e g).
  { clear -HTs. induction 1; try (econstructor; eassumption).
    - apply P_im; [assumption | assumption | now apply HTs].
    - eapply P_exp; try eassumption. now rewrite <- HTs. }
  replace (Z.to_nat (q + 1)) with (Z.to_nat q + 1) in Q2, Q3 by lia.
  apply Hsub in Hf. revert f Hf. refine (joined_deg tbl L s n ((Z.to_nat q + 1) * n) HL _ (ce_im ce) (identities ids) c _ _ C3).
  - nia.
  - intros f. apply Q2.
  - intros k x e I E f Hf. rewrite C2 in I. apply combine_range in I; [|apply nsort_len]. destruct I as [I _]. apply (proj1 (nsort_in s k)) in I.
    destruct (Q3 k I) as [e' [E' F']]. assert (e' = e) by congruence. subst e'. exact (F' false f Hf).
Qed.

(* ---------- the quotient ---------- *)
Theorem quotient_exists s f q : s <= 32 -> 1 <= q -> 2 <= pow2 s -> poly_le ((q + 1) * (pow2 s - 1)) f ->
  (forall i, i < pow2 s -> f (kpow (kroot s) i) = kzero) ->
  exists g, length g <= q * pow2 s /\ forall x, f x = kmul (ksub (kpow x (pow2 s)) kone) (peval g x).
Proof.
  intros Hs Hq HN [c [Lc Ec]] Hz.
  destruct (zh_div s c Hs) as [g [Lg Eg]].
  - intros i Hi. rewrite <- pv_peval, <- Ec. now apply Hz.
  - exists g. split; [|intros x; rewrite Ec, pv_peval; apply Eg]. clear -Lc Lg HN Hq. set (N := pow2 s) in *. clearbody N. nia.
Qed.
