(* The size of the last FRI layer is not checked: a function that is far from every low degree polynomial passes. *)
From Coq Require Import Ring Field.
From Verif Require Import Base GlModel FrField F3gModel Cubic F3gProof ListAux PolyModel Roots PolyProof FftProof FftTop FriMath HashModel ProverModel FriModel FriProof
  StarkMath StarkQuot StarkStep4 SoundFri.
From Verif Require TranscriptProof ImProof.
Open Scope nat_scope.
Open Scope list_scope.
Open Scope res_scope.
Add Ring K_ring_slast : K_ring.
Add Field K_field_slast : K_field.

Lemma vanish pts c : NoDup pts -> length c <= length pts -> (forall a, In a pts -> peval c a = kzero) -> forall x, peval c x = kzero.
Proof.
  intros ND L Z x. destruct (factor pts ND c Z) as [g [Lg Eg]]. destruct g as [|u g]; [|cbn [length] in Lg; lia]. rewrite Eg. cbn [peval]. ring.
Qed.
Lemma pv_peval c x : ImProof.pv c x = peval c x.
Proof. induction c as [|u c IH]; [reflexivity|]. cbn [ImProof.pv peval]. rewrite IH. reflexivity. Qed.
Lemma pmul_p a b x : peval (ImProof.pmul a b) x = kmul (peval a x) (peval b x).
Proof. rewrite <- !pv_peval. apply ImProof.pmul_v. Qed.
Lemma padd_p a b x : peval (ImProof.padd a b) x = kadd (peval a x) (peval b x).
Proof. rewrite <- !pv_peval. apply ImProof.padd_v. Qed.
Lemma pmul_l a b : length (ImProof.pmul a b) <= length a + length b - 1 \/ a = [] \/ b = [].
Proof. destruct b as [|u b]; [auto|]. left. apply ImProof.pmul_len. discriminate. Qed.
(* no polynomial squares to a multiple of X *)
Lemma no_root P u pts s : s < 32 -> u <> kzero -> NoDup pts -> 1 < length pts -> 2 * length P <= S (length pts) -> length pts <= pow2 s ->
  (forall x, In x pts -> kmul (peval P x) (peval P x) = kmul u x) -> False.
Proof.
  intros Hs Hu ND L1 L2 L3 H.
  set (Q := ImProof.padd (ImProof.pmul P P) [kzero; kneg u]).
  assert (LQ : length Q <= length pts).
  { unfold Q. rewrite ImProof.padd_len. cbn [length]. destruct (pmul_l P P) as [A|[A|A]]; [lia | subst P; cbn; lia | subst P; cbn; lia]. }
  assert (Z : forall x, kmul (peval P x) (peval P x) = kmul u x).
  { intros x. assert (E : peval Q x = kzero).
    { apply (vanish pts); [exact ND | exact LQ|]. intros a Ha. unfold Q. rewrite padd_p, pmul_p, (H a Ha). cbn [peval]. ring. }
    unfold Q in E. rewrite padd_p, pmul_p in E. cbn [peval] in E. apply ksub_0. rewrite <- E. ring. }
  assert (Z0 : peval P kzero = kzero).
  { specialize (Z kzero). assert (E : kmul (peval P kzero) (peval P kzero) = kzero) by (rewrite Z; ring). destruct (k_integral _ _ E); assumption. }
  destruct P as [|p0 P'].
  - specialize (Z kone). cbn [peval] in Z. apply Hu. transitivity (kmul u kone); [ring|]. rewrite <- Z. ring.
  - cbn [peval] in Z0. assert (p0 = kzero) by (rewrite <- Z0; ring). subst p0.
    set (R := ImProof.padd (kzero :: ImProof.pmul P' P') [kneg u]).
    assert (E : peval R kzero = kzero).
    { apply (vanish (dpts (S s))); [apply dpts_nodup; lia| |].
      - unfold dpts. rewrite map_length, seq_length. unfold R. rewrite ImProof.padd_len. cbn [length] in L2 |- *.
        rewrite Nat.pow_succ_r'. pose proof (pow2_pos s) as P31.
        revert L3 P31. generalize (pow2 s) as a. intros a L3 P31.
        destruct (pmul_l P' P') as [A|[A|A]]; [lia | subst P'; cbn; lia | subst P'; cbn; lia].
      - intros x Hx. assert (Nx : x <> kzero).
        { unfold dpts in Hx. apply in_map_iff in Hx. destruct Hx as [i [<- _]]. apply StarkMath.kpow_nz, kroot_nz. lia. }
        unfold R. rewrite padd_p. cbn [peval]. rewrite pmul_p. specialize (Z x). cbn [peval] in Z. set (v := peval P' x) in *.
        assert (E : kmul x (ksub (kmul x (kmul v v)) u) = kzero).
        { transitivity (ksub (kmul (kadd kzero (kmul x v)) (kadd kzero (kmul x v))) (kmul u x)); [ring|]. rewrite Z. ring. }
        destruct (k_integral _ _ E) as [E'|E']; [contradiction|]. etransitivity; [|exact E']. ring. }
    unfold R in E. rewrite padd_p in E. cbn [peval] in E. apply Hu. transitivity (kneg (kadd (kadd kzero (kmul kzero (peval (ImProof.pmul P' P') kzero))) (kadd (kneg u) (kmul kzero kzero)))); [ring|]. rewrite E. ring.
Qed.

Lemma nodup_map {A B} (f : A -> B) l : (forall u v, In u l -> In v l -> f u = f v -> u = v) -> NoDup l -> NoDup (map f l).
Proof.
  intros H ND. induction ND as [|a l Na ND IH]; cbn [map]; constructor.
  - intros I. apply in_map_iff in I. destruct I as [b [E Ib]]. apply Na. rewrite (H a b (or_introl eq_refl) (or_intror Ib) (eq_sym E)). exact Ib.
  - apply IH. intros u v Iu Iv. apply H; right; assumption.
Qed.
Section Last.
  Variable perm : list Fr -> list Fr -> list Fr.
  Hypothesis perm_len : forall i s, length (perm i s) = 12.
  (* the answers: the powers of the root of order 2^(b+1), one at each of the 2^b positions *)
  Definition half_power (b y : nat) : F3G := of_k (kpow (kroot (S b)) y).
  Definition half_proof (b nq : nat) : friproof := mkFP [mkQ (repeat [] nq) zero4] (map (half_power b) (seq 0 (pow2 (S b)))).
  Variable check_query : list opening -> nat -> res (list F3G).


  Lemma single_fold v B y shift x : B <= 31 -> val shift <> kzero -> exists w, fold_check [v] B y shift x = Ok w /\ F3gProof.wf w /\ val w = val v.
  Proof.
    intros HB Hs. assert (E : exists w, fold_check [v] B y shift x = Ok w).
    { destruct (ifft_E 0 [v] ltac:(lia) eq_refl) as [c [Ec _]]. unfold fold_check. rewrite Ec, bindE. rewrite MG_root by lia. rewrite bindE. eexists. reflexivity. }
    destruct E as [w E]. exists w. split; [exact E|]. destruct (fold_check_folds _ _ _ _ _ _ HB Hs E) as [[k [P [Hk [L1 [L2 [L3 L4]]]]]] W]. split; [exact W|].
    cbn [map length] in L1. assert (k = 0) by (destruct k as [|k]; [reflexivity|]; pose proof (Nat.pow_gt_1 2 (S k)); lia). subst k. cbn [Nat.pow] in *.
    destruct P as [|a [|? ?]]; try discriminate L2. specialize (L3 0 ltac:(lia)). cbn [peval nth map] in L3, L4. rewrite <- L4, L3. ring.
  Qed.
  Lemma half_wf b y : F3gProof.wf (half_power b y). Proof. intros E. discriminate E. Qed.
  Lemma half_steps b nq shift x ys : b <= 31 -> val shift <> kzero -> (forall o y, y < pow2 b -> check_query o y = Ok [half_power b y]) ->
    Forall (fun y => y < pow2 b) ys -> forall q i, (forall k, k < length ys -> exists o, nth_error (q_openings q) (i + k) = Some o) ->
    v_step perm check_query true q None (fp_last (half_proof b nq)) b shift x i ys = Ok true.
  Proof.
    intros HB Hs Hq. induction ys as [|y ys IH]; intros Hy q i Ho; [reflexivity|]. cbn [v_step]. inversion Hy as [|? ? Hy0 Hy1]; subst.
    destruct (Ho 0 ltac:(cbn; lia)) as [o Eo]. rewrite Nat.add_0_r in Eo. rewrite (vget_some _ _ _ Eo), bindE, Hq by exact Hy0. rewrite bindE.
    destruct (single_fold (half_power b y) b y shift x HB Hs) as [w [Ew [Ww Vw]]]. rewrite Ew, bindE. cbn [next_value half_proof fp_last].
    assert (Lt : y < pow2 (S b)) by (rewrite Nat.pow_succ_r'; lia).
    rewrite (vget_some (map (half_power b) (seq 0 (pow2 (S b)))) y (half_power b y)), bindE.
    - rewrite (proj2 (e_eqs w (half_power b y) Ww (half_wf b y))) by exact Vw.
      apply IH; [exact Hy1|]. intros k Hk. destruct (Ho (S k) ltac:(cbn [length]; lia)) as [o' Eo']. exists o'. replace (S i + k) with (i + S k) by lia. exact Eo'.
    - rewrite nth_error_map, (nth_error_nth' _ 0) by (rewrite seq_length; exact Lt). rewrite seq_nth by exact Lt. reflexivity.
  Qed.
  Theorem half_accepted b md nq t : 1 <= b <= 30 -> md <= b -> 0 < nq -> TranscriptProof.wf t -> (forall o y, y < pow2 b -> check_query o y = Ok [half_power b y]) ->
    fri_verify perm check_query b md nq [b] t (half_proof b nq) = Ok true.
  Proof.
    intros Hb Hmd Hnq W Hq. unfold fri_verify. cbn [half_proof fp_queries length Nat.eqb negb v_challenges].
    destruct (challenge_ok perm perm_len t W) as [x [t1 [E1 W1]]]. rewrite E1, bindE.
    assert (D3 : Forall dim3 (fp_last (half_proof b nq))) by (apply Forall_forall; intros e He; apply in_map_iff in He; destruct He as [i [<- _]]; reflexivity).
    destruct (put_last_ok perm perm_len t1 _ W1 D3) as [t2 [E2 W2]]. rewrite E2, !bindE. cbn [fst snd].
    destruct (TranscriptProof.permutations perm perm_len t2 nq b W2 ltac:(nia) ltac:(lia)) as [fields [t3 [r [_ [Ep [Lr Hr]]]]]]. rewrite Ep, bindE. cbn [fst snd v_steps].
    rewrite Nat.ltb_irrefl, bindE.
    assert (Hys : Forall (fun y => y < pow2 b) (map Z.to_nat r)).
    { apply Forall_map. apply Forall_forall. intros z Hz. apply (In_nth _ _ 0%Z) in Hz. destruct Hz as [i [Hi <-]].
      destruct (Hr i ltac:(lia)) as [Bz _]. apply Nat2Z.inj_lt. rewrite Z2Nat.id by lia. rewrite Nat2Z.inj_pow. exact (proj2 Bz). }
    rewrite (half_steps b nq (e_from SHIFT) x _ ltac:(lia)); [| rewrite val_from; exact K_shift_nz | exact Hq | exact Hys |].
    2: { intros k Hk. exists []. cbn [q_openings Nat.add]. rewrite map_length in Hk. apply nth_error_repeat. lia. }
    rewrite !bindE. cbn [fst snd]. unfold max_deg_of. replace (b <? md) with false by (symmetry; apply Nat.ltb_ge; exact Hmd). rewrite bindE.
    assert (Lp : length (kzero :: kone :: repeat kzero (pow2 (S b) - 2)) = pow2 (S b)) by (cbn [length]; rewrite repeat_length; pose proof (Nat.pow_gt_1 2 (S b)); lia).
    assert (Vp : map val (fp_last (half_proof b nq)) = coset kone (S b) (kzero :: kone :: repeat kzero (pow2 (S b) - 2))).
    { unfold half_proof. cbn [fp_last]. rewrite map_map. unfold coset. apply map_ext. intros i. unfold half_power. rewrite of_k_val. generalize (kpow (kroot (S b)) i) as z. intros z.
      change (z = kadd kzero (kmul (kmul kone z) (kadd kone (kmul (kmul kone z) (peval (repeat kzero (pow2 (S b) - 2)) (kmul kone z)))))). rewrite peval_zeros. ring. }
    apply (proj1 (check_last_ok _ kone (S b) _ _ ltac:(lia) Lp kone_neq Vp D3)).
    intros i Hi. destruct i as [|[|i]]; [lia | | ].
    - exfalso. revert Hi. replace (b <? b - md) with false by (symmetry; apply Nat.ltb_ge; lia). pose proof (pow2_pos (b - (b - md))). lia.
    - cbn [nth]. apply nth_repeat.
  Qed.
  (* any polynomial of lower degree agrees with the answers at few positions *)
  Theorem half_far b P ys : 1 <= b <= 30 -> NoDup ys -> Forall (fun y => y < pow2 b) ys -> 1 < length ys -> 2 * length P <= S (length ys) ->
    exists y, In y ys /\ peval P (cpt b y) <> val (half_power b y).
  Proof.
    intros Hb ND Hy L1 L2.
    destruct (Exists_dec (fun y => peval P (cpt b y) <> val (half_power b y)) ys) as [H|H].
    - intros y. destruct (k_dec (peval P (cpt b y)) (val (half_power b y))) as [E|E]; [right; intros N; exact (N E) | left; exact E].
    - apply Exists_exists in H. exact H.
    - exfalso.
      assert (A : forall y, In y ys -> peval P (cpt b y) = val (half_power b y)).
      { intros y Iy. destruct (k_dec (peval P (cpt b y)) (val (half_power b y))) as [E|E]; [exact E|]. exfalso. apply H. apply Exists_exists. exists y. split; assumption. }
      apply (no_root P (kinv K_shift) (map (cpt b) ys) b).
      + lia.
      + intros E. apply kone_neq. transitivity (kmul (kinv K_shift) K_shift); [field; exact K_shift_nz|]. rewrite E. ring.
      + apply nodup_map; [|exact ND]. intros u v Iu Iv E. unfold cpt in E.
        apply (kroot_inj b); [lia | exact (proj1 (Forall_forall _ _) Hy u Iu) | exact (proj1 (Forall_forall _ _) Hy v Iv)|].
        transitivity (kmul (kinv K_shift) (kmul K_shift (kpow (kroot b) u))); [field; exact K_shift_nz|]. rewrite E. field. exact K_shift_nz.
      + rewrite map_length. exact L1.
      + rewrite map_length. exact L2.
      + rewrite map_length. rewrite <- (seq_length (pow2 b) 0). apply NoDup_incl_length; [exact ND|]. intros y Iy. apply in_seq. pose proof (proj1 (Forall_forall _ _) Hy y Iy). cbn beta in *. lia.
      + intros x Hx. apply in_map_iff in Hx. destruct Hx as [y [<- Iy]]. rewrite (A y Iy). unfold half_power. rewrite of_k_val. unfold cpt.
        rewrite <- kpow_prod, <- kroot_step by lia. field. exact K_shift_nz.
  Qed.

  (* with a last layer of the right size the answers lie on a polynomial of the degree asked for *)
  Theorem right_size b md nq t pf (f : nat -> F3G) : b <= 31 -> (forall o y l, check_query o y = Ok l -> l = [] \/ l = [f y]) ->
    fri_verify perm check_query b md nq [b] t pf = Ok true -> length (fp_last pf) = pow2 b ->
    exists P xs t1 zs t2, length P <= S (pow2 md) /\ v_challenges perm [b] t (fp_queries pf) (fp_last pf) = Ok (xs, t1) /\ get_permutations perm t1 nq b = Ok (zs, t2) /\
      forall z, In z zs -> (Z.to_nat z < pow2 b)%nat /\ val (f (Z.to_nat z)) = peval P (cpt b (Z.to_nat z)).
  Proof.
    intros Hb Hq E HL. assert (Hmd : md <= b).
    { destruct (Nat.le_gt_cases md b) as [L|L]; [exact L|]. exfalso. unfold fri_verify in E. destruct (negb _); [discriminate E|]. apply bind_ok in E. destruct E as [xt [_ E]].
      apply bind_ok in E. destruct E as [yt [_ E]]. cbv zeta in E. apply bind_ok in E. destruct E as [r [_ E]]. destruct (fst r); [|discriminate E].
      unfold max_deg_of in E. rewrite (proj2 (Nat.ltb_lt b md) L) in E. discriminate E. }
    destruct (fri_accepts perm check_query b md nq [b] t pf Hb E) as [b' [rest [xs [t1 [zs [t2 [A1 [A2 [A3 [A4 [A5 [k [P [K1 [K2 [K3 [K4 K5]]]]]]]]]]]]]]]]].
    injection A1 as <- <-. assert (k = b).
    { rewrite HL in K2. destruct (Nat.lt_trichotomy k b) as [L|[L|L]]; [|exact L|]; apply (Nat.pow_lt_mono_r 2) in L; lia. }
    subst k. cbn [last] in K5. replace (b <? b - md) with false in K5 by (symmetry; apply Nat.ltb_ge; lia). replace (b - (b - md)) with md in K5 by lia.
    destruct (fp_queries pf) as [|q [|? ?]] eqn:Eq; try discriminate A2.
    cbn [layers] in A5. destruct xs as [|x xs]; [contradiction|]. destruct A5 as [_ [A5 _]].
    exists (map (fun j => kmul (kpow (kinv K_shift) j) (nth j P kzero)) (seq 0 (S (pow2 md)))), (x :: xs), t1, zs, t2. split; [rewrite map_length, seq_length; lia|].
    split; [exact A3|]. split; [exact A4|]. intros z Iz. apply In_nth_error in Iz. destruct Iz as [i Hi].
    destruct (A5 i (Z.to_nat z)) as [o [g [v [_ [[l [C1 [C2 ->]]] [F N]]]]]]; [rewrite nth_error_map, Hi; reflexivity|].
    destruct (Hq _ _ _ C1) as [-> | ->]; [now destruct C2|]. destruct N as [a [Na Va]].
    assert (Lz : Z.to_nat z < pow2 b) by (rewrite <- HL; apply nth_error_Some; congruence). split; [exact Lz|].
    destruct F as [k [R [_ [F1 [F2 [F3 F4]]]]]]. cbn [map length] in F1.
    assert (k = 0) by (destruct k as [|k]; [reflexivity|]; pose proof (Nat.pow_gt_1 2 (S k)); lia). subst k. cbn [Nat.pow] in *.
    destruct R as [|r [|? ?]]; try discriminate F2. specialize (F3 0 ltac:(lia)). cbn [peval nth map] in F3, F4.
    assert (Ev : val (f (Z.to_nat z)) = v) by (rewrite F3, <- F4; ring). rewrite Ev, <- Va, <- (nth_error_nth _ _ e_ZERO Na), K4 by exact Lz.
    rewrite peval_map_seq. unfold cpt. set (w := kpow (kroot b) (Z.to_nat z)).
    rewrite peval_sum. rewrite K3.
    assert (Tail : forall n h, n <= h -> (forall j, n <= j -> nth j P kzero = kzero) -> ksum h (fun j => kmul (nth j P kzero) (kpow w j)) = ksum n (fun j => kmul (nth j P kzero) (kpow w j))).
    { intros n h L Z0. induction L as [|h L IH]; [reflexivity|]. cbn [ksum]. rewrite IH, (Z0 h L). ring. }
    assert (Z1 : forall j, pow2 b <= j -> nth j P kzero = kzero) by (intros j Hj; apply nth_overflow; lia).
    assert (Z2 : forall j, S (pow2 md) <= j -> nth j P kzero = kzero) by (intros j Hj; apply K5; lia).
    etransitivity; [|etransitivity].
    2: { refine (eq_trans (eq_sym (Tail (pow2 b) (pow2 b + S (pow2 md)) ltac:(lia) Z1)) (Tail (S (pow2 md)) (pow2 b + S (pow2 md)) ltac:(lia) Z2)). }
    - apply ksum_ext. intros j _. ring.
    - apply ksum_ext. intros j _. rewrite (kpow_prod K_shift w j). 
      transitivity (kmul (kmul (kpow (kinv K_shift) j) (kpow K_shift j)) (kmul (nth j P kzero) (kpow w j))); [|ring].
      rewrite <- kpow_prod. replace (kmul (kinv K_shift) K_shift) with kone by (field; exact K_shift_nz). rewrite kpow_1. ring.
  Qed.
End Last.

Theorem wrong_size perm b md nq t : (forall i s, length (perm i s) = 12) -> 1 <= b <= 30 -> md <= b -> 0 < nq -> TranscriptProof.wf t ->
  exists (f : nat -> F3G) pf, length (fp_last pf) = 2 * pow2 b /\
    (forall check_query, (forall o y, y < pow2 b -> check_query o y = Ok [f y]) -> fri_verify perm check_query b md nq [b] t pf = Ok true) /\
    forall P ys, NoDup ys -> Forall (fun y => y < pow2 b) ys -> 1 < length ys -> 2 * length P <= S (length ys) -> exists y, In y ys /\ peval P (cpt b y) <> val (f y).
Proof.
  intros Hp Hb Hmd Hnq W. exists (half_power b), (half_proof b nq). split; [|split].
  - unfold half_proof. cbn [fp_last]. rewrite map_length, seq_length. apply Nat.pow_succ_r'.
  - intros cq Hcq. exact (half_accepted perm Hp cq b md nq t Hb Hmd Hnq W Hcq).
  - intros P ys. exact (half_far b P ys Hb).
Qed.
