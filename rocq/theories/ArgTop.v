(* The generated constraints on whole traces: they hold exactly when the running product exists; what they establish; an
   honest prover satisfies them. *)
From Coq Require Import Ring Field Permutation.
From Verif Require Import Base GlModel FrField F3gModel Cubic F3gProof ListAux PolyModel PolyProof Roots ProverModel ProverProof CodegenModel CodegenProof StarkMath
  ArgModel ArgMath ArgSound ArgRows ArgGen ConnectProof ArgLabel.
Open Scope nat_scope.
Open Scope list_scope.
Open Scope res_scope.
Add Ring K_ring_argt : K_ring.

Lemma running_ext n z z' a a' d d' : (forall i, i < n -> z i = z' i) -> (forall i, i < n -> a i = a' i) -> (forall i, i < n -> d i = d' i) -> 0 < n ->
  running n z a d -> running n z' a' d'.
Proof.
  intros Ez Ea Ed Hn [Z0 R]. split; [rewrite <- Ez by exact Hn; exact Z0|]. intros i Hi. rewrite <- !Ez, <- Ea, <- Ed by (try exact Hi; apply nxt_lt; exact Hn). apply R, Hi.
Qed.
Lemma Forall2_nth {A B} (R : A -> B -> Prop) l r k a : Forall2 R l r -> nth_error l k = Some a -> exists b, nth_error r k = Some b /\ R a b.
Proof.
  intros F. revert k. induction F as [|x y l r H F IH]; intros [|k] E; cbn [nth_error] in *; try discriminate E.
  - injection E as <-. exists y. split; [reflexivity|exact H].
  - apply IH, E.
Qed.
Lemma Forall2_len {A B} (R : A -> B -> Prop) l r : Forall2 R l r -> length l = length r.
Proof. induction 1 as [|x y l r H F IH]; [reflexivity|]. cbn [length]. now rewrite IH. Qed.
Lemma Forall2_comp {A B C} (R : A -> B -> Prop) (S : B -> C -> Prop) l m r : Forall2 R l m -> Forall2 S m r -> Forall2 (fun a c => exists b, R a b /\ S b c) l r.
Proof.
  intros F. revert r. induction F as [|x y l m H F IH]; intros r G; inversion G; subst; constructor.
  - exists y. split; assumption.
  - apply IH. assumption.
Qed.

(* the calculation of the prover and the running product *)
Lemma z_runs n num den (z : list F3G) a d : calculate_Z num den = Ok z -> length num = n -> 
  (forall i, i < n -> val (nth i num e_ZERO) = a i) -> (forall i, i < n -> val (nth i den e_ZERO) = d i) -> running n (fun i => val (nth i z e_ZERO)) a d.
Proof.
  intros E L Ea Ed. destruct (calculate_Z_spec num den z E) as [Lz [Z0 R]]. rewrite L in *. split; [exact Z0|]. intros i Hi. rewrite <- Ea, <- Ed by exact Hi. apply R, Hi.
Qed.
Lemma list_vals n (l : list F3G) a : length l = n -> (forall i, i < n -> val (nth i l e_ZERO) = a i) -> map val l = map a (seq 0 n).
Proof.
  intros L E. apply (nth_ext _ _ (val e_ZERO) (a 0)); [rewrite !map_length, seq_length; exact L|]. intros i Hi. rewrite map_length in Hi.
  rewrite map_nth, (map_nth a (seq 0 n) 0), seq_nth by lia. apply E. lia.
Qed.
Lemma z_exists n num den a d : 0 < n -> length num = n -> length den = n ->
  (forall i, i < n -> val (nth i num e_ZERO) = a i) -> (forall i, i < n -> val (nth i den e_ZERO) = d i) ->
  kprod (map a (seq 0 n)) = kprod (map d (seq 0 n)) ->
  ((exists z, calculate_Z num den = Ok z) <-> (forall i, i < n -> d i <> kzero)).
Proof.
  intros Hn La Ld Ea Ed P. rewrite calculate_Z_iff'. split.
  - intros [_ [_ [F _]]] i Hi. rewrite <- Ed by exact Hi. rewrite Forall_forall in F. apply F. apply nth_In. lia.
  - intros NZ. split; [lia|]. split; [intros ->; cbn in La; lia|]. split.
    + apply Forall_forall. intros x Hx. destruct (In_nth _ _ e_ZERO Hx) as [i [Hi <-]]. rewrite Ed by lia. apply NZ. lia.
    + rewrite <- !kprod_fold, (list_vals n num a La Ea), (list_vals n den d Ld Ed). exact P.
Qed.

Section Gen.
  Variables (fl : nat) (l1 : option nat) (s : astate) (ls : list lident) (s2 : astate) (pu : list pcctx9) (code2 : list instr * nat)
            (ps : list lident) (cs : list cident) (out : step3out).
  Hypothesis E2 : generate_step2 fl s ls = Ok (s2, pu, code2).
  Hypothesis E3 : generate_step3 fl l1 s2 pu ps cs = Ok out.
  Let final := a_exps (o_state out).
  Let ids := a_ids (o_state out).

  Lemma gen_all :
    Forall2 (fun pi q => zcon l1 final ids q /\ lookup_nd final q /\ lookup_ft final pi q) ls (o_pu out) /\
    Forall2 (fun pi q => zcon l1 final ids q /\ perm_nd final q /\ perm_ft final pi q) ps (o_pe out) /\
    Forall2 (fun ci q => zcon l1 final ids q /\ conn_nd final ci q) cs (o_ci out) /\
    pre (a_exps s) final /\ pre (a_ids s) ids /\
    flat_map (fun q => [q_h1 q; q_h2 q]) (o_pu out) ++ map q_z (o_pu out ++ o_pe out ++ o_ci out) =
      seq (a_ncm s) (3 * length ls + length ps + length cs).
  Proof.
    unfold generate_step2 in E2. apply bind_ok in E2. destruct E2 as [[sa qa] [Ea Eb]]. cbn [fst snd] in Eb. destruct (close_code sa) as [code sb] eqn:EC.
    assert (sb = s2) by congruence. assert (qa = pu) by congruence. subst sb qa. clear Eb.
    apply close_code_inv in EC. destruct EC as [C1 [C2 C3]]. apply step2_loop_ok in Ea. destruct Ea as [G1 [L1 [H1 N1]]].
    unfold generate_step3 in E3. apply bind_ok in E3. destruct E3 as [[s3 pe] [Ep E3a]]. apply bind_ok in E3a. destruct E3a as [[s4 pu'] [Eq E3b]].
    apply bind_ok in E3b. destruct E3b as [[s5 pe'] [Er E3c]]. apply bind_ok in E3c. destruct E3c as [[s6 ci] [Ec E3d]]. cbn [fst snd] in *.
    destruct (close_code s6) as [code3 s7] eqn:EC3. apply close_code_inv in EC3. destruct EC3 as [D1 [D2 D3]].
    assert (EO : mkS3 s7 pu' pe' ci code3 = out) by congruence. clear E3d. rename EO into E3d.
    assert (F1 : final = a_exps s6) by (unfold final; rewrite <- E3d; exact D1). assert (F2 : ids = a_ids s6) by (unfold ids; rewrite <- E3d; exact D2).
    assert (O1 : o_pu out = pu') by (rewrite <- E3d; reflexivity). assert (O2 : o_pe out = pe') by (rewrite <- E3d; reflexivity). assert (O3 : o_ci out = ci) by (rewrite <- E3d; reflexivity).
    clear E3d. apply perm_lc_ok in Ep. destruct Ep as [G3 [L3 N3]]. apply plookup_z_ok in Eq. destruct Eq as [G4 [L4 [Z4 N4]]].
    apply perm_z_ok in Er. destruct Er as [G5 [L5 [Z5 N5]]]. apply conn_z_ok in Ec. destruct Ec as [G6 [L6 [Z6 N6]]].
    assert (P36 : grow s3 s6) by (eapply grow_trans; [exact G4|eapply grow_trans; [exact G5|exact G6]]).
    assert (P46 : grow s4 s6) by (eapply grow_trans; [exact G5|exact G6]).
    rewrite O1, O2, O3, F1, F2. split; [|split; [|split; [|split; [|split]]]].
    - apply (Forall2_mono (fun a c => exists b, lookup_ft (a_exps sa) a b /\ zdone l1 lookup_nd (a_exps s4) (a_ids s4) b c)); [|eapply Forall2_comp; eassumption].
      intros pi q [q0 [FT [ZC [ND [A [B [C D]]]]]]]. split; [eapply zcon_mono; [apply P46|apply P46|exact ZC]|]. split; [eapply lookup_nd_mono; [apply P46|exact ND]|].
      assert (PT : pre (a_exps sa) (a_exps s6)) by (rewrite <- C1; eapply pre_trans; [apply G3|apply P36]).
      apply (lookup_ft_mono _ _ _ _ PT). destruct FT as [ts [fs FT]]. exists ts, fs. rewrite A, B. exact FT.
    - apply (Forall2_mono (fun a c => exists b, perm_ft (a_exps s3) a b /\ zdone l1 perm_nd (a_exps s5) (a_ids s5) b c)); [|eapply Forall2_comp; eassumption].
      intros pi q [q0 [FT [ZC [ND [A [B [C D]]]]]]]. split; [eapply zcon_mono; [apply G6|apply G6|exact ZC]|]. split; [eapply perm_nd_mono; [apply G6|exact ND]|].
      apply (perm_ft_mono (a_exps s3)); [apply P36|]. destruct FT as [ts [fs FT]]. exists ts, fs. rewrite A, B. exact FT.
    - exact L6.
    - eapply pre_trans; [apply G1|]. rewrite <- C1. eapply pre_trans; [apply G3|apply P36].
    - eapply pre_trans; [apply G1|]. rewrite <- C2. eapply pre_trans; [apply G3|apply P36].
    - assert (HH : flat_map (fun q => [q_h1 q; q_h2 q]) pu' = flat_map (fun q => [q_h1 q; q_h2 q]) pu).
      { clear -L4. induction L4 as [|q q' l r H F IH]; [reflexivity|]. cbn [flat_map]. rewrite IH. destruct H as [_ [_ [_ [_ [-> ->]]]]]. reflexivity. }
      pose proof (Forall2_len _ _ _ L1) as Y1. pose proof (Forall2_len _ _ _ L3) as Y3.
      rewrite HH, H1, !map_app, Z4, Z5, Z6, <- Y1, <- Y3, N5, N4, N3, C3, N1, <- Y1, <- Y3.
      replace (3 * length ls + length ps + length cs) with (2 * length ls + (length ls + (length ps + length cs))) by lia. rewrite !seq_app. reflexivity.
  Qed.

  (* ---- lookups ---- *)
  Definition lk_t (ch : nat -> K) (T : nat -> list K) (sT : nat -> K) (i : nat) : K := sel (sT i) (hor (ch 0) (T i)) (ch 1).
  Definition lk_f (ch : nat -> K) (F T : nat -> list K) (sF sT : nat -> K) (i : nat) : K := sel (sF i) (hor (ch 0) (F i)) (lk_t ch T sT i).
  (* a trace with the columns F and T of a lookup *)
  Record lookup_trace (pi : lident) (tbl : list expr) (n : nat) (w : K) (ch : nat -> K) (rho : nat -> node -> F3G) (F T : nat -> list K) (sF sT : nat -> K) : Prop := mkLT {
    lt_rows : rows n w l1 ch rho;
    lt_pos : 0 < n;
    lt_f : exists fs, l_f pi = Some fs /\ fs <> [] /\ cols tbl rho n false fs F;
    lt_t : exists ts, l_t pi = Some ts /\ ts <> [] /\ forall p, cols tbl rho n p ts T;
    lt_sf : selcol tbl rho n false (l_selF pi) sF;
    lt_st : forall p, selcol tbl rho n p (l_selT pi) sT
  }.
  Lemma lookup_cols pi q tbl n w ch rho F T sF sT : pre final tbl -> lookup_ft final pi q -> lookup_trace pi tbl n w ch rho F T sF sT ->
    has_col tbl rho n (q_f q) (lk_f ch F T sF sT) /\ has_col tbl rho n (q_t q) (lk_t ch T sT) /\
    (forall i, i < n -> va tbl (rho i) true (E_exp (q_t q) false) (lk_t ch T sT (nxt n i))).
  Proof.
    intros P [ts [fs [Et [Ef [N1 N2]]]]] [R Hn [fs' [Ef' [Nf Cf]]] [ts' [Et' [Nt Ct]]] Sf St].
    assert (fs' = fs) by congruence. assert (ts' = ts) by congruence. subst fs' ts'.
    apply (pre_nth _ _ _ _ P) in N1, N2.
    assert (HU : forall i p, va tbl (rho i) p U (ch 0)) by (intros i p; eapply va_eq; [apply va_challenge|apply (r_ch _ _ _ _ _ R)]).
    assert (HD : forall i p, va tbl (rho i) p DEFVAL (ch 1)) by (intros i p; eapply va_eq; [apply va_challenge|apply (r_ch _ _ _ _ _ R)]).
    assert (T0 : forall i p, i < n -> va tbl (rho i) p (E_exp (q_t q) false) (lk_t ch T sT (at_row n p i))).
    { intros i p Hi. eapply va_exp; [exact N1|reflexivity|]. cbn [orb]. apply va_kept. unfold lk_t. apply selected_va; [apply St, Hi|apply HD|].
      apply lc_t_va; [apply HU|apply Ct, Hi|exact Nt]. }
    split; [|split].
    - intros i Hi. eapply va_exp; [exact N2|reflexivity|]. cbn [orb]. apply va_kept. unfold lk_f. apply selected_va; [apply (Sf i Hi)|apply (T0 i false Hi)|].
      apply lc_f_va; [apply HU|apply (Cf i Hi)|exact Nf].
    - intros i Hi. apply (T0 i false Hi).
    - intros i Hi. apply (T0 i true Hi).
  Qed.
  Theorem lookup_meaning : forall k pi, nth_error ls k = Some pi -> exists q, nth_error (o_pu out) k = Some q /\
    In (q_c1 q) ids /\ In (q_c2 q) ids /\
    forall tbl n w ch rho F T sF sT, pre final tbl -> lookup_trace pi tbl n w ch rho F T sF sT ->
      let f := lk_f ch F T sF sT in let t := lk_t ch T sT in
      let num := lk_num n f t (ch 3) (ch 2) in let den := lk_den n (cmcol rho (q_h1 q)) (cmcol rho (q_h2 q)) (ch 3) (ch 2) in
      has_col tbl rho n (q_f q) f /\ has_col tbl rho n (q_t q) t /\ has_col tbl rho n (q_num q) num /\ has_col tbl rho n (q_den q) den /\
      (vanishes tbl rho n (q_c1 q) /\ vanishes tbl rho n (q_c2 q) <-> running n (cmcol rho (q_z q)) num den).
  Proof.
    intros k pi Ek. destruct gen_all as [GA _]. destruct (Forall2_nth _ _ _ _ _ GA Ek) as [q [Eq [ZC [ND FT]]]]. exists q. split; [exact Eq|].
    split; [destruct ZC as [l [_ [A _]]]; exact A|]. split; [destruct ZC as [l [_ [_ [A _]]]]; exact A|].
    intros tbl n w ch rho F T sF sT P TR. cbv zeta. destruct (lookup_cols pi q tbl n w ch rho F T sF sT P FT TR) as [CF [CT CP]].
    destruct ND as [N1 N2]. apply (pre_nth _ _ _ _ P) in N1, N2. pose proof (lt_rows _ _ _ _ _ _ _ _ _ _ TR) as R.
    assert (HG : forall i p, va tbl (rho i) p GAMMA (ch 2)) by (intros i p; eapply va_eq; [apply va_challenge|apply (r_ch _ _ _ _ _ R)]).
    assert (HB : forall i p, va tbl (rho i) p BETA (ch 3)) by (intros i p; eapply va_eq; [apply va_challenge|apply (r_ch _ _ _ _ _ R)]).
    assert (H1 : forall i p, va tbl (rho i) p ONE_ kone) by (intros i p; eapply va_eq; [apply va_number|rewrite (r_num _ _ _ _ _ R); reflexivity]).
    assert (A1 : has_col tbl rho n (q_num q) (lk_num n (lk_f ch F T sF sT) (lk_t ch T sT) (ch 3) (ch 2))).
    { intros i Hi. eapply va_exp; [exact N1|reflexivity|]. cbn [orb]. apply va_kept. unfold lk_num.
      repeat first [apply va_mul | apply va_add]; try apply HG; try apply HB; try apply H1.
      - exact (CF i Hi).
      - exact (CT i Hi).
      - destruct (CP i Hi) as [v [D Ev]]. inversion D; subst; try discriminate.
        match goal with A : e_id (E_exp _ _) = Some _, B : nth_error tbl _ = Some _ |- _ => cbn [e_id E_exp] in A; injection A as <-; eapply va_exp; [exact B|reflexivity|] end.
        eexists. split; [eassumption|exact Ev]. }
    assert (A2 : has_col tbl rho n (q_den q) (lk_den n (cmcol rho (q_h1 q)) (cmcol rho (q_h2 q)) (ch 3) (ch 2))).
    { intros i Hi. eapply va_exp; [exact N2|reflexivity|]. cbn [orb]. apply va_kept. unfold lk_den.
      repeat first [apply va_mul | apply va_add]; try apply HG; try apply HB; try apply H1; try (apply va_cm; reflexivity).
      eapply va_eq; [apply va_cm; reflexivity|]. cbn [orb]. rewrite (r_cm _ _ _ _ _ R i (q_h1 q) Hi). reflexivity. }
    split; [exact CF|]. split; [exact CT|]. split; [exact A1|]. split; [exact A2|].
    assert (ZC' : zcon l1 tbl ids q) by (eapply zcon_mono; [exact P|apply pre_refl|exact ZC]).
    exact (zcon_running l1 tbl ids q n w ch rho _ _ ZC' R (lt_pos _ _ _ _ _ _ _ _ _ _ TR) A1 A2).
  Qed.

  (* a trace that passes the constraints of a lookup, for given challenges and columns h1 and h2 *)
  Definition lookup_passes (pi : lident) (q : pcctx9) (tbl : list expr) (n : nat) (w : K) (F T : nat -> list K) (sF sT : nat -> K)
      (u d : K) (h1 h2 : nat -> K) (b g : K) : Prop := exists ch rho,
    ch 0 = u /\ ch 1 = d /\ ch 2 = g /\ ch 3 = b /\ lookup_trace pi tbl n w ch rho F T sF sT /\
    (forall i, i < n -> cmcol rho (q_h1 q) i = h1 i /\ cmcol rho (q_h2 q) i = h2 i) /\
    vanishes tbl rho n (q_c1 q) /\ vanishes tbl rho n (q_c2 q).
  Theorem lookup_secure : forall k pi, nth_error ls k = Some pi -> exists q, nth_error (o_pu out) k = Some q /\
    forall tbl n m w F T sF sT, pre final tbl ->
      (forall i, i < n -> length (F i) = m /\ length (T i) = m /\ bit (sF i) /\ bit (sT i)) ->
      many (n * n * (m - 1)) (fun u => many n (fun d => exists h1 h2, many (1 + 4 * n * n) (fun b => many (2 * n) (fun g =>
        lookup_passes pi q tbl n w F T sF sT u d h1 h2 b g)))) ->
      forall i, i < n -> sF i = kone -> exists j, j < n /\ sT j = kone /\ T j = F i.
  Proof.
    intros k pi Ek. destruct (lookup_meaning k pi Ek) as [q [Eq [_ [_ ME]]]]. exists q. split; [exact Eq|].
    intros tbl n m w F T sF sT P W M. apply (lookup_rows n m F T sF sT W). revert M. apply many_mono. intros u. apply many_mono. intros d [h1 [h2 M]].
    exists h1, h2. revert M. apply many_mono. intros b. apply many_mono. intros g [ch [rho [<- [<- [<- [<- [TR [HH [V1 V2]]]]]]]]].
    specialize (ME tbl n w ch rho F T sF sT P TR). cbv zeta in ME. destruct ME as [_ [_ [_ [_ ME]]]]. exists (cmcol rho (q_z q)). cbv zeta.
    pose proof (proj1 ME (conj V1 V2)) as V2'. revert V2'. apply running_ext; [reflexivity|reflexivity| |exact (lt_pos _ _ _ _ _ _ _ _ _ _ TR)].
    intros i Hi. pose proof (nxt_lt n i (lt_pos _ _ _ _ _ _ _ _ _ _ TR)) as Hx. unfold lk_den. destruct (HH i Hi) as [-> ->]. destruct (HH _ Hx) as [-> _]. reflexivity.
  Qed.
  (* the columns of the honest prover *)
  Theorem lookup_honest : forall k pi, nth_error ls k = Some pi -> exists q, nth_error (o_pu out) k = Some q /\
    forall tbl n w ch rho F T sF sT, pre final tbl -> lookup_trace pi tbl n w ch rho F T sF sT ->
    forall f t h1 h2 num den : list F3G, length f = n -> length t = n -> length num = n -> length den = n ->
      (forall i, i < n -> va tbl (rho i) false (E_exp (q_f q) false) (val (nth i f e_ZERO)) /\ va tbl (rho i) false (E_exp (q_t q) false) (val (nth i t e_ZERO)) /\
        va tbl (rho i) false (E_exp (q_num q) false) (val (nth i num e_ZERO)) /\ va tbl (rho i) false (E_exp (q_den q) false) (val (nth i den e_ZERO)) /\
        cmcol rho (q_h1 q) i = val (nth i h1 e_ZERO) /\ cmcol rho (q_h2 q) i = val (nth i h2 e_ZERO)) ->
      calculate_H1H2 f t = Ok (h1, h2) ->
      ((exists z, calculate_Z num den = Ok z) <-> (forall i, i < n -> val (nth i den e_ZERO) <> kzero)) /\
      forall z, calculate_Z num den = Ok z -> (forall i, i < n -> cmcol rho (q_z q) i = val (nth i z e_ZERO)) ->
        vanishes tbl rho n (q_c1 q) /\ vanishes tbl rho n (q_c2 q).
  Proof.
    intros k pi Ek. destruct (lookup_meaning k pi Ek) as [q [Eq [_ [_ ME]]]]. exists q. split; [exact Eq|].
    intros tbl n w ch rho F T sF sT P TR f t h1 h2 num den Lf Lt Ln Ld C EH.
    specialize (ME tbl n w ch rho F T sF sT P TR). cbv zeta in ME. destruct ME as [CF [CT [CN [CD ME]]]]. pose proof (lt_pos _ _ _ _ _ _ _ _ _ _ TR) as Hn.
    set (lf := lk_f ch F T sF sT) in *. set (lt := lk_t ch T sT) in *.
    assert (EF : forall i, i < n -> val (nth i f e_ZERO) = lf i) by (intros i Hi; exact (va_fun _ _ _ _ _ _ (proj1 (C i Hi)) (CF i Hi))).
    assert (ET : forall i, i < n -> val (nth i t e_ZERO) = lt i) by (intros i Hi; exact (va_fun _ _ _ _ _ _ (proj1 (proj2 (C i Hi))) (CT i Hi))).
    assert (EN : forall i, i < n -> val (nth i num e_ZERO) = lk_num n lf lt (ch 3) (ch 2) i) by (intros i Hi; exact (va_fun _ _ _ _ _ _ (proj1 (proj2 (proj2 (C i Hi)))) (CN i Hi))).
    assert (ED : forall i, i < n -> val (nth i den e_ZERO) = lk_den n (cmcol rho (q_h1 q)) (cmcol rho (q_h2 q)) (ch 3) (ch 2) i)
      by (intros i Hi; exact (va_fun _ _ _ _ _ _ (proj1 (proj2 (proj2 (proj2 (C i Hi))))) (CD i Hi))).
    assert (PR : kprod (map (lk_num n lf lt (ch 3) (ch 2)) (seq 0 n)) = kprod (map (lk_den n (cmcol rho (q_h1 q)) (cmcol rho (q_h2 q)) (ch 3) (ch 2)) (seq 0 n))).
    { pose proof (lookup_products n f t h1 h2 Hn Lf Lt EH (ch 3) (ch 2)) as LP. cbv zeta in LP.
      transitivity (kprod (map (lk_num n (fun i => val (nth i f e_ZERO)) (fun i => val (nth i t e_ZERO)) (ch 3) (ch 2)) (seq 0 n))).
      - refine (f_equal kprod _). apply map_ext_in. intros i Hi. apply in_seq in Hi. assert (Hi' : i < n) by lia. pose proof (nxt_lt n i Hn) as Hx.
        unfold lk_num. rewrite <- (EF i Hi'), <- (ET i Hi'), <- (ET _ Hx). reflexivity.
      - rewrite LP. refine (f_equal kprod _). apply map_ext_in. intros i Hi. apply in_seq in Hi. assert (Hi' : i < n) by lia. pose proof (nxt_lt n i Hn) as Hx.
        destruct (C i Hi') as [_ [_ [_ [_ [X1 X2]]]]]. destruct (C _ Hx) as [_ [_ [_ [_ [X3 _]]]]]. unfold lk_den. rewrite X1, X2, X3. reflexivity. }
    split.
    - rewrite (z_exists n num den _ _ Hn Ln Ld EN ED PR). split; intros H i Hi; [rewrite ED by exact Hi|rewrite <- ED by exact Hi]; apply H, Hi.
    - intros z EZ CZ. apply ME. pose proof (z_runs n num den z _ _ EZ Ln EN ED) as RU. revert RU. apply running_ext; [|reflexivity|reflexivity|exact Hn].
      intros i Hi. symmetry. apply CZ, Hi.
  Qed.

  (* ---- permutations ---- *)
  Definition pm (ch : nat -> K) (F : nat -> list K) (sF : nat -> K) (i : nat) : K := sel (sF i) (hor (ch 0) (F i)) (ch 1).
  Record perm_trace (pi : lident) (tbl : list expr) (n : nat) (w : K) (ch : nat -> K) (rho : nat -> node -> F3G) (F T : nat -> list K) (sF sT : nat -> K) : Prop := mkPT {
    pt_rows : rows n w l1 ch rho;
    pt_pos : 0 < n;
    pt_f : exists fs, l_f pi = Some fs /\ fs <> [] /\ cols tbl rho n false fs F;
    pt_t : exists ts, l_t pi = Some ts /\ ts <> [] /\ cols tbl rho n false ts T;
    pt_sf : selcol tbl rho n false (l_selF pi) sF;
    pt_st : selcol tbl rho n false (l_selT pi) sT
  }.
  Theorem perm_meaning : forall k pi, nth_error ps k = Some pi -> exists q, nth_error (o_pe out) k = Some q /\
    In (q_c1 q) ids /\ In (q_c2 q) ids /\
    forall tbl n w ch rho F T sF sT, pre final tbl -> perm_trace pi tbl n w ch rho F T sF sT ->
      let num := fun i => kadd (pm ch F sF i) (ch 3) in let den := fun i => kadd (pm ch T sT i) (ch 3) in
      has_col tbl rho n (q_f q) (pm ch F sF) /\ has_col tbl rho n (q_t q) (pm ch T sT) /\ has_col tbl rho n (q_num q) num /\ has_col tbl rho n (q_den q) den /\
      (vanishes tbl rho n (q_c1 q) /\ vanishes tbl rho n (q_c2 q) <-> running n (cmcol rho (q_z q)) num den).
  Proof.
    intros k pi Ek. destruct gen_all as [_ [GA _]]. destruct (Forall2_nth _ _ _ _ _ GA Ek) as [q [Eq [ZC [ND FT]]]]. exists q. split; [exact Eq|].
    split; [destruct ZC as [l [_ [A _]]]; exact A|]. split; [destruct ZC as [l [_ [_ [A _]]]]; exact A|].
    intros tbl n w ch rho F T sF sT P TR. cbv zeta. destruct TR as [R Hn [fs' [Ef' [Nf Cf]]] [ts' [Et' [Nt Ct]]] Sf St].
    destruct FT as [ts [fs [Et [Ef [N1 N2]]]]]. assert (fs' = fs) by congruence. assert (ts' = ts) by congruence. subst fs' ts'.
    destruct ND as [N3 N4]. apply (pre_nth _ _ _ _ P) in N1, N2, N3, N4.
    assert (HU : forall i, va tbl (rho i) false U (ch 0)) by (intros i; eapply va_eq; [apply va_challenge|apply (r_ch _ _ _ _ _ R)]).
    assert (HD : forall i, va tbl (rho i) false DEFVAL (ch 1)) by (intros i; eapply va_eq; [apply va_challenge|apply (r_ch _ _ _ _ _ R)]).
    assert (HB : forall i, va tbl (rho i) false BETA (ch 3)) by (intros i; eapply va_eq; [apply va_challenge|apply (r_ch _ _ _ _ _ R)]).
    assert (CT : has_col tbl rho n (q_t q) (pm ch T sT)).
    { intros i Hi. eapply va_exp; [exact N1|reflexivity|]. cbn [orb]. unfold pm. apply selected_va; [apply (St i Hi)|apply HD|]. apply lc_t_va; [apply HU|apply (Ct i Hi)|exact Nt]. }
    assert (CF : has_col tbl rho n (q_f q) (pm ch F sF)).
    { intros i Hi. eapply va_exp; [exact N2|reflexivity|]. cbn [orb]. unfold pm. apply selected_va; [apply (Sf i Hi)|apply HD|]. apply lc_f_va; [apply HU|apply (Cf i Hi)|exact Nf]. }
    assert (A1 : has_col tbl rho n (q_num q) (fun i => kadd (pm ch F sF i) (ch 3))).
    { intros i Hi. eapply va_exp; [exact N3|reflexivity|]. cbn [orb]. apply va_kept. apply va_add; [exact (CF i Hi)|apply HB]. }
    assert (A2 : has_col tbl rho n (q_den q) (fun i => kadd (pm ch T sT i) (ch 3))).
    { intros i Hi. eapply va_exp; [exact N4|reflexivity|]. cbn [orb]. apply va_kept. apply va_add; [exact (CT i Hi)|apply HB]. }
    split; [exact CF|]. split; [exact CT|]. split; [exact A1|]. split; [exact A2|].
    assert (ZC' : zcon l1 tbl ids q) by (eapply zcon_mono; [exact P|apply pre_refl|exact ZC]).
    exact (zcon_running l1 tbl ids q n w ch rho _ _ ZC' R Hn A1 A2).
  Qed.
  Definition perm_passes (pi : lident) (q : pcctx9) (tbl : list expr) (n : nat) (w : K) (F T : nat -> list K) (sF sT : nat -> K) (u d b : K) : Prop := exists ch rho,
    ch 0 = u /\ ch 1 = d /\ ch 3 = b /\ perm_trace pi tbl n w ch rho F T sF sT /\ vanishes tbl rho n (q_c1 q) /\ vanishes tbl rho n (q_c2 q).
  Theorem perm_secure : forall k pi, nth_error ps k = Some pi -> exists q, nth_error (o_pe out) k = Some q /\
    forall tbl n m w F T sF sT, pre final tbl ->
      (forall i, i < n -> length (F i) = m /\ length (T i) = m /\ bit (sF i) /\ bit (sT i)) ->
      many (n * n * (m - 1)) (fun u => many (2 * n) (fun d => many n (fun b => perm_passes pi q tbl n w F T sF sT u d b))) ->
      Permutation (map F (filter (fun i => isone (sF i)) (seq 0 n))) (map T (filter (fun i => isone (sT i)) (seq 0 n))).
  Proof.
    intros k pi Ek. destruct (perm_meaning k pi Ek) as [q [Eq [_ [_ ME]]]]. exists q. split; [exact Eq|].
    intros tbl n m w F T sF sT P W M. apply (perm_rows n m F T sF sT W). revert M. apply many_mono. intros u. apply many_mono. intros d. apply many_mono.
    intros b [ch [rho [<- [<- [<- [TR [V1 V2]]]]]]].
    specialize (ME tbl n w ch rho F T sF sT P TR). cbv zeta in ME. destruct ME as [_ [_ [_ [_ ME]]]]. exists (cmcol rho (q_z q)).
    exact (proj1 ME (conj V1 V2)).
  Qed.
  Theorem perm_honest : forall k pi, nth_error ps k = Some pi -> exists q, nth_error (o_pe out) k = Some q /\
    forall tbl n w ch rho F T sF sT, pre final tbl -> perm_trace pi tbl n w ch rho F T sF sT ->
      (forall i, i < n -> bit (sF i) /\ bit (sT i)) ->
      Permutation (map F (filter (fun i => isone (sF i)) (seq 0 n))) (map T (filter (fun i => isone (sT i)) (seq 0 n))) ->
    forall num den : list F3G, length num = n -> length den = n ->
      (forall i, i < n -> va tbl (rho i) false (E_exp (q_num q) false) (val (nth i num e_ZERO)) /\ va tbl (rho i) false (E_exp (q_den q) false) (val (nth i den e_ZERO))) ->
      ((exists z, calculate_Z num den = Ok z) <-> (forall i, i < n -> val (nth i den e_ZERO) <> kzero)) /\
      forall z, calculate_Z num den = Ok z -> (forall i, i < n -> cmcol rho (q_z q) i = val (nth i z e_ZERO)) ->
        vanishes tbl rho n (q_c1 q) /\ vanishes tbl rho n (q_c2 q).
  Proof.
    intros k pi Ek. destruct (perm_meaning k pi Ek) as [q [Eq [_ [_ ME]]]]. exists q. split; [exact Eq|].
    intros tbl n w ch rho F T sF sT P TR BI PE num den Ln Ld C.
    specialize (ME tbl n w ch rho F T sF sT P TR). cbv zeta in ME. destruct ME as [_ [_ [CN [CD ME]]]]. pose proof (pt_pos _ _ _ _ _ _ _ _ _ _ TR) as Hn.
    assert (EN : forall i, i < n -> val (nth i num e_ZERO) = kadd (pm ch F sF i) (ch 3)) by (intros i Hi; exact (va_fun _ _ _ _ _ _ (proj1 (C i Hi)) (CN i Hi))).
    assert (ED : forall i, i < n -> val (nth i den e_ZERO) = kadd (pm ch T sT i) (ch 3)) by (intros i Hi; exact (va_fun _ _ _ _ _ _ (proj2 (C i Hi)) (CD i Hi))).
    assert (PR : kprod (map (fun i => kadd (pm ch F sF i) (ch 3)) (seq 0 n)) = kprod (map (fun i => kadd (pm ch T sT i) (ch 3)) (seq 0 n))).
    { rewrite <- (map_map (pm ch F sF) (fun x => kadd x (ch 3))), <- (map_map (pm ch T sT) (fun x => kadd x (ch 3))). apply kprod_perm, Permutation_map.
      apply (select_perm n (ch 0) (ch 1) F T sF sT BI PE). }
    split.
    - rewrite (z_exists n num den _ _ Hn Ln Ld EN ED PR). split; intros H i Hi; [rewrite ED by exact Hi|rewrite <- ED by exact Hi]; apply H, Hi.
    - intros z EZ CZ. apply ME. pose proof (z_runs n num den z _ _ EZ Ln EN ED) as RU. revert RU. apply running_ext; [|reflexivity|reflexivity|exact Hn].
      intros i Hi. symmetry. apply CZ, Hi.
  Qed.

  (* ---- connections ---- *)
  Definition lbl (w : K) (c i : nat) : K := kmul (kconst (fpow ks0 c)) (kpow w i).
  Record conn_trace (ci : cident) (tbl : list expr) (n k : nat) (w : K) (ch : nat -> K) (rho : nat -> node -> F3G) (p con : nat -> nat -> K) : Prop := mkCT {
    ct_rows : rows n w l1 ch rho;
    ct_pos : 0 < n;
    ct_cols : exists pols conns, ci_pols ci = Some pols /\ ci_conns ci = Some conns /\ length pols = k /\
      forall c, c < k -> has_col tbl rho n (nth c pols 0) (p c) /\ has_col tbl rho n (nth c conns 0) (con c)
  }.
  Lemma chain_va tbl n w ch rho (p con : nat -> nat -> K) : rows n w l1 ch rho -> forall pols num den conns ks num' den' c0 X Y,
    chain tbl num den pols conns ks num' den' ->
    (forall m, m < length pols -> has_col tbl rho n (nth m pols 0) (p (c0 + m)) /\ has_col tbl rho n (nth m conns 0) (con (c0 + m)) /\ nth m ks f0 = fpow ks0 (c0 + m)) ->
    has_col tbl rho n num X -> has_col tbl rho n den Y ->
    has_col tbl rho n num' (fun i => kmul (X i) (kprod (map (fun c => kadd (pairv (ch 3) (p c i, lbl w c i)) (ch 2)) (seq c0 (length pols))))) /\
    has_col tbl rho n den' (fun i => kmul (Y i) (kprod (map (fun c => kadd (pairv (ch 3) (p c i, con c i)) (ch 2)) (seq c0 (length pols))))).
  Proof.
    intros R. assert (HG : forall i, va tbl (rho i) false GAMMA (ch 2)) by (intros i; eapply va_eq; [apply va_challenge|apply (r_ch _ _ _ _ _ R)]).
    assert (HB : forall i, va tbl (rho i) false BETA (ch 3)) by (intros i; eapply va_eq; [apply va_challenge|apply (r_ch _ _ _ _ _ R)]).
    induction pols as [|pp pols IH]; intros num den conns ks num' den' c0 X Y CH W HX HY.
    - destruct CH as [-> ->]. cbn [length seq map kprod]. split; intros i Hi; (eapply va_eq; [first [apply HX, Hi|apply HY, Hi]|]; ring).
    - cbn [chain] in CH. destruct CH as [k [ks' [c [conns' [m [d [-> [-> [N1 [N2 CH]]]]]]]]]].
      destruct (W 0) as [W1 [W2 W3]]; [cbn [length]; lia|]. cbn [nth] in W1, W2, W3. rewrite Nat.add_0_r in W1, W2, W3.
      destruct (IH m d conns' ks' num' den' (S c0) (fun i => kmul (X i) (kadd (pairv (ch 3) (p c0 i, lbl w c0 i)) (ch 2))) (fun i => kmul (Y i) (kadd (pairv (ch 3) (p c0 i, con c0 i)) (ch 2))) CH) as [A B].
      + intros j Hj. specialize (W (S j)). cbn [nth length] in W. replace (S c0 + j) with (c0 + S j) by lia. apply W. lia.
      + intros i Hi. eapply va_exp; [exact N1|reflexivity|]. cbn [orb]. apply va_kept. unfold num_exp1.
        eapply va_eq; [apply va_mul; [apply HX, Hi|apply va_add; [apply va_add; [apply W1, Hi|apply va_mul; [apply va_mul; [apply HB|apply va_number]|apply va_x]]|apply HG]]|].
        rewrite (r_num _ _ _ _ _ R), (r_x _ _ _ _ _ R i Hi), fof_int, W3. unfold pairv, lbl. cbn [fst snd]. ring.
      + intros i Hi. eapply va_exp; [exact N2|reflexivity|]. cbn [orb]. apply va_kept. unfold den_exp1, den_exp0.
        eapply va_eq; [apply va_mul; [apply HY, Hi|apply va_add; [apply va_add; [apply W1, Hi|apply va_mul; [apply HB|apply W2, Hi]]|apply HG]]|].
        unfold pairv. cbn [fst snd]. ring.
      + cbn [length seq map kprod]. split; intros i Hi; (eapply va_eq; [first [apply A, Hi|apply B, Hi]|]; ring).
  Qed.
  Theorem conn_meaning : forall k ci, nth_error cs k = Some ci -> exists q, nth_error (o_ci out) k = Some q /\
    In (q_c1 q) ids /\ In (q_c2 q) ids /\
    forall tbl n kc w ch rho p con, pre final tbl -> conn_trace ci tbl n kc w ch rho p con ->
      let num := cn kc p (lbl w) (ch 3) (ch 2) in let den := cn kc p con (ch 3) (ch 2) in
      has_col tbl rho n (q_num q) num /\ has_col tbl rho n (q_den q) den /\
      (vanishes tbl rho n (q_c1 q) /\ vanishes tbl rho n (q_c2 q) <-> running n (cmcol rho (q_z q)) num den).
  Proof.
    intros k ci Ek. destruct gen_all as [_ [_ [GA _]]]. destruct (Forall2_nth _ _ _ _ _ GA Ek) as [q [Eq [ZC ND]]]. exists q. split; [exact Eq|].
    split; [destruct ZC as [l [_ [A _]]]; exact A|]. split; [destruct ZC as [l [_ [_ [A _]]]]; exact A|].
    intros tbl n kc w ch rho p con P TR. cbv zeta. destruct TR as [R Hn [pols' [conns' [Ep [Ec [Lk CC]]]]]].
    destruct ND as [p0 [pols [c0 [conns [ks [num [den [Ep' [Ec' [Ek' [N1 [N2 CH]]]]]]]]]]]].
    assert (pols' = p0 :: pols) by congruence. assert (conns' = c0 :: conns) by congruence. subst pols' conns'. cbn [length] in Lk.
    apply (pre_nth _ _ _ _ P) in N1, N2. apply (chain_mono _ _ P) in CH.
    assert (HG : forall i, va tbl (rho i) false GAMMA (ch 2)) by (intros i; eapply va_eq; [apply va_challenge|apply (r_ch _ _ _ _ _ R)]).
    assert (HB : forall i, va tbl (rho i) false BETA (ch 3)) by (intros i; eapply va_eq; [apply va_challenge|apply (r_ch _ _ _ _ _ R)]).
    destruct (CC 0) as [Cp0 Cc0]; [lia|]. cbn [nth] in Cp0, Cc0.
    assert (X0 : has_col tbl rho n num (fun i => kadd (pairv (ch 3) (p 0 i, lbl w 0 i)) (ch 2))).
    { intros i Hi. eapply va_exp; [exact N1|reflexivity|]. cbn [orb]. apply va_kept. unfold num_exp0.
      eapply va_eq; [apply va_add; [apply va_add; [apply Cp0, Hi|apply va_mul; [apply HB|apply va_x]]|apply HG]|].
      rewrite (r_x _ _ _ _ _ R i Hi). unfold pairv, lbl. cbn [fst snd fpow]. change (kconst f1) with kone. ring. }
    assert (Y0 : has_col tbl rho n den (fun i => kadd (pairv (ch 3) (p 0 i, con 0 i)) (ch 2))).
    { intros i Hi. eapply va_exp; [exact N2|reflexivity|]. cbn [orb]. apply va_kept. unfold den_exp0.
      eapply va_eq; [apply va_add; [apply va_add; [apply Cp0, Hi|apply va_mul; [apply HB|apply Cc0, Hi]]|apply HG]|].
      unfold pairv. cbn [fst snd]. ring. }
    destruct (chain_va tbl n w ch rho p con R pols num den conns ks (q_num q) (q_den q) 1 (fun i : nat => kadd (pairv (ch 3) (p 0 i, lbl w 0 i)) (ch 2)) (fun i : nat => kadd (pairv (ch 3) (p 0 i, con 0 i)) (ch 2)) CH) as [AN AD]; [|exact X0|exact Y0|].
    { intros m Hm. destruct (CC (1 + m)) as [A B]; [lia|]. cbn [nth Nat.add] in A, B. split; [exact A|]. split; [exact B|].
      destruct (get_ks_nth (length pols) m ltac:(lia) Hm) as [ks9 [K1 [_ K2]]]. assert (ks9 = ks) by congruence. subst ks9. apply nth_error_nth. exact K2. }
    assert (A1 : has_col tbl rho n (q_num q) (cn kc p (lbl w) (ch 3) (ch 2))).
    { intros i Hi. eapply va_eq; [exact (AN i Hi)|]. unfold cn. rewrite <- Lk. reflexivity. }
    assert (A2 : has_col tbl rho n (q_den q) (cn kc p con (ch 3) (ch 2))).
    { intros i Hi. eapply va_eq; [exact (AD i Hi)|]. unfold cn. rewrite <- Lk. reflexivity. }
    split; [exact A1|]. split; [exact A2|].
    assert (ZC' : zcon l1 tbl ids q) by (eapply zcon_mono; [exact P|apply pre_refl|exact ZC]).
    exact (zcon_running l1 tbl ids q n w ch rho _ _ ZC' R Hn A1 A2).
  Qed.
  Definition conn_passes (ci : cident) (q : pcctx9) (tbl : list expr) (n kc : nat) (w : K) (p con : nat -> nat -> K) (b g : K) : Prop := exists ch rho,
    ch 2 = g /\ ch 3 = b /\ conn_trace ci tbl n kc w ch rho p con /\ vanishes tbl rho n (q_c1 q) /\ vanishes tbl rho n (q_c2 q).
  Lemma lbl_label e c i : lbl (kconst (root e)) c i = kconst (label e c i).
  Proof. unfold lbl, label. rewrite kconst_mul, (kconst_pow (root e) i). ring. Qed.
  Theorem conn_secure : forall k ci, nth_error cs k = Some ci -> exists q, nth_error (o_ci out) k = Some q /\
    forall tbl e kc p con, pre final tbl -> e <= 32 -> (Z.of_nat kc <= 4294967295)%Z ->
      let n := 2 ^ e in let w := kconst (root e) in
      many (n * kc * (n * kc)) (fun b => many (n * kc) (fun g => conn_passes ci q tbl n kc w p con b g)) ->
      forall c d i j, c < kc -> d < kc -> i < n -> j < n -> con c i = lbl w d j -> p c i = p d j.
  Proof.
    intros k ci Ek. destruct (conn_meaning k ci Ek) as [q [Eq [_ [_ ME]]]]. exists q. split; [exact Eq|].
    intros tbl e kc p con P He Hk n w M. refine (proj2 (connect_sound n kc p (lbl w) con _ _)).
    - intros c d i j Hc Hd Hi Hj E. unfold w in E. rewrite !lbl_label in E. apply kconst_inj in E.
      apply (label_inj_all e c d i j He); [lia|lia|exact Hi|exact Hj|exact E].
    - revert M. apply many_mono. intros b. apply many_mono. intros g [ch [rho [<- [<- [TR [V1 V2]]]]]].
      specialize (ME tbl n kc w ch rho p con P TR). cbv zeta in ME. destruct ME as [_ [_ ME]]. exists (cmcol rho (q_z q)). exact (proj1 ME (conj V1 V2)).
  Qed.
  Theorem conn_honest : forall k ci, nth_error cs k = Some ci -> exists q, nth_error (o_ci out) k = Some q /\
    forall tbl n kc w ch rho p con (sg : nat * nat -> nat * nat), pre final tbl -> conn_trace ci tbl n kc w ch rho p con ->
      (forall x, fst x < kc /\ snd x < n -> fst (sg x) < kc /\ snd (sg x) < n) ->
      (forall x y, fst x < kc /\ snd x < n -> fst y < kc /\ snd y < n -> sg x = sg y -> x = y) ->
      (forall c i, c < kc -> i < n -> con c i = lbl w (fst (sg (c, i))) (snd (sg (c, i))) /\ p c i = p (fst (sg (c, i))) (snd (sg (c, i)))) ->
    forall num den : list F3G, length num = n -> length den = n ->
      (forall i, i < n -> va tbl (rho i) false (E_exp (q_num q) false) (val (nth i num e_ZERO)) /\ va tbl (rho i) false (E_exp (q_den q) false) (val (nth i den e_ZERO))) ->
      ((exists z, calculate_Z num den = Ok z) <-> (forall i, i < n -> val (nth i den e_ZERO) <> kzero)) /\
      forall z, calculate_Z num den = Ok z -> (forall i, i < n -> cmcol rho (q_z q) i = val (nth i z e_ZERO)) ->
        vanishes tbl rho n (q_c1 q) /\ vanishes tbl rho n (q_c2 q).
  Proof.
    intros k ci Ek. destruct (conn_meaning k ci Ek) as [q [Eq [_ [_ ME]]]]. exists q. split; [exact Eq|].
    intros tbl n kc w ch rho p con sg P TR S1 S2 S3 num den Ln Ld C.
    specialize (ME tbl n kc w ch rho p con P TR). cbv zeta in ME. destruct ME as [CN [CD ME]]. pose proof (ct_pos _ _ _ _ _ _ _ _ _ TR) as Hn.
    assert (EN : forall i, i < n -> val (nth i num e_ZERO) = cn kc p (lbl w) (ch 3) (ch 2) i) by (intros i Hi; exact (va_fun _ _ _ _ _ _ (proj1 (C i Hi)) (CN i Hi))).
    assert (ED : forall i, i < n -> val (nth i den e_ZERO) = cn kc p con (ch 3) (ch 2) i) by (intros i Hi; exact (va_fun _ _ _ _ _ _ (proj2 (C i Hi)) (CD i Hi))).
    pose proof (connect_complete n kc p (lbl w) con sg (ch 3) (ch 2) S1 S2 S3) as PR.
    split.
    - rewrite (z_exists n num den _ _ Hn Ln Ld EN ED PR). split; intros H i Hi; [rewrite ED by exact Hi|rewrite <- ED by exact Hi]; apply H, Hi.
    - intros z EZ CZ. apply ME. pose proof (z_runs n num den z _ _ EZ Ln EN ED) as RU. revert RU. apply running_ext; [|reflexivity|reflexivity|exact Hn].
      intros i Hi. symmetry. apply CZ, Hi.
  Qed.
  Theorem columns : length (o_pu out) = length ls /\ length (o_pe out) = length ps /\ length (o_ci out) = length cs /\
    (forall q, In q (o_pu out ++ o_pe out ++ o_ci out) -> In (q_c1 q) ids /\ In (q_c2 q) ids) /\
    pre (a_exps s) final /\ pre (a_ids s) ids /\
    flat_map (fun q => [q_h1 q; q_h2 q]) (o_pu out) ++ map q_z (o_pu out ++ o_pe out ++ o_ci out) = seq (a_ncm s) (3 * length ls + length ps + length cs).
  Proof.
    destruct gen_all as [A [B [C D]]]. split; [symmetry; exact (Forall2_len _ _ _ A)|]. split; [symmetry; exact (Forall2_len _ _ _ B)|]. split; [symmetry; exact (Forall2_len _ _ _ C)|].
    split; [|exact D]. assert (ZI : forall q, zcon l1 final ids q -> In (q_c1 q) ids /\ In (q_c2 q) ids) by (intros q [l [_ [X [Y _]]]]; split; assumption).
    assert (FI : forall X (R : X -> pcctx9 -> Prop) xs qs, Forall2 R xs qs -> (forall x q, R x q -> zcon l1 final ids q) -> forall q, In q qs -> zcon l1 final ids q).
    { intros X R xs qs F H. induction F as [|x q xs qs HR F IH]; intros q' Hq; [contradiction Hq|]. destruct Hq as [<- | Hq]; [exact (H _ _ HR)|exact (IH _ Hq)]. }
    intros q Hq. apply ZI. apply in_app_or in Hq. destruct Hq as [Hq|Hq]; [|apply in_app_or in Hq; destruct Hq as [Hq|Hq]].
    - apply (FI _ _ _ _ A); [|exact Hq]. intros x q' H. apply H.
    - apply (FI _ _ _ _ B); [|exact Hq]. intros x q' H. apply H.
    - apply (FI _ _ _ _ C); [|exact Hq]. intros x q' H. apply H.
  Qed.
End Gen.

(* a connection of one column: the list of factors k is asked for with length 0 *)
Theorem conn_single fl l1 s p c : conn_z_one fl l1 s (mkCI (Some [p]) (Some [c])) = Panic.
Proof. reflexivity. Qed.
