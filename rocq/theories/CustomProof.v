(* Which layout a custom gate gets, and how many rows are reserved for it. *)
From Verif Require Import Base GlModel FrField ListAux PlonkModel CompressorModel SetupProof.
Open Scope nat_scope.
Open Scope res_scope.

Definition placed_rows (gi : gate_info) (c : custom_use) : res nat :=
  if cg_id c =? poseidon_id gi then Ok 31
  else if cg_id c =? c_mul_add_id gi then Ok 1
  else match fft_get (cg_id c) (fft_params gi) with Some _ => Ok 2 | None => if cg_id c =? ev_pol_id gi then Ok 2 else Panic end.
Lemma put_custom_rows cp gi d t r c t' r' : put_custom cp gi d (t, r) c = Ok (t', r') -> exists n, placed_rows gi c = Ok n /\ r' = r + n.
Proof.
  unfold put_custom, placed_rows. intros H. destruct (cg_id c =? poseidon_id gi); [bi H; injection H as <- <-; eauto|].
  destruct (cg_id c =? c_mul_add_id gi); [bi H; injection H as <- <-; eauto|].
  destruct (fft_get _ _); [bi H; injection H as <- <-; eauto|]. destruct (cg_id c =? ev_pol_id gi); [bi H; injection H as <- <-; eauto|discriminate].
Qed.
Lemma counted_placed gi c : poseidon_id gi <> c_mul_add_id gi -> counted_rows gi c = placed_rows gi c.
Proof.
  intros N. unfold counted_rows, placed_rows. destruct (Nat.eqb_spec (cg_id c) (c_mul_add_id gi)) as [E|]; [|reflexivity].
  destruct (Nat.eqb_spec (cg_id c) (poseidon_id gi)); [congruence|reflexivity].
Qed.
Lemma fold_add l : forall a, fold_left Nat.add l a = a + fold_left Nat.add l 0.
Proof. induction l as [|x l IH]; intros a; cbn [fold_left]; [lia|]. rewrite IH, (IH (0 + x)). lia. Qed.
Lemma custom_count cp gi d us : poseidon_id gi <> c_mul_add_id gi -> forall t r t' r', foldM (put_custom cp gi d) us (t, r) = Ok (t', r') ->
  custom_rows gi us = Ok (r' - r) /\ r <= r'.
Proof.
  intros N. induction us as [|u us IH]; intros t r t' r' H; cbn [foldM] in H.
  - injection H as <- <-. unfold custom_rows. cbn. rewrite Nat.sub_diag. auto.
  - bi H. destruct x as [t1 r1]. apply put_custom_rows in E. destruct E as [n [E ->]]. apply IH in H. destruct H as [H L]. split; [|lia].
    unfold custom_rows in *. cbn [mapM]. rewrite counted_placed by exact N. rewrite E. cbn [bind]. bi H. rewrite E0. cbn [bind]. injection H as H.
    cbn [fold_left]. rewrite fold_add. f_equal. lia.
Qed.

(* only Poseidon12 declared: one row is reserved for each use, the placement needs 31 *)
Lemma count_refuted cp sg d t r : length sg = 372 ->
  gate_ids 0 [mkCG TPoseidon12 []] (mkGI 0 0 [] 0) = Ok (mkGI 0 0 [] 0) /\
  custom_rows (mkGI 0 0 [] 0) [mkCU 0 sg] = Ok 1 /\
  (forall t' r', put_custom cp (mkGI 0 0 [] 0) d (t, r) (mkCU 0 sg) = Ok (t', r') -> r' = r + 31) /\
  (n_used d = r + 1 -> forall x, put_custom cp (mkGI 0 0 [] 0) d (t, r) (mkCU 0 sg) <> Ok x).
Proof.
  intros L. split; [reflexivity|]. split; [reflexivity|]. split.
  - intros t' r' H. apply put_custom_rows in H. destruct H as [n [E ->]]. cbn in E. injection E as <-. reflexivity.
  - intros Hn [t' r'] H. unfold put_custom in H. cbn [cg_id poseidon_id Nat.eqb signals] in H. bi H. unfold put_poseidon in E.
    destruct (negb _); [discriminate|]. change (seq 0 31) with (seq 0 30 ++ [30]) in E. rewrite foldM_app in E. bi E. cbn [foldM] in E. bi E. unfold put_poseidon_row in E1. bi E1.
    change (seq 0 12) with (0 :: seq 1 11) in E2. cbn [foldM] in E2. bi E2. bi E3. bi E3. unfold set_s in E5. destruct (Nat.ltb_spec (r + 30) (n_used d)); [lia|]. rewrite andb_false_r in E5. discriminate.
Qed.

(* ---- the identifiers ---- *)
Definition tm (t u : template) : bool := match t, u with TCMulAdd, TCMulAdd | TPoseidon12, TPoseidon12 | TEvPol4, TEvPol4 | TFFT4, TFFT4 => true | _, _ => false end.
Definition only (l : list custom_gate) (u : template) (k : nat) : Prop :=
  (exists ps, nth_error l k = Some (mkCG u ps)) /\ forall j c, nth_error l j = Some c -> template_name c = u -> j = k.

Lemma gate_ids_spec l : forall i gi gi', gate_ids i l gi = Ok gi' ->
  (forall k, k < i -> fft_get k (fft_params gi') = fft_get k (fft_params gi)) /\
  (forall k, fft_get k (fft_params gi) = None \/ k < i -> fft_get k (fft_params gi') = match (if k <? i then None else nth_error l (k - i)) with Some (mkCG TFFT4 ps) => Some ps | _ => fft_get k (fft_params gi) end) /\
  ((exists k c, nth_error l k = Some c /\ template_name c = TPoseidon12 /\ poseidon_id gi' = i + k) \/ (Forall (fun c => template_name c <> TPoseidon12) l /\ poseidon_id gi' = poseidon_id gi)) /\
  ((exists k c, nth_error l k = Some c /\ template_name c = TCMulAdd /\ c_mul_add_id gi' = i + k) \/ (Forall (fun c => template_name c <> TCMulAdd) l /\ c_mul_add_id gi' = c_mul_add_id gi)) /\
  ((exists k c, nth_error l k = Some c /\ template_name c = TEvPol4 /\ ev_pol_id gi' = i + k) \/ (Forall (fun c => template_name c <> TEvPol4) l /\ ev_pol_id gi' = ev_pol_id gi)).
Proof.
  induction l as [|[tn ps] l IH]; intros i gi gi' H; cbn [gate_ids] in H.
  - injection H as <-. split; [auto|]. split; [intros k _; destruct (k <? i); [reflexivity|]; destruct (k - i); reflexivity|]. repeat split; right; auto.
  - cbn [template_name parameters] in H.
    assert (G : exists g1, gate_ids (i + 1) l g1 = Ok gi' /\
      (fft_params g1 = match tn with TFFT4 => (i, ps) :: fft_params gi | _ => fft_params gi end) /\
      (poseidon_id g1 = match tn with TPoseidon12 => i | _ => poseidon_id gi end) /\
      (c_mul_add_id g1 = match tn with TCMulAdd => i | _ => c_mul_add_id gi end) /\
      (ev_pol_id g1 = match tn with TEvPol4 => i | _ => ev_pol_id gi end)).
    { destruct tn; try (destruct ps; [|discriminate]); try discriminate; eexists; (split; [exact H|]); cbn; auto. }
    clear H. destruct G as [g1 [H [F [P [C V]]]]]. apply IH in H. destruct H as [H0 [H1 [H2 [H3 H4]]]].
    assert (FI : forall k, k <> i -> fft_get k (fft_params g1) = fft_get k (fft_params gi)).
    { intros k N. rewrite F. destruct tn; try reflexivity. cbn [fft_get]. destruct (Nat.eqb_spec k i); [contradiction|reflexivity]. }
    split; [|split; [|split; [|split]]].
    + intros k Hk. rewrite H0 by lia. apply FI. lia.
    + intros k Hk. destruct (Nat.ltb_spec k i) as [L|L].
      * rewrite H0 by lia. apply FI. lia.
      * destruct (Nat.eq_dec k i) as [->|N].
        -- rewrite Nat.sub_diag. cbn [nth_error]. rewrite H0 by lia. rewrite F. destruct tn; try reflexivity. cbn [fft_get]. rewrite Nat.eqb_refl. reflexivity.
        -- rewrite H1 by (left; rewrite FI by exact N; destruct Hk; [assumption|lia]). destruct (Nat.ltb_spec k (i + 1)); [lia|].
           replace (k - i) with (S (k - (i + 1))) by lia. cbn [nth_error]. rewrite FI by exact N. reflexivity.
    + destruct H2 as [[k [c [A [B D]]]]|[A B]]; [left; exists (S k), c; cbn; repeat split; auto; lia|].
      rewrite P in B. destruct tn; try (left; exists 0, (mkCG TPoseidon12 ps); cbn; repeat split; auto; lia); right; (split; [constructor; [discriminate|exact A]|exact B]).
    + destruct H3 as [[k [c [A [B D]]]]|[A B]]; [left; exists (S k), c; cbn; repeat split; auto; lia|].
      rewrite C in B. destruct tn; try (left; exists 0, (mkCG TCMulAdd ps); cbn; repeat split; auto; lia); right; (split; [constructor; [discriminate|exact A]|exact B]).
    + destruct H4 as [[k [c [A [B D]]]]|[A B]]; [left; exists (S k), c; cbn; repeat split; auto; lia|].
      rewrite V in B. destruct tn; try (left; exists 0, (mkCG TEvPol4 ps); cbn; repeat split; auto; lia); right; (split; [constructor; [discriminate|exact A]|exact B]).
Qed.

(* when CMulAdd, Poseidon12 and EvPol4 are each declared exactly once, a use gets the layout of the
   template it names *)
Lemma dispatch l gi kp kc ke : gate_ids 0 l (mkGI 0 0 [] 0) = Ok gi -> only l TPoseidon12 kp -> only l TCMulAdd kc -> only l TEvPol4 ke ->
  forall cp d t r u g, nth_error l (cg_id u) = Some g ->
  put_custom cp gi d (t, r) u = match template_name g with
    | TPoseidon12 => do t' <- put_poseidon cp d r (signals u) t; Ok (t', r + 31)
    | TCMulAdd => do t' <- put_cmuladd d r (signals u) t; Ok (t', r + 1)
    | TFFT4 => do t' <- put_fft d r (parameters g) (signals u) t; Ok (t', r + 2)
    | TEvPol4 => do t' <- put_evpol d r (signals u) t; Ok (t', r + 2)
    | TOther => Panic
    end.
Proof.
  intros H [[pp Pp] Up] [[pc Pc] Uc] [[pe Pe] Ue] cp d t r u g Hg. pose proof (gate_ids_spec _ _ _ _ H) as [_ [F [P [C V]]]].
  assert (EP : poseidon_id gi = kp).
  { destruct P as [[k [c [A [B D]]]]|[A _]]; [rewrite D; apply (Up k c A B)|]. rewrite Forall_forall in A. exfalso. apply (A _ (nth_error_In _ _ Pp)). reflexivity. }
  assert (EC : c_mul_add_id gi = kc).
  { destruct C as [[k [c [A [B D]]]]|[A _]]; [rewrite D; apply (Uc k c A B)|]. rewrite Forall_forall in A. exfalso. apply (A _ (nth_error_In _ _ Pc)). reflexivity. }
  assert (EV : ev_pol_id gi = ke).
  { destruct V as [[k [c [A [B D]]]]|[A _]]; [rewrite D; apply (Ue k c A B)|]. rewrite Forall_forall in A. exfalso. apply (A _ (nth_error_In _ _ Pe)). reflexivity. }
  assert (EF : fft_get (cg_id u) (fft_params gi) = match g with mkCG TFFT4 ps => Some ps | _ => None end).
  { rewrite F by (left; reflexivity). cbn [Nat.ltb Nat.leb fft_get fft_params]. rewrite Nat.sub_0_r, Hg. reflexivity. }
  unfold put_custom. rewrite EP, EC, EV, EF.
  assert (NE : forall k, nth_error l (cg_id u) <> nth_error l k -> cg_id u =? k = false) by (intros k N; apply Nat.eqb_neq; intros X; apply N; rewrite X; reflexivity).
  destruct g as [tn ps]. cbn [template_name parameters].
  destruct tn.
  - rewrite (NE kp) by (rewrite Hg, Pp; discriminate). rewrite (Uc _ _ Hg eq_refl), Nat.eqb_refl. reflexivity.
  - rewrite (Up _ _ Hg eq_refl), Nat.eqb_refl. reflexivity.
  - rewrite (NE kp) by (rewrite Hg, Pp; discriminate). rewrite (NE kc) by (rewrite Hg, Pc; discriminate). rewrite (Ue _ _ Hg eq_refl), Nat.eqb_refl. reflexivity.
  - rewrite (NE kp) by (rewrite Hg, Pp; discriminate). rewrite (NE kc) by (rewrite Hg, Pc; discriminate). reflexivity.
  - rewrite (NE kp) by (rewrite Hg, Pp; discriminate). rewrite (NE kc) by (rewrite Hg, Pc; discriminate). rewrite (NE ke) by (rewrite Hg, Pe; discriminate). reflexivity.
Qed.
(* FFT4 declared first and CMulAdd not at all: the FFT4 use is laid out as a CMulAdd *)
Lemma dispatch_refuted cp ps d t r sg : exists gi,
  gate_ids 0 [mkCG TFFT4 ps; mkCG TPoseidon12 []] (mkGI 0 0 [] 0) = Ok gi /\
  put_custom cp gi d (t, r) (mkCU 0 sg) = (do t' <- put_cmuladd d r sg t; Ok (t', r + 1)).
Proof. eexists. split; [reflexivity|]. reflexivity. Qed.

(* ---- public signals ---- *)
Lemma publics_count c fb s n_in n_out n_wires cs : base c = load_r1cs n_in n_out n_wires cs -> plonk_setup_render c fb = Ok s -> su_publics s = n_in + 2 * n_out.
Proof.
  intros E H. unfold plonk_setup_render in H. bi H. destruct x as [pg pa]. bi H. bi H. bi H. bi H. bi H. bi H. injection H as <-. cbn [su_publics].
  rewrite E in E4. cbn [load_r1cs num_inputs num_outputs] in E4. unfold usub in E4. destruct (_ <? 1); [discriminate|]. injection E4 as <-. lia.
Qed.

Definition is_ok {A} (r : res A) : bool := match r with Ok _ => true | _ => false end.
Lemma ok_ex {A} (r : res A) : is_ok r = true -> exists a, r = Ok a.
Proof. destruct r; try discriminate. eauto. Qed.
Lemma publics_refuted : exists c s t sp r,
  base c = load_r1cs 1 1 5 [([(1, f1)], [(2, f1)], [(3, f1)])] /\
  plonk_setup_render c 0 = Ok s /\ plonk_setup_compressor (fun l => l) [] c s = Ok (t, sp, r) /\
  su_publics s = 3 /\ sm t 2 0 = 3.
Proof.
  set (c := mkCircuit (load_r1cs 1 1 5 [([(1, f1)], [(2, f1)], [(3, f1)])]) [] []). exists c.
  destruct (ok_ex (plonk_setup_render c 0)) as [s E]; [vm_compute; reflexivity|]. exists s.
  destruct (ok_ex (plonk_setup_compressor (fun l => l) [] c s)) as [[[t sp] r] E2].
  { transitivity (is_ok (do s <- plonk_setup_render c 0; plonk_setup_compressor (fun l => l) [] c s)); [rewrite E; reflexivity|]. vm_compute. reflexivity. }
  exists t, sp, r. split; [reflexivity|]. split; [exact E|]. split; [exact E2|]. split; [apply (publics_count c 0 s 1 1 5 _ eq_refl E)|].
  assert (X : rmap (fun x => sm (fst (fst x)) 2 0) (do s <- plonk_setup_render c 0; plonk_setup_compressor (fun l => l) [] c s) = Ok 3) by (vm_compute; reflexivity).
  rewrite E in X. cbn [bind] in X. rewrite E2 in X. cbn [rmap bind fst] in X. injection X as X. exact X.
Qed.
