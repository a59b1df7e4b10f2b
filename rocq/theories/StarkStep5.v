(* The FRI polynomial over the extended coset, and the verifier's value at a queried row. *)
From Coq Require Import Ring Field Arith.
From Verif Require Import Base GlModel FrField F3gModel Cubic F3gProof ListAux PolyModel Roots PolyProof FftProof FftTop FriMath CodegenModel CodegenProof
  InterpModel InterpProof VerifierModel VerifierProof ImModel ImProof HashModel FftpModel FftpProof FriModel FriProof ProverModel ProverProof ParModel ParProof
  StarkMath StarkModel StarkGen StarkSrc StarkPoly StarkRow StarkQuot StarkEval StarkStep4 StarkFri.
Open Scope nat_scope.
Open Scope list_scope.
Open Scope res_scope.
Add Field K_field_s5 : K_field.

(* ---------- x / (x - z) ---------- *)
Definition ext_pt (e r : nat) : F3G := e_mul (e_from SHIFT) (e_exp (e_from (root e)) (Z.of_nat r)).
Definition xd_at (e : nat) (z : F3G) (r : nat) : F3G := e_div (ext_pt e r) (e_sub (ext_pt e r) z).
Lemma prefix_d3 l : forall a, d3 a = true -> Forall (fun v => d3 v = true) (prefix (F := opsE) a l).
Proof.
  induction l as [|x l IH]; intros a H; cbn [prefix]; [constructor|]. assert (E : d3 (e_mul x a) = true) by (rewrite dim_mul, H; apply orb_true_r).
  constructor; [exact E | apply IH, E].
Qed.
Lemma binv_d3 es : forall ts z rest, d3 z = true -> Forall (fun v => d3 v = true) es -> Forall (fun v => d3 v = true) rest ->
  Forall (fun v => d3 v = true) (binv_back (F := opsE) es ts z rest).
Proof.
  induction es as [|x es IH]; intros ts z rest Hz He Hr; cbn [binv_back]; [constructor; assumption|].
  destruct ts as [|t ts]; [constructor; assumption|]. apply IH; [change (d3 (e_mul z x) = true); rewrite dim_mul, Hz; reflexivity | exact (Forall_inv_tail He)|].
  constructor; [change (d3 (e_mul z t) = true); rewrite dim_mul, Hz; reflexivity | exact Hr].
Qed.
Lemma last_P {A} (Q : A -> Prop) l d : l <> [] -> Forall Q l -> Q (last l d).
Proof.
  intros Hn H. destruct (exists_last Hn) as [l' [x ->]]. rewrite last_last. apply Forall_app in H. exact (Forall_inv (proj2 H)).
Qed.
Lemma batch_d3 l : Forall (fun v => d3 v = true) l -> Forall (fun v => d3 v = true) (batch_inverse (F := opsE) l).
Proof.
  intros H. destruct l as [|a l]; [constructor|]. unfold batch_inverse. apply binv_d3; [|apply Forall_rev; exact (Forall_inv_tail H) | constructor].
  change (d3 (e_inv (last (a :: prefix (F := opsE) a l) e_ZERO)) = true). rewrite dim_inv. apply last_P; [discriminate|].
  constructor; [exact (Forall_inv H) | apply prefix_d3; exact (Forall_inv H)].
Qed.
Lemma three_b_words (l : list Fr) a v : d3 v = true -> nth_error l a = Some (c0 v) -> nth_error l (a + 1) = Some (c1 v) -> nth_error l (a + 2) = Some (c2 v) -> three_b l a = Ok v.
Proof.
  intros D A B C. unfold three_b. rewrite (vget_some _ _ _ A), (vget_some _ _ _ B), (vget_some _ _ _ C). cbn [bind e_from_vec]. destruct v as [? ? ? d]. cbn in D. subst d. reflexivity.
Qed.

Record is_xd (e : nat) (z : F3G) (xd : list Fr) : Prop := {
  xd_len : length xd = 2 ^ e * 3;
  xd_get : forall r, r < 2 ^ e -> three_b xd (r * 3) = Ok (xd_at e z r) }.
Lemma xd_at_d3 e z r : d3 z = true -> d3 (xd_at e z r) = true.
Proof. intros H. unfold xd_at, e_div. rewrite dim_mul, dim_inv, dim_sub, H, !orb_true_r. reflexivity. Qed.
Lemma ksub_nz a b : a <> b -> ksub a b <> kzero.
Proof. intros H C. apply H. transitivity (kadd (ksub a b) b); [ring|]. rewrite C. ring. Qed.
Lemma xd_at_val e z r : val z <> cpt e r -> kmul (val (xd_at e z r)) (ksub (cpt e r) (val z)) = cpt e r.
Proof.
  intros H. unfold xd_at. rewrite val_div, val_sub. unfold ext_pt. rewrite ext_point_val. field. apply ksub_nz. congruence.
Qed.
Lemma xdiv_ok e z : e <= 32 -> d3 z = true -> (forall r, r < 2 ^ e -> val z <> cpt e r) ->
  exists xd, xdiv (ext_points (e_from (root e)) (2 ^ e)) z = Ok xd /\ is_xd e z xd.
Proof.
  intros He Hz Hd. set (n := 2 ^ e) in *. set (xs := ext_points (e_from (root e)) n).
  assert (Lx : length xs = n) by (unfold xs, ext_points; rewrite map_length, seq_length; reflexivity).
  assert (Gx : forall r, r < n -> nth_error xs r = Some (ext_pt e r)) by (intros r Hr; apply (ext_points_nth e r He Hr)).
  set (ds := map (fun x => e_sub x z) xs).
  assert (Gd : forall r, r < n -> nth_error ds r = Some (e_sub (ext_pt e r) z)) by (intros r Hr; unfold ds; rewrite nth_error_map, Gx by exact Hr; reflexivity).
  assert (D3 : Forall (fun v => d3 v = true) ds).
  { apply Forall_forall. intros v Hv. unfold ds in Hv. apply in_map_iff in Hv. destruct Hv as [x [<- _]]. rewrite dim_sub, Hz. apply orb_true_r. }
  assert (Nz : Forall (fun x => val x <> kzero) ds).
  { apply Forall_forall. intros v Hv. apply In_nth_error in Hv. destruct Hv as [r Hr]. assert (Lr : r < n) by (rewrite <- Lx, <- (map_length (fun x => e_sub x z) xs); apply nth_error_Some; fold ds; congruence).
    rewrite Gd in Hr by exact Lr. injection Hr as <-. rewrite val_sub. unfold ext_pt. rewrite ext_point_val. apply ksub_nz. intros C. exact (Hd r Lr (eq_sym C)). }
  pose proof (batch_E ds Nz) as BE. pose proof (batch_d3 ds D3) as B3. unfold xdiv. fold ds. set (dn := batch_inverse (F := opsE) ds : list F3G) in *. clearbody dn.
  assert (Ldn : length dn = n) by (rewrite <- (map_length val dn), BE, map_length; unfold ds; rewrite map_length; exact Lx).
  assert (Gn : forall r, r < n -> exists u, nth_error dn r = Some u /\ d3 u = true /\ val u = kinv (ksub (cpt e r) (val z))).
  { intros r Hr. destruct (nth_error dn r) as [u|] eqn:Eu; [|apply nth_error_None in Eu; lia]. exists u. split; [reflexivity|].
    split; [eapply (proj1 (Forall_forall _ _) B3), nth_error_In, Eu|]. assert (E1 : nth_error (map val dn) r = Some (val u)) by (rewrite nth_error_map, Eu; reflexivity).
    rewrite BE, nth_error_map, Gd in E1 by exact Hr. injection E1 as E1. rewrite <- E1, val_sub. unfold ext_pt. rewrite ext_point_val. reflexivity. }
  assert (M : mapM (fun dx => three_words (e_mul (fst dx) (snd dx))) (combine dn xs) = Ok (map (fun r => [c0 (xd_at e z r); c1 (xd_at e z r); c2 (xd_at e z r)]) (seq 0 n))).
  { assert (Ec : combine dn xs = map (fun r => (nth r dn e_ZERO, ext_pt e r)) (seq 0 n)).
    { apply nth_error_ext. intros r. destruct (Nat.lt_ge_cases r n) as [Hr|Hr].
      - rewrite nth_error_map, nth_error_nth' with (d := 0) by (rewrite seq_length; exact Hr). rewrite seq_nth by exact Hr. cbn [option_map].
        destruct (Gn r Hr) as [u [U1 _]]. rewrite (nth_error_nth' (combine dn xs) (e_ZERO, e_ZERO)) by (rewrite combine_length, Ldn, Lx, Nat.min_id; exact Hr).
        rewrite combine_nth by congruence. rewrite (nth_error_nth _ _ _ (Gx r Hr)). reflexivity.
      - rewrite !(proj2 (nth_error_None _ _)); [reflexivity | rewrite map_length, seq_length; exact Hr | rewrite combine_length, Ldn, Lx, Nat.min_id; exact Hr]. }
    rewrite Ec. rewrite BnProof.mapM_map. apply mapM_ok. intros r Hr. apply in_seq in Hr. cbn [fst snd]. destruct (Gn r ltac:(lia)) as [u [U1 [U2 U3]]].
    rewrite (nth_error_nth _ _ _ U1). assert (Eu : e_mul u (ext_pt e r) = xd_at e z r).
    { apply val_inj; [apply wf_mul | apply wf_mul | rewrite dim_mul, U2, xd_at_d3 by exact Hz; reflexivity|].
      unfold xd_at. rewrite val_mul, val_div, val_sub, U3. unfold ext_pt. rewrite ext_point_val. field. apply ksub_nz. intros C. exact (Hd r ltac:(lia) (eq_sym C)). }
    rewrite Eu. unfold three_words. rewrite xd_at_d3 by exact Hz. reflexivity. }
  set (L := map _ (seq 0 n)) in M. exists (concat L). split; [exact (f_equal (rmap (@concat Fr)) M)|]. clear M.
  assert (FL : Forall (fun r : list Fr => length r = 3) L) by (unfold L; apply Forall_forall; intros l Hl; apply in_map_iff in Hl; destruct Hl as [r [<- _]]; reflexivity).
  assert (LL : length L = n) by (unfold L; rewrite map_length, seq_length; reflexivity).
  assert (GL : forall r, r < n -> nth_error L r = Some [c0 (xd_at e z r); c1 (xd_at e z r); c2 (xd_at e z r)]).
  { intros r Hr. unfold L. rewrite nth_error_map, nth_error_nth' with (d := 0) by (rewrite seq_length; exact Hr). rewrite seq_nth by exact Hr. reflexivity. }
  clearbody L. split.
  - fold n. rewrite <- LL. clear -FL. induction L as [|x L IH]; [reflexivity|]. cbn [concat length]. rewrite app_length, IH by exact (Forall_inv_tail FL). pose proof (Forall_inv FL) as E. cbv beta in E. lia.
  - fold n. intros r Hr. apply three_b_words; [now apply xd_at_d3 | |  |]; [rewrite <- (Nat.add_0_r (r * 3))| |]; rewrite (nth_concat 3 L r _ FL) by lia; rewrite (GL r Hr); reflexivity.
Qed.

Lemma nth_error_firstn' {A} (l : list A) : forall k j, j < k -> nth_error (firstn k l) j = nth_error l j.
Proof. induction l as [|x l IH]; intros [|k] [|j] H; try lia; try reflexivity. cbn. apply IH. lia. Qed.
Lemma nth_error_skipn' {A} k : forall (l : list A) j, nth_error (skipn k l) j = nth_error l (k + j).
Proof. induction k as [|k IH]; intros [|x l] j; try reflexivity; cbn; [destruct j; reflexivity | apply IH]. Qed.

(* ---------- step 5 ---------- *)
Definition P5 (si : sinfo) (kcm nev : nat) (r : node) : Prop :=
  match n_ty r with
  | Ncm => n_id r < kcm /\ n_prime r = false
  | Nconst => n_id r < si_nconst si /\ n_prime r = false
  | Nchallenge => n_id r = 5 \/ n_id r = 6
  | Neval => n_id r < nev
  | NxDivXSubXi | NxDivXSubWXi => True
  | _ => False
  end.
Definition trees4 : list sec := [Scm1_2ns; Scm2_2ns; Scm3_2ns; Scm4_2ns].

Section S5.
  Variables (si : sinfo) (m : mem) (tbl : list expr) (fe : expr) (im : list (nat * nat)) (kcm : nat) (pcm pconst : nat -> list K) (evs : list evkey) (xi zw : F3G).
  Local Notation n := (2 ^ si_nbits_ext si).
  Local Notation e := (si_nbits_ext si).
  Local Notation nb := (si_nbits si).
  Local Notation N := (2 ^ si_nbits si).
  Hypothesis Hnb : nb <= e.
  Hypothesis He : e <= 31.
  Hypothesis Hsound : sound si Step5 m.
  Hypothesis Hcols : cols trees4 si m kcm pcm.
  Hypothesis Hccols : ccols si m pconst.
  Hypothesis Hch : 7 <= length (m_sec m Schallenge).
  Hypothesis Hch5 : d3 (nth 5 (m_sec m Schallenge) e_ZERO) = true.
  Hypothesis Hel : length (m_sec m Sevals) = length evs.
  Hypothesis Hev : forall j k, nth_error evs j = Some k -> val (nth j (m_sec m Sevals) e_ZERO) = peval (key_pol pcm pconst k) (if snd (fst k) then val zw else val xi).
  Hypothesis Hkeys : Forall (key_ok kcm (si_nconst si)) evs.
  Hypothesis Hxi : d3 xi = true /\ d3 zw = true.
  Hypothesis Hxn : forall r, r < n -> val xi <> cpt e r /\ val zw <> cpt e r.
  Hypothesis Hxd : is_xd e xi (m_xdiv m).
  Hypothesis Hxw : is_xd e zw (m_xdivw m).
  Hypothesis Hk0 : 0 < kcm.
  Hypothesis Hun : exists k, In k evs /\ snd (fst k) = false.
  Hypothesis Hfe : fri_expr kcm evs = Ok fe.
  Hypothesis Him : Forall (fun p => fst p < length tbl) im.
  Hypothesis Hwf : Forall wf_e tbl.
  Local Notation P := (P5 si kcm (length evs)).

  Lemma P5_ref r : P r -> ref_ok si Step5 m r.
  Proof.
    unfold P5, ref_ok. destruct (n_ty r) eqn:Et; try contradiction.
    - intros [H _]. destruct (Hcols _ H) as [_ [p [s [pos [dim [C1 [C2 [C3 C4]]]]]]]]. exists p, s, pos, dim. destruct C4 as [D I0 _ _ _].
      do 4 (split; [assumption|]). unfold trees4 in C3. split; [exact C3|]. cbn in C3 |- *. tauto.
    - tauto.
    - intros H. lia.
    - rewrite Hel. auto.
    - reflexivity.
    - reflexivity.
  Qed.
  Lemma row_xd (w : bool) i : i < n -> rowv si m i (N_new (if w then NxDivXSubWXi else NxDivXSubXi) 0 None false) = xd_at e (if w then zw else xi) i.
  Proof.
    intros Hi. unfold rowv, read_ref, get_ref. destruct w; cbn [n_ty N_new bind operand_value]; unfold get_value; cbn [r_sym]; unfold get_i; cbn [r_off r_next r_mod r_size];
      change (dom_size si false) with n; rewrite Nat.add_0_r, Nat.mod_small, Nat.add_0_l by exact Hi; [rewrite (xd_get _ _ _ Hxw i Hi) | rewrite (xd_get _ _ _ Hxd i Hi)]; reflexivity.
  Qed.
  Lemma fe_poly (tblD : list expr) : good P fe /\ (exists a b, fe = E_add (E_mul (E_challenge 5) a) b) /\
    exists F, length F <= N /\ sem tblD n (cpt e) (rowv si m) fe (peval F).
  Proof.
    refine (fri_expr_poly tblD N n (cpt e) (rowv si m) pcm pconst kcm (si_nconst si) evs (val xi) (val zw) (val (nth 5 (m_sec m Schallenge) e_ZERO)) (val (nth 6 (m_sec m Schallenge) e_ZERO)) P
      _ _ _ _ _ _ _ _ _ _ _ _ _ _ _ _ fe Hfe Hk0 Hun).
    - apply Nat.neq_0_lt_0, Nat.pow_nonzero. lia.
    - intros i c Hi Hc. destruct (Hcols _ Hc) as [_ [p [s [pos [dim [C1 [C2 [_ C4]]]]]]]]. exact (proj2 (row_cm si m Hnb He (N_new Ncm c None false) i p s pos dim _ eq_refl C1 C2 C4)).
    - intros i c Hi Hc. destruct (Hccols _ Hc) as [_ C]. exact (proj2 (row_const si m Hnb He (N_new Nconst c None false) i _ eq_refl C)).
    - intros c Hc. exact (proj1 (Hcols c Hc)).
    - intros c Hc. exact (proj1 (Hccols c Hc)).
    - intros i Hi. rewrite (row_glob si m _ i Schallenge); [reflexivity | tauto | cbn; lia].
    - intros i Hi. rewrite (row_glob si m _ i Schallenge); [reflexivity | tauto | cbn; lia].
    - intros i j k Hi Hj. rewrite (row_glob si m _ i Sevals); [exact (Hev j k Hj) | tauto | cbn; rewrite Hel; apply nth_error_Some; congruence].
    - intros i Hi. rewrite (row_xd false i Hi). apply xd_at_val, Hxn, Hi.
    - intros i Hi. rewrite (row_xd true i Hi). apply xd_at_val, Hxn, Hi.
    - exact Hkeys.
    - intros c Hc. split; [exact Hc | reflexivity].
    - intros c Hc. split; [exact Hc | reflexivity].
    - split; [now left | now right].
    - intros j Hj. exact Hj.
    - split; exact Logic.I.
  Qed.
  Lemma fe_wf : Forall wf_e (tbl ++ [fe]).
  Proof. apply Forall_app. split; [exact Hwf|]. constructor; [exact (proj1 (proj1 (fe_poly []))) | constructor]. Qed.
  Lemma fe_src fuel mul t0 c : pil_code_gen fuel (tbl ++ [fe]) None mul (mkCtx t0 [] (im_keys im)) (length tbl) false = Ok c ->
    Forall (StarkSrc.src_ok (fun r => n_ty r = Ntmp \/ P r) mul) (linear_code c).
  Proof.
    intros H. destruct (fe_poly []) as [[G1 [G2 G3]] _].
    destruct (gen_src (fun r => n_ty r = Ntmp \/ P r) (fun r H => or_introl H) (tbl ++ [fe]) (fun k => k = (false, length tbl))) with (fuel := fuel) (m := mul) (c := mkCtx t0 [] (im_keys im)) (i := length tbl) (p := false) (c' := c) as [ext [X1 X2]].
    - intros q j y E Ey. injection E as -> ->. rewrite nth_error_app2, Nat.sub_diag in Ey by lia. injection Ey as <-.
      split; [apply (labs_mono P); [intros r Hr; now right | exact G3]|]. rewrite G2. intros k [].
    - reflexivity.
    - exact H.
    - change (linear_code (mkCtx t0 [] (im_keys im))) with (@nil instr) in X1. cbn [app] in X1. rewrite X1. exact X2.
  Qed.
  Lemma fe_fix fuel mul t0 c code f : pil_code_gen fuel (tbl ++ [fe]) None mul (mkCtx t0 [] (im_keys im)) (length tbl) false = Ok c ->
    iter_code (fixp_ref si im [] false) (f_start (x_tmp c)) (linear_code c) = Ok (code, f) -> Forall (StarkSrc.src_ok (fun r => n_ty r = Ntmp \/ P r) mul) code.
  Proof.
    intros H Hf. refine (fixp_src _ _ si im mul _ _ _ _ _ _ _ (fe_src _ _ _ _ H) Hf).
    - auto.
    - intros r k [Hr|Hr] Ht Ha; [congruence|]. unfold P5 in Hr. rewrite Ht in Hr. contradiction.
    - auto.
  Qed.
  Lemma P5_read i r : i < n -> P r -> read_ref si false i m r = Ok (rowv si m i r) /\ wf (rowv si m i r).
  Proof.
    intros Hi Hr. assert (Hfl : fills Step5 Sf_2ns) by (right; split; reflexivity).
    assert (Ht : n_ty r <> Ntmp) by (intros C; unfold P5 in Hr; rewrite C in Hr; contradiction).
    destruct (leaf_read si Step5 Sf_2ns m Hfl Hnb ltac:(lia) Hsound r i (P5_ref r Hr) Ht Hi) as [v [V1 [V2 _]]]. unfold rowv. rewrite V1. split; [reflexivity | exact V2].
  Qed.
  Lemma row_zero i : rowv si m i (N_new Nnumber 0 (Some 0%Z) false) = e_ZERO.
  Proof. apply (row_number si m); [reflexivity | apply num0]. Qed.
  Lemma fe_d3 rho v : d3 (rho (N_new Nchallenge 5 None false)) = true -> den (with_im im (tbl ++ [fe])) rho false fe v -> d3 v = true.
  Proof.
    intros Hd D. destruct (fe_poly []) as [_ [[a [b E]] _]]. rewrite E in D at 2. inversion D; subst; try discriminate.
    match goal with A : e_values _ = _ |- _ => cbn in A; injection A as <- <- <- end. rewrite dim_add.
    match goal with A : den _ _ _ (E_mul _ _) _ |- _ => inversion A; subst; try discriminate end.
    match goal with A : e_values (E_mul _ _) = _ |- _ => cbn in A; injection A as <- <- <- end. rewrite dim_mul.
    match goal with A : den _ _ _ (E_challenge 5) _ |- _ => inversion A; subst; try discriminate end.
    match goal with A : e_id (E_challenge 5) = _ |- _ => cbn in A; injection A as <- end. rewrite Hd. reflexivity.
  Qed.

  (* ---------- the verifier's value at a queried row ---------- *)
  Definition row_words (s : sec) (y : nat) : list Fr := firstn (sec_width si s) (skipn (y * sec_width si s) (map c0 (m_sec m s))).
  Record is_ctx (y : nat) (x : vctx) : Prop := {
    ic_1 : v_tree1 x = row_words Scm1_2ns y; ic_2 : v_tree2 x = row_words Scm2_2ns y; ic_3 : v_tree3 x = row_words Scm3_2ns y; ic_4 : v_tree4 x = row_words Scm4_2ns y;
    ic_c : v_consts x = row_words Sconst_2ns y; ic_e : v_evals x = m_sec m Sevals; ic_ch : v_challenge x = m_sec m Schallenge;
    ic_x : v_xdiv x = e_as_elements (xd_at e xi y); ic_w : v_xdivw x = e_as_elements (xd_at e zw y) }.
  Lemma row_nth s y j : y < n -> length (m_sec m s) = n * sec_width si s -> j < sec_width si s ->
    nth_error (row_words s y) j = Some (c0 (nth (y * sec_width si s + j) (m_sec m s) e_ZERO)).
  Proof.
    intros Hy Hl Hj. unfold row_words. rewrite nth_error_firstn' by exact Hj. rewrite nth_error_skipn', nth_error_map.
    rewrite (nth_error_nth' (m_sec m s) e_ZERO) by (rewrite Hl; apply Nat.lt_le_trans with (S y * sec_width si s); [cbn; lia | apply Nat.mul_le_mono_r; exact Hy]). reflexivity.
  Qed.
  Lemma extract_elem s y pos dim P0 : y < n -> sec_width si s = si_width si s -> column e (m_sec m s) (si_width si s) pos dim P0 ->
    extract_val (row_words s y) pos dim = Ok (elem (m_sec m s) (si_width si s) pos dim y).
  Proof.
    intros Hy Hw [D I0 L B _]. rewrite <- Hw in *. unfold extract_val, elem.
    destruct D as [->| ->]; cbn [Nat.eqb].
    - rewrite (vget_some _ _ _ (row_nth s y pos Hy L ltac:(lia))). cbn [rmap bind]. rewrite (Nat.add_comm pos). destruct (nth_vbase _ (y * sec_width si s + pos) B) as [u Hu]. rewrite Hu. reflexivity.
    - unfold three_b. rewrite (vget_some _ _ _ (row_nth s y pos Hy L ltac:(lia))), (vget_some _ _ _ (row_nth s y (pos + 1) Hy L ltac:(lia))), (vget_some _ _ _ (row_nth s y (pos + 2) Hy L ltac:(lia))).
      cbn [bind e_from_vec]. unfold e_new. do 2 f_equal; f_equal; f_equal; lia.
  Qed.
  Lemma as_elements_back v : d3 v = true -> three_b (e_as_elements v) 0 = Ok v.
  Proof. intros D. unfold e_as_elements. rewrite D. apply three_b_words; [exact D | reflexivity..]. Qed.
  Lemma tree_read y x t r r' : y < n -> is_ctx y x -> P r -> tree_ref si r = Ok r' -> v_get x t r' = Ok (rowv si m y r).
  Proof.
    intros Hy [X1 X2 X3 X4 Xc Xe Xch Xx Xw] Hr Ht. unfold tree_ref in Ht. pose proof Hr as Hr0. unfold P5 in Hr. destruct (n_ty r) eqn:Et; try contradiction; try (apply ok_inj in Ht; subst r'; unfold v_get; rewrite Et).
    - destruct Hr as [Hi Hp]. destruct (Hcols _ Hi) as [_ [p [s [pos [dim [C1 [C2 [C3 C4]]]]]]]]. rewrite (vget_some _ _ _ C1) in Ht. cbn [bind] in Ht. rewrite (vget_some _ _ _ C2) in Ht. cbn [bind] in Ht.
      rewrite (proj1 (row_cm si m Hnb He r y p s pos dim _ Et C1 C2 C4)), Hp, Nat.add_0_r, Nat.mod_small by exact Hy.
      cbn in C3. destruct C3 as [<-|[<-|[<-|[<-|[]]]]]; cbn [bind] in Ht; apply ok_inj in Ht; subst r'; unfold v_get; cbn [n_ty n_pos n_dim];
        [rewrite X1 | rewrite X2 | rewrite X3 | rewrite X4]; (eapply extract_elem; [exact Hy | reflexivity | exact C4]).
    - destruct Hr as [Hi Hp]. destruct (Hccols _ Hi) as [_ C]. rewrite (proj1 (row_const si m Hnb He r y _ Et C)), Hp, Nat.add_0_r, Nat.mod_small by exact Hy.
      rewrite Xc. destruct C as [_ _ L B _]. rewrite (vget_some _ _ _ (row_nth Sconst_2ns y (n_id r) Hy L Hi)). cbn [rmap bind sec_width]. unfold elem. cbn [Nat.eqb].
      rewrite (Nat.add_comm (n_id r)). destruct (nth_vbase _ (y * si_nconst si + n_id r) B) as [u Hu]. rewrite Hu. reflexivity.
    - rewrite Xch, (row_glob si m r y Schallenge); [|tauto | lia]. apply vget_nth. lia.
    - rewrite Xe, (row_glob si m r y Sevals); [|tauto | lia]. apply vget_nth. lia.
    - rewrite Xx, as_elements_back by (apply xd_at_d3, Hxi). f_equal. symmetry. rewrite <- (row_xd false y Hy). unfold rowv, read_ref, get_ref. rewrite Et. reflexivity.
    - rewrite Xw, as_elements_back by (apply xd_at_d3, Hxi). f_equal. symmetry. rewrite <- (row_xd true y Hy). unfold rowv, read_ref, get_ref. rewrite Et. reflexivity.
  Qed.
  Local Notation tg := (fun f r => do r' <- tree_ref si r; Ok (r', f)).
  Lemma tree_reads y x t l : y < n -> is_ctx y x -> Forall (fun r => n_ty r = Ntmp \/ P r) l -> forall (f : fstate) l' f' vs, iter_refs tg f l = Ok (l', f') ->
    mapM (aread (fun r => Ok (rowv si m y r)) t) l = Ok vs -> mapM (v_get x t) l' = Ok vs.
  Proof.
    intros Hy Hx. induction l as [|r l IH]; intros Hl f l' f' vs E M; cbn [iter_refs] in E.
    - injection E as <- _. exact M.
    - destruct (tree_ref si r) as [r'| | |] eqn:Er; try discriminate E. cbn [bind fst snd] in E.
      destruct (iter_refs tg f l) as [[l1 f1]| | |] eqn:El; try discriminate E. cbn [bind fst snd] in E. injection E as <- <-.
      cbn [mapM] in M. destruct (aread _ t r) as [v| | |] eqn:Ev; try discriminate M. cbn [bind] in M. destruct (mapM _ l) as [us| | |] eqn:Eu; try discriminate M. cbn [bind] in M. injection M as <-.
      cbn [mapM]. assert (Hv : v_get x t r' = Ok v).
      { destruct (Forall_inv Hl) as [Ht|Hp].
        - unfold tree_ref in Er. rewrite Ht in Er. apply ok_inj in Er. subst r'. unfold aread in Ev. rewrite Ht in Ev. unfold v_get. rewrite Ht. exact Ev.
        - rewrite <- Ev, (tree_read y x t r r' Hy Hx Hp Er). unfold aread. assert (Hn : n_ty r <> Ntmp) by (intros C; unfold P5 in Hp; rewrite C in Hp; contradiction). destruct (n_ty r); try reflexivity. now destruct Hn. }
      rewrite Hv. cbn [bind]. rewrite (IH (Forall_inv_tail Hl) f l1 f1 us El eq_refl). reflexivity.
  Qed.
  Lemma tree_run y x mul cd : y < n -> is_ctx y x -> forall t t' (f : fstate) cd' f' nt, Forall (StarkSrc.src_ok (fun r => n_ty r = Ntmp \/ P r) mul) cd -> Forall (dest_ok nt) cd ->
    iter_code tg f cd = Ok (cd', f') -> arun (fun r => Ok (rowv si m y r)) t cd = Ok t' -> v_run x t cd' = Ok t'.
  Proof.
    intros Hy Hx. induction cd as [|c cd IH]; intros t t' f cd' f' nt Hs Hd E R; cbn [iter_code arun] in *.
    - injection E as <- _. exact R.
    - destruct (iter_refs tg f (i_src c)) as [[l1 f1]| | |] eqn:E1; try discriminate E. cbn [bind fst snd] in E.
      destruct (Forall_inv Hd) as [Dt _]. unfold tree_ref at 1 in E. rewrite Dt in E. cbn [bind fst snd] in E.
      destruct (iter_code tg f1 cd) as [[c1 f2]| | |] eqn:E2; try discriminate E. cbn [bind fst snd] in E. injection E as <- <-.
      destruct (mapM (aread _ t) (i_src c)) as [vs| | |] eqn:Ev; try discriminate R. cbn [bind] in R. destruct (v_op (i_op c) vs) as [v| | |] eqn:Eo; try discriminate R. cbn [bind] in R.
      cbn [v_run i_src i_op i_dest]. rewrite (tree_reads y x t (i_src c) Hy Hx (proj2 (Forall_inv Hs)) f l1 f1 vs E1 Ev). cbn [bind]. rewrite Eo. cbn [bind]. rewrite Dt in R |- *.
      exact (IH _ _ _ _ _ nt (Forall_inv_tail Hs) (Forall_inv_tail Hd) E2 R).
  Qed.
  Theorem query_ok qfuel qcode qtmp qseg q y x v : query_code qfuel (tbl ++ [fe]) (length tbl) = Ok (qcode, qtmp) -> fix_prover_code si im [] false qcode qtmp = Ok qseg ->
    tree_refs si (sg_first qseg) = Ok q -> y < n -> is_ctx y x -> den (with_im im (tbl ++ [fe])) (rowv si m y) false fe v -> execute_code x q = Ok v.
  Proof.
    intros Hqc Hqs Hq Hy Hx Hv. destruct (fe_poly []) as [G0 _].
    destruct (query_shape _ _ _ _ _ _ si qseg Hqc Hqs Him (proj1 (proj2 G0))) as [cx [f [k [G1 [G2 [G3 [G4 [body [op [src G5]]]]]]]]]].
    destruct (gen_fix _ _ _ _ _ _ _ _ _ _ G1 G2 G3) as [k' [_ [_ [_ [K1 [K2 [_ K4]]]]]]].
    pose proof (fe_fix _ _ _ _ _ _ G1 G3) as Hsrc.
    assert (Him1 : Forall (fun p => fst p < length (tbl ++ [fe])) im) by (eapply Forall_impl; [|exact Him]; intros p A; rewrite app_length; cbv beta in A; lia).
    destruct (gen_run _ _ _ _ _ _ _ _ _ _ (rowv si m y) (fun r => Ok (rowv si m y r)) G1 fe_wf Him1 G2 G3 (row_zero y)) as [e0 [v' [k1 [t' [R1 [R2 [R3 [R4 R5]]]]]]]]; [reflexivity|].
    rewrite nth_error_app2, Nat.sub_diag in R1 by lia. injection R1 as <-. assert (k1 = k) by congruence. subst k1.
    rewrite (den_fun _ _ _ _ _ Hv _ R2).
    unfold tree_refs in Hq. destruct (iter_code tg (mkF [] 0 (mkEV [] [])) (sg_first qseg)) as [[q' f']| | |] eqn:Ei; try discriminate Hq. cbn [rmap bind fst] in Hq. apply ok_inj in Hq. subst q'.
    pose proof (tree_run y x true _ Hy Hx _ _ _ _ _ _ Hsrc K4 Ei R3) as Rv.
    rewrite G5 in Ei. destruct (iter_code_app _ _ _ _ _ _ Ei) as [a' [f1 [b' [A1 [A2 A3]]]]]. cbn [iter_code i_src i_dest i_op] in A2.
    destruct (iter_refs tg f1 src) as [[l1 f2]| | |]; try discriminate A2. cbn [bind fst snd] in A2. unfold tree_ref at 1 in A2. cbn [n_ty bind fst snd] in A2. injection A2 as <- _.
    unfold execute_code. rewrite A3 at 1. rewrite rev_app_distr. cbn [rev app]. rewrite Rv. cbn [bind i_dest]. unfold v_get. cbn [n_ty n_id]. rewrite R5. reflexivity.
  Qed.

  Variables (fuel : nat) (ctx : context) (code : list instr) (tmp : nat) (seg : segment) (workers per : nat).
  Hypothesis Hcode : step5_code fuel (tbl ++ [fe]) ctx (length tbl) = Ok (code, tmp).
  Hypothesis Hseg : fix_prover_code si im [] false code tmp = Ok seg.
  Hypothesis Hctx : x_code ctx = [].
  Hypothesis Hcalc : forall q j, In (q, j) (x_calc ctx) -> j < length tbl.
  Hypothesis Hfresh : outputs_fresh si Step5 m.
  Hypothesis Hfw : si_width si Sf_2ns = 3.
  Hypothesis Hper : rows_per_thread workers n = Ok per.
  Hypothesis Hlast : n <= per \/ dom_next si false <= (n - 1) mod per + 1.
  Theorem step5_rows : exists m' w F, calculate_exps_parallel si Step5 m seg workers = Ok m' /\ m_sec m' Spublics = m_sec m Spublics /\
    fri_pol (m_sec m' Sf_2ns) n = Ok (map w (seq 0 n)) /\ length F <= N /\
    forall i, i < n -> d3 (w i) = true /\ val (w i) = peval F (cpt e i) /\ den (with_im im (tbl ++ [fe])) (rowv si m i) false fe (w i).
  Proof.
    destruct (fe_poly (with_im im (tbl ++ [fe]))) as [G0 [_ [F [F1 F2]]]].
    destruct (step5_shape _ _ _ _ _ _ _ si seg Hcode Hseg Him Hctx Hcalc (proj1 (proj2 G0))) as [cx [body [f [k [G1 [G2 [G3 [G4 [G5 G6]]]]]]]]].
    destruct (gen_fix _ _ _ _ _ _ _ _ _ _ G1 G2 G3) as [k' [_ [_ [_ [K1 [K2 [_ K4]]]]]]].
    pose proof (fe_fix _ _ _ _ _ _ G1 G3) as Hsrc.
    assert (Him1 : Forall (fun p => fst p < length (tbl ++ [fe])) im) by (eapply Forall_impl; [|exact Him]; intros p A; rewrite app_length; cbv beta in A; lia).
    assert (Hrun : forall i, i < n -> exists v t', den (with_im im (tbl ++ [fe])) (rowv si m i) false fe v /\ arun (fun r => read_ref si false i m r) (fun _ => None) body = Ok t' /\ t' k = Some v).
    { intros i Hi. destruct (gen_run _ _ _ _ _ _ _ _ _ _ (rowv si m i) (fun r => read_ref si false i m r) G1 fe_wf Him1 G2 G3 (row_zero i)) as [e0 [v [k1 [t' [R1 [R2 [R3 [R4 R5]]]]]]]].
      - intros ci r Hci Hr Ht. pose proof (proj1 (Forall_forall _ _) Hsrc ci Hci) as [_ Hq]. destruct (proj1 (Forall_forall _ _) Hq r Hr) as [C|C]; [contradiction|]. exact (proj1 (P5_read i r Hi C)).
      - exists v, t'. rewrite nth_error_app2, Nat.sub_diag in R1 by lia. injection R1 as <-. assert (k1 = k) by congruence. subst k1. auto. }
    pose (w := fun i => match arun (fun r => read_ref si false i m r) (fun _ => None) body with
                        | Ok t' => match t' k with Some v => v | None => e_ZERO end | _ => e_ZERO end).
    assert (Hw : forall i, i < n -> exists t', arun (fun r => read_ref si false i m r) (fun _ => None) body = Ok t' /\ t' k = Some (w i) /\ den (with_im im (tbl ++ [fe])) (rowv si m i) false fe (w i)).
    { intros i Hi. destruct (Hrun i Hi) as [v [t' [D1 [R1 R2]]]]. exists t'. unfold w. rewrite R1, R2. auto. }
    assert (Hd3 : forall i, i < n -> d3 (w i) = true).
    { intros i Hi. destruct (Hw i Hi) as [t' [_ [_ D]]]. refine (fe_d3 _ _ _ D). rewrite (row_glob si m _ i Schallenge); [exact Hch5 | tauto | cbn; lia]. }
    destruct (step_parallel si Step5 Sf_2ns 3 m seg workers per body CCopy (N_new Nf 0 None false) [mkN Ntmp k None 0 false 0] w) as [m' [S1 [S2 [S3 [S4 [S5 [S6 [S7 S8]]]]]]]].
    - right. split; reflexivity.
    - lia.
    - exact Hfw.
    - now right.
    - exact Hsound.
    - exact Hfresh.
    - exact Hper.
    - exact Hlast.
    - exact G5.
    - rewrite G5. apply Forall_app. split.
      + eapply Forall_impl; [|exact Hsrc]. intros ci [A B]. split; [intros E; apply A in E; discriminate E|]. eapply Forall_impl; [|exact B]. intros r [R|R]; [unfold ref_ok; rewrite R; exact Logic.I | now apply P5_ref].
      + constructor; [|constructor]. split; [discriminate|]. constructor; [exact Logic.I | constructor].
    - rewrite G6. exact K4.
    - intros E. discriminate E.
    - reflexivity.
    - intros i Hi. destruct (Hw i Hi) as [t' [R1 [R2 _]]]. exists t', [w i]. split; [exact R1|].
      split; [cbn [mapM]; unfold aread; cbn [n_ty n_id]; rewrite R2; reflexivity | reflexivity].
    - intros i Hi C. rewrite (Hd3 i Hi) in C. discriminate C.
    - exists m', w, F. split; [exact S1|]. split; [apply S2; discriminate|].
      assert (Hb : Forall vbase (m_sec m' Sf_2ns)) by (refine (cells_base 3 _ n w _ S6 S7); lia).
      split; [|split; [exact F1|]].
      + apply mapM_ok. intros i Hi. apply in_seq in Hi. assert (Hi' : i < n) by lia. rewrite (three_elem _ _ Hb) by lia. f_equal.
        pose proof (S7 i Hi') as C. pose proof (C 0 ltac:(lia)) as X0. pose proof (C 1 ltac:(lia)) as X1. pose proof (C 2 ltac:(lia)) as X2. rewrite Nat.add_0_r in X0.
        rewrite (nth_error_nth _ _ _ X0), (nth_error_nth _ _ _ X1), (nth_error_nth _ _ _ X2). cbn [coord c0 e_from]. pose proof (Hd3 i Hi') as D. destruct (w i) as [? ? ? d]. cbn in D. subst d. reflexivity.
      + intros i Hi. destruct (Hw i Hi) as [t' [_ [_ D]]]. split; [exact (Hd3 i Hi)|]. split; [exact (F2 i _ Hi D) | exact D].
  Qed.
End S5.
