(* The quotient code over the extended coset: every row holds the quotient polynomial. *)
From Coq Require Import Ring Field Arith.
From Verif Require Import Base GlModel FrField F3gModel Cubic F3gProof ListAux PolyModel Roots PolyProof FftProof FftTop FriMath CodegenModel CodegenProof
  InterpModel InterpProof VerifierModel VerifierProof ImModel ImProof HashModel FftpModel FftpProof FriModel FriProof ProverModel ProverProof ParModel ParProof
  StarkMath StarkModel StarkGen StarkSrc StarkPoly StarkRow StarkQuot StarkEval.
Open Scope nat_scope.
Open Scope list_scope.
Open Scope res_scope.
Add Field K_field_s4 : K_field.

(* ---------- points ---------- *)
Lemma cpt_add e i j : cpt e (i + j) = kmul (cpt e i) (kpow (kroot e) j).
Proof. unfold cpt. rewrite kpow_add. ring. Qed.
Lemma kroot_mod e k : e <= 32 -> kpow (kroot e) (k mod 2 ^ e) = kpow (kroot e) k.
Proof.
  intros He. assert (P0 : 2 ^ e <> 0) by (apply Nat.pow_nonzero; lia). rewrite (Nat.div_mod k (2 ^ e) P0) at 2.
  rewrite kpow_add, kpow_mul, kroot_full by exact He. rewrite kpow_1. ring.
Qed.
Lemma cpt_mod e k : e <= 32 -> cpt e (k mod 2 ^ e) = cpt e k.
Proof. intros He. unfold cpt. rewrite kroot_mod by exact He. reflexivity. Qed.
Lemma cpt_next nb e i (prime : bool) : nb <= e -> e <= 32 -> cpt e ((i + if prime then 2 ^ (e - nb) else 0) mod 2 ^ e) = at_pt nb (cpt e i) prime.
Proof.
  intros H1 H2. rewrite cpt_mod by exact H2. unfold at_pt. destruct prime; [|rewrite Nat.add_0_r; reflexivity].
  rewrite cpt_add, (FriMath.kroot_down e (e - nb)) by lia. replace (e - (e - nb)) with nb by lia. reflexivity.
Qed.
Lemma ext_points_nth e i : e <= 32 -> i < 2 ^ e -> nth_error (ext_points (e_from (root e)) (2 ^ e)) i = Some (e_mul (e_from SHIFT) (e_exp (e_from (root e)) (Z.of_nat i))).
Proof.
  intros He Hi. unfold ext_points. rewrite nth_error_map, nth_error_nth' with (d := 0) by (rewrite seq_length; exact Hi). rewrite seq_nth by exact Hi. reflexivity.
Qed.
Lemma ext_point_val e i : val (e_mul (e_from SHIFT) (e_exp (e_from (root e)) (Z.of_nat i))) = cpt e i.
Proof. rewrite val_mul, val_exp by lia. rewrite Nat2Z.id, !val_from. reflexivity. Qed.
Lemma poly_dil c g k : length c <= S k -> poly_le k (fun x => peval c (kmul x g)).
Proof.
  intros H. exists (map (fun i => kmul (nth i c kzero) (kpow g i)) (seq 0 (length c))). rewrite map_length, seq_length. split; [exact H|].
  intros x. cbv beta. etransitivity; [|symmetry; etransitivity; [apply pv_peval|apply peval_map_seq]]. rewrite (peval_sum c). apply ksum_ext. intros i Hi. rewrite kpow_prod. ring.
Qed.
Lemma poly_plain c k : length c <= S k -> poly_le k (peval c).
Proof. intros H. exists c. split; [exact H|]. intros x. symmetry. apply pv_peval. Qed.
Lemma poly_const k v : poly_le k (fun _ => v).
Proof. exists [v]. split; [cbn; lia|]. intros x. cbn [pv]. ring. Qed.
Lemma poly_pt c nb k p : length c <= S k -> poly_le k (fun x => peval c (at_pt nb x p)).
Proof. intros H. unfold at_pt. destruct p; [now apply poly_dil|now apply poly_plain]. Qed.

(* ---------- columns ---------- *)
Definition cols (ss : list sec) (si : sinfo) (m : mem) (k : nat) (pcm : nat -> list K) : Prop :=
  forall c, c < k -> length (pcm c) = 2 ^ si_nbits si /\ exists p s pos dim,
    nth_error (si_cm_2ns si) c = Some p /\ nth_error (si_map si) p = Some (s, pos, dim) /\ In s ss /\
    column (si_nbits_ext si) (m_sec m s) (si_width si s) pos dim (pcm c).
Definition ccols (si : sinfo) (m : mem) (pconst : nat -> list K) : Prop :=
  forall c, c < si_nconst si -> length (pconst c) = 2 ^ si_nbits si /\
    column (si_nbits_ext si) (m_sec m Sconst_2ns) (si_nconst si) c 1 (pconst c).

(* a reference the table may hold: expressions below nexp, columns below kcm, ... *)
Definition node_ok (si : sinfo) (nexp kcm npub : nat) (r : node) : Prop :=
  match n_ty r with
  | Nx => True
  | Ncm => n_id r < kcm
  | Nconst => n_id r < si_nconst si
  | Nexp => n_id r < nexp
  | Nnumber => exists v, number_ref (n_value r) = Ok v
  | Npublic => n_id r < npub
  | Nchallenge => n_id r <= 4 /\ si_qdim si <> 1
  | _ => False
  end.
(* the polynomial behind a reference *)
Definition leafp (si : sinfo) (im : list (nat * nat)) (kcm : nat) (pcm pconst : nat -> list K) (pub ch : list F3G) (r : node) (x : K) : K :=
  match n_ty r with
  | Ncm => if n_id r <? kcm then peval (pcm (n_id r)) (at_pt (si_nbits si) x (n_prime r)) else kzero
  | Nconst => if n_id r <? si_nconst si then peval (pconst (n_id r)) (at_pt (si_nbits si) x (n_prime r)) else kzero
  | Nexp => match assoc Nat.eqb im (n_id r) with Some c => if c <? kcm then peval (pcm c) (at_pt (si_nbits si) x (n_prime r)) else kzero | None => kzero end
  | Nx => x
  | Nnumber => match number_ref (n_value r) with Ok v => val v | _ => kzero end
  | Npublic => val (nth (n_id r) pub e_ZERO)
  | Nchallenge => val (nth (n_id r) ch e_ZERO)
  | _ => kzero
  end.
Lemma leafp_le si im kcm pcm pconst pub ch : 1 <= si_nbits si -> (forall c, c < kcm -> length (pcm c) = 2 ^ si_nbits si) ->
  (forall c, c < si_nconst si -> length (pconst c) = 2 ^ si_nbits si) -> leaf_le (2 ^ si_nbits si - 1) (leafp si im kcm pcm pconst pub ch).
Proof.
  intros H1 Hc Hk nd. assert (HN : 2 <= 2 ^ si_nbits si) by (apply (Nat.pow_le_mono_r 2 1); lia).
  assert (G : forall c p, c < kcm -> poly_le (2 ^ si_nbits si - 1) (fun x => peval (pcm c) (at_pt (si_nbits si) x p))) by (intros c p Hcc; apply poly_pt; rewrite Hc by exact Hcc; lia).
  unfold leafp. destruct (n_ty nd); try apply poly_const.
  - destruct (assoc Nat.eqb im (n_id nd)) as [c|]; [|apply poly_const]. destruct (Nat.ltb_spec c kcm); [now apply G|apply poly_const].
  - destruct (Nat.ltb_spec (n_id nd) kcm); [now apply G|apply poly_const].
  - destruct (Nat.ltb_spec (n_id nd) (si_nconst si)); [|apply poly_const]. apply poly_pt. rewrite Hk by assumption. lia.
  - eapply poly_mono; [|apply poly_id]. lia.
Qed.
Lemma num0 : number_ref (Some 0%Z) = Ok e_ZERO.
Proof. vm_compute. reflexivity. Qed.

(* ---------- the row of a section ---------- *)
Section RowVal.
  Variables (si : sinfo) (m : mem).
  Hypothesis Hnb : si_nbits si <= si_nbits_ext si.
  Hypothesis He : si_nbits_ext si <= 31.
  Local Notation n := (2 ^ si_nbits_ext si).
  Local Notation nxt r := (if n_prime r then 2 ^ (si_nbits_ext si - si_nbits si) else 0).
  Lemma n_pos0 : n <> 0. Proof. apply Nat.pow_nonzero. lia. Qed.
  Lemma row_cm r i p s pos dim P : n_ty r = Ncm -> nth_error (si_cm_2ns si) (n_id r) = Some p -> nth_error (si_map si) p = Some (s, pos, dim) ->
    column (si_nbits_ext si) (m_sec m s) (si_width si s) pos dim P ->
    rowv si m i r = elem (m_sec m s) (si_width si s) pos dim ((i + nxt r) mod n) /\ val (rowv si m i r) = peval P (at_pt (si_nbits si) (cpt (si_nbits_ext si) i) (n_prime r)).
  Proof.
    intros Ht Hp Hm [D I L B V].
    assert (E : rowv si m i r = elem (m_sec m s) (si_width si s) pos dim ((i + nxt r) mod n)).
    { unfold rowv, read_ref, get_ref. rewrite Ht. unfold cm_ref. rewrite (vget_some _ _ _ Hp). cbn [bind]. unfold eval_map. rewrite (vget_some _ _ _ Hm). cbn [bind].
      assert (Hbb : (dim =? 1) || (dim =? 3) = true) by (destruct D as [->| ->]; reflexivity). rewrite Hbb. cbn [rmap bind operand_value].
      change (dom_size si false) with n. change (dom_next si false) with (2 ^ (si_nbits_ext si - si_nbits si)).
      rewrite (get_elem (m_sec m s) (si_width si s) pos dim i _ n s m eq_refl B L I D n_pos0). reflexivity. }
    split; [exact E|]. rewrite E, V by (apply Nat.mod_upper_bound, n_pos0). rewrite cpt_next by lia. reflexivity.
  Qed.
  Lemma row_const r i P : n_ty r = Nconst -> column (si_nbits_ext si) (m_sec m Sconst_2ns) (si_nconst si) (n_id r) 1 P ->
    rowv si m i r = elem (m_sec m Sconst_2ns) (si_nconst si) (n_id r) 1 ((i + nxt r) mod n) /\ val (rowv si m i r) = peval P (at_pt (si_nbits si) (cpt (si_nbits_ext si) i) (n_prime r)).
  Proof.
    intros Ht [D I L B V].
    assert (E : rowv si m i r = elem (m_sec m Sconst_2ns) (si_nconst si) (n_id r) 1 ((i + nxt r) mod n)).
    { unfold rowv, read_ref, get_ref. rewrite Ht. cbn [bind]. unfold cell. cbn [operand_value].
      change (dom_size si false) with n. change (dom_next si false) with (2 ^ (si_nbits_ext si - si_nbits si)).
      pose proof (get_elem (m_sec m Sconst_2ns) (si_nconst si) (n_id r) 1 i (nxt r) n Sconst_2ns m eq_refl B L I D n_pos0) as G. cbn [Nat.eqb] in G. rewrite G. reflexivity. }
    split; [exact E|]. rewrite E, V by (apply Nat.mod_upper_bound, n_pos0). rewrite cpt_next by lia. reflexivity.
  Qed.
  Lemma row_number r i v : n_ty r = Nnumber -> number_ref (n_value r) = Ok v -> rowv si m i r = v.
  Proof. intros Ht Hv. unfold rowv, read_ref, get_ref. rewrite Ht, Hv. reflexivity. Qed.
  Lemma row_glob r i s : (n_ty r = Npublic /\ s = Spublics \/ n_ty r = Nchallenge /\ s = Schallenge \/ n_ty r = Neval /\ s = Sevals) ->
    n_id r < length (m_sec m s) -> rowv si m i r = nth (n_id r) (m_sec m s) e_ZERO.
  Proof.
    intros H L. unfold rowv, read_ref, get_ref. destruct H as [[-> ->]|[[-> ->]|[-> ->]]]; cbn [bind]; unfold cell; cbn [operand_value]; unfold get_value; cbn [r_sym r_three];
      unfold get_i; cbn [r_off r_next r_mod r_size]; rewrite Nat.mul_0_r, Nat.add_0_r, (vget_nth _ _ e_ZERO) by exact L; reflexivity.
  Qed.
  Lemma row_x r i : n_ty r = Nx -> m_sec m Sx_2ns = ext_points (e_from (root (si_nbits_ext si))) n -> i < n -> val (rowv si m i r) = cpt (si_nbits_ext si) i.
  Proof.
    intros Ht Hx Hi. unfold rowv, read_ref, get_ref. rewrite Ht. cbn [bind]. unfold cell. cbn [operand_value]. unfold get_value. cbn [r_sym r_three].
    unfold get_i. cbn [r_off r_next r_mod r_size]. change (dom_size si false) with n. rewrite Nat.add_0_r, Nat.mod_small by exact Hi. rewrite Nat.mul_1_r, Nat.add_0_l, Hx.
    rewrite (vget_some _ _ _ (ext_points_nth (si_nbits_ext si) i ltac:(lia) Hi)). apply ext_point_val.
  Qed.
  Lemma row_zi i : m_zi m i = build_Zh_Inv (si_nbits si) (si_nbits_ext si - si_nbits si) 0 i -> i < n ->
    kmul (val (rowv si m i (N_new NZi 0 None false))) (ksub (kpow (cpt (si_nbits_ext si) i) (2 ^ si_nbits si)) kone) = kone.
  Proof.
    intros Hz Hi. destruct (zh_inv_spec (si_nbits si) (si_nbits_ext si - si_nbits si) 0 i ltac:(lia)) as [w [z [W [Z V]]]].
    replace (si_nbits si + (si_nbits_ext si - si_nbits si)) with (si_nbits_ext si) in W by lia. rewrite MG_root in W by lia. apply ok_inj in W. subst w. rewrite Nat.add_0_r in V.
    assert (E : rowv si m i (N_new NZi 0 None false) = z).
    { unfold rowv, read_ref, get_ref. cbn [n_ty N_new bind operand_value]. unfold get_value. cbn [r_sym]. rewrite Hz, Z. reflexivity. }
    rewrite E. exact V.
  Qed.
End RowVal.

(* ---------- labels and valuations ---------- *)
Lemma labs_mono (P Q : node -> Prop) mul p : (forall r, P r -> Q r) -> forall e, labs P mul p e -> labs Q mul p e.
Proof.
  intros H. induction e as [op id next value values k kp IH] using expr_ind'. intros HL. inversion HL as [e L V]; subst. constructor.
  - unfold lab in *. destruct (e_op (mkE op id next value values k kp)); try exact L; try (intros i Hi; apply H, L, Hi); apply H, L.
  - cbn [e_values] in *. clear -IH V. induction IH as [|x l Hx _ IHl]; constructor; [apply Hx; exact (Forall_inv V) | apply IHl; exact (Forall_inv_tail V)].
Qed.
Lemma den_any tbl rho rho' p e v : den tbl rho p e v -> exists w, den tbl rho' p e w.
Proof.
  induction 1; repeat match goal with H : exists w, den _ _ _ _ w |- _ => destruct H as [? ?] end; eexists; (econstructor; eassumption) || (eapply D_number; eassumption) ||
    (eapply D_xdiv; eassumption) || (eapply D_xdivw; eassumption) || (eapply D_x; eassumption).
Qed.
Definition of_k (k : K) : F3G := mkF3 (k0 k) (k1 k) (k2 k) true.
Lemma of_k_val k : val (of_k k) = k. Proof. destruct k. reflexivity. Qed.

Section S4.
  Variables (si : sinfo) (m : mem) (tbl : list expr) (c : expr) (im : list (nat * nat)) (kcm : nat) (pcm pconst : nat -> list K).
  Local Notation n := (2 ^ si_nbits_ext si).
  Local Notation e := (si_nbits_ext si).
  Local Notation nb := (si_nbits si).
  Definition P4 : node -> Prop := node_ok si (length tbl) kcm (length (m_sec m Spublics)).
  Definition L4 : node -> K -> K := leafp si im kcm pcm pconst (m_sec m Spublics) (m_sec m Schallenge).
  Hypothesis Hnb : 1 <= nb <= e.
  Hypothesis He : e <= 31.
  Hypothesis Hsound : sound si Step4 m.
  Hypothesis Hcols : cols [Scm1_2ns; Scm2_2ns; Scm3_2ns] si m kcm pcm.
  Hypothesis Hccols : ccols si m pconst.
  Hypothesis Hx : m_sec m Sx_2ns = ext_points (e_from (root e)) n.
  Hypothesis Hch : 5 <= length (m_sec m Schallenge).
  Hypothesis Him : Forall (fun p => fst p < length tbl /\ snd p < kcm) im.
  Hypothesis Hwf : Forall wf_e (tbl ++ [c]).
  Hypothesis Hlabs : forall p, Forall (labs P4 false p) (tbl ++ [c]).
  Hypothesis Hnar : si_qdim si = 1 -> Forall (fun v => d3 v = false) (m_sec m Spublics) /\
    forall k p s pos dim, k < kcm -> nth_error (si_cm_2ns si) k = Some p -> nth_error (si_map si) p = Some (s, pos, dim) -> dim = 1.

  Lemma im_in i k : assoc Nat.eqb im i = Some k -> i < length tbl /\ k < kcm.
  Proof.
    clear -Him. revert i k. induction im as [|[a b] l IH]; intros i k; cbn [assoc]; [discriminate|]. pose proof (Forall_inv Him) as H. cbn [fst snd] in H.
    specialize (IH (Forall_inv_tail Him) i k).
    destruct (Nat.eqb_spec a i) as [->|]; [intros E; injection E as <-; exact H | exact IH].
  Qed.
  Lemma at_row i : i < n -> at_point im L4 P4 (cpt e i) (rowv si m i).
  Proof.
    intros Hi. assert (C : forall r k, n_ty r = Ncm -> n_id r = k -> k < kcm -> val (rowv si m i r) = peval (pcm k) (at_pt nb (cpt e i) (n_prime r))).
    { intros r k Ht Hk Hlt. destruct (Hcols k Hlt) as [_ [p [s [pos [dim [C1 [C2 [_ C4]]]]]]]]. subst k. exact (proj2 (row_cm si m ltac:(lia) He r i p s pos dim _ Ht C1 C2 C4)). }
    split.
    - intros r Hr Hn. unfold P4, node_ok in Hr. unfold L4, leafp. destruct (n_ty r) eqn:Et; try contradiction.
      + rewrite (C r (n_id r) Et eq_refl Hr). rewrite (proj2 (Nat.ltb_lt _ _) Hr). reflexivity.
      + rewrite (proj2 (Nat.ltb_lt _ _) Hr). destruct (Hccols _ Hr) as [_ Hc]. exact (proj2 (row_const si m ltac:(lia) He r i _ Et Hc)).
      + destruct Hr as [v Hv]. rewrite (row_number si m r i v Et Hv), Hv. reflexivity.
      + rewrite (row_glob si m r i Spublics) by auto. reflexivity.
      + rewrite (row_glob si m r i Schallenge) by (auto; lia). reflexivity.
      + apply (row_x si m); [lia | exact He | exact Et | exact Hx | exact Hi].
    - intros j k p E. destruct (im_in j k E) as [_ Hk]. rewrite (C (N_new Ncm k None p) k eq_refl eq_refl Hk). unfold L4, leafp. cbn [n_ty n_id n_prime N_new].
      rewrite E, (proj2 (Nat.ltb_lt _ _) Hk). reflexivity.
  Qed.
  Lemma at_any x : at_point im L4 P4 x (fun r => of_k (L4 r x)).
  Proof.
    split; [intros r _ _; apply of_k_val|]. intros j k p E. rewrite of_k_val. unfold L4, leafp. cbn [n_ty n_id n_prime N_new]. rewrite E. reflexivity.
  Qed.
  Lemma P4_ref r : P4 r -> n_ty r <> Nexp -> ref_ok si Step4 m r /\ (si_qdim si = 1 -> narrow si m r).
  Proof.
    intros Hr Hn. unfold P4, node_ok in Hr. unfold ref_ok, narrow. destruct (n_ty r) eqn:Et; try contradiction.
    - destruct (Hcols _ Hr) as [_ [p [s [pos [dim [C1 [C2 [C3 C4]]]]]]]]. split.
      + exists p, s, pos, dim. split; [exact C1|]. split; [exact C2|]. destruct C4 as [D I0 _ _ _]. split; [exact D|]. split; [exact I0|].
        cbn in C3 |- *. tauto.
      + intros E p' s' pos' dim' A B. exact (proj2 (Hnar E) _ _ _ _ _ Hr A B).
    - split; [exact Hr | auto].
    - split; [exact Hr | auto].
    - split; [exact Hr | intros E; exact (proj1 (Hnar E))].
    - split; [lia | intros E; exact (proj2 Hr E)].
    - split; [reflexivity | auto].
  Qed.
  Definition T4 : list nat := map fst im.
  Lemma T4_in i : In i T4 <-> exists k, assoc Nat.eqb im i = Some k.
  Proof.
    unfold T4. clear. induction im as [|[a b] l IH]; cbn [map fst In assoc]; [split; [intros [] | intros [k C]; discriminate C]|].
    destruct (Nat.eqb_spec a i) as [->|Hne]; [split; eauto|]. rewrite <- IH. split; [intros [C|C]; [contradiction | exact C] | auto].
  Qed.
  Lemma bridge p x v0 rho0 : den (with_im im (tbl ++ [c])) rho0 p x v0 -> labs P4 false p x ->
    exists f, pval tbl L4 T4 p x f /\ forall z rho v, at_point im L4 P4 z rho -> den (with_im im (tbl ++ [c])) rho p x v -> val v = f z.
  Proof.
    intros Hd Hl. refine (den_pval tbl (tbl ++ [c]) im T4 L4 P4 T4_in _ _ _ _ rho0 p x v0 Hd Hl).
    - intros q. specialize (Hlabs q). apply Forall_app in Hlabs. exact (proj1 Hlabs).
    - intros r Hr Ht. unfold P4, node_ok in Hr. rewrite Ht in Hr. destruct (nth_error tbl (n_id r)) as [y|] eqn:Ey.
      + exists y. split; [reflexivity|]. rewrite nth_error_app1 by exact Hr. exact Ey.
      + apply nth_error_None in Ey. lia.
    - intros r Hr. unfold P4, node_ok in Hr. destruct (n_ty r); try contradiction; repeat split; discriminate.
    - reflexivity.
  Qed.

  Variables (fuel : nat) (code : list instr) (tmp : nat) (ctx : context) (seg : segment) (workers per : nat).
  Hypothesis Hcode : step4_code fuel (tbl ++ [c]) im (length tbl) = Ok (code, tmp, ctx).
  Hypothesis Hseg : fix_prover_code si im [] false code tmp = Ok seg.
  Hypothesis Hfresh : outputs_fresh si Step4 m.
  Hypothesis Hqd : si_qdim si = 1 \/ si_qdim si = 3.
  Hypothesis Hqw : si_width si Sq_2ns = si_qdim si.
  Hypothesis Hper : rows_per_thread workers n = Ok per.
  Hypothesis Hlast : n <= per \/ dom_next si false <= (n - 1) mod per + 1.

  Theorem step4_rows : exists C m', pval tbl L4 T4 false c C /\
    (forall z rho v, at_point im L4 P4 z rho -> den (with_im im (tbl ++ [c])) rho false c v -> val v = C z) /\
    (forall rho, exists v, den (with_im im (tbl ++ [c])) rho false c v) /\
    calculate_exps_parallel si Step4 m seg workers = Ok m' /\
    (forall s, s <> Stmp -> s <> Sq_2ns -> m_sec m' s = m_sec m s) /\ m_xdiv m' = m_xdiv m /\ m_xdivw m' = m_xdivw m /\ m_zi m' = m_zi m /\
    length (m_sec m' Sq_2ns) = n * si_qdim si /\ Forall vbase (m_sec m' Sq_2ns) /\
    (forall i, i < n -> kmul (val (elem (m_sec m' Sq_2ns) (si_qdim si) 0 (si_qdim si) i)) (ksub (kpow (cpt e i) (2 ^ nb)) kone) = C (cpt e i)).
  Proof.
    assert (Him1 : Forall (fun p => fst p < length (tbl ++ [c])) im).
    { eapply Forall_impl; [|exact Him]. intros p [A _]. rewrite app_length. lia. }
    destruct (step4_shape _ _ _ _ _ _ _ si seg Hcode Hseg Him1) as [cx [body [f [k [G1 [G2 [G3 [G4 [G5 [G6 _]]]]]]]]]].
    destruct (gen_fix _ _ _ _ _ _ _ _ _ _ G1 G2 G3) as [k' [_ [_ [_ [K1 [K2 [_ K4]]]]]]].
    pose (P' := fun r => n_ty r = Ntmp \/ P4 r).
    pose (Q' := fun r => ref_ok si Step4 m r /\ (si_qdim si = 1 -> narrow si m r)).
    assert (Hsrc : Forall (StarkSrc.src_ok Q' false) body).
    { destruct (gen_src P' (fun r H => or_introl H) (tbl ++ [c]) (fun _ => True)) with (fuel := fuel) (m := false) (c := mkCtx 0 [] (im_keys im)) (i := length tbl) (p := false) (c' := cx) as [ext [X1 X2]].
      - intros q j y _ Ey. split; [|auto]. apply (labs_mono P4); [intros r H; now right|]. apply (proj1 (Forall_forall _ _) (Hlabs q)). eapply nth_error_In, Ey.
      - exact Logic.I.
      - exact G1.
      - change (linear_code (mkCtx 0 [] (im_keys im))) with (@nil instr) in X1. cbn [app] in X1. rewrite X1 in G3.
        refine (fixp_src P' Q' si im false ext _ _ _ _ _ _ X2 G3).
        + intros r [Hr|Hr] Hn; [|now apply P4_ref]. unfold Q', ref_ok, narrow. rewrite Hr. auto.
        + intros r q [Hr|Hr] Ht Ha; [congruence|]. apply P4_ref; [|discriminate]. unfold P4, node_ok. cbn [n_ty n_id]. exact (proj2 (im_in _ _ Ha)).
        + intros r Hr. unfold Q', ref_ok, narrow. rewrite Hr. auto. }
    assert (Hfl : fills Step4 Sq_2ns) by (left; split; reflexivity).
    assert (Hleaf : forall i r, i < n -> ref_ok si Step4 m r -> n_ty r <> Ntmp -> read_ref si false i m r = Ok (rowv si m i r) /\ wf (rowv si m i r)).
    { intros i r Hi Hr Ht. destruct (leaf_read si Step4 Sq_2ns m Hfl (proj2 Hnb) ltac:(lia) Hsound r i Hr Ht Hi) as [v [V1 [V2 _]]]. unfold rowv. rewrite V1. split; [reflexivity | exact V2]. }
    assert (Hz : forall i, rowv si m i (N_new Nnumber 0 (Some 0%Z) false) = e_ZERO) by (intros i; apply (row_number si m); [reflexivity | apply num0]).
    assert (Hrun : forall i, i < n -> exists v t', den (with_im im (tbl ++ [c])) (rowv si m i) false c v /\ arun (fun r => read_ref si false i m r) (fun _ => None) body = Ok t' /\ t' k = Some v).
    { intros i Hi. destruct (gen_run _ _ _ _ _ _ _ _ _ _ (rowv si m i) (fun r => read_ref si false i m r) G1 Hwf Him1 G2 G3 (Hz i)) as [e0 [v [k1 [t' [R1 [R2 [R3 [R4 R5]]]]]]]].
      - intros ci r Hci Hr Ht. apply (Hleaf i r Hi); [|exact Ht]. pose proof (proj1 (Forall_forall _ _) Hsrc ci Hci) as [_ Hq]. exact (proj1 (proj1 (Forall_forall _ _) Hq r Hr)).
      - exists v, t'. rewrite nth_error_app2, Nat.sub_diag in R1 by lia. injection R1 as <-. assert (k1 = k) by congruence. subst k1. auto. }
    assert (Hn0 : 0 < n) by (apply Nat.neq_0_lt_0, Nat.pow_nonzero; lia).
    destruct (Hrun 0 Hn0) as [v0 [_ [D0 _]]].
    assert (Hlc : labs P4 false false c) by (specialize (Hlabs false); apply Forall_app in Hlabs; exact (Forall_inv (proj2 Hlabs))).
    destruct (bridge false c v0 _ D0 Hlc) as [C [B1 B2]].
    pose (w := fun i => match arun (fun r => read_ref si false i m r) (fun _ => None) body with
                        | Ok t' => match t' k with Some v => e_mul v (rowv si m i (N_new NZi 0 None false)) | None => e_ZERO end | _ => e_ZERO end).
    assert (Hzi : forall i, i < n -> read_ref si false i m (N_new NZi 0 None false) = Ok (rowv si m i (N_new NZi 0 None false))).
    { intros i Hi. apply (Hleaf i); [exact Hi | exact Logic.I | discriminate]. }
    destruct (step_parallel si Step4 Sq_2ns (si_qdim si) m seg workers per body CMul (N_new Nq 0 None false) [mkN Ntmp k None 0 false 0; N_new NZi 0 None false] w)
      as [m' [S1 [S2 [S3 [S4 [S5 [S6 [S7 S8]]]]]]]].
    - exact Hfl.
    - lia.
    - exact Hqw.
    - exact Hqd.
    - exact Hsound.
    - exact Hfresh.
    - exact Hper.
    - exact Hlast.
    - exact G5.
    - rewrite G5. apply Forall_app. split.
      + eapply Forall_impl; [|exact Hsrc]. intros ci [A B]. split; [intros E; apply A in E; discriminate E|]. eapply Forall_impl; [|exact B]. intros r [R _]. exact R.
      + constructor; [|constructor]. split; [discriminate|]. constructor; [exact Logic.I|]. constructor; [exact Logic.I | constructor].
    - rewrite G6. exact K4.
    - intros E. rewrite G5. apply Forall_app. split.
      + eapply Forall_impl; [|exact Hsrc]. intros ci [_ B]. unfold code_narrow. eapply Forall_impl; [|exact B]. intros r [_ R]. exact (R E).
      + constructor; [|constructor]. constructor; [exact Logic.I|]. constructor; [exact Logic.I | constructor].
    - unfold dest_ref. cbn [n_ty N_new n_id]. destruct Hqd as [->| ->]; reflexivity.
    - intros i Hi. destruct (Hrun i Hi) as [v [t' [_ [R1 R2]]]]. exists t', [v; rowv si m i (N_new NZi 0 None false)]. split; [exact R1|].
      split; [cbn [mapM]; unfold aread; cbn [n_ty n_id N_new]; rewrite R2, (Hzi i Hi); reflexivity|]. unfold w. rewrite R1, R2. reflexivity.
    - intros i Hi. unfold w. destruct (arun _ _ _) as [t'| | |]; [|apply wf_ZERO..]. destruct (t' k); [apply wf_mul | apply wf_ZERO].
    - exists C, m'. split; [exact B1|]. split; [exact B2|]. split; [intros rho; exact (den_any _ _ rho _ _ _ D0)|]. split; [exact S1|]. split; [exact S2|].
      split; [exact S3|]. split; [exact S4|]. split; [exact S5|]. split; [exact S6|]. split; [refine (cells_base (si_qdim si) _ n w _ S6 S7); lia|].
      intros i Hi. assert (Hww : wf (w i)) by (unfold w; destruct (arun _ _ _) as [t'| | |]; [|apply wf_ZERO..]; destruct (t' k); [apply wf_mul | apply wf_ZERO]).
      rewrite (cells_elem (si_qdim si) _ i (w i) Hqd Hww (fun E => S8 E i Hi) (S7 i Hi)).
      destruct (Hrun i Hi) as [v [t' [D1 [R1 R2]]]]. unfold w. rewrite R1, R2, val_mul, (B2 _ _ _ (at_row i Hi) D1).
      assert (Z0 : m_zi m i = build_Zh_Inv nb (e - nb) 0 i) by (destruct Hsound as [[_ [_ Z0]] _]; apply Z0).
      pose proof (row_zi si m (proj2 Hnb) He i Z0 Hi) as Z1.
      transitivity (kmul (C (cpt e i)) (kmul (val (rowv si m i (N_new NZi 0 None false))) (ksub (kpow (cpt e i) (2 ^ nb)) kone))); [ring|]. rewrite Z1. ring.
  Qed.
End S4.
