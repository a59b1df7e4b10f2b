(* The proof of an honest prover is accepted. *)
From Coq Require Import Ring Field Arith.
From Verif Require Import Base GlModel FrField F3gModel Cubic F3gProof ListAux PolyModel Roots PolyProof FftProof FftTop FriMath CodegenModel CodegenProof
  InterpModel InterpProof VerifierModel VerifierProof ImModel ImProof HashModel FftpModel FftpProof BrProof FriModel FriProof ProverModel ProverProof ParModel ParProof
  StarkMath StarkModel StarkGen StarkSrc StarkPoly StarkRow StarkQuot StarkEval StarkStep4 StarkFri StarkStep5 StarkCheck StarkTop.
From Verif Require MerkleProof.
Open Scope nat_scope.
Open Scope list_scope.
Open Scope res_scope.
Add Field K_field_sd : K_field.

Lemma mapM_total {A B} (f : A -> res B) l : Forall (fun x => exists y, f x = Ok y) l -> exists ys, mapM f l = Ok ys.
Proof. induction 1 as [|x l [y Hy] _ [ys Hys]]; [exists []; reflexivity|]. exists (y :: ys). cbn [mapM]. rewrite Hy. cbn [bind]. rewrite Hys. reflexivity. Qed.
Lemma coset_shift nb e z : nb <= e -> e <= 31 -> (forall r, r < 2 ^ e -> z <> cpt e r) -> forall r, r < 2 ^ e -> kmul z (kroot nb) <> cpt e r.
Proof.
  intros H1 H2 H r Hr E. pose (s := 2 ^ (e - nb)). assert (Hs : s <= 2 ^ e) by (apply Nat.pow_le_mono_r; lia). assert (Hs0 : 0 < s) by (apply Nat.neq_0_lt_0, Nat.pow_nonzero; lia).
  pose (j := (r + (2 ^ e - s)) mod 2 ^ e). assert (Hj : j < 2 ^ e) by (apply Nat.mod_upper_bound; lia).
  assert (A : at_pt nb (cpt e j) true = cpt e r).
  { rewrite <- (cpt_next nb e j true) by lia. fold s. unfold j. rewrite Nat.add_mod_idemp_l by lia. replace (r + (2 ^ e - s) + s) with (r + 1 * 2 ^ e) by lia.
    rewrite Nat.mod_add by lia. rewrite Nat.mod_small by exact Hr. reflexivity. }
  unfold at_pt in A. apply (H j Hj). rewrite <- A in E. assert (B : kroot nb <> kzero) by (apply StarkMath.kroot_nz; lia).
  apply (kcancel _ _ (kroot nb) B). rewrite E. ring.
Qed.

(* the trees of the first three stages and of the constants, and their roots *)
Definition tree_of (perm : list Fr -> list Fr -> list Fr) (si : sinfo) (m : mem) (s : sec) (t : tree) (r : list Fr) : Prop :=
  (exists k, merkelize perm k (map c0 (m_sec m s)) (sec_width si s) (2 ^ si_nbits_ext si) = Ok t) /\ tree_root t = Ok r.
(* the transcript up to the root of the third tree, with the first four challenges *)
Definition first_rounds (perm : list Fr -> list Fr -> list Fr) (pub : list F3G) (r1 r2 r3 : list Fr) (ch : list F3G) (tr : transcript) : Prop :=
  exists ta tb tc td te tf tg c0 c1 c2 c3,
    put_elems perm tr_new pub = Ok ta /\ put perm ta [r1] = Ok tb /\ get_challenge perm tb = Ok (c0, tc) /\ get_challenge perm tc = Ok (c1, td) /\
    put perm td [r2] = Ok te /\ get_challenge perm te = Ok (c2, tf) /\ get_challenge perm tf = Ok (c3, tg) /\ put perm tg [r3] = Ok tr /\
    firstn 4 ch = [c0; c1; c2; c3].
Lemma list8 {A} (l : list A) a b c d e f g h : length l = 8 -> firstn 4 l = [a; b; c; d] -> nth_error l 4 = Some e -> nth_error l 5 = Some f -> nth_error l 6 = Some g -> nth_error l 7 = Some h ->
  l = [a; b; c; d; e; f; g; h].
Proof.
  intros L. do 8 (destruct l as [|? l]; [discriminate L|]). destruct l; [|discriminate L]. cbn. intros E H4 H5 H6 H7. congruence.
Qed.
Lemma firstn_ext {A} k (l l' : list A) : (forall i, i < k -> nth_error l i = nth_error l' i) -> firstn k l = firstn k l'.
Proof.
  revert l l'. induction k as [|k IH]; intros l l' H; [reflexivity|]. pose proof (H 0 ltac:(lia)) as H0. destruct l as [|x l], l' as [|y l']; try discriminate H0; [reflexivity|].
  cbn in H0. injection H0 as <-. cbn [firstn]. f_equal. apply IH. intros i Hi. exact (H (S i) ltac:(lia)).
Qed.

Section Done.
  Variable perm : list Fr -> list Fr -> list Fr.
  Hypothesis perm_len : forall i s, length (perm i s) = 12.
  Variables (fuel gfuel workers : nat) (si : sinfo) (tbl : list expr) (ids : list nat) (ncm md : nat) (ce : cexp) (pg : program) (m : mem) (pcm pconst : nat -> list K).
  Local Notation nb := (si_nbits si).
  Local Notation N := (2 ^ si_nbits si).
  Local Notation e := (si_nbits_ext si).
  Local Notation n := (2 ^ si_nbits_ext si).
  Local Notation im := (ce_im ce).
  Local Notation kcm := (ncm + length (ce_im ce)).
  Local Notation qdeg := (length (ce_qs ce)).
  Local Notation pub := (m_sec m Spublics).
  Hypothesis Hcfg : stark_cfg fuel gfuel si tbl ids ncm md ce pg (length pub).
  Hypothesis Hmem : stark_mem si kcm pcm pconst m.
  Hypothesis Hwk : workers <> 0.
  Hypothesis Hchunks : chunks_ok si workers.

  Lemma put_wf t es t' : TranscriptProof.wf t -> put perm t es = Ok t' -> TranscriptProof.wf t'.
  Proof. intros W H. destruct (put_ok perm perm_len t es W) as [u [E1 E2]]. rewrite E1 in H. apply ok_inj in H. now subst. Qed.
  Lemma challenge_wf t x t' : TranscriptProof.wf t -> get_challenge perm t = Ok (x, t') -> TranscriptProof.wf t'.
  Proof. intros W H. destruct (challenge_ok perm perm_len t W) as [y [u [E1 E2]]]. rewrite E1 in H. apply ok_inj in H. now injection H as _ <-. Qed.
  Lemma elems_ok l : forall t, TranscriptProof.wf t -> exists t', put_elems perm t l = Ok t' /\ TranscriptProof.wf t'.
  Proof.
    induction l as [|x l IH]; intros t W; [exists t; split; [reflexivity | exact W]|]. destruct (put_ok perm perm_len t (map (fun y => [y]) (e_as_elements x)) W) as [u [E1 E2]].
    destruct (IH u E2) as [t' [F1 F2]]. exists t'. split; [|exact F2]. unfold put_elems in *. cbn [foldM]. unfold put_elem at 1. rewrite E1, bindE. exact F1.
  Qed.
  Lemma elems_wf l t t' : TranscriptProof.wf t -> put_elems perm t l = Ok t' -> TranscriptProof.wf t'.
  Proof. intros W H. destruct (elems_ok l t W) as [u [E1 E2]]. rewrite E1 in H. apply ok_inj in H. now subst. Qed.

  Variables (c : expr) (code4 : list instr) (tmp4 : nat) (ctx : context) (ver : list instr) (ev : evst) (fe : expr) (s5 qc : list instr * nat) (seg4 seg5 segq : segment) (qcode : list instr).
  Hypothesis CP : cparts si tbl ids ncm ce m c.
  Hypothesis GP : gparts gfuel si tbl ncm ce pg c code4 tmp4 ctx ver ev fe s5 qc seg4 seg5 segq qcode.
  Variables (tr : transcript) (m4 : mem) (t4 : tree) (root4 : list Fr) (vc xi : F3G) (tr4 : transcript) (Q : list K).
  Hypothesis HQ : quot perm workers si tbl ncm ce m pcm pconst c tr m4 t4 root4 vc xi tr4 Q.
  Local Notation pc := (pcm' si ncm ce pcm Q).

  Lemma bits : 1 <= nb <= e /\ e <= 31. Proof. exact (cf_bits _ _ _ _ _ _ _ _ _ _ Hcfg). Qed.
  Lemma xi_d3 : d3 xi = true.
  Proof. destruct (qu_vc _ _ _ _ _ _ _ _ _ _ _ _ _ _ _ _ _ _ HQ) as [a [b [_ [_ H]]]]. exact (challenge_d3 _ _ _ _ H). Qed.
  Lemma vc_d3 : d3 vc = true.
  Proof. destruct (qu_vc _ _ _ _ _ _ _ _ _ _ _ _ _ _ _ _ _ _ HQ) as [a [b [H _]]]. exact (challenge_d3 _ _ _ _ H). Qed.
  Lemma const4 : ccols si m4 pconst.
  Proof. apply (ccols_ext si m); [|exact (sm_const _ _ _ _ _ Hmem)]. apply (qu_sec _ _ _ _ _ _ _ _ _ _ _ _ _ _ _ _ _ _ HQ); discriminate. Qed.
  Lemma ch4_wf : Forall F3gProof.wf (m_sec m4 Schallenge).
  Proof.
    destruct (qu_ch _ _ _ _ _ _ _ _ _ _ _ _ _ _ _ _ _ _ HQ) as [L H]. apply Forall_forall. intros x Hx. apply In_nth_error in Hx. destruct Hx as [k Hk]. rewrite H in Hk.
    destruct (k =? 7); [injection Hk as <-; exact (d3_wf _ xi_d3)|]. destruct (k =? 4); [injection Hk as <-; exact (d3_wf _ vc_d3)|].
    destruct (sm_sound _ _ _ _ _ Hmem) as [_ [_ [_ [W _]]]]. exact (proj1 (Forall_forall _ _) W x (nth_error_In _ _ Hk)).
  Qed.

  (* the evaluations *)
  Record evd (evals : list F3G) (tr5 : transcript) (m5 : mem) (v1 v2 : F3G) (LEv LpEv : list F3G) : Prop := {
    ed_tr : exists ta tb, put_elems perm tr4 evals = Ok ta /\ get_challenge perm ta = Ok (v1, tb) /\ get_challenge perm tb = Ok (v2, tr5);
    ed_sec : forall s, s <> Sevals -> s <> Schallenge -> m_sec m5 s = m_sec m4 s;
    ed_evals : m_sec m5 Sevals = evals;
    ed_zi : m_zi m5 = m_zi m4;
    ed_ch : length (m_sec m5 Schallenge) = 8 /\ forall k, nth_error (m_sec m5 Schallenge) k = if k =? 6 then Some v2 else if k =? 5 then Some v1 else nth_error (m_sec m4 Schallenge) k;
    ed_lev : is_lev nb (val xi) LEv /\ is_lev nb (kmul (val xi) (kroot nb)) LpEv;
    ed_map : mapM (eval_at si m4 LEv LpEv) (ev_map ev) = Ok evals }.
  Lemma evals_ok : exists evals tr5 m5 v1 v2 LEv LpEv, evals_phase perm si pg m4 xi tr4 = Ok (m5, evals, tr5) /\ evd evals tr5 m5 v1 v2 LEv LpEv.
  Proof.
    destruct bits as [B1 B2]. pose proof (cp_labs _ _ _ _ _ _ _ CP) as HL. pose proof (cp_im _ _ _ _ _ _ _ CP) as Him.
    assert (Dv : forall x, val (e_div x (e_from SHIFT)) = kmul (val x) (kinv K_shift)) by (intros x; rewrite val_div; reflexivity).
    destruct (lev_ok nb (e_div xi (e_from SHIFT)) (val xi) ltac:(lia) (Dv xi)) as [LEv [E1 V1]].
    destruct (lev_ok nb (e_div (e_mul xi (e_from (root nb))) (e_from SHIFT)) (kmul (val xi) (kroot nb)) ltac:(lia)) as [LpEv [E2 V2]]; [rewrite Dv, val_mul; reflexivity|].
    destruct (verifier_refs si tbl c im kcm qdeg pub Him HL gfuel ver ev (gp_v _ _ _ _ _ _ _ _ _ _ _ _ _ _ _ _ _ _ _ GP)) as [K1 [K2 K3]].
    destruct (mapM_total (eval_at si m4 LEv LpEv) (ev_map ev)) as [evals Ee].
    { eapply Forall_impl; [|exact K1]. intros k Hk. destruct (eval_key si kcm qdeg pc pconst m4 LEv LpEv xi ltac:(lia) B2 (qu_cols _ _ _ _ _ _ _ _ _ _ _ _ _ _ _ _ _ _ HQ) const4 (conj V1 V2) k Hk) as [v [Hv _]].
      exists v. exact Hv. }
    destruct (elems_ok evals tr4 (qu_tr _ _ _ _ _ _ _ _ _ _ _ _ _ _ _ _ _ _ HQ)) as [ta [T1 W1]].
    destruct (challenge_ok perm perm_len ta W1) as [v1 [tb [T2 W2]]]. destruct (challenge_ok perm perm_len tb W2) as [v2 [tr5 [T3 W3]]].
    destruct (qu_ch _ _ _ _ _ _ _ _ _ _ _ _ _ _ _ _ _ _ HQ) as [Lc Nc].
    pose (ma := m_set m4 Sevals evals). assert (Ca : m_sec ma Schallenge = m_sec m4 Schallenge) by (apply m_set_other; discriminate).
    destruct (set_challenge_ok ma 5 v1) as [l5 [S5 [L5 N5]]]; [rewrite Ca; lia|].
    destruct (set_challenge_ok (m_set ma Schallenge l5) 6 v2) as [l6 [S6 [L6 N6]]]; [rewrite m_set_same, L5, Ca; lia|].
    exists evals, tr5, (m_set (m_set ma Schallenge l5) Schallenge l6), v1, v2, LEv, LpEv. split.
    - unfold evals_phase. rewrite MG_root by lia. rewrite bindE. cbv zeta. rewrite E1, bindE, E2, bindE. rewrite (gp_pg _ _ _ _ _ _ _ _ _ _ _ _ _ _ _ _ _ _ _ GP). cbn [pg_ev].
      rewrite Ee, bindE, T1, bindE, T2, bindE. cbv beta iota. fold ma. rewrite S5, bindE, T3, bindE. cbv beta iota. rewrite S6, bindE. reflexivity.
    - constructor.
      + exists ta, tb. auto.
      + intros s H1 H2. rewrite !m_set_other by congruence. unfold ma. apply m_set_other. congruence.
      + rewrite !m_set_other by discriminate. unfold ma. apply m_set_same.
      + reflexivity.
      + rewrite m_set_same in N6, L6 |- *. split; [rewrite L6, L5, Ca; exact Lc|]. intros k. rewrite N6, N5, Ca. reflexivity.
      + exact (conj V1 V2).
      + exact Ee.
  Qed.

  (* ---------- the FRI polynomial ---------- *)
  Variables (evals : list F3G) (tr5 : transcript) (m5 : mem) (v1 v2 : F3G) (LEv LpEv : list F3G).
  Hypothesis HE : evd evals tr5 m5 v1 v2 LEv LpEv.
  Hypothesis Hxi : forall r, r < n -> val xi <> cpt e r.
  Local Notation zw := (e_mul xi (e_from (root (si_nbits si)))).

  Lemma sec5 s : s <> Stmp -> s <> Sq_2ns -> s <> Scm4_2ns -> s <> Schallenge -> s <> Sevals -> m_sec m5 s = m_sec m s.
  Proof. intros H1 H2 H3 H4 H5. rewrite (ed_sec _ _ _ _ _ _ _ HE) by assumption. apply (qu_sec _ _ _ _ _ _ _ _ _ _ _ _ _ _ _ _ _ _ HQ); assumption. Qed.
  Lemma cm4_5 : m_sec m5 Scm4_2ns = m_sec m4 Scm4_2ns.
  Proof. apply (ed_sec _ _ _ _ _ _ _ HE); discriminate. Qed.
  Lemma v1_d3 : d3 v1 = true.
  Proof. destruct (ed_tr _ _ _ _ _ _ _ HE) as [a [b [_ [H _]]]]. exact (challenge_d3 _ _ _ _ H). Qed.
  Lemma v2_d3 : d3 v2 = true.
  Proof. destruct (ed_tr _ _ _ _ _ _ _ HE) as [a [b [_ [_ H]]]]. exact (challenge_d3 _ _ _ _ H). Qed.
  Lemma ch5_wf : Forall F3gProof.wf (m_sec m5 Schallenge).
  Proof.
    destruct (ed_ch _ _ _ _ _ _ _ HE) as [L H]. apply Forall_forall. intros x Hx. apply In_nth_error in Hx. destruct Hx as [k Hk]. rewrite H in Hk.
    destruct (k =? 6); [injection Hk as <-; exact (d3_wf _ v2_d3)|]. destruct (k =? 5); [injection Hk as <-; exact (d3_wf _ v1_d3)|].
    exact (proj1 (Forall_forall _ _) ch4_wf x (nth_error_In _ _ Hk)).
  Qed.
  Lemma ev_wf : Forall F3gProof.wf evals.
  Proof. exact (evals_wf si ev m4 LEv LpEv evals (ed_map _ _ _ _ _ _ _ HE)). Qed.

  Definition m6 (xd xdw : list Fr) : mem := mkM (m_sec m5) xd xdw (m_zi m5).
  Lemma sound6 xd xdw : is_xd e xi xd -> is_xd e zw xdw -> sound si Step5 (m6 xd xdw).
  Proof.
    intros X1 X2. destruct (sm_sound _ _ _ _ _ Hmem) as [[M1 [_ M3]] [S1 [Wp [_ _]]]]. destruct (cf_width _ _ _ _ _ _ _ _ _ _ Hcfg) as [_ [Wf _]].
    destruct (qu_cm4 _ _ _ _ _ _ _ _ _ _ _ _ _ _ _ _ _ _ HQ) as [L4 V4]. destruct (sm_f _ _ _ _ _ Hmem) as [Lf Zf].
    assert (Old : forall s, In s [Scm1_2ns; Scm2_2ns; Scm3_2ns; Sconst_2ns] -> m_sec m5 s = m_sec m s /\ In s (step_in Step4)).
    { intros s Hs. split; [|cbn in Hs |- *; tauto]. apply sec5; intros ->; cbn in Hs; repeat (destruct Hs as [Hs|Hs]; [discriminate Hs|]); exact Hs. }
    assert (B3 : forall l, Forall vbase l -> Forall (fun v => d3 v = false) l) by (intros l Hl; eapply Forall_impl; [|exact Hl]; intros v [x ->]; reflexivity).
    assert (In4 : forall s, In s (step_in Step5) -> In s [Scm1_2ns; Scm2_2ns; Scm3_2ns; Sconst_2ns] \/ s = Scm4_2ns) by (intros s Hs; cbn in Hs |- *; intuition).
    split; [split; [|split]|split; [|split; [|split]]]; cbn [m6 m_sec m_xdiv m_xdivw m_zi].
    - intros s Hs. apply in_app_or in Hs. destruct Hs as [Hs|[<-|[]]].
      + destruct (In4 s Hs) as [Ho| ->].
        * destruct (Old s Ho) as [-> Hi]. exact (M1 s (in_or_app _ _ s (or_introl Hi))).
        * rewrite cm4_5. split; [exact L4 | exact (B3 _ V4)].
      + rewrite sec5 by discriminate. split; [rewrite Lf; change (n * 3 = n * si_width si Sf_2ns); now rewrite Wf|]. eapply Forall_impl; [|exact Zf]. intros v ->. reflexivity.
    - intros _. exact (conj (xd_len _ _ _ X1) (xd_len _ _ _ X2)).
    - intros i. rewrite (ed_zi _ _ _ _ _ _ _ HE), (qu_zi _ _ _ _ _ _ _ _ _ _ _ _ _ _ _ _ _ _ HQ). apply M3.
    - intros s Hs. destruct (In4 s Hs) as [Ho| ->]; [destruct (Old s Ho) as [-> Hi]; exact (S1 s Hi) | rewrite cm4_5; exact V4].
    - rewrite sec5 by discriminate. exact Wp.
    - exact ch5_wf.
    - rewrite (ed_evals _ _ _ _ _ _ _ HE). exact ev_wf.
  Qed.

  Record frid (xd xdw : list Fr) (m7 : mem) (w : nat -> F3G) (F : list K) : Prop := {
    fd_x : is_xd e xi xd; fd_w : is_xd e zw xdw;
    fd_pub : m_sec m7 Spublics = pub;
    fd_len : length F <= N;
    fd_at : forall i, i < n -> d3 (w i) = true /\ val (w i) = peval F (cpt e i) /\ den (with_im im ((tbl ++ [c]) ++ [fe])) (rowv si (m6 xd xdw) i) false fe (w i) }.
  Lemma zw_val : val zw = kmul (val xi) (kroot nb). Proof. rewrite val_mul. reflexivity. Qed.
  Lemma zw_out r : r < n -> val zw <> cpt e r.
  Proof. rewrite zw_val. destruct bits as [B1 B2]. apply coset_shift; [lia | exact B2 | exact Hxi]. Qed.
  Lemma zw_d3 : d3 zw = true.
  Proof. pose proof xi_d3 as H. unfold e_mul. destruct xi as [a0 a1 a2 b]. cbn [d3] in H. subst b. reflexivity. Qed.
  Lemma fri_facts : length (m_sec m5 Sevals) = length (ev_map ev) /\
    (forall j k, nth_error (ev_map ev) j = Some k -> val (nth j (m_sec m5 Sevals) e_ZERO) = peval (key_pol pc pconst k) (if snd (fst k) then val zw else val xi)) /\
    Forall (key_ok (kcm + qdeg) (si_nconst si)) (ev_map ev) /\ (exists k, In k (ev_map ev) /\ snd (fst k) = false).
  Proof.
    destruct bits as [B1 B2]. pose proof (cp_labs _ _ _ _ _ _ _ CP) as HL. pose proof (cp_im _ _ _ _ _ _ _ CP) as Him. pose proof (gp_v _ _ _ _ _ _ _ _ _ _ _ _ _ _ _ _ _ _ _ GP) as Hv.
    rewrite (ed_evals _ _ _ _ _ _ _ HE).
    destruct (evals_vals si tbl c im kcm qdeg pc pconst pub Him HL gfuel ver ev Hv m4 LEv LpEv evals xi ltac:(lia) B2 (qu_cols _ _ _ _ _ _ _ _ _ _ _ _ _ _ _ _ _ _ HQ) const4 (ed_lev _ _ _ _ _ _ _ HE) (ed_map _ _ _ _ _ _ _ HE)) as [E1 E2].
    destruct (verifier_refs si tbl c im kcm qdeg pub Him HL gfuel ver ev Hv) as [K1 [K2 _]].
    split; [exact E1|]. split; [|split; [exact K1|]].
    - intros j k Hk. rewrite (E2 j k Hk), zw_val. reflexivity.
    - exists (true, false, kcm + 0). split; [|reflexivity]. apply K2. destruct (cf_deg _ _ _ _ _ _ _ _ _ _ Hcfg) as [D _]. destruct (ce_qs ce); [contradiction | cbn [length]; lia].
  Qed.
  Lemma cols6 xd xdw : cols trees4 si (m6 xd xdw) (kcm + qdeg) pc.
  Proof.
    apply (cols_ext trees4 si m4); [|exact (qu_cols _ _ _ _ _ _ _ _ _ _ _ _ _ _ _ _ _ _ HQ)]. intros s Hs. cbn [m6 m_sec].
    apply (ed_sec _ _ _ _ _ _ _ HE); intros ->; cbn in Hs; repeat (destruct Hs as [Hs|Hs]; [discriminate Hs|]); exact Hs.
  Qed.
  Lemma const6 xd xdw : ccols si (m6 xd xdw) pconst.
  Proof. apply (ccols_ext si m4); [|exact const4]. cbn [m6 m_sec]. apply (ed_sec _ _ _ _ _ _ _ HE); discriminate. Qed.
  Lemma im_c : Forall (fun p => fst p < length (tbl ++ [c])) im.
  Proof. eapply Forall_impl; [|exact (cp_im _ _ _ _ _ _ _ CP)]. intros p [A _]. rewrite app_length. lia. Qed.
  Lemma kq_pos : 0 < kcm + qdeg.
  Proof. destruct (cf_deg _ _ _ _ _ _ _ _ _ _ Hcfg) as [D _]. destruct (ce_qs ce); [contradiction | cbn [length]; lia]. Qed.
  Lemma nth5 : nth 5 (m_sec m5 Schallenge) e_ZERO = v1.
  Proof. apply nth_error_nth. rewrite (proj2 (ed_ch _ _ _ _ _ _ _ HE) 5). reflexivity. Qed.
  Lemma fri_ok : exists xd xdw m7 w F, fri_phase workers si pg m5 xi = Ok (m7, map w (seq 0 n)) /\ frid xd xdw m7 w F.
  Proof.
    destruct bits as [B1 B2]. destruct fri_facts as [F1 [F2 [F3 F4]]].
    destruct (xdiv_ok e xi ltac:(lia) xi_d3 Hxi) as [xd [X1 Y1]]. destruct (xdiv_ok e zw ltac:(lia) zw_d3 zw_out) as [xdw [X2 Y2]].
    destruct Hchunks as [per [K1 K2]]. pose proof GP as [G1 G2 G3 G4 G5 G6 G7 G8 G9 G10].
    destruct (step4_shape gfuel (tbl ++ [c]) im (length tbl) code4 tmp4 ctx si seg4 G1 G6 im_c) as [_ [_ [_ [_ [_ [_ [_ [_ [_ [_ [Hc1 Hc2]]]]]]]]]]].
    destruct s5 as [code5 tmp5]. cbn [fst snd] in G7.
    destruct (step5_rows si (m6 xd xdw) (tbl ++ [c]) fe im (kcm + qdeg) pc pconst (ev_map ev) xi zw ltac:(lia) B2 (sound6 xd xdw Y1 Y2) (cols6 xd xdw) (const6 xd xdw)) with
      (fuel := gfuel) (ctx := ctx) (code := code5) (tmp := tmp5) (seg := seg5) (workers := workers) (per := per) as [m7 [w [F [R1 [R2 [R3 [R4 R5]]]]]]]; try assumption.
    - cbn [m6 m_sec]. rewrite (proj1 (ed_ch _ _ _ _ _ _ _ HE)). lia.
    - cbn [m6 m_sec]. rewrite nth5. exact v1_d3.
    - exact (conj xi_d3 zw_d3).
    - intros r Hr. exact (conj (Hxi r Hr) (zw_out r Hr)).
    - exact kq_pos.
    - exact im_c.
    - exact (cp_wf _ _ _ _ _ _ _ CP).
    - intros s Hs _. cbn in Hs. destruct Hs as [<-|[]]. cbn [m6 m_sec]. rewrite sec5 by discriminate. exact (proj2 (sm_f _ _ _ _ _ Hmem)).
    - exact (proj1 (proj2 (cf_width _ _ _ _ _ _ _ _ _ _ Hcfg))).
    - exists xd, xdw, m7, w, F. split.
      + unfold fri_phase. rewrite !MG_root by lia. rewrite !bindE. cbv zeta. rewrite X1, bindE, X2, bindE. rewrite G10. cbn [pg_step5]. fold (m6 xd xdw). rewrite R1, bindE, R3, bindE. reflexivity.
      + constructor; try assumption. rewrite R2. cbn [m6 m_sec]. apply sec5; discriminate.
  Qed.

  (* ---------- the queries ---------- *)
  Variables (t1 t2 t3 tc : tree) (r1 r2 r3 rc : list Fr).
  Hypothesis T1 : tree_of perm si m Scm1_2ns t1 r1.
  Hypothesis T2 : tree_of perm si m Scm2_2ns t2 r2.
  Hypothesis T3 : tree_of perm si m Scm3_2ns t3 r3.
  Hypothesis Tc : tree_of perm si m Sconst_2ns tc rc.
  Hypothesis Hfirst : first_rounds perm pub r1 r2 r3 (m_sec m Schallenge) tr.

  Lemma n2 : 2 <= n. Proof. destruct bits as [B1 B2]. apply (Nat.pow_le_mono_r 2 1); lia. Qed.
  Lemma opened m' s t r y : length (m_sec m' s) = n * sec_width si s -> tree_of perm si m' s t r -> y < n ->
    exists mp, open_at t y = (row_words si m' s y, mp) /\ verify_group_proof perm r mp y (row_words si m' s y) = Ok true.
  Proof.
    intros L [[k Hk] Hr] Hy. destruct (MerkleProof.complete perm perm_len k (map c0 (m_sec m' s)) (sec_width si s) n t y n2) as [mp [r' [H1 [H2 H3]]]]; [rewrite map_length; exact L | exact Hk | exact Hy|].
    rewrite Hr in H2. apply ok_inj in H2. subst r'. exists mp. split; [unfold open_at; rewrite H1; reflexivity | exact H3].
  Qed.
  Lemma old_len s : In s [Scm1_2ns; Scm2_2ns; Scm3_2ns; Sconst_2ns] -> length (m_sec m s) = n * sec_width si s.
  Proof.
    intros Hs. destruct (sm_sound _ _ _ _ _ Hmem) as [[M1 _] _]. assert (Hi : In s (step_in Step4 ++ step_out Step4)) by (apply in_or_app; left; cbn in Hs |- *; tauto).
    exact (proj1 (M1 s Hi)).
  Qed.
  Lemma old_lens : length (m_sec m Scm1_2ns) = n * sec_width si Scm1_2ns /\ length (m_sec m Scm2_2ns) = n * sec_width si Scm2_2ns /\
    length (m_sec m Scm3_2ns) = n * sec_width si Scm3_2ns /\ length (m_sec m Sconst_2ns) = n * sec_width si Sconst_2ns.
  Proof. split; [|split; [|split]]; apply old_len; [now left | right; now left | right; right; now left | right; right; right; now left]. Qed.
  Definition sp (pf : friproof) : sproof := mkSP r1 r2 r3 root4 pf evals pub.
  Definition chs : list F3G := m_sec m5 Schallenge.
  Lemma chs_eq : exists c0 c1 c2 c3, firstn 4 (m_sec m Schallenge) = [c0; c1; c2; c3] /\ chs = [c0; c1; c2; c3; vc; v1; v2; xi].
  Proof.
    destruct Hfirst as [ta [tb [tc' [td [te [tf [tg [c0 [c1 [c2 [c3 [_ [_ [_ [_ [_ [_ [_ [_ H]]]]]]]]]]]]]]]]]]]. exists c0, c1, c2, c3. split; [exact H|].
    destruct (ed_ch _ _ _ _ _ _ _ HE) as [L5 N5]. destruct (qu_ch _ _ _ _ _ _ _ _ _ _ _ _ _ _ _ _ _ _ HQ) as [L4 N4].
    apply list8; [exact L5| | | | |]; unfold chs.
    - rewrite <- H. apply firstn_ext. intros i Hi. rewrite N5, N4. destruct i as [|[|[|[|i]]]]; try reflexivity. lia.
    - rewrite N5, N4. reflexivity.
    - rewrite N5. reflexivity.
    - rewrite N5. reflexivity.
    - rewrite N5, N4. reflexivity.
  Qed.
  Lemma chs7 : nth_error chs 7 = Some xi.
  Proof. destruct chs_eq as [a [b [c' [d [_ ->]]]]]. reflexivity. Qed.
  Lemma query_accepts xd xdw m7 w F pf y : frid xd xdw m7 w F -> y < n -> check_query perm si pg rc (sp pf) chs (open_all t1 t2 t3 t4 tc y) y = Ok [w y].
  Proof.
    intros HF Hy. destruct bits as [B1 B2]. destruct fri_facts as [F1 [F2 [F3 F4]]]. pose proof GP as [G1 G2 G3 G4 G5 G6 G7 G8 G9 G10].
    destruct old_lens as [O1l [O2l [O3l Ocl]]].
    destruct (opened m Scm1_2ns t1 r1 y O1l T1 Hy) as [p1 [O1 V1]].
    destruct (opened m Scm2_2ns t2 r2 y O2l T2 Hy) as [p2 [O2 V2]].
    destruct (opened m Scm3_2ns t3 r3 y O3l T3 Hy) as [p3 [O3 V3]].
    destruct (opened m Sconst_2ns tc rc y Ocl Tc Hy) as [pc' [Oc Vc]].
    destruct (opened m4 Scm4_2ns t4 root4 y) as [p4 [O4 V4]]; [exact (proj1 (qu_cm4 _ _ _ _ _ _ _ _ _ _ _ _ _ _ _ _ _ _ HQ))| |exact Hy|].
    { destruct (qu_tree _ _ _ _ _ _ _ _ _ _ _ _ _ _ _ _ _ _ HQ) as [A B]. split; [exists workers; exact A | exact B]. }
    assert (RW : forall s, m_sec m5 s = m_sec m s -> row_words si (m6 xd xdw) s y = row_words si m s y) by (intros s E; unfold row_words; cbn [m6 m_sec]; rewrite E; reflexivity).
    unfold check_query, open_all. rewrite O1, O2, O3, O4, Oc. unfold check_root, sp.
    cbn [sp_root1 sp_root2 sp_root3 sp_root4 sp_evals sp_publics vget nth_error fst snd bind]. rewrite V1. cbn [bind]. rewrite V2. cbn [bind]. rewrite V3. cbn [bind]. rewrite V4. cbn [bind]. rewrite Vc. cbn [bind].
    rewrite !MG_root by lia. rewrite !bindE. rewrite (vget_some _ _ _ chs7), bindE. cbv zeta. rewrite G10. cbn [pg_query].
    destruct qc as [qcd qtm]. cbn [fst snd] in G8.
    rewrite (query_ok si (m6 xd xdw) (tbl ++ [c]) fe im (kcm + qdeg) pc pconst (ev_map ev) xi zw) with (qfuel := gfuel) (qcode := qcd) (qtmp := qtm) (qseg := segq) (y := y) (v := w y); try assumption; try lia.
    - rewrite bindE. reflexivity.
    - apply cols6.
    - apply const6.
    - cbn [m6 m_sec]. rewrite (proj1 (ed_ch _ _ _ _ _ _ _ HE)). lia.
    - exact (conj xi_d3 zw_d3).
    - intros r Hr. exact (conj (Hxi r Hr) (zw_out r Hr)).
    - exact (fd_x _ _ _ _ _ HF).
    - exact (fd_w _ _ _ _ _ HF).
    - exact kq_pos.
    - exact im_c.
    - exact (cp_wf _ _ _ _ _ _ _ CP).
    - constructor; cbn [v_tree1 v_tree2 v_tree3 v_tree4 v_consts v_evals v_challenge v_xdiv v_xdivw].
      + symmetry. apply RW, sec5; discriminate.
      + symmetry. apply RW, sec5; discriminate.
      + symmetry. apply RW, sec5; discriminate.
      + unfold row_words. cbn [m6 m_sec]. rewrite cm4_5. reflexivity.
      + symmetry. apply RW, sec5; discriminate.
      + cbn [m6 m_sec]. symmetry. exact (ed_evals _ _ _ _ _ _ _ HE).
      + reflexivity.
      + reflexivity.
      + reflexivity.
    - exact (proj2 (proj2 (fd_at _ _ _ _ _ HF y Hy))).
  Qed.

  (* ---------- the verifier ---------- *)
  Lemma transcript_ok pf : v_transcript perm (sp pf) = Ok (chs, tr5).
  Proof.
    destruct chs_eq as [d0 [d1 [d2 [d3 [D1 D2]]]]].
    destruct Hfirst as [ta [tb [tc' [td [te [tf [tg [c0 [c1 [c2 [c3 [E1 [E2 [E3 [E4 [E5 [E6 [E7 [E8 E9]]]]]]]]]]]]]]]]]]].
    destruct (qu_vc _ _ _ _ _ _ _ _ _ _ _ _ _ _ _ _ _ _ HQ) as [u1 [u2 [U1 [U2 U3]]]]. destruct (ed_tr _ _ _ _ _ _ _ HE) as [w1 [w2 [W1 [W2 W3]]]].
    rewrite E9 in D1. injection D1 as <- <- <- <-. rewrite D2.
    unfold v_transcript, sp. cbn [sp_publics sp_root1 sp_root2 sp_root3 sp_root4 sp_evals].
    rewrite E1, bindE, E2, bindE, E3, bindE. cbv beta iota. rewrite E4, bindE. cbv beta iota. rewrite E5, bindE, E6, bindE. cbv beta iota. rewrite E7, bindE. cbv beta iota.
    rewrite E8, bindE, U1, bindE. cbv beta iota. rewrite U2, bindE, U3, bindE. cbv beta iota. rewrite W1, bindE, W2, bindE. cbv beta iota. rewrite W3, bindE. cbv beta iota. reflexivity.
  Qed.
  Lemma tr5_wf : TranscriptProof.wf tr5.
  Proof.
    destruct (ed_tr _ _ _ _ _ _ _ HE) as [w1 [w2 [W1 [W2 W3]]]].
    exact (challenge_wf _ _ _ (challenge_wf _ _ _ (elems_wf _ _ _ (qu_tr _ _ _ _ _ _ _ _ _ _ _ _ _ _ _ _ _ _ HQ) W1) W2) W3).
  Qed.
  Lemma constraint_true zp : check_constraint (mkV [] [] [] [] [] evals pub chs [] [] e_ZERO zp) ver ev (seq kcm qdeg) nb = Ok true.
  Proof.
    destruct bits as [B1 B2].
    refine (constraint_accepts si tbl c im kcm qdeg pc pconst pub (m_sec m4 Schallenge) (cp_im _ _ _ _ _ _ _ CP) (cp_labs _ _ _ _ _ _ _ CP) (cp_wf _ _ _ _ _ _ _ CP) gfuel ver ev
      (gp_v _ _ _ _ _ _ _ _ _ _ _ _ _ _ _ _ _ _ _ GP) m4 LEv LpEv evals (mkV [] [] [] [] [] evals pub chs [] [] e_ZERO zp) xi Q ltac:(lia) B2 (qu_cols _ _ _ _ _ _ _ _ _ _ _ _ _ _ _ _ _ _ HQ) const4 (ed_lev _ _ _ _ _ _ _ HE) (ed_map _ _ _ _ _ _ _ HE)
      eq_refl eq_refl _ _ chs7 (d3_wf _ xi_d3) _ ch4_wf (qu_len _ _ _ _ _ _ _ _ _ _ _ _ _ _ _ _ _ _ HQ) (qu_Q _ _ _ _ _ _ _ _ _ _ _ _ _ _ _ _ _ _ HQ) _).
    - intros i Hi. cbn [v_challenge]. unfold chs. rewrite (proj2 (ed_ch _ _ _ _ _ _ _ HE)). destruct (Nat.eqb_spec i 6); [lia|]. destruct (Nat.eqb_spec i 5); [lia | reflexivity].
    - rewrite (proj1 (qu_ch _ _ _ _ _ _ _ _ _ _ _ _ _ _ _ _ _ _ HQ)). lia.
    - destruct (sm_sound _ _ _ _ _ Hmem) as [_ [_ [W _]]]. exact W.
    - intros p Hp. unfold pcm'. destruct (Nat.ltb_spec (kcm + p) kcm); [lia|]. f_equal. lia.
  Qed.
  Variables (rest : list nat) (nq : nat).
  Hypothesis Hsteps : steps_ok e rest.
  Hypothesis Hnq : 0 < nq.
  Theorem accepts xd xdw m7 w F : frid xd xdw m7 w F ->
    exists pf t', fri_prove perm workers e nq (e :: rest) tr5 (map w (seq 0 n)) (open_all t1 t2 t3 t4 tc) = Ok (pf, t') /\
      stark_verify perm si pg (e :: rest) nq rc (sp pf) = Ok true.
  Proof.
    intros HF. destruct bits as [B1 B2]. pose (pf0 := mkFP [] []). pose (p := F ++ repeat kzero (n - length F)).
    assert (LF : length F <= n) by (etransitivity; [exact (fd_len _ _ _ _ _ HF) | apply Nat.pow_le_mono_r; lia]).
    destruct (complete_fri perm perm_len (check_query perm si pg rc (sp pf0) chs) (open_all t1 t2 t3 t4 tc) workers e rest nb nq tr5 (map w (seq 0 n)) p) as [pf [t' [P1 P2]]]; try assumption.
    - apply Nat.mul_pos_pos; lia.
    - lia.
    - exact tr5_wf.
    - unfold coset. rewrite map_map. apply map_ext_in. intros i Hi. apply in_seq in Hi. destruct (fd_at _ _ _ _ _ HF i ltac:(lia)) as [_ [-> _]]. unfold p. rewrite peval_app, peval_zeros. change (kmul K_shift (kpow (kroot e) i)) with (cpt e i). ring.
    - unfold p. rewrite app_length, repeat_length. lia.
    - apply Forall_forall. intros x Hx. apply in_map_iff in Hx. destruct Hx as [i [<- Hi]]. apply in_seq in Hi. exact (proj1 (fd_at _ _ _ _ _ HF i ltac:(lia))).
    - intros y Hy. rewrite (query_accepts xd xdw m7 w F pf0 y HF Hy). do 2 f_equal. rewrite (nth_indep _ e_ZERO (w 0)) by (rewrite map_length, seq_length; exact Hy). rewrite map_nth, seq_nth by exact Hy. reflexivity.
    - intros i Hi. unfold p. destruct (Nat.lt_ge_cases i (length F)) as [C|C]; [pose proof (fd_len _ _ _ _ _ HF); lia|]. rewrite app_nth2 by lia.
      destruct (Nat.lt_ge_cases (i - length F) (n - length F)) as [C'|C']; [apply nth_repeat | apply nth_overflow; rewrite repeat_length; lia].
    - exists pf, t'. split; [exact P1|]. unfold stark_verify. rewrite transcript_ok, bindE. cbv beta iota. rewrite (vget_some _ _ _ chs7), bindE. rewrite MG_root by lia. rewrite bindE. cbv zeta.
      rewrite (gp_pg _ _ _ _ _ _ _ _ _ _ _ _ _ _ _ _ _ _ _ GP). cbn [pg_verifier pg_ev pg_qs sp sp_evals sp_publics sp_fri]. rewrite constraint_true, bindE.
      rewrite (gp_pg _ _ _ _ _ _ _ _ _ _ _ _ _ _ _ _ _ _ _ GP) in P2. exact P2.
  Qed.
End Done.

Theorem stark_complete perm fuel gfuel workers si tbl ids ncm md ce pg m pcm pconst t1 t2 t3 tc r1 r2 r3 rc tr br rest nq :
  (forall i s, length (perm i s) = 12) ->
  stark_cfg fuel gfuel si tbl ids ncm md ce pg (length (m_sec m Spublics)) ->
  stark_mem si (ncm + length (ce_im ce)) pcm pconst m ->
  trace_ok si tbl ids ce (ncm + length (ce_im ce)) pcm pconst m ->
  workers <> 0 -> chunks_ok si workers -> si_width si Scm4_2ns / 8 <= MAX_OPS ->
  tree_of perm si m Scm1_2ns t1 r1 -> tree_of perm si m Scm2_2ns t2 r2 -> tree_of perm si m Scm3_2ns t3 r3 -> tree_of perm si m Sconst_2ns tc rc ->
  first_rounds perm (m_sec m Spublics) r1 r2 r3 (m_sec m Schallenge) tr -> nice br ->
  steps_ok (si_nbits_ext si) rest -> 0 < nq ->
  exists m4 t4 root4 xi tr4, quotient_phase perm workers si pg m tr br = Ok (m4, t4, root4, xi, tr4) /\
    ((forall r, r < 2 ^ si_nbits_ext si -> val xi <> cpt (si_nbits_ext si) r) ->
     exists p, stark_prove perm workers si pg (si_nbits_ext si :: rest) nq t1 t2 t3 tc m tr br = Ok p /\
       sp_publics p = m_sec m Spublics /\
       stark_verify perm si pg (si_nbits_ext si :: rest) nq rc p = Ok true).
Proof.
  intros Hp Hcfg Hmem Hrows Hwk Hch Hops T1 T2 T3 Tc Hf Hbr Hs Hnq.
  assert (Wt : TranscriptProof.wf tr).
  { destruct Hf as [ta [tb [tc' [td [te [tf [tg [c0 [c1 [c2 [c3 [E1 [E2 [E3 [E4 [E5 [E6 [E7 [E8 _]]]]]]]]]]]]]]]]]]].
    eapply (put_wf perm Hp); [|exact E8]. eapply (challenge_wf perm Hp); [|exact E7]. eapply (challenge_wf perm Hp); [|exact E6]. eapply (put_wf perm Hp); [|exact E5].
    eapply (challenge_wf perm Hp); [|exact E4]. eapply (challenge_wf perm Hp); [|exact E3]. eapply (put_wf perm Hp); [|exact E2]. eapply (elems_wf perm Hp); [|exact E1]. apply TranscriptProof.new_wf. }
  destruct (constraint_parts fuel gfuel si tbl ids ncm md ce pg m Hcfg) as [c CP].
  destruct (program_parts fuel gfuel si tbl ids ncm md ce pg m Hcfg c CP) as [code4 [tmp4 [ctx [ver [ev [fe [s5 [qc [seg4 [seg5 [segq [q GP]]]]]]]]]]]].
  destruct (quotient_ok perm Hp fuel gfuel workers si tbl ids ncm md ce pg m pcm pconst Hcfg Hmem Hrows Hwk Hch Hops c tr br CP Wt Hbr) as [m4 [t4 [root4 [vc [xi [tr4 [Q [HP HQ]]]]]]]].
  exists m4, t4, root4, xi, tr4. split; [exact HP|]. intros Hxi.
  destruct (evals_ok perm Hp fuel gfuel workers si tbl ids ncm md ce pg m pcm pconst Hcfg Hmem Hwk c code4 tmp4 ctx ver ev fe s5 qc seg4 seg5 segq q CP GP tr m4 t4 root4 vc xi tr4 Q HQ) as [evals [tr5 [m5 [v1 [v2 [LEv [LpEv [EP HE]]]]]]]].
  destruct (fri_ok perm fuel gfuel workers si tbl ids ncm md ce pg m pcm pconst Hcfg Hmem Hwk Hch c code4 tmp4 ctx ver ev fe s5 qc seg4 seg5 segq q CP GP tr m4 t4 root4 vc xi tr4 Q HQ
    evals tr5 m5 v1 v2 LEv LpEv HE Hxi) as [xd [xdw [m7 [w [F [FP HF]]]]]].
  destruct (accepts perm Hp fuel gfuel workers si tbl ids ncm md ce pg m pcm pconst Hcfg Hmem Hwk c code4 tmp4 ctx ver ev fe s5 qc seg4 seg5 segq q CP GP tr m4 t4 root4 vc xi tr4 Q HQ
    evals tr5 m5 v1 v2 LEv LpEv HE Hxi t1 t2 t3 tc r1 r2 r3 rc T1 T2 T3 Tc Hf rest nq Hs Hnq xd xdw m7 w F HF) as [pf [t' [P1 P2]]].
  exists (sp m root4 evals r1 r2 r3 pf). split; [|split; [reflexivity | exact P2]].
  unfold stark_prove. rewrite HP, bindE. cbv beta iota. rewrite EP, bindE. cbv beta iota. rewrite FP, bindE. cbv beta iota. rewrite P1, bindE.
  rewrite (proj2 T1), bindE, (proj2 T2), bindE, (proj2 T3), bindE. cbn [fst]. rewrite (fd_pub _ _ _ _ _ _ _ _ _ _ _ _ _ HF). reflexivity.
Qed.

Theorem evaluations si m k buf off size dim P xi g : si_nbits si <= si_nbits_ext si -> si_nbits_ext si <= 31 -> MG (si_nbits si) = Ok g ->
  get_ev si m k = Ok (buf, off, size, dim) -> column (si_nbits_ext si) buf size off dim P -> length P = 2 ^ si_nbits si ->
  exists LEv LpEv v,
    ifft (F := opsE) (lev (2 ^ si_nbits si) (e_div xi (e_from SHIFT)) (e_from (fof 1))) = Ok LEv /\
    ifft (F := opsE) (lev (2 ^ si_nbits si) (e_div (e_mul xi (e_from g)) (e_from SHIFT)) (e_from (fof 1))) = Ok LpEv /\
    eval_at si m LEv LpEv k = Ok v /\
    val v = peval P (if snd (fst k) then kmul (val xi) (kconst g) else val xi).
Proof.
  intros H1 H2 Hg Eg C HP. rewrite MG_root in Hg by lia. apply ok_inj in Hg. subst g.
  assert (Dv : forall y, val (e_div y (e_from SHIFT)) = kmul (val y) (kinv K_shift)) by (intros y; rewrite val_div, val_from; reflexivity).
  destruct (lev_ok (si_nbits si) (e_div xi (e_from SHIFT)) (val xi)) as [L1 [E1 I1]]; [lia | apply Dv|].
  destruct (lev_ok (si_nbits si) (e_div (e_mul xi (e_from (root (si_nbits si)))) (e_from SHIFT)) (kmul (val xi) (kroot (si_nbits si)))) as [L2 [E2 I2]];
    [lia | rewrite Dv, val_mul; reflexivity|].
  destruct (eval_ok si m L1 L2 k buf off size dim P (val xi) H1 H2 Eg C HP I1 I2) as [v [Ev [_ Vv]]].
  exists L1, L2, v. split; [exact E1|]. split; [exact E2|]. split; [exact Ev|]. rewrite Vv. reflexivity.
Qed.
