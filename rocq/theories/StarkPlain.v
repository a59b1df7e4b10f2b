(* The whole prover on a machine without lookups, permutations, connections and intermediate columns. *)
From Coq Require Import Ring Field Arith.
From Verif Require Import Base GlModel FrField F3gModel Cubic F3gProof ListAux PolyModel Roots PolyProof FftProof FftTop FriMath CodegenModel CodegenProof
  InterpModel InterpProof VerifierModel VerifierProof ImModel HashModel FftpModel FftpProof FftpBase FftpTop BrProof FriModel FriProof PolsModel PolsProof ProverModel ProverProof
  ParModel ParProof StarkMath StarkModel StarkGen StarkSrc StarkPoly StarkRow StarkQuot StarkEval StarkStep4 StarkTop StarkDone StageModel StarkExtend StarkStages.
From Verif Require MerkleProof StarkToy.
Open Scope nat_scope.
Open Scope list_scope.
Open Scope res_scope.
Add Field K_field_plain : K_field.

(** ** a step without code *)
Lemma empty_step si st m seg workers : step_dom st = true -> si_nbits si <= si_nbits_ext si <= 32 -> workers <> 0 -> sg_first seg = [] -> mem_ok si st m -> outputs_fresh si st m ->
  exists p, calculate_exps_parallel si st m seg workers = Ok p /\ (forall s, m_sec p s = m_sec m s) /\ m_zi p = m_zi m.
Proof.
  intros Hd Hb Hw Hs Hm Hf.
  destruct (parallel_same_n si st (fun _ _ => false) (fun _ => false) m seg [] workers Hd Hb Hw) as [g [p [E1 [E2 E3]]]]; [rewrite Hs; reflexivity | exact Logic.I | exact Hm | exact Hf|].
  exists p. split; [exact E2|]. pose proof (par_same _ _ _ _ _ _ E2) as [S1 S2]. split; [|exact S2]. intros s. destruct (sec_dec s Stmp) as [->|Ht].
  - apply S1. destruct st; cbn; intuition discriminate.
  - rewrite E3 by exact Ht. unfold calculate_exps in E1. rewrite Hs in E1. cbn [compile_code mapM concat bind] in E1.
    assert (G : forall n k a b, foldM (fun m i => rmap snd (block_eval m [] [] i)) (seq k n) a = Ok b -> b = a).
    { induction n as [|n IH]; intros k a b E; cbn [seq foldM] in E; [apply ok_inj in E; congruence|]. cbn in E. exact (IH _ _ _ E). }
    apply G in E1. subst g. apply m_set_other. congruence.
Qed.

(** ** expressions that do not reach the last entry of the table *)
Lemma den_prefix si kcm npub tbl c rho p e v : (forall q, Forall (labs (node_ok si (length tbl) kcm npub) false q) tbl) -> den (tbl ++ [c]) rho p e v ->
  labs (node_ok si (length tbl) kcm npub) false p e -> den tbl rho p e v.
Proof.
  intros HT D. induction D; intros L; pose proof (labs_values _ _ _ _ L) as V;
    try (match goal with H : e_values e = _ |- _ => rewrite H in V end;
         repeat match goal with A : Forall _ (_ :: _) |- _ => inversion A; clear A; subst end); try (econstructor; eauto; fail).
  pose proof (labs_lab _ _ _ _ L) as B. unfold lab in B. rewrite H in B. specialize (B _ H0). cbn in B. rewrite nth_error_app1 in H2 by exact B.
  eapply D_exp; [exact H | exact H0 | exact H1 | exact H2|]. apply IHD. pose proof (HT (e_next e || p)) as F. rewrite Forall_forall in F. apply F. eapply nth_error_In. exact H2.
Qed.
Lemma with_none tbl : with_im [] tbl = tbl.
Proof.
  apply nth_error_ext. intros i. rewrite with_im_nth. destruct (nth_error tbl i); reflexivity.
Qed.

(** ** the table *)
Definition pub_value (cp : pols) (p : public) : F3G := e_from (cellv (p_array cp) (pb_pol p) (pb_idx p)).
(* what a reference means in row i of the tables of committed and constant columns *)
Definition table_row (si : sinfo) (cp kp : pols) (pubs : list F3G) (ch : list F3G) (i : nat) (r : node) : F3G :=
  of_k (match n_ty r with
  | Ncm => if n_id r <? nPols cp then kconst (cellv (p_array cp) (n_id r) (nrow si i (n_prime r))) else kzero
  | Nconst => if n_id r <? nPols kp then kconst (cellv (p_array kp) (n_id r) (nrow si i (n_prime r))) else kzero
  | Nx => kpow (kroot (si_nbits si)) i
  | Nnumber => match number_ref (n_value r) with Ok v => val v | _ => kzero end
  | Npublic => val (nth (n_id r) pubs e_ZERO)
  | Nchallenge => val (nth (n_id r) ch e_ZERO)
  | _ => kzero
  end).
Definition table_ok (si : sinfo) (sg : stageprog) (tbl : list expr) (ids : list nat) (cp kp : pols) : Prop :=
  forall i ch j v, i < 2 ^ si_nbits si -> In j ids ->
    den tbl (table_row si cp kp (map (pub_value cp) (st_publics sg)) ch i) false (E_exp j false) v -> val v = kzero.
Record plain (si : sinfo) (sg : stageprog) (ncm : nat) (ce : cexp) : Prop := {
  pl_seg : sg_first (st_step2prev sg) = [] /\ sg_first (st_step3prev sg) = [] /\ sg_first (st_step3 sg) = [];
  pl_none : st_pu sg = [] /\ st_pe sg = [] /\ st_ci sg = [];
  pl_width : si_width si Scm2_n = 0 /\ si_width si Scm3_n = 0 /\ si_width si Stmpexp_n = 0;
  pl_im : ce_im ce = [];
  pl_ncm : ncm = si_width si Scm1_n;
  pl_place : forall c, c < ncm -> place si c = Some (Scm1_n, c, 1);
  pl_pub : Forall (fun p => pb_kind p = PcmP /\ pb_idx p < 2 ^ si_nbits si /\ pb_pol p < si_width si Scm1_n) (st_publics sg) }.

Lemma table_nth cp c j : c < nPols cp -> j < p_n cp -> nth (c + j * nPols cp) (const_table cp) e_ZERO = e_from (cellv (p_array cp) c j).
Proof.
  intros Hc Hj. unfold const_table. change e_ZERO with (e_from f0). rewrite map_nth, Nat.add_comm, rowmajor_nth by assumption. reflexivity.
Qed.
Lemma publics_plain si sg m cp : m_sec m Scm1_n = const_table cp -> shaped cp -> p_n cp = 2 ^ si_nbits si -> nPols cp = si_width si Scm1_n ->
  Forall (fun p => pb_kind p = PcmP /\ pb_idx p < 2 ^ si_nbits si /\ pb_pol p < si_width si Scm1_n) (st_publics sg) ->
  exists m', set_publics si sg m = Ok m' /\ m_sec m' Spublics = map (pub_value cp) (st_publics sg) /\ same_but [Spublics] m m'.
Proof.
  intros T Sh Hn Hp HP. unfold set_publics.
  assert (G : forall l done m, m_sec m Scm1_n = const_table cp -> m_sec m Spublics = map (pub_value cp) done ++ repeat e_ZERO (length l) ->
    Forall (fun p => pb_kind p = PcmP /\ pb_idx p < 2 ^ si_nbits si /\ pb_pol p < si_width si Scm1_n) l ->
    exists m', foldM (fun m ip => do x <- public_value si (st_pubcode sg) m (fst ip) (snd ip); do l <- vset (m_sec (snd x) Spublics) (fst ip) (fst x); Ok (m_set (snd x) Spublics l))
      (combine (seq (length done) (length l)) l) m = Ok m' /\ m_sec m' Spublics = map (pub_value cp) (done ++ l) /\ same_but [Spublics] m m').
  { induction l as [|p l IH]; intros done m1 A B F.
    - exists m1. split; [reflexivity|]. split; [rewrite B; cbn [length repeat]; rewrite !app_nil_r; reflexivity | apply same_refl].
    - inversion F as [|? ? [K1 [K2 K3]] F']; subst. cbn [length seq combine foldM fst snd].
      assert (Ev : public_value si (st_pubcode sg) m1 (length done) p = Ok (pub_value cp p, m1)).
      { unfold public_value. rewrite K1, A. rewrite (vget_some _ _ (pub_value cp p)); [reflexivity|].
        rewrite nth_error_nth' with (d := e_ZERO) by (rewrite table_len, Hn, Hp; apply (Nat.lt_le_trans _ (pb_idx p * si_width si Scm1_n + si_width si Scm1_n)); [lia|]; rewrite <- Nat.mul_succ_l; apply Nat.mul_le_mono_r; exact K2).
        f_equal. rewrite <- Hp, Nat.add_comm, table_nth by lia. reflexivity. }
      rewrite Ev, bindE. cbn [fst snd].
      destruct (vset_spec (m_sec m1 Spublics) (length done) (pub_value cp p)) as [l' [E1 [E2 E3]]]; [rewrite B, app_length, map_length, repeat_length; cbn [length]; lia|].
      rewrite E1, bindE, bindE.
      destruct (IH (done ++ [p]) (m_set m1 Spublics l')) as [m' [G1 [G2 G3]]].
      + rewrite m_set_other by discriminate. exact A.
      + rewrite m_set_same. apply nth_error_ext. intros k. rewrite E3, B. rewrite map_app, <- app_assoc. cbn [map app length repeat].
        destruct (Nat.eqb_spec k (length done)) as [->|Hk].
        * rewrite nth_error_app2 by (rewrite map_length; lia). rewrite map_length, Nat.sub_diag. reflexivity.
        * destruct (Nat.lt_ge_cases k (length done)) as [C|C]; [rewrite !nth_error_app1 by (rewrite map_length; lia); reflexivity|].
          rewrite !nth_error_app2 by (rewrite map_length; lia). rewrite map_length. destruct (k - length done) as [|q] eqn:Eq; [lia|]. reflexivity.
      + exact F'.
      + exists m'. split; [|split; [rewrite G2, <- app_assoc; reflexivity|]].
        * rewrite <- G1. rewrite app_length. cbn [length]. rewrite Nat.add_1_r. reflexivity.
        * eapply same_trans; [apply same_set; now left | exact G3]. }
  destruct (G (st_publics sg) [] (m_set m Spublics (repeat e_ZERO (length (st_publics sg))))) as [m' [G1 [G2 G3]]]; [rewrite m_set_other by discriminate; exact T | apply m_set_same | exact HP|].
  exists m'. split; [exact G1|]. split; [exact G2|]. eapply same_trans; [apply same_set; now left | exact G3].
Qed.

Lemma start_total si cp kp tc : si_nbits si <= 32 -> si_nbits_ext si <= 32 -> shaped cp -> 0 < nPols cp -> shaped kp -> 0 < nPols kp -> exists m0, start_mem si cp kp tc = Ok m0.
Proof.
  intros H1 H2 S1 P1 S2 P2. unfold start_mem. cbv zeta. rewrite (write_buff_spec cp S1 P1), bindE, MG_root, bindE, MG_root, bindE, (write_buff_spec kp S2 P2), bindE by lia.
  unfold to_extend. cbn [m_sec]. rewrite repeat_length, Nat.eqb_refl. eexists. reflexivity.
Qed.
Lemma empty_full l n w : l = @nil F3G -> w = 0 -> length l = n * w /\ Forall vbase l.
Proof. intros -> ->. split; [symmetry; apply Nat.mul_0_r | constructor]. Qed.

Ltac apart := intros s Hs X; cbn in Hs, X; repeat (destruct Hs as [<-|Hs]; [repeat (destruct X as [X|X]; [discriminate X|]); exact X|]); exact Hs.

Section Plain.
  Variable perm : list Fr -> list Fr -> list Fr.
  Hypothesis perm_len : forall i s, length (perm i s) = 12.
  Variables (fuel gfuel workers w0 : nat) (si : sinfo) (sg : stageprog) (tbl : list expr) (ids : list nat) (ncm md : nat) (ce : cexp) (pg : program) (cp kp : pols) (tc : tree) (br0 br : brstate).
  Hypothesis Hw : workers <> 0.
  Hypothesis Hw0 : w0 <> 0.
  Hypothesis HM : machine fuel gfuel si sg tbl ids ncm md ce pg.
  Hypothesis HI : inputs perm w0 si cp kp tc br0 br.
  Hypothesis HP : plain si sg ncm ce.
  Local Notation N := (2 ^ si_nbits si).
  Local Notation Ne := (2 ^ si_nbits_ext si).

  (* what the steps read and write in the trace domain *)
  Definition steady (m : mem) : Prop :=
    m_sec m Scm1_n = const_table cp /\ m_sec m Sconst_n = const_table kp /\ m_sec m Scm2_n = [] /\ m_sec m Scm3_n = [] /\ m_sec m Stmpexp_n = [] /\
    length (m_sec m Sx_n) = N /\ Forall (fun v => d3 v = false) (m_sec m Sx_n) /\ m_zi m = build_Zh_Inv (si_nbits si) (si_nbits_ext si - si_nbits si) 0.
  Lemma steady_same ss m m' : (forall s, In s [Scm1_n; Sconst_n; Scm2_n; Scm3_n; Stmpexp_n; Sx_n] -> ~ In s ss) -> same_but ss m m' -> steady m -> steady m'.
  Proof.
    intros D [S1 S2] [A1 [A2 [A3 [A4 [A5 [A6 [A7 A8]]]]]]]. unfold steady. rewrite !S1 by (apply D; cbn; tauto). rewrite S2. repeat (split; [assumption|]). exact A8.
  Qed.
  Lemma steady_step st m seg : st = Step2prev \/ st = Step3prev \/ st = Step3 -> sg_first seg = [] -> steady m ->
    exists p, calculate_exps_parallel si st m seg workers = Ok p /\ (forall s, m_sec p s = m_sec m s) /\ m_zi p = m_zi m.
  Proof.
    intros Hst Hsg [A1 [A2 [A3 [A4 [A5 [A6 [A7 A8]]]]]]]. destruct HM as [C _ _ _ _ _]. destruct (cf_bits _ _ _ _ _ _ _ _ _ _ C) as [B1 B2].
    destruct HI as [[I1 [I2 [I3 I4]]] [J1 [J2 J3]] Hbr Hsu]. destruct HP as [_ _ [W1 [W2 W3]] _ _ _ _].
    assert (K1 : nPols kp = si_nconst si).
    { unfold setup_consts in Hsu. destruct (Nat.eqb_spec (nPols kp) (si_nconst si)) as [E|E]; [exact E | discriminate Hsu]. }
    assert (G : forall l, Forall vbase l -> Forall (fun v => d3 v = false) l) by (intros l; apply Forall_impl; exact vbase_d3).
    assert (F1 : length (m_sec m Scm1_n) = N * si_width si Scm1_n /\ Forall (fun v => d3 v = false) (m_sec m Scm1_n)) by (rewrite A1, table_len, I3, I4; split; [reflexivity | apply G, from_base]).
    assert (F2 : length (m_sec m Sconst_n) = N * si_nconst si /\ Forall (fun v => d3 v = false) (m_sec m Sconst_n)) by (rewrite A2, table_len, J3, K1; split; [reflexivity | apply G, from_base]).
    assert (F3 : forall s, m_sec m s = [] -> si_width si s = 0 -> length (m_sec m s) = N * si_width si s /\ Forall (fun v => d3 v = false) (m_sec m s)).
    { intros s E1 E2. rewrite E1, E2. split; [symmetry; apply Nat.mul_0_r | constructor]. }
    assert (F4 : length (m_sec m Sx_n) = N * 1 /\ Forall (fun v => d3 v = false) (m_sec m Sx_n)) by (rewrite Nat.mul_1_r; split; assumption).
    apply empty_step; try assumption.
    - destruct Hst as [->|[->| ->]]; reflexivity.
    - lia.
    - split; [|split; [|intros i; rewrite A8; reflexivity]].
      + intros s Hs. destruct Hst as [->|[->| ->]]; cbn in Hs; unfold par_n; cbn [step_dom dom_size];
          repeat (destruct Hs as [<-|Hs]; [cbn [sec_width]; first [exact F1 | exact F2 | exact F4 | apply F3; assumption]|]); destruct Hs.
      + destruct Hst as [->|[->| ->]]; discriminate.
    - intros s Hs _. destruct Hst as [->|[->| ->]]; cbn in Hs; repeat (destruct Hs as [<-|Hs]; [rewrite ?A3, ?A4, ?A5; constructor|]); destruct Hs.
  Qed.

  Theorem plain_stages m0 : start_mem si cp kp tc = Ok m0 ->
    exists m t1 t2 t3 tr br', stages perm workers si sg m0 br = Ok (m, t1, t2, t3, tr, br') /\ m_sec m Scm1_n = const_table cp /\ m_sec m Sconst_n = const_table kp /\
      m_sec m Spublics = map (pub_value cp) (st_publics sg) /\ full si m Scm2_n /\ full si m Scm3_n.
  Proof.
    intros Es. destruct HM as [C Hb24 La _ _ _]. destruct (cf_bits _ _ _ _ _ _ _ _ _ _ C) as [B1 B2].
    destruct HI as [[I1 [I2 [I3 I4]]] [J1 [J2 J3]] Hbr Hsu].
    destruct (setup_ok _ _ _ _ _ _ _ _ _ perm_len Hw0 B1 B2 (la_const _ _ La) J1 J2 J3 Hbr Hsu) as [K1 [K2 _]].
    destruct HP as [[G1 [G2 G3]] [P1 [P2 P3]] [W1 [W2 W3]] _ _ _ Pp].
    destruct (start_ok _ _ _ _ _ B1 B2 I1 I2 J1 J2 Es) as [A1 [A2 [A3 [A4 [A5 [A6 [A7 [A8 [A9 [A10 [A11 [A12 [A13 [A14 [A15 [A16 A17]]]]]]]]]]]]]]]].
    assert (St0 : steady m0).
    { unfold steady. rewrite A14, A15, A16, W1, W2, W3, A17. repeat (split; [first [assumption | reflexivity]|]).
      unfold powers. rewrite !map_length, seq_length. split; [reflexivity|]. split; [|exact A4]. apply Forall_forall. intros v Hv. rewrite map_map in Hv. apply in_map_iff in Hv. destruct Hv as [r [<- _]].
      apply vbase_d3. apply StarkToy.base_mul; [now exists f1 | apply StarkToy.exp_base]. }
    assert (M1 : si_width si Scm1_n <= MAX_OPS) by (eapply (la_width _ _ La); left; reflexivity).
    assert (L1 : length (m_sec m0 Scm1_2ns) = Ne * si_width si Scm1_n) by (rewrite A8, repeat_length; apply Nat.mul_comm).
    assert (L2 : length (m_sec m0 Scm2_2ns) = Ne * si_width si Scm2_n) by (rewrite A9, repeat_length; apply Nat.mul_comm).
    assert (L3 : length (m_sec m0 Scm3_2ns) = Ne * si_width si Scm3_n) by (rewrite A10, repeat_length; apply Nat.mul_comm).
    clear A3 A4 A5 A7 A8 A9 A10 A11 A12 A13 A14 A15 A16 A17.
    destruct (publics_plain si sg m0 cp A1 I1 I3 I4 Pp) as [ma [Ea [Va Sa]]].
    destruct (elems_ok perm perm_len (m_sec ma Spublics) tr_new TranscriptProof.new_wf) as [ta [Ta Wa]].
    destruct (commit_ok perm perm_len workers si Scm1_n Scm1_2ns ma (repeat e_ZERO (Ne * 8)) ta br) as [mb [rb [t1 [r1 [tb [bb [Eb [Cb [Rb [Tb [Wb Nb]]]]]]]]]]]; try assumption; try lia;
      [rewrite (proj1 Sa) by sout; rewrite A1, table_len, I3, I4; reflexivity | rewrite (proj1 Sa) by sout; rewrite A1; apply from_base | rewrite (proj1 Sa) by sout; exact L1 | apply zeros_base|].
    destruct (challenge_ok perm perm_len tb Wb) as [u [tc1 [Ec1 Wc1]]]. destruct (challenge_ok perm perm_len tc1 Wc1) as [dv [td [Ed Wd]]].
    assert (Cbc : length (m_sec mb Schallenge) = 8) by (rewrite (proj1 (cd_same _ _ _ _ _ _ _ _ Cb)), (proj1 Sa) by sout; rewrite A6; reflexivity).
    destruct (set_challenge_ok mb 0 u ltac:(lia)) as [l0 [E0 [Ll0 _]]]. set (mc := m_set mb Schallenge l0) in *.
    assert (Cc : length (m_sec mc Schallenge) = 8) by (unfold mc; rewrite m_set_same, Ll0; exact Cbc).
    destruct (set_challenge_ok mc 1 dv ltac:(lia)) as [l1 [E1 [Ll1 _]]]. set (md' := m_set mc Schallenge l1) in *.
    assert (Cd : length (m_sec md' Schallenge) = 8) by (unfold md'; rewrite m_set_same, Ll1; exact Cc).
    assert (Sd : same_but [Spublics; Scm1_2ns; Schallenge] m0 md').
    { apply (same_trans _ _ ma); [eapply same_weak; [|exact Sa]; intros s; cbn; tauto|]. apply (same_trans _ _ mb); [eapply same_weak; [|exact (cd_same _ _ _ _ _ _ _ _ Cb)]; intros s; cbn; tauto|].
      apply (same_trans _ _ mc); apply same_set; cbn; tauto. }
    assert (Vd : m_sec md' Spublics = m_sec ma Spublics) by (unfold md', mc; rewrite !m_set_other by discriminate; rewrite (proj1 (cd_same _ _ _ _ _ _ _ _ Cb)) by sout; reflexivity).
    assert (Std : steady md') by (eapply steady_same; [|exact Sd | exact St0]; apart).
    assert (X1 : stage1 perm workers si sg m0 br = Ok (md', rb, t1, td, bb)).
    { unfold stage1. rewrite Ea, bindE, Ta, bindE. cbv zeta. rewrite Eb, bindE. cbv beta iota. rewrite Ec1, bindE. cbv beta iota. rewrite E0, bindE, Ed, bindE. cbv beta iota. rewrite E1, bindE. reflexivity. }
    (* stage 2 *)
    destruct (steady_step Step2prev md' (st_step2prev sg) ltac:(now left) G1 Std) as [me [Ee [Se Ze]]].
    destruct (empty_full (m_sec me Scm2_n) N (si_width si Scm2_n)) as [Fe1 Fe2]; [rewrite Se; apply Std | exact W1|].
    destruct (commit_ok perm perm_len workers si Scm2_n Scm2_2ns me rb td bb) as [mf [rf [t2 [r2 [tf [bf [Ef [Cf [Rf [Tf [Wf Nf]]]]]]]]]]]; try assumption; try lia;
      [rewrite Se, (proj1 Sd) by sout; exact L2|].
    destruct (challenge_ok perm perm_len tf Wf) as [ga [tg [Eg Wg]]]. destruct (challenge_ok perm perm_len tg Wg) as [be [th [Eh Wh]]].
    assert (Cfc : length (m_sec mf Schallenge) = 8) by (rewrite (proj1 (cd_same _ _ _ _ _ _ _ _ Cf)), Se by sout; exact Cd).
    destruct (set_challenge_ok mf 2 ga ltac:(lia)) as [l2 [E2 [Ll2 _]]]. set (mg := m_set mf Schallenge l2) in *.
    assert (Cg : length (m_sec mg Schallenge) = 8) by (unfold mg; rewrite m_set_same, Ll2; exact Cfc).
    destruct (set_challenge_ok mg 3 be ltac:(lia)) as [l3 [E3 [Ll3 _]]]. set (mh := m_set mg Schallenge l3) in *.
    assert (Se' : same_but [] md' me) by (split; [intros s _; apply Se | exact Ze]).
    assert (Sh : same_but [Scm2_2ns; Schallenge] md' mh).
    { apply (same_trans _ _ me); [eapply same_weak; [|exact Se']; intros s []|]. apply (same_trans _ _ mf); [eapply same_weak; [|exact (cd_same _ _ _ _ _ _ _ _ Cf)]; intros s; cbn; tauto|].
      apply (same_trans _ _ mg); apply same_set; cbn; tauto. }
    assert (Sth : steady mh) by (eapply steady_same; [|exact Sh | exact Std]; apart).
    assert (X2 : stage2 perm workers si sg md' rb td bb = Ok (mh, st_ncm1 sg, rf, t2, th, bf)).
    { unfold stage2. rewrite Ee, bindE, P1. cbn [foldM]. rewrite bindE. cbv beta iota. rewrite Ef, bindE. cbv beta iota. rewrite Eg, bindE. cbv beta iota. rewrite E2, bindE, Eh, bindE. cbv beta iota. rewrite E3, bindE. reflexivity. }
    (* stage 3 *)
    destruct (steady_step Step3prev mh (st_step3prev sg) ltac:(right; now left) G2 Sth) as [mi [Ei [Si Zi]]].
    assert (Si' : same_but [] mh mi) by (split; [intros s _; apply Si | exact Zi]).
    assert (Sti : steady mi) by (eapply steady_same; [|exact Si' | exact Sth]; intros s _ []).
    destruct (steady_step Step3 mi (st_step3 sg) ltac:(right; now right) G3 Sti) as [mj [Ej [Sj Zj]]].
    assert (Sj' : same_but [] mi mj) by (split; [intros s _; apply Sj | exact Zj]).
    assert (Stj : steady mj) by (eapply steady_same; [|exact Sj' | exact Sti]; intros s _ []).
    destruct (empty_full (m_sec mj Scm3_n) N (si_width si Scm3_n)) as [Fj1 Fj2]; [apply Stj | exact W2|].
    destruct (commit_ok perm perm_len workers si Scm3_n Scm3_2ns mj rf th bf) as [mk [rk [t3 [r3 [tk [bk [Ek [Ck [Rk [Tk [Wk Nk]]]]]]]]]]]; try assumption; try lia;
      [rewrite Sj, Si, (proj1 Sh), (proj1 Sd) by sout; exact L3|].
    assert (X3 : stage3 perm workers si sg mh (st_ncm1 sg) rf th bf = Ok (mk, t3, tk, bk)).
    { unfold stage3. rewrite Ei, bindE, P1, P2, P3. cbn [app foldM]. rewrite bindE. cbv beta iota. rewrite Ej, bindE, Ek, bindE. reflexivity. }
    assert (Stk : steady mk) by (eapply steady_same; [|exact (cd_same _ _ _ _ _ _ _ _ Ck) | exact Stj]; apart).
    exists mk, t1, t2, t3, tk, bk. split; [|split; [|split; [|split; [|split]]]].
    - unfold stages. rewrite X1, bindE. cbv beta iota. rewrite X2, bindE. cbv beta iota. rewrite X3, bindE. reflexivity.
    - apply Stk.
    - apply Stk.
    - rewrite (proj1 (cd_same _ _ _ _ _ _ _ _ Ck)), Sj, Si, (proj1 Sh) by sout. rewrite Vd. exact Va.
    - apply empty_full; [apply Stk | exact W1].
    - apply empty_full; [apply Stk | exact W2].
  Qed.
End Plain.

Lemma mem_row_table si sg ncm ce cp kp m ch i r : plain si sg ncm ce -> nPols cp = si_width si Scm1_n -> p_n cp = 2 ^ si_nbits si -> nPols kp = si_nconst si -> p_n kp = 2 ^ si_nbits si ->
  m_sec m Scm1_n = const_table cp -> m_sec m Sconst_n = const_table kp -> m_sec m Spublics = map (pub_value cp) (st_publics sg) -> i < 2 ^ si_nbits si ->
  mem_row si [] ncm m ch i r = table_row si cp kp (map (pub_value cp) (st_publics sg)) ch i r.
Proof.
  intros HP H1 H2 H3 H4 A1 A2 A3 Hi. unfold mem_row, table_row. refine (f_equal of_k _). rewrite (pl_ncm _ _ _ _ HP), <- H1, <- H3, A3. destruct (n_ty r); try reflexivity.
  - destruct (Nat.ltb_spec (n_id r) (nPols cp)) as [L|L]; [|reflexivity]. unfold cell. rewrite (pl_place _ _ _ _ HP) by (rewrite (pl_ncm _ _ _ _ HP), <- H1; exact L). unfold elem. cbn [Nat.eqb].
    rewrite A1, <- H1, table_nth by (try exact L; rewrite H2; apply nrow_lt, Hi). apply val_from.
  - destruct (Nat.ltb_spec (n_id r) (nPols kp)) as [L|L]; [|reflexivity]. unfold ccell. rewrite A2, <- H3, table_nth by (try exact L; rewrite H4; apply nrow_lt, Hi). apply val_from.
Qed.

Theorem plain_complete perm fuel gfuel workers w0 si sg tbl ids ncm md ce pg cp kp tc br0 br rest nq : (forall i s, length (perm i s) = 12) -> workers <> 0 -> w0 <> 0 ->
  machine fuel gfuel si sg tbl ids ncm md ce pg -> inputs perm w0 si cp kp tc br0 br -> plain si sg ncm ce -> table_ok si sg tbl ids cp kp ->
  chunks_ok si workers -> steps_ok (si_nbits_ext si) rest -> 0 < nq ->
  exists rc m0 m t1 t2 t3 tr br' m4 t4 root4 xi tr4, tree_root tc = Ok rc /\ start_mem si cp kp tc = Ok m0 /\ stages perm workers si sg m0 br = Ok (m, t1, t2, t3, tr, br') /\
    quotient_phase perm workers si pg m tr br' = Ok (m4, t4, root4, xi, tr4) /\
    ((forall r, r < 2 ^ si_nbits_ext si -> val xi <> cpt (si_nbits_ext si) r) ->
     exists p, stark_gen perm workers si sg pg (si_nbits_ext si :: rest) nq cp kp tc br = Ok p /\ sp_publics p = map (pub_value cp) (st_publics sg) /\
       stark_verify perm si pg (si_nbits_ext si :: rest) nq rc p = Ok true).
Proof.
  intros Hp Hw Hw0 HM HI HP HT Hc Hs Hq. pose proof HM as [C _ La _ _ _]. destruct (cf_bits _ _ _ _ _ _ _ _ _ _ C) as [B1 B2].
  pose proof HI as [[I1 [I2 [I3 I4]]] [J1 [J2 J3]] Hbr Hsu].
  assert (K1 : nPols kp = si_nconst si).
  { unfold setup_consts in Hsu. destruct (Nat.eqb_spec (nPols kp) (si_nconst si)) as [E|E]; [exact E | discriminate Hsu]. }
  destruct (start_total si cp kp tc) as [m0 E0]; try assumption; try lia.
  destruct (plain_stages perm Hp fuel gfuel workers w0 si sg tbl ids ncm md ce pg cp kp tc br0 br Hw Hw0 HM HI HP m0 E0) as [m [t1 [t2 [t3 [tr [br' [Eg [A1 [A2 [A3 [F2 F3]]]]]]]]]]].
  assert (Bp : Forall vbase (m_sec m Spublics)).
  { rewrite A3. apply Forall_forall. intros x Hx. apply in_map_iff in Hx. destruct Hx as [p [<- _]]. eexists. reflexivity. }
  destruct (gen_complete perm Hp fuel gfuel workers w0 si sg tbl ids ncm md ce pg cp kp tc br0 br m0 m t1 t2 t3 tr br' rest nq) as [rc [m4 [t4 [root4 [xi [tr4 [R1 [R2 R3]]]]]]]]; try assumption.
  - eapply Forall_impl; [|exact Bp]. exact vbase_wf.
  - intros _. eapply Forall_impl; [|exact Bp]. exact vbase_d3.
  - intros i ch Hi Hch rho. rewrite (pl_im _ _ _ _ HP). split; [|intros k x e v []]. intros j v Hj D. apply (HT i ch j v Hi Hj). rewrite with_none in D.
    assert (Hops : si_width si Scm4_2ns / 8 <= MAX_OPS) by apply (la_cm4 _ _ La).
    assert (Hlen : length (st_publics sg) = length (m_sec m Spublics)) by (rewrite A3, map_length; reflexivity). rewrite Hlen in C.
    destruct (constraint_parts fuel gfuel si tbl ids ncm md ce pg m C) as [c CP]. rewrite (cp_tbl _ _ _ _ _ _ _ CP) in D.
    eapply den_prefix in D.
    + eapply den_ext; [|exact D]. intros r. unfold rho. rewrite (pl_im _ _ _ _ HP). cbn [length]. rewrite Nat.add_0_r. eapply mem_row_table; eassumption.
    + exact (proj2 (cf_tbl _ _ _ _ _ _ _ _ _ _ C)).
    + constructor; [|constructor]. intros k Hk. cbn in Hk. injection Hk as <-. cbn. pose proof (cf_ids _ _ _ _ _ _ _ _ _ _ C) as F. rewrite Forall_forall in F. exact (F j Hj).
  - exists rc, m0, m, t1, t2, t3, tr, br', m4, t4, root4, xi, tr4. rewrite <- A3. auto.
Qed.

Lemma setup_total perm workers nb e ncon cp br : (forall i s, length (perm i s) = 12) -> workers <> 0 -> 1 <= nb <= e -> e <= 31 -> ncon <= MAX_OPS -> shaped cp -> 0 < nPols cp -> p_n cp = 2 ^ nb -> nPols cp = ncon ->
  nice br -> exists tc br', setup_consts perm workers nb e ncon cp br = (Ok tc, br') /\ nice br'.
Proof.
  intros Hp Hw Hn He Hm Sh Hnp Hpn En Nb. unfold setup_consts. rewrite (proj2 (Nat.eqb_eq _ _) En). cbn [negb]. rewrite (write_buff_spec cp Sh Hnp). fold (const_table cp).
  assert (T : length (const_table cp) = 2 ^ nb * ncon) by (rewrite table_len, Hpn, En; reflexivity).
  destruct (interpolate_cols workers nb e ncon (const_table cp) (repeat e_ZERO (2 ^ e * ncon)) br) as [out [br1 [I1 [I2 [I3 [I4 I5]]]]]]; try assumption; try lia.
  - right. apply Forall_forall. intros x Hx. apply repeat_spec in Hx. exact Hx.
  - apply from_base.
  - apply repeat_length.
  - apply zeros_base.
  - rewrite I1. cbv beta iota. rewrite bindE, (words_ok out I4), bindE. rewrite En, Hpn. replace (2 ^ nb * 2 ^ (e - nb)) with (2 ^ e) by (rewrite <- Nat.pow_add_r; f_equal; lia).
    assert (H2 : 2 <= 2 ^ e) by (change 2 with (2 ^ 1) at 1; apply Nat.pow_le_mono_r; lia).
    destruct (MerkleProof.merkelize_total perm Hp workers (map c0 out) ncon (2 ^ e)) as [t Et]; [exact Hw | exact H2 | rewrite map_length; exact I3 | apply div8_le, Hm|].
    rewrite Et. exists t, br1. split; [reflexivity | exact I2].
Qed.

(** ** what a stage commits to *)
(* the column at pos of dimension dim of buf is the extension to the larger shifted domain of that column of src *)
Definition extends (nb e w : nat) (src buf : list F3G) (pos dim : nat) : Prop :=
  exists P, length P = 2 ^ nb /\ (forall i, i < 2 ^ nb -> peval P (kpow (kroot nb) i) = val (elem src w pos dim i)) /\
    (forall r, r < 2 ^ e -> val (elem buf w pos dim r) = peval P (cpt e r)).
Lemma commit_extends perm workers si sn s2 m result tr br : (forall i s, length (perm i s) = 12) ->
  workers <> 0 -> si_width si sn <= MAX_OPS -> 1 <= si_nbits si <= si_nbits_ext si -> si_nbits_ext si <= 24 ->
  length (m_sec m sn) = 2 ^ si_nbits si * si_width si sn -> Forall vbase (m_sec m sn) -> length (m_sec m s2) = 2 ^ si_nbits_ext si * si_width si sn ->
  Forall vbase result -> nice br -> TranscriptProof.wf tr ->
  exists m' out t r tr' br', commit_stage perm workers si sn s2 m result tr br = Ok (m', out, t, tr', br') /\
    (forall s, s <> s2 -> m_sec m' s = m_sec m s) /\ (forall pos dim, dim = 1 \/ dim = 3 -> pos + dim <= si_width si sn ->
      extends (si_nbits si) (si_nbits_ext si) (si_width si sn) (m_sec m sn) (m_sec m' s2) pos dim) /\
    (exists k, merkelize perm k (map c0 (m_sec m' s2)) (si_width si sn) (2 ^ si_nbits_ext si) = Ok t) /\ tree_root t = Ok r /\ put perm tr [r] = Ok tr'.
Proof.
  intros Hp Hw Hm Hn He Ls Bs L2 Br Nb Wt.
  destruct (commit_ok perm Hp workers si sn s2 m result tr br Hw Hm Hn He Ls Bs L2 Br Nb Wt) as [m' [out [t [r [tr' [br' [E [[C1 C2 C3 C4 C5 C6] [_ [P _]]]]]]]]]].
  exists m', out, t, r, tr', br'. split; [exact E|]. split; [intros s Hs; apply (proj1 C1); intros [X|[]]; congruence|]. split; [|split; [exact C4|split; [exact C5 | exact P]]].
  intros pos dim Hd Hi. exists (ipol (si_nbits si) (m_sec m sn) (si_width si sn) pos dim). split; [apply ipol_len|]. split; [intros i Hi'; apply ipol_at; [lia | exact Hi']|].
  apply (co_val _ _ _ _ _ _ (C6 pos dim Hd Hi)).
Qed.
Lemma setup_extends perm workers nb e ncon cp br : (forall i s, length (perm i s) = 12) -> workers <> 0 -> 1 <= nb <= e -> e <= 31 -> ncon <= MAX_OPS -> shaped cp -> 0 < nPols cp -> p_n cp = 2 ^ nb ->
  nPols cp = ncon -> nice br -> exists tc br' rc, setup_consts perm workers nb e ncon cp br = (Ok tc, br') /\ nice br' /\ tree_root tc = Ok rc /\
    merkelize perm workers (t_elements tc) ncon (2 ^ e) = Ok tc /\ length (t_elements tc) = 2 ^ e * ncon /\
    forall c, c < ncon -> exists P, length P = 2 ^ nb /\ (forall i, i < 2 ^ nb -> peval P (kpow (kroot nb) i) = kconst (cellv (p_array cp) c i)) /\
      (forall r, r < 2 ^ e -> kconst (nth (c + r * ncon) (t_elements tc) f0) = peval P (cpt e r)).
Proof.
  intros Hp Hw Hn He Hm Sh Hnp Hpn En Nb.
  destruct (setup_total perm workers nb e ncon cp br Hp Hw Hn He Hm Sh Hnp Hpn En Nb) as [tc [br' [E N']]].
  destruct (setup_ok _ _ _ _ _ _ _ _ _ Hp Hw Hn He Hm Sh Hnp Hpn Nb E) as [_ [_ [rc [R [M [L C]]]]]].
  exists tc, br', rc. split; [exact E|]. split; [exact N'|]. split; [exact R|]. split; [exact M|]. split; [exact L|].
  intros c Hc. exists (ipol nb (const_table cp) ncon c 1). split; [apply ipol_len|]. split.
  - intros i Hi. rewrite ipol_at by (try exact Hi; lia). unfold elem. cbn [Nat.eqb]. rewrite <- En, table_nth by (rewrite ?Hpn; lia). apply val_from.
  - intros r Hr. rewrite <- (co_val _ _ _ _ _ _ (C c Hc) r Hr). unfold elem. cbn [Nat.eqb]. change e_ZERO with (e_from f0). rewrite map_nth. symmetry. apply val_from.
Qed.
