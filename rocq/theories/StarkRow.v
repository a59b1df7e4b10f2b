(* Running the code of StarkModel.v over all rows of the extended domain. *)
From Verif Require Import Base GlModel FrField F3gModel F3gProof ListAux PolyModel CodegenModel CodegenProof InterpModel InterpProof BnProof FftpBase
  VerifierModel VerifierProof HashModel FriModel FftpModel ProverModel ProverProof ParModel ParProof StarkModel StarkGen.
Open Scope nat_scope.
Open Scope res_scope.

Definition coord (j : nat) (v : F3G) : Fr := match j with 0 => c0 v | 1 => c1 v | _ => c2 v end.
(* the step and the section it fills *)
Definition fills (st : pstep) (so : sec) : Prop := st = Step4 /\ so = Sq_2ns \/ st = Step5 /\ so = Sf_2ns.

(* a reference that can be read in the step *)
Definition ref_ok (si : sinfo) (st : pstep) (m : mem) (r : node) : Prop :=
  match n_ty r with
  | Ntmp => True
  | Ncm => exists p s pos dim, nth_error (si_cm_2ns si) (n_id r) = Some p /\ nth_error (si_map si) p = Some (s, pos, dim) /\
      (dim = 1 \/ dim = 3) /\ pos + dim <= si_width si s /\ In s [Scm1_2ns; Scm2_2ns; Scm3_2ns; Scm4_2ns] /\ In s (step_in st)
  | Nconst => n_id r < si_nconst si
  | Nnumber => exists v, number_ref (n_value r) = Ok v
  | Npublic => n_id r < length (m_sec m Spublics)
  | Nchallenge => n_id r < length (m_sec m Schallenge)
  | Neval => n_id r < length (m_sec m Sevals)
  | NxDivXSubXi | NxDivXSubWXi => st = Step5
  | Nx => st = Step4
  | NZi => True
  | _ => False
  end.
(* a reference to a base element *)
Definition narrow (si : sinfo) (m : mem) (r : node) : Prop :=
  match n_ty r with
  | Ncm => forall p s pos dim, nth_error (si_cm_2ns si) (n_id r) = Some p -> nth_error (si_map si) p = Some (s, pos, dim) -> dim = 1
  | Npublic => Forall (fun v => d3 v = false) (m_sec m Spublics)
  | Nchallenge | Neval | NxDivXSubXi | NxDivXSubWXi => False
  | _ => True
  end.

Section Rows.
  Variables (si : sinfo) (st : pstep) (so : sec) (dq : nat) (m : mem).
  Hypothesis Hst : fills st so.
  Hypothesis Hnb : si_nbits si <= si_nbits_ext si.
  Hypothesis Hw : sec_width si so = dq.
  Hypothesis Hdq : dq = 1 \/ dq = 3.
  Hypothesis Hm : mem_ok si st m.
  Local Notation n := (2 ^ si_nbits_ext si).
  Local Notation nx := (dom_next si false).
  Local Notation lf i := (fun r => read_ref si false i m r).

  Lemma st_dom : step_dom st = false.
  Proof. destruct Hst as [[-> _]|[-> _]]; reflexivity. Qed.
  Lemma st_n : par_n si st = n.
  Proof. unfold par_n. rewrite st_dom. reflexivity. Qed.
  Lemma st_next : par_next si st = nx.
  Proof. unfold par_next. rewrite st_dom. reflexivity. Qed.
  Lemma n_pos : n <> 0.
  Proof. apply Nat.pow_nonzero. discriminate. Qed.
  Lemma so_facts : so <> Stmp /\ global so = false /\ ~ In so (step_in st) /\ step_out st = [so] /\ ~ In so [Scm1_2ns; Scm2_2ns; Scm3_2ns; Scm4_2ns].
  Proof.
    destruct Hst as [[-> ->]|[-> ->]]; repeat split; try discriminate; cbn; intros H; repeat (destruct H as [H|H]; [discriminate H|]); exact H.
  Qed.
  Lemma in_len s : In s (step_in st) -> length (m_sec m s) = n * sec_width si s.
  Proof. intros H. destruct Hm as [M _]. destruct (M s (in_or_app _ _ s (or_introl H))) as [L _]. now rewrite st_n in L. Qed.
  Lemma in_base s : In s (step_in st) -> Forall (fun v => d3 v = false) (m_sec m s).
  Proof. intros H. destruct Hm as [M _]. exact (proj2 (M s (in_or_app _ _ s (or_introl H)))). Qed.

  (* memories that agree outside the temporaries and the filled section *)
  Definition agree (m' : mem) : Prop :=
    (forall s, s <> Stmp -> s <> so -> m_sec m' s = m_sec m s) /\ m_xdiv m' = m_xdiv m /\ m_xdivw m' = m_xdivw m /\ m_zi m' = m_zi m.
  Lemma agree_refl : agree m.
  Proof. repeat split; reflexivity. Qed.

  Lemma read_agree i m' r : agree m' -> ref_ok si st m r -> n_ty r <> Ntmp -> read_ref si false i m' r = read_ref si false i m r.
  Proof.
    intros [A [B [C D]]] Hr Hn. destruct so_facts as [S1 [S2 [S3 [S4 S5]]]]. unfold read_ref, get_ref, ref_ok in *.
    assert (G : forall s o, s <> Stmp -> s <> so -> r_sym o = RSec s -> operand_value m' (Refer o) i = operand_value m (Refer o) i).
    { intros s o H1 H2 E. cbn [operand_value]. unfold get_value. rewrite E, A by assumption. reflexivity. }
    assert (Gl : forall s, global s = true -> s <> Stmp /\ s <> so) by (intros s Hs; split; intros ->; [discriminate Hs | congruence]).
    destruct (n_ty r) eqn:Et; try contradiction; cbn [bind].
    - destruct Hr as [p [s [pos [dim [R1 [R2 [R3 [R4 [R5 R6]]]]]]]]].
      unfold cm_ref. rewrite (vget_some _ _ _ R1). cbn [bind]. unfold eval_map. rewrite (vget_some _ _ _ R2). cbn [bind].
      assert (Hb : (dim =? 1) || (dim =? 3) = true) by (destruct R3 as [->| ->]; reflexivity). rewrite Hb. cbn [bind rmap].
      apply (G s); [intros ->; cbn in R5; repeat (destruct R5 as [R5|R5]; [discriminate R5|]); exact R5 | intros ->; contradiction | reflexivity].
    - apply (G Sconst_2ns); [discriminate | intros E; rewrite <- E in S3; apply S3; destruct Hst as [[-> _]|[-> _]]; cbn; tauto | reflexivity].
    - destruct Hr as [v ->]. reflexivity.
    - destruct (Gl Spublics eq_refl). now apply (G Spublics).
    - destruct (Gl Schallenge eq_refl). now apply (G Schallenge).
    - destruct (Gl Sevals eq_refl). now apply (G Sevals).
    - cbn [operand_value]. unfold get_value. cbn [r_sym]. now rewrite B.
    - cbn [operand_value]. unfold get_value. cbn [r_sym]. now rewrite C.
    - subst st. apply (G Sx_2ns); [discriminate | destruct Hst as [[_ ->]|[C' _]]; discriminate | reflexivity].
    - cbn [operand_value]. unfold get_value. cbn [r_sym]. now rewrite D.
  Qed.

  Lemma aread_agree i m' t r v : agree m' -> tmps_ok t m' -> ref_ok si st m r -> aread (lf i) t r = Ok v -> read_ref si false i m' r = Ok v.
  Proof.
    intros HA Ht Hr Hv. unfold aread in Hv.
    destruct (match n_ty r with Ntmp => true | _ => false end) eqn:Eb.
    - assert (Et : n_ty r = Ntmp) by (destruct (n_ty r); try discriminate Eb; reflexivity). rewrite Et in Hv.
      rewrite read_tmp by exact Et. destruct (t (n_id r)) as [u|] eqn:E; [|discriminate Hv]. injection Hv as ->. apply vget_some, Ht, E.
    - assert (Et : n_ty r <> Ntmp) by (intro C; rewrite C in Eb; discriminate Eb).
      rewrite (read_agree i m' r HA Hr Et). destruct (n_ty r); try exact Hv. now destruct Et.
  Qed.
  Lemma op_agree i m' t op srcs vs v : agree m' -> tmps_ok t m' -> Forall (ref_ok si st m) srcs -> op <> CMuladd ->
    mapM (aread (lf i) t) srcs = Ok vs -> v_op op vs = Ok v -> direct_op si false i m' op srcs = Ok v.
  Proof.
    intros HA Ht Hr Ho Hs Hv.
    assert (HF : Forall2 (fun r v => read_ref si false i m' r = Ok v) srcs vs).
    { clear -HA Ht Hr Hs Hst Hm Hnb Hw Hdq. revert vs Hs. induction Hr as [|r l Hr _ IH]; intros vs Hs; cbn [mapM] in Hs.
      - injection Hs as <-. constructor.
      - destruct (aread (lf i) t r) as [u| | |] eqn:Eu; try discriminate Hs. cbn [bind] in Hs.
        destruct (mapM (aread (lf i) t) l) as [us| | |] eqn:Eus; try discriminate Hs. cbn [bind] in Hs. injection Hs as <-.
        constructor; [eapply aread_agree; eassumption | apply IH; reflexivity]. }
    destruct op; [| | |now destruct Ho|];
      destruct vs as [|a s]; try discriminate Hv; inversion HF as [|ra ? ? ? Ra HF']; subst; cbn [direct_op v_op] in *;
      try (destruct s as [|b s]; try discriminate Hv; inversion HF' as [|rb ? ? ? Rb _]; subst);
      cbn [direct_op v_op] in *; rewrite ?Ra; cbn [bind]; rewrite ?Rb; cbn [bind]; exact Hv.
  Qed.

  Definition code_ok (c : instr) : Prop := i_op c <> CMuladd /\ Forall (ref_ok si st m) (i_src c).

  Lemma body_run i code : forall t t' m', Forall code_ok code -> Forall (dest_ok (length (m_sec m' Stmp))) code ->
    agree m' -> tmps_ok t m' -> arun (lf i) t code = Ok t' ->
    exists m2, foldM (direct_step si false i) code m' = Ok m2 /\ InterpProof.frame m' m2 /\ agree m2 /\ tmps_ok t' m2 /\ length (m_sec m2 Stmp) = length (m_sec m' Stmp).
  Proof.
    induction code as [|c code IH]; intros t t' m' Hc Hd HA Ht Hr; cbn [arun foldM] in *.
    - injection Hr as <-. exists m'. split; [reflexivity|]. split; [apply InterpProof.frame_refl|]. auto.
    - destruct (mapM (aread (lf i) t) (i_src c)) as [vs| | |] eqn:Es; try discriminate Hr. cbn [bind] in Hr.
      destruct (v_op (i_op c) vs) as [v| | |] eqn:Ev; try discriminate Hr. cbn [bind] in Hr.
      pose proof (Forall_inv Hc) as [Hc1 Hc2]. pose proof (Forall_inv_tail Hc) as Hc'. pose proof (Forall_inv Hd) as [Hd1 Hd2]. pose proof (Forall_inv_tail Hd) as Hd'. rewrite Hd1 in Hr.
      unfold direct_step at 1. rewrite (op_agree i m' t _ _ vs v HA Ht Hc2 Hc1 Es Ev). cbn [bind].
      destruct (write_tmp si false i m' (i_dest c) v Hd1 Hd2) as [l [m2 [W1 [W2 [W3 [W4 [W5 W6]]]]]]].
      rewrite W4. cbn [bind].
      assert (HA2 : agree m2).
      { destruct HA as [A1 [A2 [A3 A4]]]. destruct W6 as [B1 [B2 [B3 B4]]]. split; [|repeat split; congruence].
        intros s H1 H2. rewrite B1 by exact H1. now apply A1. }
      destruct (IH (fun k => if k =? n_id (i_dest c) then Some v else t k) t' m2 Hc') as [m3 [E1 [E2 [E3 [E4 E5]]]]]; [| | |exact Hr|].
      + rewrite W5, W3. exact Hd'.
      + exact HA2.
      + intros k u Hk. rewrite W5. destruct (Nat.eqb_spec k (n_id (i_dest c))) as [->|Hne].
        * injection Hk as <-. exact W1.
        * rewrite W2 by exact Hne. now apply Ht.
      + exists m3. split; [exact E1|]. split; [eapply InterpProof.frame_trans; eassumption|]. split; [exact E3|]. split; [exact E4|].
        rewrite E5, W5. exact W3.
  Qed.

  (* the cells of a value *)
  Definition cells_of (l : list F3G) (i : nat) (v : F3G) : Prop :=
    forall j, j < dq -> nth_error l (i * dq + j) = Some (e_from (coord j v)).

  (* the last instruction of a row *)
  Variables (body : list instr) (op : cop) (dst : node) (srcs : list node) (tmp : nat) (w : nat -> F3G).
  Hypothesis Hbody : Forall code_ok body.
  Hypothesis Hdest : Forall (dest_ok tmp) body.
  Hypothesis Hlast : code_ok (mkI op dst srcs).
  Hypothesis Hdst : dest_ref si dst false nx n = Ok (mkR (RSec so) (dq =? 3) 0 0 n dq).
  Hypothesis Hrun : forall i, i < n -> exists t vs, arun (lf i) (fun _ => None) body = Ok t /\ mapM (aread (lf i) t) srcs = Ok vs /\ v_op op vs = Ok (w i).
  Hypothesis Hwf : forall i, i < n -> wf (w i).
  Hypothesis Hnarrow : dq = 1 -> forall i, i < n -> d3 (w i) = false.

  Definition upto (k : nat) (m' : mem) : Prop :=
    agree m' /\ length (m_sec m' Stmp) = tmp /\ length (m_sec m' so) = n * dq /\
    (forall i, i < k -> cells_of (m_sec m' so) i (w i)) /\
    (forall i j, k <= i < n -> j < dq -> nth_error (m_sec m' so) (i * dq + j) = Some e_ZERO).

  Lemma cell_ne a b i j : i <> j -> a < dq -> b < dq -> i * dq + a <> j * dq + b.
  Proof.
    intros H1 H2 H3 E. apply H1. assert (i * dq + a < S i * dq) by (cbn; lia). assert (j * dq + b < S j * dq) by (cbn; lia).
    destruct (Nat.lt_trichotomy i j) as [L|[L|L]]; [|exact L|].
    - assert (S i * dq <= j * dq) by (apply Nat.mul_le_mono_r; exact L). lia.
    - assert (S j * dq <= i * dq) by (apply Nat.mul_le_mono_r; exact L). lia.
  Qed.

  Lemma write_row i m' : i < n -> length (m_sec m' so) = n * dq ->
    (forall j, j < dq -> nth_error (m_sec m' so) (i * dq + j) = Some e_ZERO) ->
    exists m2, write_ref m' (mkR (RSec so) (dq =? 3) 0 0 n dq) i (w i) = Ok m2 /\
      (forall s, s <> so -> m_sec m2 s = m_sec m' s) /\ m_xdiv m2 = m_xdiv m' /\ m_xdivw m2 = m_xdivw m' /\ m_zi m2 = m_zi m' /\
      length (m_sec m2 so) = n * dq /\ cells_of (m_sec m2 so) i (w i) /\
      forall i' j, i' <> i -> j < dq -> nth_error (m_sec m2 so) (i' * dq + j) = nth_error (m_sec m' so) (i' * dq + j).
  Proof.
    intros Hi L Z. destruct so_facts as [S1 _]. unfold write_ref. cbn [r_sym]. unfold get_i. cbn [r_off r_next r_mod r_size].
    rewrite Nat.add_0_r, Nat.mod_small by exact Hi. cbn [Nat.add].
    assert (Hb : forall j, j < dq -> i * dq + j < n * dq).
    { intros j Hj. assert (S i * dq <= n * dq) by (apply Nat.mul_le_mono_r; exact Hi). cbn [Nat.mul] in H. lia. }
    assert (Hse : sec_eqb so Stmp = false) by (destruct Hst as [[_ ->]|[_ ->]]; reflexivity). rewrite Hse, orb_false_r.
    pose proof (Hwf i Hi) as Wi. unfold wf in Wi.
    destruct (d3 (w i)) eqn:Ed; cbn [negb].
    - assert (E3 : dq = 3) by (destruct Hdq as [E|E]; [pose proof (Hnarrow E i Hi); congruence | exact E]). rewrite E3 in *.
      destruct (vset_spec (m_sec m' so) (i * 3) (e_from (c0 (w i)))) as [b1 [Hb1 [Hl1 Hn1]]]; [specialize (Hb 0); lia|].
      destruct (vset_spec b1 (i * 3 + 1) (e_from (c1 (w i)))) as [b2 [Hb2 [Hl2 Hn2]]]; [specialize (Hb 1); lia|].
      destruct (vset_spec b2 (i * 3 + 2) (e_from (c2 (w i)))) as [b3 [Hb3 [Hl3 Hn3]]]; [specialize (Hb 2); lia|].
      rewrite Hb1. cbn [bind]. rewrite Hb2. cbn [bind]. rewrite Hb3. cbn [bind]. eexists. split; [reflexivity|].
      split; [intros s Hs; now apply m_set_other|]. do 3 (split; [reflexivity|]). rewrite m_set_same. split; [lia|]. split.
      + unfold cells_of. rewrite E3. intros j Hj. rewrite Hn3, Hn2, Hn1. destruct j as [|[|[|j]]]; [| | |lia]; cbn [coord].
        * rewrite Nat.add_0_r, Nat.eqb_refl, (proj2 (Nat.eqb_neq (i * 3) (i * 3 + 2)) ltac:(lia)), (proj2 (Nat.eqb_neq (i * 3) (i * 3 + 1)) ltac:(lia)). reflexivity.
        * replace (i * 3 + 1 =? i * 3 + 2) with false by (symmetry; apply Nat.eqb_neq; lia). now rewrite Nat.eqb_refl.
        * now rewrite Nat.eqb_refl.
      + intros i' j Hne Hj. rewrite Hn3, Hn2, Hn1.
        replace (i' * 3 + j =? i * 3 + 2) with false by (symmetry; apply Nat.eqb_neq; lia).
        replace (i' * 3 + j =? i * 3 + 1) with false by (symmetry; apply Nat.eqb_neq; lia).
        replace (i' * 3 + j =? i * 3) with false by (symmetry; apply Nat.eqb_neq; lia). reflexivity.
    - destruct (Wi eq_refl) as [C1 C2].
      assert (Ew : w i = e_from (c0 (w i))).
      { destruct (w i) as [x y z d]. cbn in *. subst. reflexivity. }
      assert (E0 : e_ZERO = e_from f0) by reflexivity.
      destruct (vset_spec (m_sec m' so) (i * dq) (w i)) as [b1 [Hb1 [Hl1 Hn1]]]; [specialize (Hb 0); destruct Hdq as [E|E]; rewrite E in *; lia|].
      rewrite Hb1. cbn [bind]. eexists. split; [reflexivity|].
      split; [intros s Hs; now apply m_set_other|]. do 3 (split; [reflexivity|]). rewrite m_set_same. split; [lia|]. split.
      + intros j Hj. rewrite Hn1. destruct j as [|[|j]]; cbn [coord].
        * rewrite Nat.add_0_r, Nat.eqb_refl. now rewrite <- Ew.
        * replace (i * dq + 1 =? i * dq) with false by (symmetry; apply Nat.eqb_neq; lia). rewrite C1, <- E0. now apply Z.
        * replace (i * dq + S (S j) =? i * dq) with false by (symmetry; apply Nat.eqb_neq; lia). rewrite C2, <- E0. now apply Z.
      + intros i' j Hne Hj. rewrite Hn1. pose proof (cell_ne j 0 i' i Hne Hj ltac:(lia)) as Hx. rewrite Nat.add_0_r in Hx.
        now rewrite (proj2 (Nat.eqb_neq _ _) Hx).
  Qed.

  Lemma row_step k m' : k < n -> upto k m' -> exists m2, foldM (direct_step si false k) (body ++ [mkI op dst srcs]) m' = Ok m2 /\ upto (S k) m2.
  Proof.
    intros Hk [HA [HT [HL [HD HZ]]]]. destruct (Hrun k Hk) as [t [vs [R1 [R2 R3]]]].
    destruct (body_run k body (fun _ => None) t m' Hbody) as [m1 [B1 [B2 [B3 [B4 B5]]]]].
    { rewrite HT. exact Hdest. } { exact HA. } { intros j u C. discriminate C. } { exact R1. }
    destruct so_facts as [S1 _].
    rewrite foldM_app, B1. cbn [bind foldM]. unfold direct_step. cbn [i_op i_src i_dest].
    rewrite (op_agree k m1 t op srcs vs (w k) B3 B4 (proj2 Hlast) (proj1 Hlast) R2 R3). cbn [bind].
    change (dom_size si false) with n. rewrite Hdst. cbn [bind].
    assert (Eso : m_sec m1 so = m_sec m' so) by (apply B2; exact S1).
    destruct (write_row k m1 Hk) as [m2 [W1 [W2 [W3 [W4 [W5 [W6 [W7 W8]]]]]]]].
    { rewrite Eso. exact HL. } { intros j Hj. rewrite Eso. apply HZ; [lia | exact Hj]. }
    rewrite W1. exists m2. split; [reflexivity|]. split; [|split; [|split; [exact W6|split]]].
    - destruct B3 as [A1 [A2 [A3 A4]]]. split; [|repeat split; congruence]. intros s H1 H2. rewrite W2 by exact H2. now apply A1.
    - rewrite W2 by (intro C; now apply S1). congruence.
    - intros i Hi. destruct (Nat.eq_dec i k) as [->|Hne]; [exact W7|]. intros j Hj. rewrite W8 by assumption. rewrite Eso. apply HD; [lia | exact Hj].
    - intros i j Hi Hj. rewrite W8 by (try lia; exact Hj). rewrite Eso. apply HZ; [lia | exact Hj].
  Qed.

  Variable blk : list iop.
  Hypothesis Hblk : compile_code si (body ++ [mkI op dst srcs]) false false = Ok blk.

  Lemma rows_run : forall r k m', k + r = n -> upto k m' ->
    exists m2, foldM (fun m i => rmap snd (block_eval m [] blk i)) (seq k r) m' = Ok m2 /\ upto n m2.
  Proof.
    induction r as [|r IH]; intros k m' Hk HU; cbn [seq foldM].
    - exists m'. split; [reflexivity|]. rewrite Nat.add_0_r in Hk. now rewrite <- Hk.
    - rewrite (compile_correct si _ false false blk Hblk m' k).
      destruct (row_step k m' ltac:(lia) HU) as [m2 [E U2]]. rewrite E. cbn [bind rmap snd]. apply IH; [lia | exact U2].
  Qed.
End Rows.

(* ---------- the compiled code is independent between rows ---------- *)
Section Local.
  Variables (si : sinfo) (st : pstep) (so : sec) (dq : nat) (m : mem) (tmp : nat).
  Hypothesis Hst : fills st so.
  Hypothesis Hw : sec_width si so = dq.
  Hypothesis Hdq : dq = 1 \/ dq = 3.
  Hypothesis Hm : mem_ok si st m.
  Local Notation n := (2 ^ si_nbits_ext si).
  Local Notation nx := (dom_next si false).
  Definition Wso : sec -> nat -> bool := fun s _ => sec_eqb s so.
  Definition tdq : nat -> bool := fun _ => dq =? 3.
  Local Notation readb := (readable si st Wso m).
  Local Notation wideb := (wide tdq m).

  Lemma src_ok D r : ref_ok si st m r -> (n_ty r = Ntmp -> In (n_id r) D) ->
    exists o, get_ref si r false nx n = Ok o /\ readb D o /\ (dq = 1 -> narrow si m r -> wideb o = false).
  Proof.
    intros Hr Hd. unfold ref_ok in Hr. unfold get_ref.
    destruct (so_facts si st so dq m Hst Hw Hm) as [S1 [S2 [S3 [S4 S5]]]].
    assert (Hn : par_n si st = n) by (exact (st_n si st so m Hst Hm)).
    assert (Hx : par_next si st = nx) by (exact (st_next si st so m Hst Hm)).
    assert (Hin : forall s b off nxt, In s (step_in st) -> global s = false -> s <> Stmp -> off + cells b <= sec_width si s -> nxt <= nx ->
      readb D (Refer (mkR (RSec s) b off nxt n (sec_width si s)))).
    { intros s b off nxt H1 H2 H3 H4 H5. unfold readable. cbn [r_sym r_mod r_size r_off r_next r_three].
      assert (E1 : sec_eqb s Stmp = false) by (destruct s; try reflexivity; now destruct H3). rewrite E1, H2, Hn, Hx.
      do 2 (split; [reflexivity|]). split; [exact H4|]. left. split; [exact H1|]. split; [exact H5|].
      intros c _. unfold Wso. destruct (sec_eqb s so) eqn:E; [|reflexivity]. apply sec_eqb_eq in E. subst s. contradiction. }
    assert (Hp0 : (if n_prime r then nx else 0) <= nx) by (destruct (n_prime r); lia).
    destruct (n_ty r) eqn:Et; try contradiction.
    - eexists. split; [reflexivity|]. split.
      + unfold readable, cell. cbn [r_sym sec_eqb r_off r_size r_three]. auto.
      + intros E _. unfold wide, cell, tdq. cbn [r_sym sec_eqb]. rewrite E. reflexivity.
    - destruct Hr as [p [s [pos [dim [R1 [R2 [R3 [R4 [R5 R6]]]]]]]]].
      unfold cm_ref. rewrite (vget_some _ _ _ R1). cbn [bind]. unfold eval_map. rewrite (vget_some _ _ _ R2). cbn [bind].
      assert (Hb : (dim =? 1) || (dim =? 3) = true) by (destruct R3 as [->| ->]; reflexivity). rewrite Hb. cbn [bind rmap].
      assert (Hs : sec_width si s = si_width si s /\ global s = false /\ s <> Stmp).
      { cbn in R5. repeat (destruct R5 as [<-|R5]; [repeat split; discriminate|]). destruct R5. }
      destruct Hs as [Hs1 [Hs2 Hs3]]. rewrite <- Hs1. eexists. split; [reflexivity|]. split.
      + apply Hin; try assumption. rewrite Hs1. destruct R3 as [->| ->]; exact R4.
      + intros Hd1 Hna. unfold narrow in Hna. rewrite Et in Hna. rewrite (Hna p s pos dim R1 R2). unfold wide. cbn [r_sym r_three].
        rewrite Hs2. destruct (sec_eqb s Stmp) eqn:E; [apply sec_eqb_eq in E; contradiction | reflexivity].
    - eexists. split; [reflexivity|]. split.
      + unfold cell. change (si_nconst si) with (sec_width si Sconst_2ns). apply Hin; try (discriminate || reflexivity); try assumption.
        * destruct Hst as [[-> _]|[-> _]]; cbn; tauto.
        * cbn [sec_width cells]. lia.
      + intros _ _. reflexivity.
    - destruct Hr as [v Hv]. rewrite Hv. cbn [rmap]. eexists. split; [reflexivity|]. split; [exact I|]. intros _ _. cbn [wide].
      unfold number_ref in Hv. destruct (CodegenModel.unwrap (n_value r)) as [k| | |]; try discriminate Hv. cbn [bind] in Hv.
      match type of Hv with (if ?b then _ else _) = _ => destruct b; [|discriminate Hv] end. injection Hv as <-. reflexivity.
    - eexists. split; [reflexivity|]. split.
      + unfold readable, cell. cbn [r_sym sec_eqb global r_off r_size r_three]. auto.
      + intros _ Hna. unfold narrow in Hna. rewrite Et in Hna. unfold wide, cell. cbn [r_sym sec_eqb global].
        clear -Hna. induction Hna as [|v l Hv _ IH]; [reflexivity|]. cbn [existsb]. now rewrite Hv, IH.
    - eexists. split; [reflexivity|]. split; [unfold readable, cell; cbn [r_sym sec_eqb global r_off r_size r_three]; auto|].
      intros _ Hna. unfold narrow in Hna. rewrite Et in Hna. destruct Hna.
    - eexists. split; [reflexivity|]. split; [unfold readable, cell; cbn [r_sym sec_eqb global r_off r_size r_three]; auto|].
      intros _ Hna. unfold narrow in Hna. rewrite Et in Hna. destruct Hna.
    - eexists. split; [reflexivity|]. split; [unfold readable; cbn [r_sym r_off r_next r_size r_mod]; rewrite Hr, <- Hn, Hr; auto|].
      intros _ Hna. unfold narrow in Hna. rewrite Et in Hna. destruct Hna.
    - eexists. split; [reflexivity|]. split; [unfold readable; cbn [r_sym r_off r_next r_size r_mod]; rewrite Hr, <- Hn, Hr; auto|].
      intros _ Hna. unfold narrow in Hna. rewrite Et in Hna. destruct Hna.
    - eexists. split; [reflexivity|]. split; [|intros _ _; reflexivity].
      unfold cell. change 1 with (sec_width si Sx_2ns) at 2. apply Hin; try (discriminate || reflexivity).
      + rewrite Hr. cbn. tauto.
      + lia.
    - eexists. split; [reflexivity|]. split; [exact I | intros _ _; reflexivity].
  Qed.

  Lemma srcs_ok D l : Forall (ref_ok si st m) l -> (forall r, In r l -> n_ty r = Ntmp -> In (n_id r) D) -> (dq = 1 -> Forall (narrow si m) l) ->
    exists os, mapM (fun r => get_ref si r false nx n) l = Ok os /\ length os = length l /\ Forall (readb D) os /\ (dq = 1 -> Forall (fun o => wideb o = false) os).
  Proof.
    induction 1 as [|r l Hr _ IH]; intros Hd Hna.
    - exists []. repeat split; constructor.
    - destruct (src_ok D r Hr (Hd r (or_introl eq_refl))) as [o [O1 [O2 O3]]].
      destruct IH as [os [P1 [P2 [P3 P4]]]]; [intros r' Hr'; apply Hd; now right | intros E; specialize (Hna E); now inversion Hna|].
      exists (o :: os). cbn [mapM]. rewrite O1. cbn [bind]. rewrite P1. cbn [bind]. split; [reflexivity|]. split; [cbn; lia|].
      split; [now constructor|]. intros E. constructor; [apply O3; [exact E | specialize (Hna E); now inversion Hna] | apply P4, E].
  Qed.

  Definition code_narrow (c : instr) : Prop := Forall (narrow si m) (i_src c).
  Variable lf : node -> res F3G.

  Lemma reads_defined t l vs : mapM (aread lf t) l = Ok vs -> length vs = length l /\ forall r, In r l -> n_ty r = Ntmp -> exists u, t (n_id r) = Some u.
  Proof.
    revert vs. induction l as [|r l IH]; intros vs H; cbn [mapM] in H; [injection H as <-; split; [reflexivity | intros r []]|].
    destruct (aread lf t r) as [u| | |] eqn:E; try discriminate H. cbn [bind] in H.
    destruct (mapM (aread lf t) l) as [us| | |]; try discriminate H. cbn [bind] in H. injection H as <-.
    destruct (IH us eq_refl) as [A B]. split; [cbn; lia|]. intros r' [->|Hr'] Ht; [|now apply B].
    unfold aread in E. rewrite Ht in E. destruct (t (n_id r')) as [x|]; [eauto | discriminate E].
  Qed.

  (* one instruction, whatever its destination *)
  Lemma instr_ok D t c vs v dst : code_ok si st m c -> (dq = 1 -> code_narrow c) -> (forall r, In r (i_src c) -> n_ty r = Ntmp -> In (n_id r) D) ->
    mapM (aread lf t) (i_src c) = Ok vs -> v_op (i_op c) vs = Ok v -> dest_ref si (i_dest c) false nx n = Ok dst ->
    exists o args, compile_instr si false nx n c = Ok [o; IWrite dst] /\ op_args o = Some args /\ Forall (readb D) args /\
      (dq = 1 -> Forall (fun o => wideb o = false) args).
  Proof.
    intros [Hc1 Hc2] Hna Ht Hs Hv Hdst. destruct (reads_defined _ _ _ Hs) as [L Hdef].
    destruct (srcs_ok D (i_src c) Hc2) as [os [P1 [P2 [P3 P4]]]].
    { exact Ht. } { exact Hna. }
    unfold compile_instr. rewrite P1. cbn [bind]. rewrite Hdst.
    assert (Hlen : length vs = length os) by lia. clear -Hc1 Hv Hlen P3 P4.
    destruct (i_op c); [| | |now destruct Hc1|];
      destruct vs as [|a [|b vs]]; try discriminate Hv; destruct os as [|x [|y os]]; try discriminate Hlen; cbn [compile_op bind];
      (eexists; eexists; split; [reflexivity|]; split; [reflexivity|]; split;
       [inversion P3 as [|? ? Q1 Q2]; subst; try (inversion Q2; subst); repeat (constructor; [assumption|]); constructor
       |intros E; specialize (P4 E); inversion P4 as [|? ? Q1 Q2]; subst; try (inversion Q2; subst); repeat (constructor; [assumption|]); constructor]).
  Qed.

  Lemma body_local code : forall t t' D, Forall (code_ok si st m) code -> Forall (dest_ok tmp) code -> (dq = 1 -> Forall code_narrow code) ->
    arun lf t code = Ok t' -> (forall k u, t k = Some u -> In k D) ->
    exists bl, mapM (compile_instr si false nx n) code = Ok bl /\
      forall rest, (forall D', (forall k u, t' k = Some u -> In k D') -> row_local si st Wso tdq tmp m D' rest) ->
        row_local si st Wso tdq tmp m D (concat bl ++ rest).
  Proof.
    induction code as [|c code IH]; intros t t' D Hc Hd Hna Hr Ht; cbn [arun] in Hr.
    - injection Hr as <-. exists []. split; [reflexivity|]. intros rest H. cbn [concat app]. now apply H.
    - destruct (mapM (aread lf t) (i_src c)) as [vs| | |] eqn:Es; try discriminate Hr. cbn [bind] in Hr.
      destruct (v_op (i_op c) vs) as [v| | |] eqn:Ev; try discriminate Hr. cbn [bind] in Hr.
      pose proof (Forall_inv Hc) as Hc1. pose proof (Forall_inv_tail Hc) as Hc'. pose proof (Forall_inv Hd) as [Hd1 Hd2]. pose proof (Forall_inv_tail Hd) as Hd'.
      rewrite Hd1 in Hr.
      destruct (instr_ok D t c vs v (mkR (RSec Stmp) false (n_id (i_dest c)) 0 n 0) Hc1) as [o [args [I1 [I2 [I3 I4]]]]];
        [intros E; exact (Forall_inv (Hna E)) | intros r Hr' Hty; destruct (proj2 (reads_defined _ _ _ Es) r Hr' Hty) as [u Hu]; exact (Ht _ _ Hu) | exact Es | exact Ev | unfold dest_ref; rewrite Hd1; reflexivity|].
      destruct (IH _ t' (n_id (i_dest c) :: D) Hc' Hd' (fun E => Forall_inv_tail (Hna E)) Hr) as [bl [B1 B2]].
      { intros k u Hk. destruct (Nat.eqb_spec k (n_id (i_dest c))) as [->|]; [now left | right; eapply Ht, Hk]. }
      exists ([o; IWrite (mkR (RSec Stmp) false (n_id (i_dest c)) 0 n 0)] :: bl). cbn [mapM]. rewrite I1. cbn [bind]. rewrite B1. cbn [bind].
      split; [reflexivity|]. intros rest Hrest. cbn [concat app row_local]. rewrite I2. split; [exact I3|]. split.
      + unfold writable. cbn [r_sym sec_eqb r_off r_size]. auto.
      + split; [|exact (B2 rest Hrest)]. unfold wide_dest. cbn [r_sym sec_eqb r_off]. unfold tdq. intros E. apply I4.
        destruct Hdq as [E1|E1]; [exact E1 | rewrite E1 in E; discriminate E].
  Qed.

  Lemma code_local body t op dst srcs vs v : Forall (code_ok si st m) body -> Forall (dest_ok tmp) body -> (dq = 1 -> Forall code_narrow body) ->
    arun lf (fun _ => None) body = Ok t -> code_ok si st m (mkI op dst srcs) -> (dq = 1 -> code_narrow (mkI op dst srcs)) ->
    mapM (aread lf t) srcs = Ok vs -> v_op op vs = Ok v -> dest_ref si dst false nx n = Ok (mkR (RSec so) (dq =? 3) 0 0 n dq) ->
    exists blk, compile_code si (body ++ [mkI op dst srcs]) false false = Ok blk /\ row_local si st Wso tdq tmp m [] blk.
  Proof.
    intros H1 H2 H3 H4 H5 H6 H7 H8 H9.
    destruct (body_local body (fun _ => None) t [] H1 H2 H3 H4) as [bl [B1 B2]]; [intros k u C; discriminate C|].
    destruct (reads_defined _ _ _ H7) as [_ Hdef].
    destruct (instr_ok (map n_id srcs) t (mkI op dst srcs) vs v (mkR (RSec so) (dq =? 3) 0 0 n dq) H5 H6) as [o [args [I1 [I2 [_ I4]]]]];
      [intros r Hr _; now apply in_map | exact H7 | exact H8 | exact H9|].
    exists (concat bl ++ [o; IWrite (mkR (RSec so) (dq =? 3) 0 0 n dq)]). split.
    - unfold compile_code. cbv zeta. change (dom_size si false) with n. rewrite mapM_app, B1. cbn [bind mapM]. rewrite I1. cbn [bind rmap]. rewrite concat_app. reflexivity.
    - apply B2. intros D' HD.
      destruct (instr_ok D' t (mkI op dst srcs) vs v (mkR (RSec so) (dq =? 3) 0 0 n dq) H5 H6) as [o' [args' [J1 [J2 [J3 J4]]]]];
        [intros r Hr Hty; destruct (Hdef r Hr Hty) as [u Hu]; exact (HD _ _ Hu) | exact H7 | exact H8 | exact H9|].
      rewrite I1 in J1. injection J1 as <-. cbn [row_local]. rewrite J2. split; [exact J3|].
      destruct (so_facts si st so dq m Hst Hw Hm) as [S1 [S2 [S3 [S4 S5]]]].
      split; [|split; [|exact I]].
      + unfold writable. cbn [r_sym r_mod r_size r_off r_next r_three].
        assert (E1 : sec_eqb so Stmp = false) by (destruct so; try reflexivity; now destruct S1). rewrite E1.
        split; [rewrite S4; now left|]. split; [symmetry; exact (st_n si st so m Hst Hm)|]. split; [symmetry; exact Hw|]. split; [reflexivity|].
        split; [rewrite Hw; destruct Hdq as [->| ->]; cbn; lia|]. intros c _. unfold Wso. apply sec_eqb_refl.
      + unfold wide_dest. cbn [r_sym r_three].
        assert (E1 : sec_eqb so Stmp = false) by (destruct so; try reflexivity; now destruct S1). rewrite E1.
        intros E. apply J4. destruct Hdq as [E2|E2]; [exact E2 | rewrite E2 in E; discriminate E].
  Qed.
End Local.

(* ---------- the value of a reference ---------- *)
Definition vbase (v : F3G) : Prop := exists x, v = e_from x.
Lemma vbase_d3 v : vbase v -> d3 v = false. Proof. intros [x ->]. reflexivity. Qed.
Lemma vbase_wf v : vbase v -> wf v. Proof. intros [x ->]. apply wf_from. Qed.
Lemma wf_ZERO : wf e_ZERO. Proof. split; reflexivity. Qed.
Lemma nth_vbase l i : Forall vbase l -> vbase (nth i l e_ZERO).
Proof. intros H. destruct (Nat.lt_ge_cases i (length l)) as [L|L]; [apply (proj1 (Forall_forall _ _) H), nth_In, L | rewrite nth_overflow by exact L; now exists f0]. Qed.
Lemma vget_nth {A} (l : list A) i d : i < length l -> vget l i = Ok (nth i l d).
Proof. intros H. apply vget_some. now apply nth_error_nth'. Qed.

(* the value of a column of a section of width w *)
Definition elem (l : list F3G) (w pos dim r : nat) : F3G :=
  if dim =? 3 then e_new (c0 (nth (pos + r * w) l e_ZERO)) (c0 (nth (pos + r * w + 1) l e_ZERO)) (c0 (nth (pos + r * w + 2) l e_ZERO))
  else nth (pos + r * w) l e_ZERO.
Lemma elem_wf l w pos dim r : Forall vbase l -> wf (elem l w pos dim r).
Proof. intros H. unfold elem. destruct (dim =? 3); [apply wf_new | apply vbase_wf, nth_vbase, H]. Qed.
Lemma three_elem l a : Forall vbase l -> a + 3 <= length l ->
  three l a = Ok (e_new (c0 (nth a l e_ZERO)) (c0 (nth (a + 1) l e_ZERO)) (c0 (nth (a + 2) l e_ZERO))).
Proof.
  intros H L. unfold three. rewrite (vget_nth l a e_ZERO) by lia. rewrite (vget_nth l (a + 1) e_ZERO) by lia. rewrite (vget_nth l (a + 2) e_ZERO) by lia.
  destruct (nth_vbase l a H) as [x Hx]. destruct (nth_vbase l (a + 1) H) as [y Hy]. destruct (nth_vbase l (a + 2) H) as [z Hz].
  rewrite Hx, Hy, Hz. reflexivity.
Qed.
Lemma get_elem l w pos dim i nxt n s m : m_sec m s = l -> Forall vbase l -> length l = n * w -> pos + dim <= w -> dim = 1 \/ dim = 3 -> n <> 0 ->
  get_value m (mkR (RSec s) (dim =? 3) pos nxt n w) i = Ok (elem l w pos dim ((i + nxt) mod n)).
Proof.
  intros Hl Hb Hlen Hp Hd Hn. unfold get_value. cbn [r_sym r_three]. unfold get_i. cbn [r_off r_next r_mod r_size]. rewrite Hl.
  pose proof (Nat.mod_upper_bound (i + nxt) n Hn) as Hr. set (r := (i + nxt) mod n) in *. clearbody r.
  destruct (addr_inside w pos dim r n Hp Hr) as [A1 [A2 A3]].
  unfold elem. destruct Hd as [->| ->]; cbn [Nat.eqb].
  - apply vget_nth. rewrite Hlen. set (rw := r * w) in *. set (rw1 := (r + 1) * w) in *. set (nw := n * w) in *. clearbody rw rw1 nw. lia.
  - apply three_elem; [exact Hb|]. rewrite Hlen. set (rw := r * w) in *. set (rw1 := (r + 1) * w) in *. set (nw := n * w) in *. clearbody rw rw1 nw. lia.
Qed.

Lemma zh_wf nb eb off i v : build_Zh_Inv nb eb off i = Ok v -> wf v.
Proof.
  unfold build_Zh_Inv. destruct (MG eb) as [g| | |]; intros H; try discriminate H. cbv beta iota zeta delta [bind] in H.
  assert (Hb : forall k sn u g, Forall wf (zh_table k sn u g)).
  { induction k as [|k IH]; intros; cbn [zh_table]; constructor; [apply wf_inv | apply IH]. }
  specialize (Hb (2 ^ eb) (zh_shift nb (e_from SHIFT)) e_ONE (e_from g)).
  set (t := zh_table _ _ _ _) in *. clearbody t. unfold vget in H.
  destruct (nth_error t _) as [x|] eqn:E; [|discriminate H]. injection H as <-. apply nth_error_In in E. now apply (proj1 (Forall_forall _ _) Hb).
Qed.

(* what the prover keeps in memory *)
Definition sound (si : sinfo) (st : pstep) (m : mem) : Prop :=
  mem_ok si st m /\ (forall s, In s (step_in st) -> Forall vbase (m_sec m s)) /\
  Forall wf (m_sec m Spublics) /\ Forall wf (m_sec m Schallenge) /\ Forall wf (m_sec m Sevals).
Definition rowv (si : sinfo) (m : mem) (i : nat) (r : node) : F3G := match read_ref si false i m r with Ok v => v | _ => e_ZERO end.

Section Leaves.
  Variables (si : sinfo) (st : pstep) (so : sec) (m : mem).
  Hypothesis Hst : fills st so.
  Hypothesis Hnb : si_nbits si <= si_nbits_ext si.
  Hypothesis Heb : si_nbits_ext si - si_nbits si <= 32.
  Hypothesis Hs : sound si st m.
  Local Notation n := (2 ^ si_nbits_ext si).

  Lemma leaf_read r i : ref_ok si st m r -> n_ty r <> Ntmp -> i < n ->
    exists v, read_ref si false i m r = Ok v /\ wf v /\ (narrow si m r -> d3 v = false).
  Proof.
    intros Hr Ht Hi. destruct Hs as [Hm [Hb [W1 [W2 W3]]]].
    assert (Hn0 : n <> 0) by (apply Nat.pow_nonzero; lia).
    assert (Hin : forall s, In s (step_in st) -> length (m_sec m s) = n * sec_width si s) by (exact (in_len si st so m Hst Hm)).
    assert (Hg : forall l k, Forall wf l -> k < length l -> exists v, vget l (k + (i + 0) mod n * 0) = Ok v /\ In v l /\ wf v).
    { intros l k Hl Hk. exists (nth k l e_ZERO). rewrite Nat.mul_0_r, Nat.add_0_r. split; [now apply vget_nth|]. pose proof (nth_In l e_ZERO Hk) as Hi'.
      split; [exact Hi'|]. now apply (proj1 (Forall_forall _ _) Hl). }
    unfold ref_ok in Hr. unfold read_ref, get_ref. destruct (n_ty r) eqn:Et; try contradiction.
    - destruct Hr as [p [s [pos [dim [R1 [R2 [R3 [R4 [R5 R6]]]]]]]]].
      unfold cm_ref. rewrite (vget_some _ _ _ R1). cbn [bind]. unfold eval_map. rewrite (vget_some _ _ _ R2). cbn [bind].
      assert (Hbb : (dim =? 1) || (dim =? 3) = true) by (destruct R3 as [->| ->]; reflexivity). rewrite Hbb. cbn [bind rmap].
      assert (Hw : sec_width si s = si_width si s).
      { cbn in R5. repeat (destruct R5 as [<-|R5]; [reflexivity|]). destruct R5. }
      cbn [operand_value]. change (dom_size si false) with n.
      rewrite (get_elem (m_sec m s) (si_width si s) pos dim i _ n s m eq_refl (Hb s R6)); [|rewrite <- Hw; now apply Hin | assumption | assumption | assumption].
      eexists. split; [reflexivity|]. split; [apply elem_wf, Hb, R6|]. intros Hna. unfold narrow in Hna. rewrite Et in Hna. rewrite (Hna p s pos dim R1 R2).
      unfold elem. cbn [Nat.eqb]. apply vbase_d3, nth_vbase, Hb, R6.
    - cbn [bind]. unfold cell. cbn [operand_value]. change (dom_size si false) with n.
      assert (H3 : In Sconst_2ns (step_in st)) by (destruct Hst as [[-> _]|[-> _]]; cbn; tauto).
      pose proof (get_elem (m_sec m Sconst_2ns) (si_nconst si) (n_id r) 1 i (if n_prime r then dom_next si false else 0) n Sconst_2ns m eq_refl (Hb _ H3) (Hin _ H3)) as G.
      cbn [Nat.eqb] in G. rewrite G; [|lia | now left | assumption].
      eexists. split; [reflexivity|]. split; [apply elem_wf, Hb, H3|]. intros _. unfold elem. cbn [Nat.eqb]. apply vbase_d3, nth_vbase, Hb, H3.
    - destruct Hr as [v Hv]. rewrite Hv. cbn [rmap bind operand_value]. exists v. split; [reflexivity|].
      unfold number_ref in Hv. destruct (CodegenModel.unwrap (n_value r)) as [k| | |]; try discriminate Hv. cbn [bind] in Hv.
      match type of Hv with (if ?b then _ else _) = _ => destruct b; [|discriminate Hv] end. injection Hv as <-. split; [apply wf_from | reflexivity].
    - cbn [bind]. unfold cell. cbn [operand_value]. unfold get_value. cbn [r_sym r_three]. unfold get_i. cbn [r_off r_next r_mod r_size].
      change (dom_size si false) with n. destruct (Hg (m_sec m Spublics) (n_id r) W1 Hr) as [v [V1 [V2 V3]]]. exists v. split; [exact V1|]. split; [exact V3|].
      intros Hna. unfold narrow in Hna. rewrite Et in Hna. exact (proj1 (Forall_forall _ _) Hna v V2).
    - cbn [bind]. unfold cell. cbn [operand_value]. unfold get_value. cbn [r_sym r_three]. unfold get_i. cbn [r_off r_next r_mod r_size].
      change (dom_size si false) with n. destruct (Hg (m_sec m Schallenge) (n_id r) W2 Hr) as [v [V1 [V2 V3]]]. exists v. split; [exact V1|]. split; [exact V3|].
      intros Hna. unfold narrow in Hna. rewrite Et in Hna. destruct Hna.
    - cbn [bind]. unfold cell. cbn [operand_value]. unfold get_value. cbn [r_sym r_three]. unfold get_i. cbn [r_off r_next r_mod r_size].
      change (dom_size si false) with n. destruct (Hg (m_sec m Sevals) (n_id r) W3 Hr) as [v [V1 [V2 V3]]]. exists v. split; [exact V1|]. split; [exact V3|].
      intros Hna. unfold narrow in Hna. rewrite Et in Hna. destruct Hna.
    - cbn [bind operand_value]. unfold get_value. cbn [r_sym r_three]. unfold get_i. cbn [r_off r_next r_mod r_size]. change (dom_size si false) with n.
      rewrite Nat.add_0_r, (Nat.mod_small i n Hi). cbn [Nat.add]. destruct Hm as [_ [Hx _]]. destruct (Hx ltac:(rewrite Hr; reflexivity)) as [X _].
      rewrite (st_n si st so m Hst (proj1 Hs)) in X. unfold three_b.
      assert (L : i * 3 + 3 <= n * 3) by (clear -Hi; set (k := n) in *; clearbody k; lia).
      rewrite (vget_nth _ (i * 3) f0) by lia. rewrite (vget_nth _ (i * 3 + 1) f0) by lia. rewrite (vget_nth _ (i * 3 + 2) f0) by lia.
      eexists. split; [reflexivity|]. split; [apply wf_new|]. intros Hna. unfold narrow in Hna. rewrite Et in Hna. destruct Hna.
    - cbn [bind operand_value]. unfold get_value. cbn [r_sym r_three]. unfold get_i. cbn [r_off r_next r_mod r_size]. change (dom_size si false) with n.
      rewrite Nat.add_0_r, (Nat.mod_small i n Hi). cbn [Nat.add]. destruct Hm as [_ [Hx _]]. destruct (Hx ltac:(rewrite Hr; reflexivity)) as [_ X].
      rewrite (st_n si st so m Hst (proj1 Hs)) in X. unfold three_b.
      assert (L : i * 3 + 3 <= n * 3) by (clear -Hi; set (k := n) in *; clearbody k; lia).
      rewrite (vget_nth _ (i * 3) f0) by lia. rewrite (vget_nth _ (i * 3 + 1) f0) by lia. rewrite (vget_nth _ (i * 3 + 2) f0) by lia.
      eexists. split; [reflexivity|]. split; [apply wf_new|]. intros Hna. unfold narrow in Hna. rewrite Et in Hna. destruct Hna.
    - cbn [bind]. unfold cell. cbn [operand_value]. change (dom_size si false) with n.
      assert (H3 : In Sx_2ns (step_in st)) by (rewrite Hr; cbn; tauto).
      pose proof (get_elem (m_sec m Sx_2ns) 1 0 1 i 0 n Sx_2ns m eq_refl (Hb _ H3) (Hin _ H3)) as G.
      cbn [Nat.eqb] in G. rewrite G; [|lia | now left | assumption].
      eexists. split; [reflexivity|]. split; [apply elem_wf, Hb, H3|]. intros _. unfold elem. cbn [Nat.eqb]. apply vbase_d3, nth_vbase, Hb, H3.
    - cbn [bind operand_value]. unfold get_value. cbn [r_sym]. destruct Hm as [_ [_ Hz]]. rewrite Hz.
      destruct (zh_ok (si_nbits si) (si_nbits_ext si - si_nbits si) 0 i Heb) as [v Hv]. exists v. split; [exact Hv|]. split; [eapply zh_wf, Hv|]. intros _. eapply zh_base, Hv.
  Qed.

  Lemma rowv_ok r i : ref_ok si st m r -> n_ty r <> Ntmp -> i < n -> read_ref si false i m r = Ok (rowv si m i r).
  Proof. intros H1 H2 H3. destruct (leaf_read r i H1 H2 H3) as [v [V1 _]]. unfold rowv. now rewrite V1. Qed.
  Lemma rowv_narrow r i : ref_ok si st m r -> n_ty r <> Ntmp -> i < n -> narrow si m r -> d3 (rowv si m i r) = false.
  Proof. intros H1 H2 H3 H4. destruct (leaf_read r i H1 H2 H3) as [v [V1 [_ V3]]]. unfold rowv. rewrite V1. now apply V3. Qed.

  (* code over base elements computes base elements *)
  Lemma aread_base t r i : ref_ok si st m r -> narrow si m r -> i < n -> (forall k u, t k = Some u -> d3 u = false) ->
    forall v, aread (fun r => read_ref si false i m r) t r = Ok v -> d3 v = false.
  Proof.
    intros H1 H2 H3 H4 v Hv. unfold aread in Hv. destruct (match n_ty r with Ntmp => true | _ => false end) eqn:Eb.
    - destruct (n_ty r); try discriminate Eb. destruct (t (n_id r)) as [u|] eqn:E; [|discriminate Hv]. cbn in Hv. injection Hv as <-. eapply H4, E.
    - assert (Hnt : n_ty r <> Ntmp) by (intros E; rewrite E in Eb; discriminate Eb).
      assert (Hv' : read_ref si false i m r = Ok v) by (destruct (n_ty r); try exact Hv; now destruct Hnt).
      destruct (leaf_read r i H1 Hnt H3) as [u [U1 [_ U3]]]. rewrite U1 in Hv'. injection Hv' as <-. now apply U3.
  Qed.
  Lemma areads_base t l i : Forall (ref_ok si st m) l -> Forall (narrow si m) l -> i < n -> (forall k u, t k = Some u -> d3 u = false) ->
    forall vs, mapM (aread (fun r => read_ref si false i m r) t) l = Ok vs -> Forall (fun v => d3 v = false) vs.
  Proof.
    induction l as [|r l IH]; intros H1 H2 H3 H4 vs Hv; cbn [mapM] in Hv; [injection Hv as <-; constructor|].
    destruct (aread _ t r) as [u| | |] eqn:E; try discriminate Hv. cbn [bind] in Hv. destruct (mapM _ l) as [us| | |] eqn:El; try discriminate Hv.
    cbn [bind] in Hv. injection Hv as <-. constructor.
    - eapply aread_base; [exact (Forall_inv H1) | exact (Forall_inv H2) | exact H3 | exact H4 | exact E].
    - apply IH; try assumption; [exact (Forall_inv_tail H1) | exact (Forall_inv_tail H2) | reflexivity].
  Qed.
  Lemma v_op_base op vs v : Forall (fun v => d3 v = false) vs -> v_op op vs = Ok v -> d3 v = false.
  Proof.
    assert (Hok : forall x, Ok x = Ok v -> d3 x = false -> d3 v = false) by (intros x E; injection E as <-; exact (fun h => h)).
    intros H Hv. destruct vs as [|a vs]; [destruct op; discriminate Hv|]. pose proof (Forall_inv H) as Ha. pose proof (Forall_inv_tail H) as H1. cbv beta in Ha.
    destruct op; [| | | |exact (Hok a Hv Ha)]; (destruct vs as [|b vs]; [discriminate Hv|]); pose proof (Forall_inv H1) as Hb; pose proof (Forall_inv_tail H1) as H2; cbv beta in Hb.
    1-3: apply (Hok _ Hv); rewrite ?d3_add, ?d3_sub, ?d3_mul, Ha, Hb; reflexivity.
    destruct vs as [|c vs]; [discriminate Hv|]. pose proof (Forall_inv H2) as Hc. cbv beta in Hc.
    apply (Hok _ Hv). rewrite d3_add, d3_mul, Ha, Hb, Hc. reflexivity.
  Qed.
  Lemma arun_base code i : i < n -> forall t t', Forall (code_ok si st m) code -> Forall (code_narrow si m) code -> (forall k u, t k = Some u -> d3 u = false) ->
    arun (fun r => read_ref si false i m r) t code = Ok t' -> forall k u, t' k = Some u -> d3 u = false.
  Proof.
    intros Hi. induction code as [|c code IH]; intros t t' H1 H2 H3 H4; cbn [arun] in H4; [injection H4 as <-; exact H3|].
    destruct (mapM (aread _ t) (i_src c)) as [vs| | |] eqn:Es; try discriminate H4. cbn [bind] in H4.
    destruct (v_op (i_op c) vs) as [v| | |] eqn:Ev; try discriminate H4. cbn [bind] in H4.
    pose proof (areads_base t (i_src c) i (proj2 (Forall_inv H1)) (Forall_inv H2) Hi H3 vs Es) as Hvs.
    pose proof (v_op_base _ _ _ Hvs Ev) as Hdv.
    destruct (n_ty (i_dest c)); try discriminate H4.
    eapply IH; [exact (Forall_inv_tail H1) | exact (Forall_inv_tail H2) | | exact H4]. intros k u Hk. cbv beta in Hk.
    destruct (k =? n_id (i_dest c)); [injection Hk as <-; exact Hdv | eapply H3, Hk].
  Qed.
End Leaves.

(* ---------- a whole step ---------- *)
Lemma par_keeps si st m seg workers m' : calculate_exps_parallel si st m seg workers = Ok m' ->
  m_xdiv m' = m_xdiv m /\ m_xdivw m' = m_xdivw m /\ m_zi m' = m_zi m.
Proof.
  unfold calculate_exps_parallel. intros H. apply bind_ok in H. destruct H as [per [_ H]]. unfold exps_chunked in H.
  apply bind_ok in H. destruct H as [cs [_ H]]. apply bind_ok in H. destruct H as [cs' [_ H]]. revert H.
  apply (foldM_P (fun x => m_xdiv x = m_xdiv m /\ m_xdivw x = m_xdivw m /\ m_zi x = m_zi m)); [|repeat split].
  intros b [k c] b' Hb. unfold write_back.
  apply (foldM_P (fun x => m_xdiv x = m_xdiv m /\ m_xdivw x = m_xdivw m /\ m_zi x = m_zi m)); [|exact Hb].
  intros x s x' Hx. unfold write_section. destruct (length (m_sec c s) <? _); intros E; [discriminate E|].
  apply bind_ok in E. destruct E as [out [_ E]]. injection E as <-. exact Hx.
Qed.

Theorem step_parallel si st so dq m seg workers per body op dst srcs w : fills st so -> si_nbits si <= si_nbits_ext si <= 32 ->
  sec_width si so = dq -> dq = 1 \/ dq = 3 -> sound si st m -> outputs_fresh si st m ->
  rows_per_thread workers (2 ^ si_nbits_ext si) = Ok per ->
  2 ^ si_nbits_ext si <= per \/ dom_next si false <= (2 ^ si_nbits_ext si - 1) mod per + 1 ->
  sg_first seg = body ++ [mkI op dst srcs] -> Forall (code_ok si st m) (sg_first seg) -> Forall (dest_ok (sg_tmp seg)) body ->
  (dq = 1 -> Forall (code_narrow si m) (sg_first seg)) ->
  dest_ref si dst false (dom_next si false) (2 ^ si_nbits_ext si) = Ok (mkR (RSec so) (dq =? 3) 0 0 (2 ^ si_nbits_ext si) dq) ->
  (forall i, i < 2 ^ si_nbits_ext si -> exists t vs, arun (fun r => read_ref si false i m r) (fun _ => None) body = Ok t /\
     mapM (aread (fun r => read_ref si false i m r) t) srcs = Ok vs /\ v_op op vs = Ok (w i)) ->
  (forall i, i < 2 ^ si_nbits_ext si -> wf (w i)) ->
  exists m', calculate_exps_parallel si st m seg workers = Ok m' /\
    (forall s, s <> Stmp -> s <> so -> m_sec m' s = m_sec m s) /\ m_xdiv m' = m_xdiv m /\ m_xdivw m' = m_xdivw m /\ m_zi m' = m_zi m /\
    length (m_sec m' so) = 2 ^ si_nbits_ext si * dq /\ (forall i, i < 2 ^ si_nbits_ext si -> cells_of dq (m_sec m' so) i (w i)) /\
    (dq = 1 -> forall i, i < 2 ^ si_nbits_ext si -> d3 (w i) = false).
Proof.
  intros Hst Hnb Hw Hdq Hs Hfresh Hper Hlast Hseg Hcode Hdest Hna Hdst Hrun Hwf.
  pose proof (proj1 Hs) as Hm. pose proof (st_n si st so m Hst Hm) as En. pose proof (st_next si st so m Hst Hm) as Ex. pose proof (st_dom si st so m Hst Hm) as Ed.
  pose proof (so_facts si st so dq m Hst Hw Hm) as [S1 [S2 [S3 [S4 S5]]]].
  rewrite Hseg in Hcode, Hna. apply Forall_app in Hcode. destruct Hcode as [Hc1 Hc2]. apply Forall_inv in Hc2.
  assert (Hna' : dq = 1 -> Forall (code_narrow si m) body /\ code_narrow si m (mkI op dst srcs)).
  { intros E. specialize (Hna E). apply Forall_app in Hna. destruct Hna as [A B]. apply Forall_inv in B. now split. }
  assert (Hn0 : 0 < 2 ^ si_nbits_ext si) by (apply Nat.neq_0_lt_0, Nat.pow_nonzero; lia).
  assert (Hbase : dq = 1 -> forall i, i < 2 ^ si_nbits_ext si -> d3 (w i) = false).
  { intros E i Hi. destruct (Hrun i Hi) as [t [vs [R1 [R2 R3]]]]. destruct (Hna' E) as [N1 N2].
    assert (Heb : si_nbits_ext si - si_nbits si <= 32) by lia.
    assert (Ht : forall k u, t k = Some u -> d3 u = false).
    { eapply (arun_base si st so m Hst (proj1 Hnb) Heb Hs body i Hi); [exact Hc1 | exact N1 | | exact R1]. intros k u C. discriminate C. }
    eapply v_op_base; [|exact R3]. eapply (areads_base si st so m Hst (proj1 Hnb) Heb Hs t srcs i); [exact (proj2 Hc2) | exact N2 | exact Hi | exact Ht | exact R2]. }
  destruct (Hrun 0 Hn0) as [t0 [vs0 [R1 [R2 R3]]]].
  destruct (code_local si st so dq m (sg_tmp seg) Hst Hw Hdq Hm _ body t0 op dst srcs vs0 (w 0) Hc1 Hdest (fun E => proj1 (Hna' E)) R1 Hc2 (fun E => proj2 (Hna' E)) R2 R3 Hdst)
    as [blk [B1 B2]].
  assert (B1' : compile_code si (sg_first seg) (step_dom st) false = Ok blk) by (rewrite Hseg, Ed; exact B1).
  destruct (parallel_same si st (Wso so) (tdq dq) m seg blk workers per Hnb) as [g [p [G1 [G2 G3]]]];
    [rewrite En; exact Hper | rewrite En, Ex; exact Hlast | exact B1' | exact B2 | exact Hm | exact Hfresh|].
  unfold calculate_exps in G1. cbv zeta in G1. rewrite B1' in G1. cbn [bind] in G1. rewrite En in G1.
  assert (Hso : length (m_sec m so) = 2 ^ si_nbits_ext si * dq).
  { destruct Hm as [M _]. destruct (M so) as [L _]; [apply in_or_app; right; rewrite S4; now left|]. now rewrite En, Hw in L. }
  assert (Hz : Forall (fun v => v = e_ZERO) (m_sec m so)) by (apply Hfresh; [rewrite S4; now left | exact S3]).
  destruct (rows_run si st so dq m Hst (proj1 Hnb) Hw Hdq Hm body op dst srcs (sg_tmp seg) w Hc1 Hdest Hc2 Hdst Hrun Hwf Hbase blk B1
    (2 ^ si_nbits_ext si) 0 (m_set m Stmp (repeat e_ZERO (sg_tmp seg))) eq_refl) as [m2 [E2 U2]].
  { split; [|split; [|split; [|split]]].
    - split; [intros s A B; now apply m_set_other | repeat split].
    - rewrite m_set_same. apply repeat_length.
    - rewrite m_set_other by exact S1. exact Hso.
    - intros i C. lia.
    - intros i j Hi Hj. rewrite m_set_other by exact S1.
      assert (L : i * dq + j < length (m_sec m so)) by (rewrite Hso; clear -Hi Hj; set (k := 2 ^ si_nbits_ext si) in *; clearbody k; nia).
      rewrite (nth_error_nth' _ e_ZERO L). f_equal. apply (proj1 (Forall_forall _ _) Hz), nth_In, L. }
  rewrite E2 in G1. injection G1 as <-. destruct U2 as [[A1 [A2 [A3 A4]]] [A5 [A6 [A7 _]]]].
  exists p. split; [exact G2|]. split; [intros s X Y; rewrite G3 by exact X; now apply A1|].
  destruct (par_keeps _ _ _ _ _ _ G2) as [K1 [K2 K3]]. do 3 (split; [assumption|]).
  rewrite (G3 so S1). split; [exact A6 | split; [exact A7 | exact Hbase]].
Qed.
