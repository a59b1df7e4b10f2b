(* The publics computed from expressions: the code of every public evaluates its expression at the row of the public. *)
From Coq Require Import Arith.
From Verif Require Import Base GlModel FrField F3gModel Cubic F3gProof ListAux PolyModel CodegenModel CodegenProof InterpModel InterpProof BnProof FftpBase
  VerifierModel VerifierProof HashModel FriModel FftpModel ProverModel ProverProof ParModel ParProof StarkModel StarkGen StarkRow StarkSrc StarkTop StageModel StarkExtend StarkStages NStep NGen NTop PubModel.
Open Scope nat_scope.
Open Scope list_scope.
Open Scope res_scope.

(* the layout whose extended domain is the n domain *)
Definition n_side (si : sinfo) : sinfo :=
  mkSI (si_map si) (si_cm_n si) (si_cm_n si) (si_tmpexp si) (si_width si) (si_nconst si) (si_qdim si) (si_nbits si) (si_nbits_ext si).

Definition tsame (r r' : node) : Prop := r = r' \/ n_ty r = Ntmp /\ n_ty r' = Ntmp /\ n_id r = n_id r'.
Definition isame (c c' : instr) : Prop := i_op c = i_op c' /\ Forall2 tsame (i_src c) (i_src c') /\ tsame (i_dest c) (i_dest c').

Lemma two_ref si im texp f r r1 f1 g r2 g2 : pub_ref f r = Ok (r1, f1) -> fixp_ref si im texp true g r1 = Ok (r2, g2) ->
  r2 = r1 /\ g2 = g /\ exists r', fixp_ref (n_side si) [] [] false f r = Ok (r', f1) /\ tsame r' r1.
Proof.
  unfold pub_ref, fixp_ref. intros E1 E2. destruct (n_ty r) eqn:Et.
  2:{ cbn [assoc]. destruct (exp_tmp f (n_prime r, n_id r)) as [t f']. injection E1 as <- <-. cbn [n_ty] in E2. injection E2 as <- <-.
      split; [reflexivity|]. split; [reflexivity|]. eexists. split; [reflexivity|]. right. cbn. auto. }
  all: injection E1 as <- <-; rewrite Et in E2; try discriminate E2.
  all: try (injection E2 as <- <-; split; [reflexivity|]; split; [reflexivity|]; eexists; split; [reflexivity | now left]).
  cbn [n_side si_cm_2ns]. destruct (vget (si_cm_n si) (n_id r)) as [x| | |]; try discriminate E2. cbn [bind] in *. injection E2 as <- <-.
  split; [reflexivity|]. split; [reflexivity|]. eexists. split; [reflexivity | now left].
Qed.
Lemma two_refs si im texp l : forall f l1 f1 g l2 g2, iter_refs pub_ref f l = Ok (l1, f1) -> iter_refs (fixp_ref si im texp true) g l1 = Ok (l2, g2) ->
  l2 = l1 /\ g2 = g /\ exists l', iter_refs (fixp_ref (n_side si) [] [] false) f l = Ok (l', f1) /\ Forall2 tsame l' l1.
Proof.
  induction l as [|r l IH]; intros f l1 f1 g l2 g2 E1 E2; cbn [iter_refs] in E1.
  - injection E1 as <- <-. cbn [iter_refs] in E2. injection E2 as <- <-. split; [reflexivity|]. split; [reflexivity|]. eexists. split; [reflexivity | constructor].
  - destruct (pub_ref f r) as [[a f2]| | |] eqn:Ea; try discriminate E1. cbn [bind fst snd] in E1.
    destruct (iter_refs pub_ref f2 l) as [[b f3]| | |] eqn:Eb; try discriminate E1. cbn [bind fst snd] in E1. injection E1 as <- <-. cbn [iter_refs] in E2.
    destruct (fixp_ref si im texp true g a) as [[a' g1]| | |] eqn:Ea'; try discriminate E2. cbn [bind fst snd] in E2.
    destruct (iter_refs (fixp_ref si im texp true) g1 b) as [[b' g3]| | |] eqn:Eb'; try discriminate E2. cbn [bind fst snd] in E2. injection E2 as <- <-.
    destruct (two_ref _ _ _ _ _ _ _ _ _ _ Ea Ea') as [-> [-> [r' [X1 X2]]]]. destruct (IH _ _ _ _ _ _ Eb Eb') as [-> [-> [l' [Y1 Y2]]]].
    split; [reflexivity|]. split; [reflexivity|]. exists (r' :: l'). split; [|constructor; assumption].
    cbn [iter_refs]. rewrite X1. cbn [bind fst snd]. rewrite Y1. reflexivity.
Qed.
Lemma two_code si im texp l : forall f l1 f1 g l2 g2, iter_code pub_ref f l = Ok (l1, f1) -> iter_code (fixp_ref si im texp true) g l1 = Ok (l2, g2) ->
  l2 = l1 /\ g2 = g /\ exists l', iter_code (fixp_ref (n_side si) [] [] false) f l = Ok (l', f1) /\ Forall2 isame l' l1.
Proof.
  induction l as [|c l IH]; intros f l1 f1 g l2 g2 E1 E2; cbn [iter_code] in E1.
  - injection E1 as <- <-. cbn [iter_code] in E2. injection E2 as <- <-. split; [reflexivity|]. split; [reflexivity|]. eexists. split; [reflexivity | constructor].
  - destruct (iter_refs pub_ref f (i_src c)) as [[s f2]| | |] eqn:Es; try discriminate E1. cbn [bind fst snd] in E1.
    destruct (pub_ref f2 (i_dest c)) as [[d f3]| | |] eqn:Ed; try discriminate E1. cbn [bind fst snd] in E1.
    destruct (iter_code pub_ref f3 l) as [[b f4]| | |] eqn:Eb; try discriminate E1. cbn [bind fst snd] in E1. injection E1 as <- <-. cbn [iter_code i_src i_dest i_op] in E2.
    destruct (iter_refs (fixp_ref si im texp true) g s) as [[s' g2']| | |] eqn:Es'; try discriminate E2. cbn [bind fst snd] in E2.
    destruct (fixp_ref si im texp true g2' d) as [[d' g3]| | |] eqn:Ed'; try discriminate E2. cbn [bind fst snd] in E2.
    destruct (iter_code (fixp_ref si im texp true) g3 b) as [[b' g4]| | |] eqn:Eb'; try discriminate E2. cbn [bind fst snd] in E2. injection E2 as <- <-.
    destruct (two_refs _ _ _ _ _ _ _ _ _ _ Es Es') as [-> [-> [sx [X1 X2]]]]. destruct (two_ref _ _ _ _ _ _ _ _ _ _ Ed Ed') as [-> [-> [dx [Y1 Y2]]]].
    destruct (IH _ _ _ _ _ _ Eb Eb') as [-> [-> [bx [Z1 Z2]]]].
    split; [reflexivity|]. split; [reflexivity|]. exists (mkI (i_op c) dx sx :: bx). split; [|constructor; [|exact Z2]; split; [reflexivity|]; split; assumption].
    cbn [iter_code]. rewrite X1. cbn [bind fst snd]. rewrite Y1. cbn [bind fst snd]. rewrite Z1. reflexivity.
Qed.

Lemma aread_same lf t r r' : tsame r r' -> aread lf t r = aread lf t r'.
Proof. intros [-> | [A [B C]]]; [reflexivity|]. unfold aread. now rewrite A, B, C. Qed.
Lemma arun_same lf l : forall l' t, Forall2 isame l l' -> arun lf t l = arun lf t l'.
Proof.
  induction l as [|c l IH]; intros l' t H; inversion H as [|? c' ? r' [A [B C]] D]; subst; [reflexivity|]. cbn [arun].
  assert (Es : mapM (aread lf t) (i_src c) = mapM (aread lf t) (i_src c')).
  { clear -B. induction B as [|x y l l' X _ IH]; cbn [mapM]; [reflexivity|]. rewrite (aread_same lf t x y X), IH. reflexivity. }
  rewrite Es, A. destruct (mapM (aread lf t) (i_src c')) as [vs| | |]; try reflexivity. cbn [bind]. destruct (v_op (i_op c') vs) as [v| | |]; try reflexivity. cbn [bind].
  assert (Ed : n_ty (i_dest c) = n_ty (i_dest c') /\ n_id (i_dest c) = n_id (i_dest c')) by (destruct C as [-> | [C1 [C2 C3]]]; [auto | split; congruence]).
  destruct Ed as [E1 E2]. rewrite E1, E2. destruct (n_ty (i_dest c')); try reflexivity. apply IH, D.
Qed.

(* ---------- running such code on the memory ---------- *)
Section Run.
  Variables (si : sinfo) (i : nat) (m0 : mem).
  Hypothesis no_tmp : forall p, In p (si_map si) -> fst (fst p) <> Stmp.
  Let lf := read_ref si true i m0.
  Definition code_fine (c : instr) : Prop := i_op c <> CMuladd.

  Lemma reads m t l vs : InterpProof.frame m0 m -> tmps_ok t m -> mapM (aread lf t) l = Ok vs -> Forall2 (fun r v => read_ref si true i m r = Ok v) l vs.
  Proof.
    intros Hf Ht. revert vs. induction l as [|r l IH]; intros vs Hs; cbn [mapM] in Hs; [injection Hs as <-; constructor|].
    destruct (aread lf t r) as [u| | |] eqn:Eu; try discriminate Hs. cbn [bind] in Hs.
    destruct (mapM (aread lf t) l) as [us| | |] eqn:Eus; try discriminate Hs. cbn [bind] in Hs. injection Hs as <-.
    constructor; [|apply IH; reflexivity]. unfold aread in Eu.
    destruct (match n_ty r with Ntmp => true | _ => false end) eqn:Eb.
    - assert (Et : n_ty r = Ntmp) by (destruct (n_ty r); try discriminate Eb; reflexivity). rewrite Et in Eu.
      rewrite read_tmp by exact Et. destruct (t (n_id r)) as [w|] eqn:E; [|discriminate Eu]. cbn [CodegenModel.unwrap] in Eu. injection Eu as ->. apply vget_some, Ht, E.
    - assert (Et : n_ty r <> Ntmp) by (intro C; rewrite C in Eb; discriminate Eb).
      rewrite (read_leaf_frame si true i m0 m r Et Hf no_tmp). destruct (n_ty r); try exact Eu. now destruct Et.
  Qed.

  Lemma mem_run code : forall t t' m, Forall code_fine code -> Forall (dest_ok (length (m_sec m Stmp))) code -> InterpProof.frame m0 m -> tmps_ok t m ->
    arun lf t code = Ok t' -> exists m2, foldM (direct_step si true i) code m = Ok m2 /\ InterpProof.frame m0 m2 /\ tmps_ok t' m2 /\ length (m_sec m2 Stmp) = length (m_sec m Stmp).
  Proof.
    induction code as [|c code IH]; intros t t' m Hc Hd HA Ht Hr; cbn [arun foldM] in *.
    - injection Hr as <-. exists m. auto.
    - destruct (mapM (aread lf t) (i_src c)) as [vs| | |] eqn:Es; try discriminate Hr. cbn [bind] in Hr.
      destruct (v_op (i_op c) vs) as [v| | |] eqn:Ev; try discriminate Hr. cbn [bind] in Hr.
      pose proof (Forall_inv Hc) as Hc1. pose proof (Forall_inv_tail Hc) as Hc'. pose proof (Forall_inv Hd) as [Hd1 Hd2]. pose proof (Forall_inv_tail Hd) as Hd'. rewrite Hd1 in Hr.
      assert (Eo : direct_op si true i m (i_op c) (i_src c) = Ok v).
      { pose proof (reads m t _ _ HA Ht Es) as HF. clear -HF Ev Hc1. unfold code_fine in Hc1. destruct (i_op c); [| | |now destruct Hc1|];
          destruct vs as [|a s]; try discriminate Ev; inversion HF as [|ra ? ? ? Ra HF']; subst; cbn [direct_op v_op] in *;
          try (destruct s as [|b s]; try discriminate Ev; inversion HF' as [|rb ? ? ? Rb _]; subst);
          cbn [direct_op v_op] in *; rewrite ?Ra; cbn [bind]; rewrite ?Rb; cbn [bind]; exact Ev. }
      unfold direct_step at 1. rewrite Eo. cbn [bind].
      destruct (InterpProof.write_tmp si true i m (i_dest c) v Hd1 Hd2) as [l [m2 [W1 [W2 [W3 [W4 [W5 W6]]]]]]]. rewrite W4. cbn [bind].
      destruct (IH (fun k => if k =? n_id (i_dest c) then Some v else t k) t' m2 Hc') as [m3 [X1 [X2 [X3 X4]]]]; [| | |exact Hr|].
      + rewrite W5, W3. exact Hd'.
      + eapply InterpProof.frame_trans; eassumption.
      + intros k u Hk. rewrite W5. destruct (Nat.eqb_spec k (n_id (i_dest c))) as [->|Hne]; [injection Hk as <-; exact W1 | rewrite W2 by exact Hne; now apply Ht].
      + exists m3. split; [exact X1|]. split; [exact X2|]. split; [exact X3|]. rewrite X4, W5. exact W3.
  Qed.

  (* code that runs compiles *)
  Lemma read_get m r v : read_ref si true i m r = Ok v -> exists o, get_ref si r true (dom_next si true) (dom_size si true) = Ok o.
  Proof. unfold read_ref. destruct (get_ref si r true (dom_next si true) (dom_size si true)) as [o| | |]; intros H; try discriminate H. now exists o. Qed.
  Lemma aread_get t r v : aread lf t r = Ok v -> exists o, get_ref si r true (dom_next si true) (dom_size si true) = Ok o.
  Proof.
    unfold aread. destruct (match n_ty r with Ntmp => true | _ => false end) eqn:Eb.
    - intros _. unfold get_ref. destruct (n_ty r); try discriminate Eb. eexists. reflexivity.
    - intros H. apply (read_get m0 r v). destruct (n_ty r); try exact H. discriminate Eb.
  Qed.
  Lemma code_compiles code : forall t t', Forall code_fine code -> arun lf t code = Ok t' -> exists body, mapM (compile_instr si true (dom_next si true) (dom_size si true)) code = Ok body.
  Proof.
    induction code as [|c code IH]; intros t t' Hc Hr; cbn [arun mapM] in *; [now exists []|].
    destruct (mapM (aread lf t) (i_src c)) as [vs| | |] eqn:Es; try discriminate Hr. cbn [bind] in Hr.
    destruct (v_op (i_op c) vs) as [v| | |] eqn:Ev; try discriminate Hr. cbn [bind] in Hr.
    assert (Eg : exists os, mapM (fun r => get_ref si r true (dom_next si true) (dom_size si true)) (i_src c) = Ok os /\ length os = length vs).
    { clear -Es. revert vs Es. induction (i_src c) as [|r l IHl]; intros vs Es; cbn [mapM] in *; [injection Es as <-; now exists []|].
      destruct (aread lf t r) as [u| | |] eqn:Eu; try discriminate Es. cbn [bind] in Es.
      destruct (mapM (aread lf t) l) as [us| | |]; try discriminate Es. cbn [bind] in Es. injection Es as <-.
      destruct (aread_get _ _ _ Eu) as [o ->]. cbn [bind]. destruct (IHl us eq_refl) as [os [-> L]]. cbn [bind]. exists (o :: os). split; [reflexivity | cbn [length]; now rewrite L]. }
    destruct Eg as [os [Eos Lo]]. pose proof (Forall_inv Hc) as Hc1. unfold code_fine in Hc1.
    assert (Ec : exists op, compile_op (i_op c) os = Ok op).
    { clear -Ev Lo Hc1. destruct (i_op c); [| | |now destruct Hc1|]; destruct vs as [|a [|b s]]; try discriminate Ev; destruct os as [|o [|o' os]]; try discriminate Lo; eexists; reflexivity. }
    destruct Ec as [op Ec]. unfold compile_instr at 1. rewrite Eos. cbn [bind]. rewrite Ec. cbn [bind]. unfold dest_ref. 
    destruct (n_ty (i_dest c)); try discriminate Hr. cbn [bind]. destruct (IH _ _ (Forall_inv_tail Hc) Hr) as [body ->]. cbn [bind]. eexists. reflexivity.
  Qed.
  Lemma block_run code t' k v op src body0 tmp d : code = body0 ++ [mkI op d src] -> n_ty d = Ntmp -> n_id d = k -> Forall code_fine code -> Forall (dest_ok tmp) code ->
    length (m_sec m0 Stmp) = tmp -> arun lf (fun _ => None) code = Ok t' -> t' k = Some v ->
    exists blk m2, compile_code si code true true = Ok blk /\ block_eval m0 [] blk i = Ok (v, m2) /\ InterpProof.frame m0 m2.
  Proof.
    intros Hcode Hdt Hdk Hf Hd Hl Hr Hk. destruct (code_compiles _ _ _ Hf Hr) as [body Eb].
    assert (Ec : compile_code si code true true = Ok (concat body ++ [IPush (InterpModel.cell Stmp k 0 (dom_size si true) 0); IRet])).
    { unfold compile_code. rewrite Eb. cbn [bind]. rewrite Hcode, rev_app_distr. cbn [rev app i_dest]. unfold get_ref. rewrite Hdt, Hdk. reflexivity. }
    exists (concat body ++ [IPush (InterpModel.cell Stmp k 0 (dom_size si true) 0); IRet]).
    destruct (mem_run code (fun _ => None) t' m0 Hf) as [m2 [X1 [X2 [X3 _]]]]; [rewrite Hl; exact Hd | apply InterpProof.frame_refl | intros ? ? C; discriminate C | exact Hr|].
    exists m2. split; [exact Ec|]. split; [|exact X2]. rewrite (compile_correct _ _ _ _ _ Ec), X1. cbn [bind]. rewrite Hcode, last_last. cbn [i_dest].
    rewrite read_tmp by exact Hdt. rewrite Hdk, (vget_some _ _ v (X3 _ _ Hk)). reflexivity.
  Qed.
End Run.

(* ---------- the leaves that the expression of a public may have ---------- *)
Definition pub_node (si : sinfo) (r : node) : Prop :=
  match n_ty r with
  | Ncm => exists pos, place si (n_id r) = Some (Scm1_n, pos, 1) /\ pos < si_width si Scm1_n
  | Nconst => n_id r < si_nconst si
  | Nnumber => exists v, number_ref (n_value r) = Ok v
  | Nexp | Ntmp => True
  | _ => False
  end.
(* the tables of the committed and of the constant columns *)
Definition tables (si : sinfo) (m : mem) : Prop :=
  length (m_sec m Scm1_n) = 2 ^ si_nbits si * si_width si Scm1_n /\ length (m_sec m Sconst_n) = 2 ^ si_nbits si * si_nconst si.

Lemma leaf_read si m m1 g r : tables si m -> m_sec m1 Scm1_n = m_sec m Scm1_n -> m_sec m1 Sconst_n = m_sec m Sconst_n -> g < 2 ^ si_nbits si ->
  pub_node si r -> n_ty r <> Ntmp -> n_ty r <> Nexp -> read_ref si true g m1 r = Ok (row_of si m g r).
Proof.
  intros [T1 T2] S1 S2 Hg L N1 N2. unfold pub_node in L. unfold row_of. destruct (n_ty r) eqn:Et; try contradiction.
  - destruct L as [pos [Hp Hw]]. rewrite (col_read si m1 r true Scm1_n pos 1 g (or_introl Et) eq_refl); [| rewrite Et; exact Hp | now left]. rewrite Hp.
    unfold get_value. cbn [r_sym r_three]. unfold get_i. cbn [r_off r_next r_mod r_size]. rewrite (nrow_mod si g (n_prime r) Hg).
    pose proof (nrow_lt si g (n_prime r) Hg) as Hr. set (k := nrow si g (n_prime r)) in *. clearbody k. unfold elem. cbn [Nat.eqb]. rewrite S1. apply vget_nth. rewrite T1.
    apply Nat.lt_le_trans with (k * si_width si Scm1_n + si_width si Scm1_n); [lia|]. rewrite <- Nat.mul_succ_l. apply Nat.mul_le_mono_r. exact Hr.
  - unfold read_ref, get_ref. rewrite Et. cbn [bind]. unfold InterpModel.cell. cbn [operand_value]. unfold get_value. cbn [r_sym r_three].
    unfold get_i. cbn [r_off r_next r_mod r_size dom_size]. rewrite (nrow_mod si g (n_prime r) Hg).
    pose proof (nrow_lt si g (n_prime r) Hg) as Hr. set (k := nrow si g (n_prime r)) in *. clearbody k. rewrite S2.
    apply vget_nth. rewrite T2. apply Nat.lt_le_trans with (k * si_nconst si + si_nconst si); [lia|]. rewrite <- Nat.mul_succ_l. apply Nat.mul_le_mono_r. exact Hr.
  - destruct L as [v Hv]. unfold read_ref, get_ref. rewrite Et, Hv. reflexivity.
Qed.

Lemma with_none tbl : with_im [] tbl = tbl.
Proof. apply nth_error_ext. intros i. rewrite with_im_nth. destruct (nth_error tbl i); reflexivity. Qed.

(* ---------- one public ---------- *)
Lemma expr_public fuel tbl si im texp pol s seg (R : bool * nat -> Prop) m m1 idx :
  public_code fuel tbl pol = Ok s -> fix_prover_code si im texp true (sg_first s) (sg_tmp s) = Ok seg -> Forall wf_e tbl ->
  (forall p, In p (si_map si) -> fst (fst p) <> Stmp) -> tables si m -> m_sec m1 Scm1_n = m_sec m Scm1_n -> m_sec m1 Sconst_n = m_sec m Sconst_n ->
  R (false, pol) -> (forall p i e, R (p, i) -> nth_error tbl i = Some e -> labs (pub_node si) false p e /\ forall k, In k (exp_refs p e) -> R k) ->
  idx < 2 ^ si_nbits si ->
  exists e v m2, nth_error tbl pol = Some e /\ den tbl (row_of si m idx) false e v /\ calculate_exp_at_point si m1 seg idx = Ok (v, m2) /\ InterpProof.frame m1 m2.
Proof.
  intros Hs Hf Hw Hnt HT S1 S2 HR0 HR Hi. unfold public_code in Hs.
  destruct (pil_code_gen fuel tbl None false (mkCtx 0 [] []) pol false) as [c| | |] eqn:Eg; try discriminate Hs. cbn [bind build_code] in Hs.
  destruct (iter_code pub_ref (mkF [] (x_tmp c) (mkEV [] [])) (linear_code c)) as [[l1 f1]| | |] eqn:E1; try discriminate Hs. cbn [bind fst snd] in Hs. injection Hs as <-.
  unfold fix_prover_code in Hf. cbn [sg_first sg_tmp] in Hf.
  destruct (iter_code (fixp_ref si im texp true) (mkF [] (f_tmp f1) (mkEV [] [])) l1) as [[l2 g2]| | |] eqn:E2; try discriminate Hf. cbn [bind fst snd] in Hf. injection Hf as <-.
  destruct (two_code _ _ _ _ _ _ _ _ _ _ E1 E2) as [-> [-> [l' [E3 Hsame]]]]. clear E1 E2.
  assert (Src : Forall (src_ok (pub_node si) false) (linear_code c)).
  { destruct (gen_src (pub_node si) ltac:(intros r Hr; unfold pub_node; now rewrite Hr) tbl R HR fuel false _ pol false c HR0 Eg) as [new [L1 L2]]. rewrite L1. exact L2. }
  assert (Src' : Forall (src_ok (fun r => pub_node si r /\ n_ty r <> Nexp) false) l').
  { refine (fixp_src (pub_node si) _ (n_side si) [] false (linear_code c) _ _ _ _ _ _ Src E3).
    - intros r A B. split; assumption.
    - intros r x _ _ C. discriminate C.
    - intros r A. split; [unfold pub_node; rewrite A; exact Logic.I | rewrite A; discriminate]. }
  set (m0 := m_set m1 Stmp (repeat e_ZERO (f_tmp f1))).
  assert (Q1 : m_sec m0 Scm1_n = m_sec m Scm1_n) by (unfold m0; rewrite m_set_other by discriminate; exact S1).
  assert (Q2 : m_sec m0 Sconst_n = m_sec m Sconst_n) by (unfold m0; rewrite m_set_other by discriminate; exact S2).
  destruct (gen_run fuel tbl [] false 0 pol c (n_side si) l' f1 (row_of si m idx) (read_ref si true idx m0) Eg Hw ltac:(constructor) eq_refl E3) as [e [v [k [t' [G1 [G2 [G3 [G4 G5]]]]]]]].
  { vm_compute. reflexivity. }
  { intros ci r Hc Hr Ht. destruct (proj1 (Forall_forall _ _) Src' ci Hc) as [_ A]. destruct (proj1 (Forall_forall _ _) A r Hr) as [B C].
    exact (leaf_read si m m0 idx r HT Q1 Q2 Hi B Ht C). }
  destruct (gen_fix fuel tbl [] false 0 pol c (n_side si) l' f1 Eg eq_refl E3) as [k' [body [op [src [K1 [K2 [K3 K4]]]]]]].
  assert (k' = k) by congruence. subst k'. rewrite with_none in G2. rewrite (arun_same _ _ _ _ Hsame) in G3.
  assert (Hlast : exists body' op' src' d', l1 = body' ++ [mkI op' d' src'] /\ n_ty d' = Ntmp /\ n_id d' = k).
  { rewrite K3 in Hsame. apply Forall2_app_inv_l in Hsame. destruct Hsame as [b1 [b2 [_ [H2 ->]]]]. inversion H2 as [|x [o d s0] y z [_ [_ D]] H3]; subst. inversion H3; subst.
    exists b1, o, s0, d. split; [reflexivity|]. cbn [i_dest] in D. destruct D as [<- | [D1 [D2 D3]]]; [split; reflexivity | split; [exact D2 | cbn in D3; congruence]]. }
  destruct Hlast as [b1 [op' [src' [d' [L1 [L2 L3]]]]]].
  assert (Fine : Forall code_fine l1 /\ Forall (dest_ok (f_tmp f1)) l1).
  { clear -Hsame Src' K4. induction Hsame as [|x y l l' [A [_ C]] _ IH]; [split; constructor|].
    destruct (IH (Forall_inv_tail Src') (Forall_inv_tail K4)) as [X Y]. pose proof (Forall_inv Src') as [D _]. pose proof (Forall_inv K4) as [D1 D2]. split; constructor; try assumption.
    - unfold code_fine. rewrite <- A. intros B. specialize (D B). discriminate D.
    - unfold dest_ok. destruct C as [<- | [C1 [C2 C3]]]; [now split | split; [exact C2 | rewrite <- C3; exact D2]]. }
  destruct Fine as [F1 F2].
  destruct (block_run si idx m0 Hnt l1 t' k v op' src' b1 (f_tmp f1) d') as [blk [m2 [B1 [B2 B3]]]]; [exact L1 | exact L2 | exact L3 | exact F1 | exact F2 | unfold m0; rewrite m_set_same; apply repeat_length | exact G3 | exact G5|].
  exists e, v, m2. split; [exact G1|]. split; [exact G2|]. split.
  - unfold calculate_exp_at_point. cbn [sg_tmp sg_first]. fold m0. rewrite B1. cbn [bind]. exact B2.
  - apply (InterpProof.frame_trans _ m0); [|exact B3]. unfold m0. split; [intros x Hx; now apply m_set_other | repeat split; reflexivity].
Qed.

(* ---------- all publics ---------- *)
(* what a public is worth *)
Definition pub_means (si : sinfo) (tbl : list expr) (m : mem) (p : public) (v : F3G) : Prop :=
  match pb_kind p with
  | PcmP => nth_error (m_sec m Scm1_n) (pb_idx p * si_width si Scm1_n + pb_pol p) = Some v
  | PimP => exists e, nth_error tbl (pb_pol p) = Some e /\ den tbl (row_of si m (pb_idx p)) false e v
  | Pother => False
  end.

Lemma pub_fold si codes ps (W : mem -> public -> F3G -> Prop) m :
  (forall j p m1, nth_error ps j = Some p -> same_but [Spublics; Stmp] m m1 -> exists v m2, public_value si codes m1 j p = Ok (v, m2) /\ W m p v /\ InterpProof.frame m1 m2) ->
  forall l done vs m1, ps = done ++ l -> same_but [Spublics; Stmp] m m1 -> m_sec m1 Spublics = vs ++ repeat e_ZERO (length l) -> Forall2 (W m) done vs ->
  exists m', foldM (fun m ip => do x <- public_value si codes m (fst ip) (snd ip); do l <- vset (m_sec (snd x) Spublics) (fst ip) (fst x); Ok (m_set (snd x) Spublics l))
    (combine (seq (length done) (length l)) l) m1 = Ok m' /\ Forall2 (W m) ps (m_sec m' Spublics) /\ same_but [Spublics; Stmp] m m'.
Proof.
  intros Hstep. induction l as [|p l IH]; intros done vs m1 Hps Hsame Hpub HF.
  - exists m1. split; [reflexivity|]. cbn [length repeat] in Hpub. rewrite app_nil_r in Hpub, Hps. rewrite Hps, Hpub. split; assumption.
  - cbn [length seq combine foldM fst snd].
    assert (Ln : length vs = length done) by (symmetry; clear -HF; induction HF; cbn [length]; congruence).
    destruct (Hstep (length done) p m1) as [v [m2 [V1 [V2 [V3 V4]]]]]; [rewrite Hps, nth_error_app2, Nat.sub_diag by lia; reflexivity | exact Hsame|].
    rewrite V1, bindE. cbn [fst snd]. assert (Ep : m_sec m2 Spublics = m_sec m1 Spublics) by (apply V3; discriminate).
    destruct (vset_spec (m_sec m2 Spublics) (length done) v) as [l' [X1 [X2 X3]]]; [rewrite Ep, Hpub, app_length, repeat_length, Ln; cbn [length]; lia|].
    rewrite X1, bindE, bindE.
    destruct (IH (done ++ [p]) (vs ++ [v]) (m_set m2 Spublics l')) as [m' [G1 G2]].
    + rewrite Hps, <- app_assoc. reflexivity.
    + apply (same_trans _ _ m1); [exact Hsame|]. apply (same_trans _ _ m2); [|apply same_set; now left].
      split; [intros s Hs; apply V3; intros ->; apply Hs; right; now left | exact (proj2 (proj2 V4))].
    + rewrite m_set_same. apply nth_error_ext. intros k. rewrite X3, Ep, Hpub, <- app_assoc. cbn [app length repeat].
      destruct (Nat.eqb_spec k (length done)) as [->|Hk].
      * rewrite nth_error_app2 by lia. rewrite Ln, Nat.sub_diag. reflexivity.
      * destruct (Nat.lt_ge_cases k (length done)) as [C|C]; [rewrite !nth_error_app1 by lia; reflexivity|].
        rewrite !nth_error_app2 by lia. destruct (k - length vs) as [|q] eqn:Eq; [lia|]. reflexivity.
    + apply Forall2_app; [exact HF | constructor; [exact V2 | constructor]].
    + exists m'. split; [|exact G2]. rewrite <- G1. rewrite app_length. cbn [length]. rewrite Nat.add_1_r. reflexivity.
Qed.

Theorem publics_right fuel tbl si im texp sg segs (R : bool * nat -> Prop) m ims cms :
  st_publics sg = ims ++ cms -> Forall (fun p => pb_kind p = PimP) ims -> Forall (fun p => pb_kind p = PcmP /\ pb_pol p < si_width si Scm1_n) cms ->
  public_codes fuel tbl (st_publics sg) = Ok segs -> map_publics si im texp segs = Ok (st_pubcode sg) -> Forall wf_e tbl ->
  (forall p, In p (si_map si) -> fst (fst p) <> Stmp) -> tables si m -> Forall (fun p => pb_idx p < 2 ^ si_nbits si) (st_publics sg) ->
  Forall (fun p => R (false, pb_pol p)) ims -> (forall p i e, R (p, i) -> nth_error tbl i = Some e -> labs (pub_node si) false p e /\ forall k, In k (exp_refs p e) -> R k) ->
  exists m', set_publics si sg m = Ok m' /\ Forall2 (pub_means si tbl m) (st_publics sg) (m_sec m' Spublics) /\ same_but [Spublics; Stmp] m m'.
Proof.
  intros Hps Him Hcm Hc Hm Hw Hnt HT Hidx HR0 HR.
  assert (Hfil : filter is_imP (st_publics sg) = ims).
  { rewrite Hps, filter_app. replace (filter is_imP cms) with (@nil public).
    - rewrite app_nil_r. clear -Him. induction Him as [|p l Hp _ IH]; [reflexivity|]. cbn [filter]. unfold is_imP at 1. rewrite Hp, IH. reflexivity.
    - clear -Hcm. induction Hcm as [|p l [Hp _] _ IH]; [reflexivity|]. cbn [filter]. unfold is_imP at 1. rewrite Hp. exact IH. }
  unfold public_codes in Hc. rewrite Hfil in Hc. unfold map_publics in Hm.
  unfold set_publics.
  refine (pub_fold si (st_pubcode sg) (st_publics sg) (pub_means si tbl) m _ (st_publics sg) [] [] _ eq_refl _ _ (Forall2_nil _)).
  2:{ apply same_set. now left. }
  2:{ apply m_set_same. }
  intros j p m1 Hj [Hsm _].
  assert (S1 : m_sec m1 Scm1_n = m_sec m Scm1_n) by (apply Hsm; intros [C|[C|[]]]; discriminate C).
  assert (S2 : m_sec m1 Sconst_n = m_sec m Sconst_n) by (apply Hsm; intros [C|[C|[]]]; discriminate C).
  pose proof (proj1 (Forall_forall _ _) Hidx p (nth_error_In _ _ Hj)) as Hi. cbn beta in Hi.
  rewrite Hps in Hj. destruct (Nat.lt_ge_cases j (length ims)) as [Hlt|Hge].
  - rewrite nth_error_app1 in Hj by exact Hlt.
    pose proof (proj1 (Forall_forall _ _) Him p (nth_error_In _ _ Hj)) as Hk. cbn beta in Hk.
    pose proof (proj1 (Forall_forall _ _) HR0 p (nth_error_In _ _ Hj)) as Hr. cbn beta in Hr.
    destruct (mapM_nth _ _ _ _ _ Hc Hj) as [s [B2 B1]]. destruct (mapM_nth _ _ _ _ _ Hm B1) as [seg [C2 C1]].
    destruct (expr_public fuel tbl si im texp (pb_pol p) s seg R m m1 (pb_idx p) B2 C2 Hw Hnt HT S1 S2 Hr HR Hi) as [e [v [m2 [D1 [D2 [D3 D4]]]]]].
    exists v, m2. split; [unfold public_value; rewrite Hk, (vget_some _ _ _ C1); cbn [bind]; exact D3|]. split; [|exact D4]. unfold pub_means. rewrite Hk. now exists e.
  - rewrite nth_error_app2 in Hj by exact Hge. destruct (proj1 (Forall_forall _ _) Hcm p (nth_error_In _ _ Hj)) as [Hk Hp].
    destruct (nth_error (m_sec m Scm1_n) (pb_idx p * si_width si Scm1_n + pb_pol p)) as [v|] eqn:Ev.
    + exists v, m1. split; [unfold public_value; rewrite Hk, S1, (vget_some _ _ _ Ev); reflexivity|]. split; [unfold pub_means; rewrite Hk; exact Ev | apply InterpProof.frame_refl].
    + exfalso. apply nth_error_None in Ev. rewrite (proj1 HT) in Ev. apply (Nat.lt_irrefl (pb_idx p * si_width si Scm1_n + pb_pol p)).
      eapply Nat.lt_le_trans; [|exact Ev]. apply Nat.lt_le_trans with (pb_idx p * si_width si Scm1_n + si_width si Scm1_n); [lia|].
      rewrite <- Nat.mul_succ_l. apply Nat.mul_le_mono_r. exact Hi.
Qed.

(* ---------- an expression after another kind of public ---------- *)
Lemma fold_all si codes l : forall j m m', foldM (fun m ip => do x <- public_value si codes m (fst ip) (snd ip); do l <- vset (m_sec (snd x) Spublics) (fst ip) (fst x); Ok (m_set (snd x) Spublics l))
    (combine (seq j (length l)) l) m = Ok m' -> forall k p, nth_error l k = Some p -> pb_kind p = PimP -> j + k < length codes.
Proof.
  induction l as [|q l IH]; intros j m m' E k p Hk Hp; [destruct k; discriminate Hk|]. cbn [length seq combine foldM fst snd] in E.
  apply bind_ok in E. destruct E as [m1 [E1 E]]. destruct k as [|k].
  - injection Hk as ->. apply bind_ok in E1. destruct E1 as [x [E1 _]]. unfold public_value in E1. rewrite Hp in E1. apply bind_ok in E1. destruct E1 as [s [E1 _]].
    apply vget_inv in E1. rewrite Nat.add_0_r. apply nth_error_Some. congruence.
  - pose proof (IH (S j) m1 m' E k p Hk Hp). lia.
Qed.
Lemma filter_full {A} (f : A -> bool) l : length (filter f l) = length l -> Forall (fun x => f x = true) l.
Proof.
  assert (Hle : forall l : list A, length (filter f l) <= length l) by (induction l0 as [|x l0 IH]; cbn; [lia|]; destruct (f x); cbn; lia).
  induction l as [|x l IH]; intros H; [constructor|]. cbn [filter] in H. destruct (f x) eqn:E; [constructor; [exact E | apply IH; cbn in H; lia]|].
  exfalso. pose proof (Hle l). cbn in H. lia.
Qed.
Theorem publics_wrong fuel tbl si im texp sg segs m m' i j p q :
  public_codes fuel tbl (st_publics sg) = Ok segs -> map_publics si im texp segs = Ok (st_pubcode sg) ->
  i < j -> nth_error (st_publics sg) i = Some p -> pb_kind p <> PimP -> nth_error (st_publics sg) j = Some q -> pb_kind q = PimP ->
  set_publics si sg m <> Ok m'.
Proof.
  intros Hc Hm Hij Hp Np Hq Kq E. unfold set_publics in E. pose proof (fold_all _ _ _ _ _ _ E) as A. cbn [Nat.add] in A.
  set (ps := st_publics sg) in *. set (c := length (st_pubcode sg)) in *.
  assert (Hcount : length (filter is_imP ps) = c) by (unfold c; rewrite (mapM_len _ _ _ Hm), (mapM_len _ _ _ Hc); reflexivity).
  assert (Htail : filter is_imP (skipn c ps) = []).
  { destruct (filter is_imP (skipn c ps)) as [|x l] eqn:Ef; [reflexivity|]. exfalso.
    assert (Hin : In x (filter is_imP (skipn c ps))) by (rewrite Ef; now left). apply filter_In in Hin. destruct Hin as [H1 H2].
    apply In_nth_error in H1. destruct H1 as [k Hk]. assert (Hk' : nth_error ps (c + k) = Some x).
    { destruct (Nat.le_gt_cases c (length ps)) as [L|L]; [|rewrite skipn_all2 in Hk by lia; destruct k; discriminate Hk].
      rewrite <- (firstn_skipn c ps), nth_error_app2; rewrite firstn_length_le by exact L; [|lia]. replace (c + k - c) with k by lia. exact Hk. }
    assert (Hkind : pb_kind x = PimP) by (unfold is_imP in H2; destruct (pb_kind x); try discriminate H2; reflexivity).
    pose proof (A _ _ Hk' Hkind). lia. }
  assert (Hfull : Forall (fun x => is_imP x = true) (firstn c ps)).
  { assert (Hle : forall l : list public, length (filter is_imP l) <= length l) by (induction l as [|x l IH]; cbn; [lia|]; destruct (is_imP x); cbn; lia).
    apply filter_full. pose proof (Hle ps) as L. rewrite Hcount in L. rewrite firstn_length_le by exact L.
    rewrite <- (firstn_skipn c ps), filter_app, Htail, app_nil_r in Hcount. exact Hcount. }
  pose proof (A _ _ Hq Kq) as Hj. assert (Hin : In p (firstn c ps)).
  { apply nth_error_In with (n := i). rewrite <- Hp. rewrite <- (firstn_skipn c ps) at 2. rewrite nth_error_app1; [reflexivity|]. rewrite firstn_length.
    assert (i < length ps) by (apply nth_error_Some; congruence). lia. }
  pose proof (proj1 (Forall_forall _ _) Hfull p Hin) as Hb. cbn beta in Hb. unfold is_imP in Hb. destruct (pb_kind p); try discriminate Hb. now apply Np.
Qed.
Theorem publics_props : forall fuel tbl si im texp sg segs (R : bool * nat -> Prop) m ims cms,
  st_publics sg = ims ++ cms -> Forall (fun p => pb_kind p = PimP) ims -> Forall (fun p => pb_kind p = PcmP /\ pb_pol p < si_width si Scm1_n) cms ->
  public_codes fuel tbl (st_publics sg) = Ok segs -> map_publics si im texp segs = Ok (st_pubcode sg) -> Forall wf_e tbl ->
  (forall p, In p (si_map si) -> fst (fst p) <> Stmp) ->
  length (m_sec m Scm1_n) = 2 ^ si_nbits si * si_width si Scm1_n /\ length (m_sec m Sconst_n) = 2 ^ si_nbits si * si_nconst si ->
  Forall (fun p => pb_idx p < 2 ^ si_nbits si) (st_publics sg) ->
  Forall (fun p => R (false, pb_pol p)) ims ->
  (forall p i e, R (p, i) -> nth_error tbl i = Some e -> labs (pub_node si) false p e /\ forall k, In k (exp_refs p e) -> R k) ->
  exists m', set_publics si sg m = Ok m' /\ same_but [Spublics; Stmp] m m' /\
    Forall2 (fun p v => match pb_kind p with
      | PcmP => nth_error (m_sec m Scm1_n) (pb_idx p * si_width si Scm1_n + pb_pol p) = Some v
      | PimP => exists e, nth_error tbl (pb_pol p) = Some e /\ den tbl (row_of si m (pb_idx p)) false e v
      | Pother => False
      end) (st_publics sg) (m_sec m' Spublics).
Proof.
  intros fuel tbl si im texp sg segs R m ims cms H1 H2 H3 H4 H5 H6 H7 H8 H9 H10 H11.
  destruct (publics_right fuel tbl si im texp sg segs R m ims cms H1 H2 H3 H4 H5 H6 H7 H8 H9 H10 H11) as [m' [A [B C]]]. exists m'. split; [exact A|]. split; [exact C | exact B].
Qed.
