(* A table in which the lookups, permutations and connections hold. *)
From Coq Require Import Ring Field Arith Permutation.
From Verif Require Import Base GlModel FrField F3gModel Cubic F3gProof ListAux PolyModel Roots PolyProof FftProof FftTop FriMath CodegenModel CodegenProof
  InterpModel InterpProof BnProof VerifierModel VerifierProof ImModel HashModel FftpModel FftpProof FftpBase FftpTop BrProof FriModel FriProof PolsModel PolsProof ProverModel ProverProof
  ParModel ParProof StarkMath StarkModel StarkGen StarkSrc StarkPoly StarkRow StarkQuot StarkEval StarkStep4 StarkTop StarkDone StageModel StarkExtend StarkStages StarkPlain NStep NGen NTop ZStage DenRel ArgStages ArgHonest.
From Verif Require PilNumProof ArgModel ArgMath ArgRows ArgSound ArgGen ArgTop.
Open Scope nat_scope.
Open Scope list_scope.
Open Scope res_scope.
Add Field K_field_htab : K_field.

(** ** rows of a memory, with every number readable *)
(* row_of reads a number as the interpreter does, which refuses some; here every number has its value *)
Definition full_row (si : sinfo) (m : mem) (i : nat) (r : node) : F3G :=
  match n_ty r with Nnumber => match n_value r with Some z => e_from (fof z) | None => e_ZERO end | _ => row_of si m i r end.
Definition small_number (r : node) : Prop := n_ty r = Nnumber -> exists z, n_value r = Some z /\ (- GLP <= z)%Z.
Lemma number_val z v : (- GLP <= z)%Z -> number_ref (Some z) = Ok v -> v = e_from (fof z).
Proof.
  intros Hz E. unfold number_ref in E. apply bind_ok in E. destruct E as [k [E0 E]]. assert (k = z) by (cbv in E0; congruence). subst k. destruct (_ && _)%bool; [|discriminate E]. apply ok_inj in E. rewrite <- E, (PilNumProof.pil_number_ok z Hz).
  refine (f_equal e_from _). exact (fof_mod z).
Qed.

Section Table.
  Variables (si : sinfo) (sg : stageprog) (tbl : list expr) (ids : list nat) (ncm : nat) (ce : cexp) (cp kp : pols).
  Variables (texp : list (nat * nat)) (td2 td3 td4 : nat -> bool) (fl : nat) (ids2 ids3 ids4 : list nat) (s2 s3 s4 : nat) (c2 c3 c4 : context) (R2 R3 R4 RA RT : bool * nat -> Prop)
    (pids : list nat) (l1 : nat) (zp : nat -> nat) (ac : nat -> nat * nat).
  Local Notation kcm := (ncm + length (ce_im ce)).
  Local Notation N := (2 ^ si_nbits si).
  Local Notation npub := (length (st_publics sg)).
  Local Notation args := (st_pu sg ++ st_pe sg ++ st_ci sg).
  Local Notation trow := (table_row si cp kp (map (pub_value cp) (st_publics sg))).
  Hypothesis HA : argmachine si sg tbl ids ce texp td2 td3 td4 fl ids2 ids3 ids4 s2 s3 s4 c2 c3 c4 R2 R3 R4 RA RT pids l1 zp ac.
  Hypothesis Hcp : nPols cp = si_width si Scm1_n /\ p_n cp = N.
  Hypothesis Hkp : nPols kp = si_nconst si /\ p_n kp = N.
  Hypothesis Hlab : forall p, Forall (labs (node_ok si (length tbl) kcm npub) false p) tbl.
  Hypothesis Hsmall : forall p, Forall (labs small_number false p) tbl.
  Hypothesis Hnb : 0 < N.

  (** the columns of an argument, read in the table *)
  Definition tcols (p : bool) (js : list nat) (F : nat -> list K) : Prop := Forall (fun j => RT (p, j)) js /\ forall ch, ArgGen.cols tbl (trow ch) N p js F.
  Definition tsel (p : bool) (o : option nat) (S : nat -> K) : Prop := (forall j, o = Some j -> RT (p, j)) /\ forall ch, ArgGen.selcol tbl (trow ch) N p o S.
  Definition tcol (j : nat) (f : nat -> K) : Prop := RT (false, j) /\ forall ch, ArgGen.has_col tbl (trow ch) N j f.

  Lemma tbl_nodes p k e : nth_error tbl k = Some e -> labs (fun r => node_ok si (length tbl) kcm npub r /\ small_number r) false p e.
  Proof. intros He. apply labs_and; [exact (proj1 (Forall_forall _ _) (Hlab p) e (nth_error_In _ _ He)) | exact (proj1 (Forall_forall _ _) (Hsmall p) e (nth_error_In _ _ He))]. Qed.

  Section Mem.
    Variable m : mem.
    Hypothesis B : nbase si sg cp kp m.
    Local Notation chm := (fun c => val (nth c (m_sec m Schallenge) e_ZERO)).

    Lemma leaf_full i r : i < N -> n_ty r <> Nexp -> node_ok si (length tbl) kcm npub r /\ small_number r -> full_row si m i r = row_of si m i r.
    Proof.
      intros Hi Hne [Hn Hs]. unfold full_row. destruct (n_ty r) eqn:Et; try reflexivity. unfold node_ok in Hn. rewrite Et in Hn. destruct Hn as [v Hv]. destruct (Hs Et) as [z [Ez Hz]].
      unfold row_of. rewrite Et, Hv. rewrite Ez in Hv |- *. symmetry. exact (number_val z v Hz Hv).
    Qed.
    Lemma leaf_table i r : i < N -> n_ty r <> Nexp -> (node_ok si (length tbl) kcm npub r /\ small_number r) /\ (n_ty r = Ncm -> n_id r < si_width si Scm1_n) ->
      same_val (full_row si m i r) (trow (m_sec m Schallenge) i r).
    Proof.
      intros Hi Hne [Hn Hcm]. rewrite (leaf_full i r Hi Hne Hn). destruct Hn as [Hn _]. unfold same_val, row_of, table_row. rewrite of_k_val. unfold node_ok in Hn.
      destruct Hcp as [C1 C2]. destruct Hkp as [K1 K2]. rewrite C1, K1. destruct (n_ty r) eqn:Et; try contradiction.
      - specialize (Hcm eq_refl). destruct (Nat.ltb_spec (n_id r) (si_width si Scm1_n)) as [_|Q]; [|lia].
        rewrite (am_place _ _ _ _ _ _ _ _ _ _ _ _ _ _ _ _ _ _ _ _ _ _ _ _ _ _ _ _ HA _ Hcm). unfold elem. cbn [Nat.eqb]. rewrite (nb_cm1 _ _ _ _ _ B), <- C1, table_nth by (rewrite ?C1, ?C2; try exact Hcm; apply nrow_lt, Hi). apply val_from.
      - destruct (Nat.ltb_spec (n_id r) (si_nconst si)) as [L|Q]; [|lia]. rewrite (nb_const _ _ _ _ _ B), <- K1, table_nth by (rewrite ?K1, ?K2; try exact L; apply nrow_lt, Hi). apply val_from.
      - destruct Hn as [v Hv]. rewrite Hv. reflexivity.
      - rewrite (nb_pub _ _ _ _ _ B). reflexivity.
      - reflexivity.
      - destruct (x_base si sg cp kp Hcp Hkp m B) as [_ [_ X]]. exact (X i Hi).
    Qed.
    (* a value in the table is the value in the memory *)
    Lemma to_full p j i x : i < N -> RT (p, j) -> ArgGen.va tbl (trow (m_sec m Schallenge) i) p (E_exp j false) x -> ArgGen.va tbl (full_row si m i) p (E_exp j false) x.
    Proof.
      intros Hi HR [v [D Ev]]. destruct (am_plain _ _ _ _ _ _ _ _ _ _ _ _ _ _ _ _ _ _ _ _ _ _ _ _ _ _ _ _ HA) as [_ Hp2].
      assert (Hj : j < length tbl) by (inversion D; subst; try discriminate; match goal with A : e_id (E_exp j false) = Some _ |- _ => cbn in A; injection A as <- end; apply nth_error_Some; congruence).
      destruct (den_rel tbl tbl (trow (m_sec m Schallenge) i) (full_row si m i) (fun r => (node_ok si (length tbl) kcm npub r /\ small_number r) /\ (n_ty r = Ncm -> n_id r < si_width si Scm1_n)) RT same_val sv_add sv_sub sv_mul sv_neg)
        with (p := p) (e := E_exp j false) (v' := v) as [w [Dw Ew]].
      - intros r Hne Hn. exact (leaf_table i r Hi Hne Hn).
      - intros q k e HRk He. left. split; [exact He|]. destruct (Hp2 q k e HRk He) as [L K]. split; [|exact K]. apply labs_and; [exact (tbl_nodes q k e He) | exact L].
      - exact D.
      - constructor; [|constructor]. intros k Hk. cbn in Hk. injection Hk as <-. split; [split; [exact Hj | discriminate] | discriminate].
      - intros k Hk. cbn in Hk. destruct Hk as [<-|[]]. exact HR.
      - exists w. split; [exact Dw|]. unfold same_val in Ew. rewrite Ew. exact Ev.
    Qed.
    (* what is read with every number readable is read *)
    Lemma from_full j i x : i < N -> ArgGen.va tbl (full_row si m i) false (E_exp j false) x -> ArgGen.va tbl (row_of si m i) false (E_exp j false) x.
    Proof.
      intros Hi [v [D Ev]].
      assert (Hj : j < length tbl) by (inversion D; subst; try discriminate; match goal with A : e_id (E_exp j false) = Some _ |- _ => cbn in A; injection A as <- end; apply nth_error_Some; congruence).
      destruct (den_rel tbl tbl (full_row si m i) (row_of si m i) (fun r => node_ok si (length tbl) kcm npub r /\ small_number r) (fun _ => True) same_val sv_add sv_sub sv_mul sv_neg)
        with (p := false) (e := E_exp j false) (v' := v) as [w [Dw Ew]].
      - intros r Hne Hn. unfold same_val. rewrite (leaf_full i r Hi Hne Hn). reflexivity.
      - intros q k e _ He. left. split; [exact He|]. split; [exact (tbl_nodes q k e He) | intros; exact Logic.I].
      - exact D.
      - constructor; [|constructor]. intros k Hk. cbn in Hk. injection Hk as <-. split; [exact Hj | discriminate].
      - intros; exact Logic.I.
      - exists w. split; [exact Dw|]. unfold same_val in Ew. rewrite Ew. exact Ev.
    Qed.
    Lemma full_rows : args <> [] -> l1 < nPols kp -> first_row_column si sg kp l1 -> ArgGen.rows N (kroot (si_nbits si)) (Some l1) chm (full_row si m).
    Proof.
      intros Ha Hl HL. constructor.
      - intros i c. reflexivity.
      - intros i z. unfold full_row. cbn [n_ty n_value N_new]. apply val_from.
      - intros i c Hi. unfold full_row, row_of. cbn [n_ty n_id n_prime N_new]. destruct (place si c) as [[[s pos] dim]|]; reflexivity.
      - intros i l Hi E. injection E as <-. unfold full_row, row_of. cbn [n_ty n_id n_prime N_new nrow]. destruct Hkp as [K1 K2]. rewrite (nb_const _ _ _ _ _ B), <- K1, table_nth by (rewrite ?K2; assumption).
        rewrite val_from, (HL Ha i Hi). destruct (i =? 0); reflexivity.
      - intros i Hi. destruct (x_base si sg cp kp Hcp Hkp m B) as [_ [_ X]]. exact (X i Hi).
    Qed.
    Lemma tcols_full p js F : tcols p js F -> ArgGen.cols tbl (full_row si m) N p js F.
    Proof.
      intros [HR HF] i Hi. specialize (HF (m_sec m Schallenge) i Hi). revert HF HR. generalize (F (ArgGen.at_row N p i)). intros l HF. induction HF as [|j x js' l' H F' IH]; intros HR; [constructor|].
      inversion HR; subst. constructor; [apply to_full; assumption | apply IH; assumption].
    Qed.
    Lemma tsel_full p o S : tsel p o S -> ArgGen.selcol tbl (full_row si m) N p o S.
    Proof.
      intros [HR HF] i Hi. specialize (HF (m_sec m Schallenge) i Hi). destruct o as [j|]; [|exact HF]. apply to_full; [exact Hi | exact (HR j eq_refl) | exact HF].
    Qed.
    Lemma tcol_full j f : tcol j f -> ArgGen.has_col tbl (full_row si m) N j f.
    Proof. intros [HR HF] i Hi. apply to_full; [exact Hi | exact HR | exact (HF (m_sec m Schallenge) i Hi)]. Qed.
  End Mem.

  (** ** what it means that an argument holds in the table *)
  Definition lookup_holds (pi : ArgModel.lident) : Prop := exists F T sF sT fs ts,
    ArgModel.l_f pi = Some fs /\ fs <> [] /\ tcols false fs F /\ ArgModel.l_t pi = Some ts /\ ts <> [] /\ (forall p, tcols p ts T) /\
    tsel false (ArgModel.l_selF pi) sF /\ (forall p, tsel p (ArgModel.l_selT pi) sT) /\ (forall i, i < N -> ArgRows.bit (sF i) /\ ArgRows.bit (sT i)) /\
    (* every selected row of F is a selected row of T *)
    forall i, i < N -> sF i = kone -> exists j, j < N /\ sT j = kone /\ T j = F i.
  Definition perm_holds (pi : ArgModel.lident) : Prop := exists F T sF sT fs ts,
    ArgModel.l_f pi = Some fs /\ fs <> [] /\ tcols false fs F /\ ArgModel.l_t pi = Some ts /\ ts <> [] /\ tcols false ts T /\
    tsel false (ArgModel.l_selF pi) sF /\ tsel false (ArgModel.l_selT pi) sT /\ (forall i, i < N -> ArgRows.bit (sF i) /\ ArgRows.bit (sT i)) /\
    (* the selected rows of F and of T are the same, each as often *)
    Permutation (map F (filter (fun i => ArgRows.isone (sF i)) (seq 0 N))) (map T (filter (fun i => ArgRows.isone (sT i)) (seq 0 N))).
  Definition conn_holds (ci : ArgModel.cident) : Prop := exists ps cs p con (pi : nat * nat -> nat * nat),
    ArgModel.ci_pols ci = Some ps /\ ArgModel.ci_conns ci = Some cs /\
    (forall c, c < length ps -> tcol (nth c ps 0) (p c) /\ tcol (nth c cs 0) (con c)) /\
    (* con names for each cell (column, row) another, one to one, that has the same value *)
    (forall x, fst x < length ps /\ snd x < N -> fst (pi x) < length ps /\ snd (pi x) < N) /\
    (forall x y, fst x < length ps /\ snd x < N -> fst y < length ps /\ snd y < N -> pi x = pi y -> x = y) /\
    forall c i, c < length ps -> i < N -> con c i = ArgTop.lbl (kroot (si_nbits si)) (fst (pi (c, i))) (snd (pi (c, i))) /\ p c i = p (fst (pi (c, i))) (snd (pi (c, i))).

  Section Gen.
    Variables (afl : nat) (a0 : ArgModel.astate) (ls : list ArgModel.lident) (a2 : ArgModel.astate) (pu9 : list ArgModel.pcctx9) (code2 : list instr * nat)
      (ps : list ArgModel.lident) (cs : list ArgModel.cident) (out : ArgModel.step3out).
    Definition pc_of (q : ArgModel.pcctx9) : pcctx := mkPC (ArgModel.q_f q) (ArgModel.q_t q) (ArgModel.q_num q) (ArgModel.q_den q).
    (* the arguments of the machine are those generated for ls, ps and cs *)
    Record generated : Prop := {
      ge_step2 : ArgModel.generate_step2 afl a0 ls = Ok (a2, pu9, code2);
      ge_step3 : ArgModel.generate_step3 afl (Some l1) a2 pu9 ps cs = Ok out;
      ge_tbl : ArgGen.pre (ArgModel.a_exps (ArgModel.o_state out)) tbl;
      ge_pu : st_pu sg = map pc_of (ArgModel.o_pu out); ge_pe : st_pe sg = map pc_of (ArgModel.o_pe out); ge_ci : st_ci sg = map pc_of (ArgModel.o_ci out);
      ge_ncm : st_ncm1 sg = ArgModel.a_ncm a0;
      (* the columns h1 and h2 have cells of their own *)
      ge_apart : apart si (st_ncm1 sg) (2 * length (st_pu sg));
      (* parse_pil_number reads the numbers as they are meant *)
      ge_small : forall p, Forall (labs small_number false p) tbl }.
    Hypothesis HG : generated.
    Hypothesis HL : first_row_column si sg kp l1.

    Lemma l1_in : args <> [] -> l1 < nPols kp.
    Proof.
      intros Ha. destruct args as [|o r] eqn:Ea; [contradiction|]. assert (Eo : nth_error args 0 = Some o) by (rewrite Ea; reflexivity).
      destruct (am_con _ _ _ _ _ _ _ _ _ _ _ _ _ _ _ _ _ _ _ _ _ _ _ _ _ _ _ _ HA 0 o Eo) as [T1 _].
      pose proof (proj1 (Forall_forall _ _) (Hlab false) _ (nth_error_In _ _ T1)) as L. apply labs_values in L. cbn [ArgModel.first_exp E_mul E_new e_values] in L. inversion L as [|? ? L1 _]; subst. apply labs_lab in L1.
      pose proof (L1 l1 eq_refl) as Lc. cbn in Lc. rewrite (proj1 Hkp). exact Lc.
    Qed.
    Lemma mem_rows m : nbase si sg cp kp m -> args <> [] -> ArgGen.rows N (kroot (si_nbits si)) (Some l1) (fun c => val (nth c (m_sec m Schallenge) e_ZERO)) (full_row si m).
    Proof. intros B Ha. apply full_rows; [exact B | exact Ha | exact (l1_in Ha) | exact HL]. Qed.
    Lemma pu_args pu : In pu (st_pu sg) -> args <> []. Proof. intros H X. apply app_eq_nil in X. destruct X as [X _]. rewrite X in H. destruct H. Qed.
    Lemma pe_args pu : In pu (st_pe sg) -> args <> []. Proof. intros H X. apply app_eq_nil in X. destruct X as [_ X]. apply app_eq_nil in X. destruct X as [X _]. rewrite X in H. destruct H. Qed.
    Lemma ci_args pu : In pu (st_ci sg) -> args <> []. Proof. intros H X. apply app_eq_nil in X. destruct X as [_ X]. apply app_eq_nil in X. destruct X as [_ X]. rewrite X in H. destruct H. Qed.
    Lemma counts : length (ArgModel.o_pu out) = length ls /\ length (ArgModel.o_pe out) = length ps /\ length (ArgModel.o_ci out) = length cs.
    Proof. destruct (ArgTop.columns afl (Some l1) a0 ls a2 pu9 code2 ps cs out (ge_step2 HG) (ge_step3 HG)) as [A [B [C _]]]. auto. Qed.
    Lemma of_nth {A B} (f : A -> B) l r t b : r = map f l -> nth_error r t = Some b -> exists a, nth_error l t = Some a /\ b = f a.
    Proof. intros -> E. rewrite nth_error_map in E. destruct (nth_error l t) as [a|]; [|discriminate E]. injection E as <-. exists a. auto. Qed.
    Lemma same_len {A B} (l : list A) (r : list B) t a : length l = length r -> nth_error l t = Some a -> exists b, nth_error r t = Some b.
    Proof. intros E H. destruct (nth_error r t) as [b|] eqn:Eb; [exists b; reflexivity|]. apply nth_error_None in Eb. assert (t < length l) by (apply nth_error_Some; congruence). lia. Qed.

    (* f and t of a lookup, in any memory that holds the table *)
    Lemma lookup_cols m t pu pi : nbase si sg cp kp m -> nth_error (st_pu sg) t = Some pu -> nth_error ls t = Some pi -> forall F T sF sT fs ts,
      ArgModel.l_f pi = Some fs -> fs <> [] -> tcols false fs F -> ArgModel.l_t pi = Some ts -> ts <> [] -> (forall p, tcols p ts T) -> tsel false (ArgModel.l_selF pi) sF -> (forall p, tsel p (ArgModel.l_selT pi) sT) ->
      exists q, nth_error (ArgModel.o_pu out) t = Some q /\ pu = pc_of q /\
      let ch := fun c => val (nth c (m_sec m Schallenge) e_ZERO) in
      let f := ArgTop.lk_f ch F T sF sT in let tt := ArgTop.lk_t ch T sT in
      (forall i, i < N -> ArgGen.va tbl (row_of si m i) false (E_exp (pc_f pu) false) (f i)) /\ (forall i, i < N -> ArgGen.va tbl (row_of si m i) false (E_exp (pc_t pu) false) (tt i)) /\
      (forall i, i < N -> ArgGen.va tbl (row_of si m i) false (E_exp (pc_num pu) false) (ArgSound.lk_num N f tt (ch 3) (ch 2) i)) /\
      (forall i, i < N -> ArgGen.va tbl (row_of si m i) false (E_exp (pc_den pu) false) (ArgSound.lk_den N (hval si m (ArgModel.q_h1 q)) (hval si m (ArgModel.q_h2 q)) (ch 3) (ch 2) i)).
    Proof.
      intros B Ht Hpi F T sF sT fs ts E1 E2 E3 E4 E5 E6 E7 E8.
      destruct (of_nth _ _ _ _ _ (ge_pu HG) Ht) as [q' [Eq' ->]].
      destruct (ArgTop.lookup_meaning afl (Some l1) a0 ls a2 pu9 code2 ps cs out (ge_step2 HG) (ge_step3 HG) t pi Hpi) as [q [Eq [_ [_ ME]]]]. rewrite Eq' in Eq. injection Eq as ->.
      exists q. split; [exact Eq'|]. split; [reflexivity|]. cbv zeta. pose proof (pu_args _ (nth_error_In _ _ Ht)) as Ha.
      specialize (ME tbl N (kroot (si_nbits si)) (fun c => val (nth c (m_sec m Schallenge) e_ZERO)) (full_row si m) F T sF sT (ge_tbl HG)).
      destruct ME as [A1 [A2 [A3 [A4 _]]]].
      - constructor.
        + exact (mem_rows m B Ha).
        + exact Hnb.
        + exists fs. split; [exact E1|]. split; [exact E2|]. exact (tcols_full m B false fs F E3).
        + exists ts. split; [exact E4|]. split; [exact E5|]. intros p. exact (tcols_full m B p ts T (E6 p)).
        + exact (tsel_full m B false _ sF E7).
        + intros p. exact (tsel_full m B p _ sT (E8 p)).
      - cbn [pc_of pc_f pc_t pc_num pc_den]. split; [intros i Hi; exact (from_full m (ArgModel.q_f q) i _ Hi (A1 i Hi))|]. split; [intros i Hi; exact (from_full m (ArgModel.q_t q) i _ Hi (A2 i Hi))|].
        split; [intros i Hi; exact (from_full m (ArgModel.q_num q) i _ Hi (A3 i Hi))|]. intros i Hi. pose proof (from_full m (ArgModel.q_den q) i _ Hi (A4 i Hi)) as V.
        assert (HC : forall a j, ArgGen.cmcol (full_row si m) a j = hval si m a j).
        { intros a j. unfold ArgGen.cmcol, full_row, row_of, hval. cbn [n_ty n_id n_prime N_new nrow]. destruct (place si a) as [[[s pos] dim]|]; [reflexivity | apply val_ZERO]. }
        eapply ArgGen.va_eq; [exact V|]. unfold ArgSound.lk_den. rewrite !HC. reflexivity.
    Qed.
    Lemma all_taken m : nbase si sg cp kp m -> (forall pi, In pi ls -> lookup_holds pi) -> forall pu, In pu (st_pu sg) -> taken si tbl m pu.
    Proof.
      intros B HLk pu Hp. apply In_nth_error in Hp. destruct Hp as [t Ht]. destruct (of_nth _ _ _ _ _ (ge_pu HG) Ht) as [q' [Eq' _]]. destruct counts as [Q1 _].
      destruct (same_len _ ls t q' Q1 Eq') as [pi Hpi]. destruct (HLk pi (nth_error_In _ _ Hpi)) as [F [T [sF [sT [fs [ts [E1 [E2 [E3 [E4 [E5 [E6 [E7 [E8 [HB HIn]]]]]]]]]]]]]]].
      destruct (lookup_cols m t pu pi B Ht Hpi F T sF sT fs ts E1 E2 E3 E4 E5 E6 E7 E8) as [q [_ [_ [Vf [Vt _]]]]].
      intros i Hi. destruct (HB i Hi) as [[Z|O] _].
      - exists i. eexists. split; [exact Hi|]. split; [exact (Vf i Hi)|]. eapply ArgGen.va_eq; [exact (Vt i Hi)|]. unfold ArgTop.lk_f. rewrite Z, ArgRows.sel_0. reflexivity.
      - destruct (HIn i Hi O) as [j [Hj [Oj Tj]]]. exists j. eexists. split; [exact Hj|]. split; [exact (Vf i Hi)|]. eapply ArgGen.va_eq; [exact (Vt j Hj)|]. unfold ArgTop.lk_f, ArgTop.lk_t at 1.
        rewrite O, Oj, !ArgRows.sel_1, Tj. reflexivity.
    Qed.
    (* no denominator of the argument is zero *)
    Definition no_zero (m : mem) (o : pcctx) : Prop := forall i d, i < N -> ArgGen.va tbl (row_of si m i) false (E_exp (pc_den o) false) d -> d <> kzero.
    Lemma weigh m o a d : (forall i, i < N -> ArgGen.va tbl (row_of si m i) false (E_exp (pc_num o) false) (a i)) -> (forall i, i < N -> ArgGen.va tbl (row_of si m i) false (E_exp (pc_den o) false) (d i)) ->
      kprod (map a (seq 0 N)) = kprod (map d (seq 0 N)) -> (weighed si tbl m o <-> no_zero m o).
    Proof.
      intros Va Vd HP. split.
      - intros [a' [d' [H _]]] i x Hi V. destruct (H i Hi) as [_ [V' Z]]. rewrite (ArgGen.va_fun _ _ _ _ _ _ V V'). exact Z.
      - intros H. exists a, d. split; [|exact HP]. intros i Hi. split; [exact (Va i Hi)|]. split; [exact (Vd i Hi) | exact (H i (d i) Hi (Vd i Hi))].
    Qed.
    Lemma perm_weighed m : nbase si sg cp kp m -> (forall pi, In pi ps -> perm_holds pi) -> forall o, In o (st_pe sg) -> (weighed si tbl m o <-> no_zero m o).
    Proof.
      intros B HP o Ho. pose proof (pe_args o Ho) as Ha. apply In_nth_error in Ho. destruct Ho as [t Ht]. destruct (of_nth _ _ _ _ _ (ge_pe HG) Ht) as [q' [Eq' ->]]. destruct counts as [_ [Q1 _]].
      destruct (same_len _ ps t q' Q1 Eq') as [pi Hpi]. destruct (HP pi (nth_error_In _ _ Hpi)) as [F [T [sF [sT [fs [ts [E1 [E2 [E3 [E4 [E5 [E6 [E7 [E8 [HB HIn]]]]]]]]]]]]]]].
      destruct (ArgTop.perm_meaning afl (Some l1) a0 ls a2 pu9 code2 ps cs out (ge_step2 HG) (ge_step3 HG) t pi Hpi) as [q [Eq [_ [_ ME]]]]. rewrite Eq' in Eq. injection Eq as ->.
      specialize (ME tbl N (kroot (si_nbits si)) (fun c => val (nth c (m_sec m Schallenge) e_ZERO)) (full_row si m) F T sF sT (ge_tbl HG)). cbv zeta in ME.
      destruct ME as [_ [_ [A3 [A4 _]]]].
      - constructor; [exact (mem_rows m B Ha) | exact Hnb | | | exact (tsel_full m B false _ sF E7) | exact (tsel_full m B false _ sT E8)].
        + exists fs. split; [exact E1|]. split; [exact E2|]. exact (tcols_full m B false fs F E3).
        + exists ts. split; [exact E4|]. split; [exact E5|]. exact (tcols_full m B false ts T E6).
      - set (ch := fun c => val (nth c (m_sec m Schallenge) e_ZERO)) in *.
        apply (weigh m (pc_of q) (fun i => kadd (ArgTop.pm ch F sF i) (ch 3)) (fun i => kadd (ArgTop.pm ch T sT i) (ch 3))).
        + intros i Hi. exact (from_full m (ArgModel.q_num q) i _ Hi (A3 i Hi)).
        + intros i Hi. exact (from_full m (ArgModel.q_den q) i _ Hi (A4 i Hi)).
        + rewrite <- (map_map (ArgTop.pm ch F sF) (fun x => kadd x (ch 3))), <- (map_map (ArgTop.pm ch T sT) (fun x => kadd x (ch 3))). apply ArgMath.kprod_perm, Permutation_map.
          apply (ArgRows.select_perm N (ch 0) (ch 1) F T sF sT HB HIn).
    Qed.
    Lemma conn_weighed m : nbase si sg cp kp m -> (forall ci, In ci cs -> conn_holds ci) -> forall o, In o (st_ci sg) -> (weighed si tbl m o <-> no_zero m o).
    Proof.
      intros B HP o Ho. pose proof (ci_args o Ho) as Ha. apply In_nth_error in Ho. destruct Ho as [t Ht]. destruct (of_nth _ _ _ _ _ (ge_ci HG) Ht) as [q' [Eq' ->]]. destruct counts as [_ [_ Q1]].
      destruct (same_len _ cs t q' Q1 Eq') as [ci Hci]. destruct (HP ci (nth_error_In _ _ Hci)) as [pp [cc [p [con [pi [E1 [E2 [E3 [E4 [E5 E6]]]]]]]]]].
      destruct (ArgTop.conn_meaning afl (Some l1) a0 ls a2 pu9 code2 ps cs out (ge_step2 HG) (ge_step3 HG) t ci Hci) as [q [Eq [_ [_ ME]]]]. rewrite Eq' in Eq. injection Eq as ->.
      specialize (ME tbl N (length pp) (kroot (si_nbits si)) (fun c => val (nth c (m_sec m Schallenge) e_ZERO)) (full_row si m) p con (ge_tbl HG)). cbv zeta in ME.
      destruct ME as [A3 [A4 _]].
      - constructor; [exact (mem_rows m B Ha) | exact Hnb|]. exists pp, cc. split; [exact E1|]. split; [exact E2|]. split; [reflexivity|]. intros c Hc. destruct (E3 c Hc) as [X Y]. split; apply tcol_full; assumption.
      - eapply (weigh m (pc_of q)).
        + intros i Hi. exact (from_full m (ArgModel.q_num q) i _ Hi (A3 i Hi)).
        + intros i Hi. exact (from_full m (ArgModel.q_den q) i _ Hi (A4 i Hi)).
        + exact (ArgRows.connect_complete N (length pp) p (ArgTop.lbl (kroot (si_nbits si))) con pi _ _ E4 E5 E6).
    Qed.
    Lemma h_numbers : forall qs r a n t q, flat_map (fun q => [ArgModel.q_h1 q; ArgModel.q_h2 q]) qs ++ r = seq a n -> nth_error qs t = Some q -> ArgModel.q_h1 q = a + 2 * t /\ ArgModel.q_h2 q = a + 2 * t + 1.
    Proof.
      induction qs as [|x qs IH]; intros r a n t q E Ht; [destruct t; discriminate Ht|]. cbn [flat_map app] in E. destruct n as [|[|n]]; [discriminate E | discriminate E|]. cbn [seq] in E. injection E as X1 X2 E. destruct t as [|t].
      - cbn in Ht. injection Ht as <-. lia.
      - cbn in Ht. destruct (IH r (S (S a)) n t q E Ht). lia.
    Qed.
    Lemma lookup_weighed ma mb : nbase si sg cp kp ma -> nbase si sg cp kp mb -> (forall pi, In pi ls -> lookup_holds pi) ->
      (forall j, j < 2 -> nth j (m_sec mb Schallenge) e_ZERO = nth j (m_sec ma Schallenge) e_ZERO) ->
      (forall t pu, nth_error (st_pu sg) t = Some pu -> exists f tt h1 h2, length f = N /\ length tt = N /\
        (forall i, i < N -> ArgGen.va tbl (row_of si ma i) false (E_exp (pc_f pu) false) (val (nth i f e_ZERO)) /\ ArgGen.va tbl (row_of si ma i) false (E_exp (pc_t pu) false) (val (nth i tt e_ZERO))) /\
        calculate_H1H2 f tt = Ok (h1, h2) /\
        forall i, i < N -> hval si mb (st_ncm1 sg + 2 * t) i = val (nth i h1 e_ZERO) /\ hval si mb (st_ncm1 sg + 2 * t + 1) i = val (nth i h2 e_ZERO)) ->
      forall o, In o (st_pu sg) -> (weighed si tbl mb o <-> no_zero mb o).
    Proof.
      intros Ba Bb HLk Hch HH o Ho. apply In_nth_error in Ho. destruct Ho as [t Ht]. destruct (of_nth _ _ _ _ _ (ge_pu HG) Ht) as [q' [Eq' _]]. destruct counts as [Q1 _].
      destruct (same_len _ ls t q' Q1 Eq') as [pi Hpi]. destruct (HLk pi (nth_error_In _ _ Hpi)) as [F [T [sF [sT [fs [ts [E1 [E2 [E3 [E4 [E5 [E6 [E7 [E8 [HB HIn]]]]]]]]]]]]]]].
      destruct (lookup_cols ma t o pi Ba Ht Hpi F T sF sT fs ts E1 E2 E3 E4 E5 E6 E7 E8) as [q [Eq [_ [Vf [Vt _]]]]].
      destruct (lookup_cols mb t o pi Bb Ht Hpi F T sF sT fs ts E1 E2 E3 E4 E5 E6 E7 E8) as [q2 [Eq2 [_ [_ [_ [Vn Vd]]]]]]. rewrite Eq in Eq2. injection Eq2 as <-.
      destruct (HH t o Ht) as [f [tt [h1 [h2 [Lf [Lt [V [EH HV]]]]]]]].
      destruct (ArgTop.columns afl (Some l1) a0 ls a2 pu9 code2 ps cs out (ge_step2 HG) (ge_step3 HG)) as [_ [_ [_ [_ [_ [_ HC]]]]]].
      destruct (h_numbers _ _ _ _ t q HC Eq) as [H1 H2]. rewrite <- (ge_ncm HG) in H1, H2.
      eapply weigh; [exact Vn | exact Vd|].
      set (ca := fun c => val (nth c (m_sec ma Schallenge) e_ZERO)) in *. set (cb := fun c => val (nth c (m_sec mb Schallenge) e_ZERO)) in *.
      assert (Ec : cb 0 = ca 0 /\ cb 1 = ca 1) by (split; refine (f_equal val _); apply Hch; lia). destruct Ec as [Ec0 Ec1].
      assert (EF : forall i, i < N -> ArgTop.lk_f cb F T sF sT i = val (nth i f e_ZERO)).
      { intros i Hi. rewrite (ArgGen.va_fun _ _ _ _ _ _ (proj1 (V i Hi)) (Vf i Hi)). unfold ArgTop.lk_f, ArgTop.lk_t. rewrite Ec0, Ec1. reflexivity. }
      assert (ET : forall i, i < N -> ArgTop.lk_t cb T sT i = val (nth i tt e_ZERO)).
      { intros i Hi. rewrite (ArgGen.va_fun _ _ _ _ _ _ (proj2 (V i Hi)) (Vt i Hi)). unfold ArgTop.lk_t. rewrite Ec0, Ec1. reflexivity. }
      pose proof (ArgSound.lookup_products N f tt h1 h2 Hnb Lf Lt EH (cb 3) (cb 2)) as LP. cbv zeta in LP.
      transitivity (kprod (map (ArgSound.lk_num N (fun i => val (nth i f e_ZERO)) (fun i => val (nth i tt e_ZERO)) (cb 3) (cb 2)) (seq 0 N))).
      - refine (f_equal kprod _). apply map_ext_in. intros i Hi. apply in_seq in Hi. assert (Hi' : i < N) by lia. pose proof (ArgMath.nxt_lt N i Hnb) as Hx. unfold ArgSound.lk_num. rewrite (EF i Hi'), (ET i Hi'), (ET _ Hx). reflexivity.
      - rewrite LP. refine (f_equal kprod _). apply map_ext_in. intros i Hi. apply in_seq in Hi. assert (Hi' : i < N) by lia. pose proof (ArgMath.nxt_lt N i Hnb) as Hx.
        unfold ArgSound.lk_den. rewrite H1, H2. destruct (HV i Hi') as [-> ->]. destruct (HV _ Hx) as [-> _]. reflexivity.
    Qed.
  End Gen.
End Table.

Theorem honest_table perm : (forall i s, length (perm i s) = 12) ->
  forall fuel gfuel workers w0 si sg tbl ids ncm md ce pg cp kp tc br0 br texp td2 td3 td4 fl ids2 ids3 ids4 s2 s3 s4 c2 c3 c4 (R2 R3 R4 RA RT : bool * nat -> Prop) pids l1 zp ac,
  workers <> 0 -> w0 <> 0 -> machine fuel gfuel si sg tbl ids ncm md ce pg -> inputs perm w0 si cp kp tc br0 br ->
  argmachine si sg tbl ids ce texp td2 td3 td4 fl ids2 ids3 ids4 s2 s3 s4 c2 c3 c4 R2 R3 R4 RA RT pids l1 zp ac -> argends si sg ce texp ids2 ->
  forall afl a0 ls a2 pu9 code2 ps cs out, generated si sg tbl l1 afl a0 ls a2 pu9 code2 ps cs out ->
  forall rest nq, (forall pu, In pu (st_pu sg) -> same_dims si ce texp pu) -> table_ok si sg tbl pids cp kp -> first_row_column si sg kp l1 ->
  (forall pi, In pi ls -> lookup_holds si sg tbl cp kp RT pi) -> (forall pi, In pi ps -> perm_holds si sg tbl cp kp RT pi) -> (forall ci, In ci cs -> conn_holds si sg tbl cp kp RT ci) ->
  chunks_ok si workers -> steps_ok (si_nbits_ext si) rest -> 0 < nq ->
  exists m0 ma ra t1 tra bra mb k rb t2 trb brb, start_mem si cp kp tc = Ok m0 /\ stage1 perm workers si sg m0 br = Ok (ma, ra, t1, tra, bra) /\
    stage2 perm workers si sg ma ra tra bra = Ok (mb, k, rb, t2, trb, brb) /\
    ((exists x, stage3 perm workers si sg mb k rb trb brb = Ok x) <-> forall o, In o (st_pu sg ++ st_pe sg ++ st_ci sg) -> no_zero si tbl mb o) /\
    forall m t3 tr br', stage3 perm workers si sg mb k rb trb brb = Ok (m, t3, tr, br') ->
      exists rc m4 t4 root4 xi tr4, tree_root tc = Ok rc /\ quotient_phase perm workers si pg m tr br' = Ok (m4, t4, root4, xi, tr4) /\
        ((forall r, r < 2 ^ si_nbits_ext si -> val xi <> cpt (si_nbits_ext si) r) ->
         exists p, stark_gen perm workers si sg pg (si_nbits_ext si :: rest) nq cp kp tc br = Ok p /\ sp_publics p = map (pub_value cp) (st_publics sg) /\
           stark_verify perm si pg (si_nbits_ext si :: rest) nq rc p = Ok true).
Proof.
  intros perm_len fuel gfuel workers w0 si sg tbl ids ncm md ce pg cp kp tc br0 br texp td2 td3 td4 fl ids2 ids3 ids4 s2 s3 s4 c2 c3 c4 R2 R3 R4 RA RT pids l1 zp ac
    Hw Hw0 HM HI HA HE afl a0 ls a2 pu9 code2 ps cs out HG rest nq Hd HT HL H1 H2 H3 Hc Hs Hq.
  destruct (sizes perm perm_len fuel gfuel w0 si sg tbl ids ncm md ce pg cp kp tc br0 br Hw0 HM HI) as [Z1 [Z2 [Z3 [Z4 _]]]].
  assert (Hlab : forall p, Forall (labs (node_ok si (length tbl) (ncm + length (ce_im ce)) (length (st_publics sg))) false p) tbl).
  { destruct HM as [C _ _ _ _ _]. exact (proj2 (cf_tbl _ _ _ _ _ _ _ _ _ _ C)). }
  assert (Hnb : 0 < 2 ^ si_nbits si) by (apply Nat.neq_0_lt_0, Nat.pow_nonzero; discriminate).
  destruct (honest_prover perm perm_len fuel gfuel workers w0 si sg tbl ids ncm md ce pg cp kp tc br0 br _ _ _ _ _ _ _ _ _ _ _ _ _ _ _ _ _ _ _ _ _ _ _ Hw Hw0 HM HI HA HE rest nq Hd HT HL Hc Hs Hq)
    as [m0 [ma [ra [t1 [tra [bra [E0 [E1 [X2 X3]]]]]]]]].
  destruct (first_ends perm perm_len fuel gfuel workers w0 si sg tbl ids ncm md ce pg cp kp tc br0 br _ _ _ _ _ _ _ _ _ _ _ _ _ _ _ _ _ _ _ _ _ _ _ Hw Hw0 HM HI HA m0 E0)
    as [ma' [ra' [t1' [tra' [bra' [E1' G1]]]]]].
  rewrite E1 in E1'. apply ok_inj in E1'. injection E1' as <- <- <- <- <-.
  pose proof (gv_base _ _ _ _ _ _ _ _ _ G1) as Ba.
  destruct (proj2 X2 (all_taken si sg tbl ids ncm ce cp kp _ _ _ _ _ _ _ _ _ _ _ _ _ _ _ _ _ _ RT _ l1 _ _ HA (conj Z1 Z2) (conj Z3 Z4) Hlab (ge_small _ _ _ _ _ _ _ _ _ _ _ _ _ HG) Hnb
    afl a0 ls a2 pu9 code2 ps cs out HG HL ma Ba H1)) as [[[[[[mb k] rb] t2] trb] brb] E2].
  destruct (second_mem perm perm_len fuel gfuel workers w0 si sg tbl ids ncm md ce pg cp kp tc br0 br _ _ _ _ _ _ _ _ _ _ _ _ _ _ _ _ _ _ _ _ _ _ _ Hw Hw0 HM HI HA HE _ _ _ _ _ _ _ _ _ _ G1 E2) as [_ G2].
  pose proof (gv_base _ _ _ _ _ _ _ _ _ G2) as Bb.
  destruct (second_cols perm perm_len fuel gfuel workers w0 si sg tbl ids ncm md ce pg cp kp tc br0 br _ _ _ _ _ _ _ _ _ _ _ _ _ _ _ _ _ _ _ _ _ _ _ Hw Hw0 HM HI HA HE _ _ _ _ _ _ _ _ _ _ G1 E2 (ge_apart _ _ _ _ _ _ _ _ _ _ _ _ _ HG)) as [Hch HH].
  exists m0, ma, ra, t1, tra, bra, mb, k, rb, t2, trb, brb. split; [exact E0|]. split; [exact E1|]. split; [exact E2|].
  destruct (X3 mb k rb t2 trb brb E2) as [Y1 Y2]. split; [|exact Y2]. rewrite Y1.
  assert (Q : forall o, In o (st_pu sg ++ st_pe sg ++ st_ci sg) -> (weighed si tbl mb o <-> no_zero si tbl mb o)).
  { intros o Ho. apply in_app_or in Ho. destruct Ho as [Ho|Ho]; [|apply in_app_or in Ho; destruct Ho as [Ho|Ho]].
    - exact (lookup_weighed si sg tbl ids ncm ce cp kp _ _ _ _ _ _ _ _ _ _ _ _ _ _ _ _ _ _ RT _ l1 _ _ HA (conj Z1 Z2) (conj Z3 Z4) Hlab (ge_small _ _ _ _ _ _ _ _ _ _ _ _ _ HG) Hnb
        afl a0 ls a2 pu9 code2 ps cs out HG HL ma mb Ba Bb H1 Hch HH o Ho).
    - exact (perm_weighed si sg tbl ids ncm ce cp kp _ _ _ _ _ _ _ _ _ _ _ _ _ _ _ _ _ _ RT _ l1 _ _ HA (conj Z1 Z2) (conj Z3 Z4) Hlab (ge_small _ _ _ _ _ _ _ _ _ _ _ _ _ HG) Hnb
        afl a0 ls a2 pu9 code2 ps cs out HG HL mb Bb H2 o Ho).
    - exact (conn_weighed si sg tbl ids ncm ce cp kp _ _ _ _ _ _ _ _ _ _ _ _ _ _ _ _ _ _ RT _ l1 _ _ HA (conj Z1 Z2) (conj Z3 Z4) Hlab (ge_small _ _ _ _ _ _ _ _ _ _ _ _ _ HG) Hnb
        afl a0 ls a2 pu9 code2 ps cs out HG HL mb Bb H3 o Ho). }
  split; intros H o Ho; apply (Q o Ho), H, Ho.
Qed.
