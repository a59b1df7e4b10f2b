(* The prover on a machine with lookups, permutations, connections and intermediate columns: the rows of the trace it
   commits to satisfy every identity. *)
From Coq Require Import Ring Field Arith.
From Verif Require Import Base GlModel FrField F3gModel Cubic F3gProof ListAux PolyModel Roots PolyProof FftProof FftTop FriMath CodegenModel CodegenProof
  InterpModel InterpProof VerifierModel VerifierProof ImModel HashModel FftpModel FftpProof FftpBase FftpTop BrProof FriModel FriProof PolsModel PolsProof ProverModel ProverProof
  ParModel ParProof StarkMath StarkModel StarkGen StarkSrc StarkPoly StarkRow StarkQuot StarkEval StarkStep4 StarkTop StarkDone StageModel StarkExtend StarkStages StarkPlain NStep NGen NTop ZStage DenRel.
From Verif Require StarkToy ArgModel ArgMath ArgTop.
Open Scope nat_scope.
Open Scope list_scope.
Open Scope res_scope.
Add Field K_field_arg : K_field.

Lemma labs_and (P Q : node -> Prop) mul p e : labs P mul p e -> labs Q mul p e -> labs (fun r => P r /\ Q r) mul p e.
Proof.
  revert e. fix IH 2. intros e [e1 A B] L2. inversion L2 as [e2 C D]; subst. constructor.
  - clear - A C. unfold lab in *. destruct (e_op e1); try exact Logic.I; try exact A; try (split; assumption); intros i Hi; split; auto.
  - clear A C L2. revert B D. generalize (e_values e1). fix IHl 2. intros l B D. destruct B as [|x l Bx Bl]; [constructor|]. inversion D as [|? ? Dx Dl]; subst. constructor; [exact (IH x Bx Dx) | exact (IHl l Bl Dl)].
Qed.
Lemma assoc_in (l : list (nat * nat)) k x : NoDup (map fst l) -> In (k, x) l -> assoc Nat.eqb l k = Some x.
Proof.
  induction l as [|[a b] l IH]; intros N H; [destruct H|]. cbn [map fst] in N. inversion N as [|? ? N1 N2]; subst. cbn [assoc fst snd]. destruct H as [H|H].
  - injection H as -> ->. rewrite Nat.eqb_refl. reflexivity.
  - destruct (Nat.eqb_spec a k) as [->|_]; [exfalso; apply N1; apply in_map_iff; exists (k, x); auto|]. destruct (Nat.eqb_spec k a) as [->|_]; [exfalso; apply N1; apply in_map_iff; exists (a, x); auto|]. now apply IH.
Qed.

Lemma assoc_some (l : list (nat * nat)) k x : assoc Nat.eqb l k = Some x -> In (k, x) l.
Proof.
  induction l as [|[a b] l IH]; cbn [assoc]; intros H; [discriminate H|].
  first [destruct (Nat.eqb_spec a k) as [->|_] | destruct (Nat.eqb_spec k a) as [->|_]]; [injection H as ->; now left | right; now apply IH].
Qed.

(* what a step of the trace domain leaves *)
Section Step.
  Variables (si : sinfo) (st : pstep) (im texp : list (nat * nat)) (tbl : list expr) (c : context) (m p : mem).
  Local Notation N := (2 ^ si_nbits si).
  Hypothesis HR : nresult si st im texp tbl c m p.
  Lemma kept_val i g s pos dim : In (false, i) (x_calc c) -> g < N -> kcol si im texp i = Some (s, pos, dim) -> dim = 1 \/ dim = 3 -> si_width si s = sec_width si s ->
    exists e v, nth_error tbl i = Some e /\ den tbl (row_of si m g) false e v /\ val (elem (m_sec p s) (si_width si s) pos dim g) = val v.
  Proof.
    intros Hi Hg Hk Hd Hw. destruct HR as [_ [_ H]]. destruct (H i Hi g Hg) as [e [v [E1 [E2 E3]]]]. exists e, v. split; [exact E1|]. split; [exact E2|]. destruct (E3 s pos dim Hk) as [F1 [F2 F3]].
    rewrite Hw. unfold elem. rewrite (Nat.add_comm pos). apply nth_error_nth with (d := e_ZERO) in F2. destruct Hd as [-> | ->]; cbn [Nat.eqb].
    - rewrite F2, val_from. unfold val. rewrite (F1 eq_refl). reflexivity.
    - destruct (F3 eq_refl) as [F4 F5]. apply nth_error_nth with (d := e_ZERO) in F4. apply nth_error_nth with (d := e_ZERO) in F5. rewrite F2, F4, F5. cbn [c0 e_from]. unfold val at 1. cbn [d3 e_new c0 c1 c2]. destruct (val v); reflexivity.
  Qed.
  Lemma col_kept s pos dim g : In s (step_in st) -> dim = 1 \/ dim = 3 -> si_width si s = sec_width si s -> pos + dim <= si_width si s -> g < N ->
    (forall k, pos <= k < pos + dim -> kwrites si im texp c s k = false) -> elem (m_sec p s) (si_width si s) pos dim g = elem (m_sec m s) (si_width si s) pos dim g.
  Proof.
    intros Hs Hd Hw Hp Hg Hk. destruct (in_dec sec_dec s (step_out st)) as [Ho|Ho]; [|rewrite (proj1 HR s Ho); reflexivity].
    apply elem_ext; [exact Hd|]. intros k Hk'. destruct (proj1 (proj2 HR) s Ho) as [_ [_ H]]. rewrite Nat.add_comm, Hw.
    rewrite H; [|exact Hg | rewrite <- Hw; lia | apply Hk, Hk']. destruct (in_dec sec_dec s (step_in st)); [reflexivity | contradiction].
  Qed.
  Lemma leaf_kept g r : st = Step2prev \/ st = Step3prev \/ st = Step3 -> g < N -> lread si st m (kwrites si im texp c) r -> row_of si p g r = row_of si m g r.
  Proof.
    intros Hst Hg L. unfold lread in L. unfold row_of. destruct (n_ty r) eqn:Et; try contradiction; try reflexivity.
    - destruct L as [s [pos [dim [Hc [[Hd [_ [Hw Hp]]] [Hin Hun]]]]]]. unfold ncol in Hc. unfold place. destruct (nth_error (si_cm_n si) (n_id r)) as [q|]; [|discriminate Hc]. rewrite Hc.
      apply col_kept; try assumption; [rewrite Hw; exact Hp | apply nrow_lt, Hg].
    - rewrite (proj1 HR) by (destruct Hst as [->|[->| ->]]; cbn [step_out]; sout). reflexivity.
    - rewrite (proj1 HR) by (destruct Hst as [->|[->| ->]]; cbn [step_out]; sout). reflexivity.
    - rewrite (proj1 HR) by (destruct Hst as [->|[->| ->]]; cbn [step_out]; sout). reflexivity.
    - rewrite (proj1 HR) by (destruct Hst as [->|[->| ->]]; cbn [step_out]; sout). reflexivity.
  Qed.
End Step.

Section Arg.
  Variables (si : sinfo) (sg : stageprog) (tbl : list expr) (ids : list nat) (ncm : nat) (ce : cexp) (cp kp : pols).
  Variables (texp : list (nat * nat)) (td2 td3 td4 : nat -> bool) (fl : nat) (ids2 ids3 ids4 : list nat) (s2 s3 s4 : nat) (c2 c3 c4 : context) (R2 R3 R4 RA RT : bool * nat -> Prop)
    (pids : list nat) (l1 : nat) (zp : nat -> nat) (ac : nat -> nat * nat).
  Local Notation kcm := (ncm + length (ce_im ce)).
  Local Notation N := (2 ^ si_nbits si).
  Local Notation im := (ce_im ce).
  Local Notation args := (st_pu sg ++ st_pe sg ++ st_ci sg).
  Local Notation kz := (st_ncm1 sg + 2 * length (st_pu sg)).
  Local Notation npub := (length (st_publics sg)).

  (* the publics are in the base field and the first k challenges have three components *)
  Definition drawn (k : nat) (m : mem) : Prop :=
    length (m_sec m Spublics) = npub /\ Forall (fun v => d3 v = false) (m_sec m Spublics) /\ length (m_sec m Schallenge) = 8 /\ forall j, j < k -> d3 (nth j (m_sec m Schallenge) e_ZERO) = true.
  (* the programs of the three steps, the columns of the arguments and the identities *)
  Record argmachine : Prop := {
    am_step2 : forall m, drawn 2 m -> nseg si Step2prev im texp td2 tbl fl ids2 s2 c2 (st_step2prev sg) R2 m;
    am_step3p : forall m, drawn 4 m -> nseg si Step3prev im texp td3 tbl fl ids3 s3 c3 (st_step3prev sg) R3 m;
    am_step3 : forall m, drawn 4 m -> nseg si Step3 im texp td4 tbl fl ids4 s4 c4 (st_step3 sg) R4 m;
    (* every intermediate expression is computed in step 3 *)
    am_im : NoDup (map fst im) /\ forall k, In k (map fst im) -> In k ids4;
    (* the expressions of step 3 prev do not read columns of the third stage *)
    am_leaf3 : forall p i e, R3 (p, i) -> nth_error tbl i = Some e -> labs (fun r => n_ty r = Ncm -> forall pos dim, place si (n_id r) <> Some (Scm3_n, pos, dim)) false p e;
    (* h1 and h2 of the lookups *)
    am_h : forall t pu, nth_error (st_pu sg) t = Some pu -> hcol si sg (st_ncm1 sg + 2 * t) pu /\ hcol si sg (st_ncm1 sg + 2 * t + 1) pu /\ pol_in si sg (pc_f pu) /\ pol_in si sg (pc_t pu);
    (* z of every argument: a column of three components that nothing else writes *)
    am_z : forall t, t < length args -> place si (kz + t) = Some (Scm3_n, zp t, 3) /\ zp t + 3 <= si_width si Scm3_n;
    am_zz : forall t t', t < length args -> t' < length args -> t <> t' -> zp t + 3 <= zp t' \/ zp t' + 3 <= zp t;
    am_keep : forall t k, t < length args -> zp t <= k < zp t + 3 -> kwrites si im texp c3 Scm3_n k = false /\ kwrites si im texp c4 Scm3_n k = false;
    (* its numerator and denominator are kept in step 3 prev, where stage 3 looks for them *)
    am_pol : forall o e, In o args -> e = pc_num o \/ e = pc_den o -> In e ids3 /\ exists q id, kcol si im texp e = Some q /\ st_exp2pol sg e = Ok id /\ nth_error (si_map si) id = Some q;
    (* its two identities *)
    am_con : forall t o, nth_error args t = Some o -> nth_error tbl (fst (ac t)) = Some (ArgModel.first_exp l1 (kz + t)) /\ nth_error tbl (snd (ac t)) = Some (ArgModel.step_exp (kz + t) (pc_num o) (pc_den o));
    am_ids : forall j, In j ids -> In j pids \/ exists t, t < length args /\ (j = fst (ac t) \/ j = snd (ac t));
    (* challenge 4 is not used before the quotient *)
    am_vc : forall p, Forall (labs (fun r => n_ty r = Nchallenge -> n_id r < 4) false p) tbl;
    (* what the identities refer to; what they refer to in the next row has no primes *)
    am_reach : (forall j, In j ids -> RA (false, j)) /\ (forall k, In k (map fst im) -> RA (false, k)) /\
      forall p i, RA (p, i) -> i < length tbl /\ forall e, nth_error tbl i = Some e -> forall k, In k (exp_refs p e) -> RA k;
    am_flat : forall k e, RA (true, k) -> nth_error tbl k = Some e -> labs flat_node false false e;
    (* the other identities are about the committed table *)
    am_plain : (forall j, In j pids -> RT (false, j)) /\
      forall p i e, RT (p, i) -> nth_error tbl i = Some e -> labs (fun r => n_ty r = Ncm -> n_id r < si_width si Scm1_n) false p e /\ forall k, In k (exp_refs p e) -> RT k;
    am_place : forall k, k < si_width si Scm1_n -> place si k = Some (Scm1_n, k, 1);
    am_pub : Forall (fun p => pb_kind p = PcmP /\ pb_idx p < N /\ pb_pol p < si_width si Scm1_n) (st_publics sg) }.
  (* the constant column l1 is one in the first row and zero in the others *)
  Definition first_row_column : Prop := args <> [] -> forall i, i < N -> cellv (p_array kp) l1 i = if i =? 0 then f1 else f0.

  Hypothesis HA : argmachine.
  Hypothesis Hcp : nPols cp = si_width si Scm1_n /\ p_n cp = N.
  Hypothesis Hkp : nPols kp = si_nconst si /\ p_n kp = N.
  Hypothesis Hlab : forall p, Forall (labs (node_ok si (length tbl) kcm npub) false p) tbl.

  (* the memory between the steps *)
  Record nbase (m : mem) : Prop := {
    nb_cm1 : m_sec m Scm1_n = const_table cp;
    nb_const : m_sec m Sconst_n = const_table kp;
    nb_x : m_sec m Sx_n = map (fun x => e_mul e_ONE x) (powers (e_from (root (si_nbits si))) N);
    nb_cm2 : full si m Scm2_n; nb_cm3 : full si m Scm3_n; nb_tmp : full si m Stmpexp_n;
    nb_zi : m_zi m = build_Zh_Inv (si_nbits si) (si_nbits_ext si - si_nbits si) 0;
    nb_pub : m_sec m Spublics = map (pub_value cp) (st_publics sg);
    nb_cha : Forall wf (m_sec m Schallenge) /\ length (m_sec m Schallenge) = 8 }.
  Lemma pubs_base m : nbase m -> Forall vbase (m_sec m Spublics).
  Proof. intros B. rewrite (nb_pub _ B). apply Forall_forall. intros x Hx. apply in_map_iff in Hx. destruct Hx as [p [<- _]]. eexists. reflexivity. Qed.
  Lemma x_base m : nbase m -> length (m_sec m Sx_n) = N /\ Forall vbase (m_sec m Sx_n) /\ forall i, i < N -> val (nth i (m_sec m Sx_n) e_ZERO) = kpow (kroot (si_nbits si)) i.
  Proof.
    intros B. rewrite (nb_x _ B). unfold powers. rewrite map_map, map_length, seq_length. split; [reflexivity|]. split.
    - apply Forall_forall. intros v Hv. apply in_map_iff in Hv. destruct Hv as [r [<- _]]. apply StarkToy.base_mul; [now exists f1 | apply StarkToy.exp_base].
    - intros i Hi. set (f := fun x => e_mul e_ONE (e_exp (e_from (root (si_nbits si))) (Z.of_nat x))). rewrite nth_indep with (d' := f 0) by (rewrite map_length, seq_length; exact Hi).
      rewrite map_nth, seq_nth by exact Hi. unfold f. rewrite val_mul, val_exp by lia. rewrite Nat2Z.id. cbn [Nat.add]. unfold e_ONE. rewrite !val_from. fold (kroot (si_nbits si)). change (kconst f1) with kone. ring.
  Qed.
  Lemma cm1_full m : nbase m -> full si m Scm1_n.
  Proof. intros B. split; rewrite (nb_cm1 _ B); [rewrite table_len; destruct Hcp as [-> ->]; reflexivity | apply from_base]. Qed.
  Lemma nbase_mem st m : st = Step2prev \/ st = Step3prev \/ st = Step3 -> nbase m -> nmem si st m.
  Proof.
    intros Hst B. pose proof (cm1_full m B) as F1. destruct (x_base m B) as [X1 [X2 _]].
    assert (Fc : length (m_sec m Sconst_n) = N * si_nconst si /\ Forall vbase (m_sec m Sconst_n)) by (rewrite (nb_const _ B); split; [rewrite table_len; destruct Hkp as [-> ->]; reflexivity | apply from_base]).
    assert (G : forall s, In s (step_in st ++ step_out st) -> length (m_sec m s) = N * sec_width si s /\ Forall vbase (m_sec m s)).
    { intros s Hs. destruct Hst as [->|[->| ->]]; cbn in Hs;
        repeat (destruct Hs as [<-|Hs]; [cbn [sec_width]; first [exact F1 | exact (nb_cm2 _ B) | exact (nb_cm3 _ B) | exact (nb_tmp _ B) | exact Fc | split; [rewrite Nat.mul_1_r; exact X1 | exact X2]]|]); destruct Hs. }
    constructor.
    - split; [|split; [|intros i; rewrite (nb_zi _ B); reflexivity]].
      + intros s Hs. destruct (G s Hs) as [L V]. split; [unfold par_n; destruct Hst as [->|[->| ->]]; exact L | eapply Forall_impl; [|exact V]; exact vbase_d3].
      + destruct Hst as [->|[->| ->]]; discriminate.
    - intros s Hs. exact (proj2 (G s Hs)).
    - eapply Forall_impl; [|exact (pubs_base m B)]. exact vbase_wf.
    - exact (proj1 (nb_cha _ B)).
  Qed.
  (* the sections the steps do not touch *)
  Lemma nbase_same ss m m' : (forall s, In s [Scm1_n; Sconst_n; Sx_n; Spublics; Schallenge] -> ~ In s ss) -> same_but ss m m' -> full si m' Scm2_n -> full si m' Scm3_n -> full si m' Stmpexp_n -> nbase m -> nbase m'.
  Proof.
    intros D [E1 E2] F2 F3 Ft B. constructor; try assumption; try (rewrite E1 by (apply D; cbn; tauto); apply B). rewrite E2. apply B.
  Qed.
  Lemma nbase_step st m p im' texp' c : st = Step2prev \/ st = Step3prev \/ st = Step3 -> nbase m -> same_but (step_out st) m p -> nresult si st im' texp' tbl c m p -> nbase p.
  Proof.
    intros Hst B E HR. assert (G : forall s, In s [Scm2_n; Scm3_n; Stmpexp_n] -> full si p s).
    { intros s Hs. assert (Hn : nsec s) by (cbn in *; tauto). destruct (in_dec sec_dec s (step_out st)) as [Ho|Ho].
      - destruct (proj1 (proj2 HR) s Ho) as [L [V _]]. split; [rewrite <- (nsec_width si s Hn); exact L | exact V].
      - unfold full. rewrite (proj1 E s Ho). cbn in Hs. destruct Hs as [<-|[<-|[<-|[]]]]; apply B. }
    eapply nbase_same; [|exact E | apply G; cbn; tauto | apply G; cbn; tauto | apply G; cbn; tauto | exact B].
    intros s Hs. destruct Hst as [->|[->| ->]]; cbn [step_out]; cbn in Hs; repeat (destruct Hs as [<-|Hs]; [sout|]); destruct Hs.
  Qed.

  (** ** from the challenges of stage 2 to the end of stage 3 *)
  Section Third.
    Variables (a b z d : mem) (kf : nat).
    Hypothesis Ba : nbase a.
    Hypothesis Da : drawn 4 a.
    Hypothesis Sab : same_but (step_out Step3prev) a b.
    Hypothesis Rab : nresult si Step3prev im texp tbl c3 a b.
    Hypothesis Fbz : foldM (z_stage si sg) args (b, kz) = Ok (z, kf).
    Hypothesis Szd : same_but (step_out Step3) z d.
    Hypothesis Rzd : nresult si Step3 im texp tbl c4 z d.
    Let Hb : nbase b := nbase_step Step3prev a b im texp c3 (or_intror (or_introl eq_refl)) Ba Sab Rab.
    Let NS3 := am_step3p HA a Da.

    Lemma pol_src o e : In o args -> e = pc_num o \/ e = pc_den o -> exists s pos dim id, kcol si im texp e = Some (s, pos, dim) /\ st_exp2pol sg e = Ok id /\ nth_error (si_map si) id = Some (s, pos, dim) /\
      In (false, e) (x_calc c3) /\ R3 (false, e) /\ (s = Scm3_n \/ s = Stmpexp_n) /\ (dim = 1 \/ dim = 3) /\ pos + dim <= si_width si s /\ si_width si s = sec_width si s /\
      (s = Scm3_n -> forall t, t < length args -> pos + dim <= zp t \/ zp t + 3 <= pos).
    Proof.
      intros Ho He. destruct (am_pol HA o e Ho He) as [Hi [[[s pos] dim] [id [K1 [K2 K3]]]]]. exists s, pos, dim, id.
      assert (R : R3 (false, e)) by (exact (proj1 (Forall_forall _ _) (ns_ids _ _ _ _ _ _ _ _ _ _ _ _ _ NS3) e Hi)).
      assert (X : In (false, e) (x_calc c3)) by (exact (gens_requested _ _ _ _ _ (ns_gen _ _ _ _ _ _ _ _ _ _ _ _ _ NS3) e Hi)).
      pose proof K1 as K1'. unfold kcol in K1'. destruct (kept im texp e) as [[ty k]|] eqn:Ek; [|discriminate K1'].
      destruct (ns_cols _ _ _ _ _ _ _ _ _ _ _ _ _ NS3 false e ty k R Ek) as [s' [pos' [dim' [C1 [[C2 [C3 [C4 C5]]] C6]]]]]. rewrite C1 in K1'. injection K1' as -> -> ->.
      split; [exact K1|]. split; [exact K2|]. split; [exact K3|]. split; [exact X|]. split; [exact R|]. split; [cbn in C6; destruct C6 as [<-|[<-|[]]]; auto|]. split; [exact C2|]. split; [rewrite C4; exact C5|]. split; [exact C4|].
      intros -> t Ht. destruct (Nat.le_gt_cases (pos + dim) (zp t)) as [L|L]; [now left|]. destruct (Nat.le_gt_cases (zp t + 3) pos) as [L'|L']; [now right|]. exfalso.
      destruct (am_keep HA t (Nat.max pos (zp t)) Ht ltac:(lia)) as [W _]. unfold kwrites in W.
      assert (W' : existsb (fun k => covers si im texp (snd k) Scm3_n (Nat.max pos (zp t))) (exp_dests (linear_code c3)) = true).
      { apply existsb_exists. exists (false, e). split; [apply (keys_dests tbl fl ids3 s3 c3 (ns_gen _ _ _ _ _ _ _ _ _ _ _ _ _ NS3)); exact X|]. cbn [snd]. unfold covers. rewrite K1.
        destruct (sec_dec Scm3_n Scm3_n) as [_|Q]; [|contradiction]. cbn [andb]. apply andb_true_iff. split; [apply Nat.leb_le; lia | apply Nat.ltb_lt; lia]. }
      rewrite W in W'. discriminate W'.
    Qed.
    Lemma z_runs3 : same_but [Scm3_n] b z /\ full si z Scm3_n /\
      (forall t o, nth_error args t = Some o -> ArgMath.running N (fun i => val (elem (m_sec z Scm3_n) (si_width si Scm3_n) (zp t) 3 i)) (polval si sg b (pc_num o)) (polval si sg b (pc_den o))).
    Proof.
      destruct (z_fold si sg args kz zp) with (m := b) (n := length args) (m' := z) (k' := kf) as [_ [Z1 [Z2 [_ Z4]]]].
      - exact (am_z HA).
      - exact (am_zz HA).
      - intros o Ho. split; intros id Hid; [destruct (pol_src o (pc_num o) Ho (or_introl eq_refl)) as [s [pos [dim [id' [_ [K2 [K3 [_ [_ [K4 [K5 [K6 [_ K7]]]]]]]]]]]]]
          | destruct (pol_src o (pc_den o) Ho (or_intror eq_refl)) as [s [pos [dim [id' [_ [K2 [K3 [_ [_ [K4 [K5 [K6 [_ K7]]]]]]]]]]]]]];
          rewrite K2 in Hid; injection Hid as ->; exists s, pos, dim; auto.
      - exact (nb_cm3 _ Hb).
      - exact (nb_tmp _ Hb).
      - lia.
      - rewrite firstn_all. exact Fbz.
      - split; [exact Z1|]. split; [exact Z2|]. intros t o Ho. apply Z4; [|exact Ho]. apply nth_error_Some. congruence.
    Qed.
    Lemma z_base : nbase z.
    Proof.
      destruct z_runs3 as [S1 [F _]]. eapply nbase_same; [|exact S1 | | exact F | | exact Hb].
      - intros s Hs. cbn in Hs. repeat (destruct Hs as [<-|Hs]; [sout|]). destruct Hs.
      - unfold full. rewrite (proj1 S1) by sout. exact (nb_cm2 _ Hb).
      - unfold full. rewrite (proj1 S1) by sout. exact (nb_tmp _ Hb).
    Qed.
    Lemma d_base : nbase d.
    Proof. exact (nbase_step Step3 z d im texp c4 (or_intror (or_intror eq_refl)) z_base Szd Rzd). Qed.
    Lemma kept_secs s : ~ In s [Scm3_n; Stmpexp_n] -> m_sec b s = m_sec a s /\ m_sec z s = m_sec a s /\ m_sec d s = m_sec a s.
    Proof.
      intros H. destruct z_runs3 as [S1 _]. assert (E1 : m_sec b s = m_sec a s) by (apply (proj1 Sab); exact H).
      assert (E2 : m_sec z s = m_sec b s) by (apply (proj1 S1); intros [X|[]]; apply H; left; exact X). assert (E3 : m_sec d s = m_sec z s) by (apply (proj1 Szd); exact H). rewrite E3, E2, E1. auto.
    Qed.
    Lemma z_drawn : drawn 4 z.
    Proof.
      pose proof Da as [D1 [D2 [D3 D4]]]. destruct (kept_secs Spublics ltac:(sout)) as [_ [E1 _]]. destruct (kept_secs Schallenge ltac:(sout)) as [_ [E2 _]]. unfold drawn. rewrite E1, E2. auto.
    Qed.
    Let NS4 := am_step3 HA z z_drawn.

    (* z in the memory at the end *)
    Lemma z_final t i : t < length args -> i < N -> elem (m_sec d Scm3_n) (si_width si Scm3_n) (zp t) 3 i = elem (m_sec z Scm3_n) (si_width si Scm3_n) (zp t) 3 i.
    Proof.
      intros Ht Hi. apply (col_kept si Step3 im texp tbl c4 z d Rzd); [cbn; tauto | now right | reflexivity | exact (proj2 (am_z HA t Ht)) | exact Hi|]. intros k Hk. exact (proj2 (am_keep HA t k Ht Hk)).
    Qed.
    (* numerators and denominators as expressions of the final trace *)
    Lemma pol_final o e i : In o args -> e = pc_num o \/ e = pc_den o -> i < N -> exists x v, nth_error tbl e = Some x /\ den tbl (row_of si d i) false x v /\ val v = polval si sg b e i.
    Proof.
      intros Ho He Hi. destruct (pol_src o e Ho He) as [s [pos [dim [id [K1 [K2 [K3 [K4 [K5 [K6 [K7 [K8 [K9 _]]]]]]]]]]]]].
      destruct (kept_val si Step3prev im texp tbl c3 a b Rab e i s pos dim K4 Hi K1 K7 K9) as [x [v [E1 [E2 E3]]]]. exists x, v. split; [exact E1|]. split.
      - refine (den_agree tbl (row_of si a i) (row_of si d i) (fun r => lsrc si Step3prev a (kwrites si im texp c3) r /\ (n_ty r = Ncm -> forall pos dim, place si (n_id r) <> Some (Scm3_n, pos, dim))) R3 _ _ false e x v K5 E1 E2).
        + intros r Hr [L Hp]. destruct L as [L|[L|L]]; [unfold row_of; rewrite L; reflexivity | contradiction |].
          unfold lread in L. unfold row_of. destruct (n_ty r) eqn:Et; try contradiction; try reflexivity.
          * destruct L as [s' [pos' [dim' [Hc [_ [Hin _]]]]]]. unfold ncol in Hc. assert (Hpl : place si (n_id r) = Some (s', pos', dim')) by (unfold place; destruct (nth_error (si_cm_n si) (n_id r)); [exact Hc | discriminate Hc]).
            rewrite Hpl. assert (Hs : s' <> Scm3_n) by (intros ->; exact (Hp eq_refl _ _ Hpl)).
            destruct (kept_secs s') as [_ [_ ->]]; [|reflexivity]. cbn in Hin. intros X. destruct X as [<-|[<-|[]]]; [now apply Hs|]. repeat (destruct Hin as [Hin|Hin]; [discriminate Hin|]). exact Hin.
          * destruct (kept_secs Sconst_n ltac:(sout)) as [_ [_ ->]]. reflexivity.
          * destruct (kept_secs Spublics ltac:(sout)) as [_ [_ ->]]. reflexivity.
          * destruct (kept_secs Schallenge ltac:(sout)) as [_ [_ ->]]. reflexivity.
          * destruct (kept_secs Sx_n ltac:(sout)) as [_ [_ ->]]. reflexivity.
        + intros p j e' HR He'. destruct (ns_refs _ _ _ _ _ _ _ _ _ _ _ _ _ NS3 p j e' HR He') as [L K]. split; [|exact K]. apply labs_and; [exact L | exact (am_leaf3 HA p j e' HR He')].
      - unfold polval. rewrite K2, K3. symmetry. exact E3.
    Qed.
    (* the intermediate columns hold their expressions *)
    Lemma im_final k x i : In (k, x) im -> i < N -> exists e v, nth_error tbl k = Some e /\ den tbl (row_of si d i) false e v /\ cell si d x i = val v.
    Proof.
      intros Hk Hi. destruct (am_im HA) as [ND Hids]. pose proof (assoc_in _ _ _ ND Hk) as As.
      assert (Hk4 : In k ids4) by (apply Hids, in_map_iff; exists (k, x); auto).
      assert (R : R4 (false, k)) by (exact (proj1 (Forall_forall _ _) (ns_ids _ _ _ _ _ _ _ _ _ _ _ _ _ NS4) k Hk4)).
      assert (X : In (false, k) (x_calc c4)) by (exact (gens_requested _ _ _ _ _ (ns_gen _ _ _ _ _ _ _ _ _ _ _ _ _ NS4) k Hk4)).
      assert (Ek : kept im texp k = Some (Ncm, x)) by (unfold kept; rewrite As; reflexivity).
      destruct (ns_cols _ _ _ _ _ _ _ _ _ _ _ _ _ NS4 false k Ncm x R Ek) as [s [pos [dim [C1 [[C2 [C3 [C4 C5]]] C6]]]]].
      assert (Kc : kcol si im texp k = Some (s, pos, dim)) by (unfold kcol; rewrite Ek; exact C1).
      destruct (kept_val si Step3 im texp tbl c4 z d Rzd k i s pos dim X Hi Kc C2 C4) as [e [v [E1 [E2 E3]]]]. exists e, v. split; [exact E1|]. split.
      - refine (den_agree tbl (row_of si z i) (row_of si d i) (lsrc si Step3 z (kwrites si im texp c4)) R4 _ _ false k e v R E1 E2).
        + intros r Hr L. destruct L as [L|[L|L]]; [unfold row_of; rewrite L; reflexivity | contradiction |]. apply (leaf_kept si Step3 im texp tbl c4 z d Rzd i r); auto.
        + exact (ns_refs _ _ _ _ _ _ _ _ _ _ _ _ _ NS4).
      - unfold cell. assert (Hpl : place si x = Some (s, pos, dim)) by (unfold place; unfold ncol in C1; destruct (nth_error (si_cm_n si) x); [exact C1 | discriminate C1]). rewrite Hpl. exact E3.
    Qed.

    (** ** the rows the quotient is made of *)
    Definition plain_node (r : node) : Prop := node_ok si (length tbl) kcm npub r /\ (n_ty r = Nchallenge -> n_id r < 4).
    Lemma leaf_val i ch r : i < N -> (forall k, k <> 4 -> nth k ch e_ZERO = nth k (m_sec d Schallenge) e_ZERO) -> n_ty r <> Nexp -> plain_node r ->
      same_val (row_of si d i r) (mem_row si im kcm d ch i r).
    Proof.
      intros Hi Hch Hne [Hn Hc]. unfold same_val, row_of, mem_row. rewrite of_k_val. unfold node_ok in Hn. destruct (n_ty r) eqn:Et; try contradiction.
      - destruct (Nat.ltb_spec (n_id r) kcm) as [_|Q]; [|exfalso; revert Hn Q; generalize kcm; intros; lia]. unfold cell. destruct (place si (n_id r)) as [[[s pos] dim]|]; [reflexivity | apply val_ZERO].
      - destruct (Nat.ltb_spec (n_id r) (si_nconst si)) as [_|Q]; [reflexivity | lia].
      - destruct Hn as [v ->]. reflexivity.
      - reflexivity.
      - rewrite Hch; [reflexivity|]. specialize (Hc eq_refl). lia.
      - exact (proj2 (proj2 (x_base d d_base)) i Hi).
    Qed.
    Lemma tbl_plain p k e : nth_error tbl k = Some e -> labs plain_node false p e.
    Proof.
      intros He. apply labs_and; [exact (proj1 (Forall_forall _ _) (Hlab p) e (nth_error_In _ _ He)) | exact (proj1 (Forall_forall _ _) (am_vc HA p) e (nth_error_In _ _ He))].
    Qed.
    (* an expression whose intermediate parts are columns has the value it has without *)
    Lemma den_final cc i ch p e v' : i < N -> (forall k, k <> 4 -> nth k ch e_ZERO = nth k (m_sec d Schallenge) e_ZERO) -> Forall (fun q => snd q < kcm) im ->
      den (with_im im (tbl ++ [cc])) (mem_row si im kcm d ch i) p e v' -> labs plain_node false p e -> (forall k, In k (exp_refs p e) -> RA k) ->
      exists v, den tbl (row_of si d i) p e v /\ same_val v v'.
    Proof.
      intros Hi Hch Him D L K. destruct (am_reach HA) as [_ [_ Hreach]].
      apply (den_rel (with_im im (tbl ++ [cc])) tbl (mem_row si im kcm d ch i) (row_of si d i) plain_node RA same_val sv_add sv_sub sv_mul sv_neg) with (3 := D); try assumption.
      - intros r Hr Hp. apply leaf_val; assumption.
      - intros q j e' Hj He'. destruct (Hreach q j Hj) as [Hlt Hrefs]. rewrite with_im_nth, nth_error_app1 in He' by exact Hlt.
        destruct (nth_error tbl j) as [ej|] eqn:Ej; [|discriminate He']. injection He' as <-. destruct (assoc Nat.eqb im j) as [x|] eqn:As.
        + right. exists ej. split; [reflexivity|]. intros w Dw. apply assoc_some in As.
          inversion Dw; subst; try discriminate. match goal with H : e_id (E_cm x false) = Some ?y |- _ => cbn in H; injection H as <- end. cbn [e_next E_cm orb].
          pose proof (proj1 (Forall_forall _ _) Him _ As) as Hx. cbn [snd] in Hx.
          assert (Ev : val (mem_row si im kcm d ch i (N_new Ncm x None q)) = cell si d x (nrow si i q)).
          { unfold mem_row. rewrite of_k_val. cbn [n_ty n_id n_prime N_new]. destruct (Nat.ltb_spec x kcm) as [_|Q]; [reflexivity | exfalso; revert Hx Q; generalize kcm; intros; lia]. }
          destruct (im_final j x (nrow si i q) As ltac:(apply nrow_lt, Hi)) as [ek [v [E1 [E2 E3]]]]. rewrite Ej in E1. injection E1 as <-. exists v. split; [|unfold same_val; rewrite Ev; symmetry; exact E3].
          destruct q; [|exact E2]. refine (den_lift si d tbl RA i _ false ej v E2 eq_refl _ _).
          * intros k e1 Hk1 He1. split; [exact (am_flat HA k e1 Hk1 He1) | exact (proj2 (Hreach true k Hk1) e1 He1)].
          * exact (am_flat HA j ej Hj Ej).
          * exact (Hrefs ej eq_refl).
        + left. split; [reflexivity|]. split; [exact (tbl_plain q j ej Ej) | exact (Hrefs ej eq_refl)].
    Qed.

    Theorem third_rows cc : 0 < N -> ce_tbl ce = tbl ++ [cc] -> Forall (fun q => snd q < kcm) im -> table_ok si sg tbl pids cp kp -> first_row_column -> rows_ok si tbl ids ce kcm d.
    Proof.
      intros HN Et Him HT HL1 i ch Hi Hch rho. rewrite Et. destruct (am_reach HA) as [Hr1 [Hr2 Hreach]]. split.
      - intros j v' Hj D.
        destruct (den_final cc i ch false (E_exp j false) v' Hi Hch Him D) as [v [Dv Ev]].
        { constructor; [|constructor]. intros k Hk. cbn in Hk. injection Hk as <-. split; [exact (proj1 (Hreach false j (Hr1 j Hj))) | discriminate]. }
        { intros k Hk. cbn in Hk. destruct Hk as [<-|[]]. exact (Hr1 j Hj). }
        unfold same_val in Ev. rewrite <- Ev. clear D Ev v'. destruct (am_ids HA j Hj) as [Hp|[t [Ht Hjt]]].
        + (* an identity of the committed table *)
          destruct (am_plain HA) as [Hp1 Hp2].
          destruct (den_rel tbl tbl (row_of si d i) (table_row si cp kp (map (pub_value cp) (st_publics sg)) ch i) (fun r => plain_node r /\ (n_ty r = Ncm -> n_id r < si_width si Scm1_n)) RT same_val sv_add sv_sub sv_mul sv_neg)
            with (p := false) (e := E_exp j false) (v' := v) as [w [Dw Ew]].
          * intros r Hne [Hn Hcm]. unfold same_val. rewrite <- (leaf_val i ch r Hi Hch Hne Hn) || idtac. pose proof (leaf_val i ch r Hi Hch Hne Hn) as Hlv. unfold same_val in Hlv. rewrite Hlv.
            destruct Hn as [Hn _]. unfold node_ok in Hn. unfold mem_row, table_row. rewrite !of_k_val. destruct Hcp as [C1 C2]. destruct Hkp as [K1 K2]. rewrite K1. destruct (n_ty r) eqn:Ety; try reflexivity; try contradiction.
            -- specialize (Hcm eq_refl). rewrite C1. destruct (Nat.ltb_spec (n_id r) (si_width si Scm1_n)) as [_|Q]; [|lia].
               destruct (Nat.ltb_spec (n_id r) kcm) as [_|Q]; [|exfalso; revert Hn Q; generalize kcm; intros; lia].
               unfold cell. rewrite (am_place HA _ Hcm). unfold elem. cbn [Nat.eqb]. rewrite (nb_cm1 _ d_base), <- C1, table_nth by (rewrite ?C1, ?C2; try exact Hcm; apply nrow_lt, Hi). symmetry. apply val_from.
            -- destruct (Nat.ltb_spec (n_id r) (si_nconst si)) as [L|_]; [|reflexivity]. unfold ccell. rewrite (nb_const _ d_base), <- K1, table_nth by (rewrite ?K1, ?K2; try exact L; apply nrow_lt, Hi). symmetry. apply val_from.
            -- rewrite (nb_pub _ d_base). reflexivity.
          * intros p k e HR He. left. split; [exact He|]. destruct (Hp2 p k e HR He) as [L K]. split; [|exact K]. apply labs_and; [exact (tbl_plain p k e He) | exact L].
          * exact Dv.
          * constructor; [|constructor]. intros k Hk. cbn in Hk. injection Hk as <-. split; [split; [exact (proj1 (Hreach false j (Hr1 j Hj))) | discriminate] | discriminate].
          * intros k Hk. cbn in Hk. destruct Hk as [<-|[]]. exact (Hp1 j Hp).
          * unfold same_val in Ew. rewrite <- Ew. exact (HT i ch j w Hi Hp Dw).
        + (* the two identities of an argument *)
          destruct (nth_error args t) as [o|] eqn:Eo; [|apply nth_error_None in Eo; lia]. pose proof (nth_error_In _ _ Eo) as Ho.
          destruct (am_con HA t o Eo) as [T1 T2]. destruct z_runs3 as [_ [_ Hrun]]. destruct (Hrun t o Eo) as [Z0 Zs].
          destruct (am_z HA t Ht) as [Pz _].
          assert (Ez : forall q, val (row_of si d i (N_new Ncm (kz + t) None q)) = val (elem (m_sec z Scm3_n) (si_width si Scm3_n) (zp t) 3 (nrow si i q))).
          { intros q. unfold row_of. cbn [n_ty n_id n_prime N_new]. rewrite Pz. rewrite z_final by (try exact Ht; apply nrow_lt, Hi). reflexivity. }
          destruct Hjt as [-> | ->].
          * pose proof (tbl_plain false _ _ T1) as L. apply labs_values in L. cbn [ArgModel.first_exp E_mul E_new e_values] in L. inversion L as [|? ? L1 _]; subst. apply labs_lab in L1. destruct (L1 l1 eq_refl) as [Lc _]. cbn in Lc.
            assert (D : den tbl (row_of si d i) false (E_exp (fst (ac t)) false) (e_mul (row_of si d i (N_new Nconst l1 None false)) (e_sub (row_of si d i (N_new Ncm (kz + t) None false)) (row_of si d i (N_new Nnumber 0 (Some 1%Z) false))))).
            { eapply D_exp; [reflexivity | reflexivity | reflexivity | exact T1|]. eapply D_mul; [reflexivity | reflexivity | apply (D_const _ _ _ (E_const l1 false)); reflexivity|].
              eapply D_sub; [reflexivity | reflexivity | apply (D_cm _ _ _ (E_cm (kz + t) false)); reflexivity | apply (D_number _ _ _ ArgModel.ONE_); reflexivity]. }
            rewrite (den_fun _ _ _ _ _ Dv _ D), val_mul, val_sub, (Ez false). cbn [nrow].
            assert (E1 : val (row_of si d i (N_new Nnumber 0 (Some 1%Z) false)) = kone) by (vm_compute; reflexivity). rewrite E1.
            assert (El : val (row_of si d i (N_new Nconst l1 None false)) = if i =? 0 then kone else kzero).
            { unfold row_of. cbn [n_ty n_id n_prime N_new nrow]. destruct Hkp as [K1 K2]. rewrite (nb_const _ d_base), <- K1, table_nth by (rewrite ?K1, ?K2; first [exact Lc | exact Hi]). rewrite val_from.
              rewrite HL1 by (try exact Hi; intros X; rewrite X in Eo; destruct t; discriminate Eo). destruct (i =? 0); reflexivity. }
            rewrite El. destruct (Nat.eqb_spec i 0) as [->|_]; [rewrite Z0|]; ring.
          * destruct (pol_final o (pc_num o) i Ho (or_introl eq_refl) Hi) as [xn [vn [N1 [N2 N3]]]]. destruct (pol_final o (pc_den o) i Ho (or_intror eq_refl) Hi) as [xd [vd [M1 [M2 M3]]]].
            assert (D : den tbl (row_of si d i) false (E_exp (snd (ac t)) false) (e_sub (e_mul (row_of si d i (N_new Ncm (kz + t) None true)) vd) (e_mul (row_of si d i (N_new Ncm (kz + t) None false)) vn))).
            { eapply D_exp; [reflexivity | reflexivity | reflexivity | exact T2|]. eapply D_sub; [reflexivity | reflexivity | |].
              - eapply D_mul; [reflexivity | reflexivity | apply (D_cm _ _ _ (E_cm (kz + t) true)); reflexivity|]. eapply D_exp; [reflexivity | reflexivity | reflexivity | exact M1 | exact M2].
              - eapply D_mul; [reflexivity | reflexivity | apply (D_cm _ _ _ (E_cm (kz + t) false)); reflexivity|]. eapply D_exp; [reflexivity | reflexivity | reflexivity | exact N1 | exact N2]. }
            rewrite (den_fun _ _ _ _ _ Dv _ D), val_sub, !val_mul, !Ez, N3, M3. pose proof (Zs i Hi) as Hs. unfold ArgMath.nxt in Hs. unfold nrow. rewrite Hs. ring.
      - intros k x e v' Hk He D.
        assert (Hka : RA (false, k)) by (apply Hr2, in_map_iff; exists (k, x); auto).
        destruct (den_final cc i ch false e v' Hi Hch Him D (tbl_plain false k e He)) as [v [Dv Ev]]; [exact (proj2 (Hreach false k Hka) e He)|].
        unfold same_val in Ev. rewrite <- Ev. destruct (im_final k x i Hk Hi) as [e' [w [E1 [E2 E3]]]]. rewrite He in E1. injection E1 as <-. rewrite (den_fun _ _ _ _ _ Dv _ E2), <- E3.
        unfold rho, mem_row. rewrite of_k_val. cbn [n_ty n_id n_prime N_new nrow]. pose proof (proj1 (Forall_forall _ _) Him _ Hk) as Hx. cbn [snd] in Hx.
        destruct (Nat.ltb_spec x kcm) as [_|Q]; [reflexivity | exfalso; revert Hx Q; generalize kcm; intros; lia].
    Qed.
  End Third.
End Arg.

Lemma get_challenge_three perm t x t' : get_challenge perm t = Ok (x, t') -> d3 x = true.
Proof.
  unfold get_challenge. intros H. apply bind_ok in H. destruct H as [[[[a b] c] t1] [_ H]]. apply ok_inj in H. injection H as <- _. reflexivity.
Qed.
Lemma rows_same si tbl ids ce kcm d m : layout si kcm -> same_but [Scm3_2ns] d m -> rows_ok si tbl ids ce kcm d -> rows_ok si tbl ids ce kcm m.
Proof.
  intros La [Sm _] HR i ch Hi Hch. rewrite Sm in Hch by sout. destruct (HR i ch Hi Hch) as [H1 H2].
  assert (Ec : forall c j, c < kcm -> cell si m c j = cell si d c j).
  { intros c j Hc. unfold cell. destruct (la_col _ _ La c Hc) as [a [b [pos [dim [q [X1 [X2 _]]]]]]]. rewrite X2, Sm; [reflexivity|]. cbn in X1. destruct X1 as [X1|[X1|[X1|[]]]]; injection X1 as <- <-; sout. }
  assert (E : forall r, mem_row si (ce_im ce) kcm m ch i r = mem_row si (ce_im ce) kcm d ch i r).
  { intros r. unfold mem_row. refine (f_equal of_k _). destruct (n_ty r); try reflexivity.
    - destruct (assoc Nat.eqb (ce_im ce) (n_id r)) as [c|]; [|reflexivity]. destruct (Nat.ltb_spec c kcm) as [L|_]; [apply Ec, L | reflexivity].
    - destruct (Nat.ltb_spec (n_id r) kcm) as [L|_]; [apply Ec, L | reflexivity].
    - unfold ccell. rewrite Sm by sout. reflexivity.
    - rewrite Sm by sout. reflexivity. }
  intros rho. split.
  - intros j v Hj D. apply (H1 j v Hj). eapply den_ext; [|exact D]. exact E.
  - intros k x e v Hk He D. unfold rho. rewrite E. apply (H2 k x e v Hk He). eapply den_ext; [|exact D]. exact E.
Qed.

Section Whole.
  Variable perm : list Fr -> list Fr -> list Fr.
  Hypothesis perm_len : forall i s, length (perm i s) = 12.
  Variables (fuel gfuel workers w0 : nat) (si : sinfo) (sg : stageprog) (tbl : list expr) (ids : list nat) (ncm md : nat) (ce : cexp) (pg : program) (cp kp : pols) (tc : tree) (br0 br : brstate).
  Variables (texp : list (nat * nat)) (td2 td3 td4 : nat -> bool) (fl : nat) (ids2 ids3 ids4 : list nat) (s2 s3 s4 : nat) (c2 c3 c4 : context) (R2 R3 R4 RA RT : bool * nat -> Prop)
    (pids : list nat) (l1 : nat) (zp : nat -> nat) (ac : nat -> nat * nat).
  Local Notation kcm := (ncm + length (ce_im ce)).
  Local Notation N := (2 ^ si_nbits si).
  Local Notation Ne := (2 ^ si_nbits_ext si).
  Hypothesis Hw : workers <> 0.
  Hypothesis Hw0 : w0 <> 0.
  Hypothesis HM : machine fuel gfuel si sg tbl ids ncm md ce pg.
  Hypothesis HI : inputs perm w0 si cp kp tc br0 br.
  Hypothesis HA : argmachine si sg tbl ids ce texp td2 td3 td4 fl ids2 ids3 ids4 s2 s3 s4 c2 c3 c4 R2 R3 R4 RA RT pids l1 zp ac.
  Hypothesis HT : table_ok si sg tbl pids cp kp.
  Hypothesis HL : first_row_column si sg kp l1.

  Theorem arg_stages m0 m t1 t2 t3 tr br' : start_mem si cp kp tc = Ok m0 -> stages perm workers si sg m0 br = Ok (m, t1, t2, t3, tr, br') ->
    full si m Scm2_n /\ full si m Scm3_n /\ m_sec m Spublics = map (pub_value cp) (st_publics sg) /\ rows_ok si tbl ids ce kcm m.
  Proof.
    intros Es Eg. pose proof HM as [C Hb24 La Hpb Hh Hz]. pose proof HI as [[I1 [I2 [I3 I4]]] [J1 [J2 J3]] Hbr Hsu].
    destruct (cf_bits _ _ _ _ _ _ _ _ _ _ C) as [B1 B2].
    destruct (start_ok _ _ _ _ _ B1 B2 I1 I2 J1 J2 Es) as [A1 [A2 [A3 [A4 [A5 [A6 [A7 [A8 [A9 [A10 [A11 [A12 [A13 [A14 [A15 [A16 A17]]]]]]]]]]]]]]]].
    destruct (setup_ok _ _ _ _ _ _ _ _ _ perm_len Hw0 B1 B2 (la_const _ _ La) J1 J2 J3 Hbr Hsu) as [K1 [K2 _]].
    assert (Hwd : forall s, In s [Scm1_n; Scm2_n; Scm3_n] -> si_width si s <= MAX_OPS).
    { intros s Hs. cbn in Hs. destruct Hs as [<-|[<-|[<-|[]]]]; eapply (la_width _ _ La); [left | right; left | right; right; left]; reflexivity. }
    assert (F1 : full si m0 Scm1_n) by (split; rewrite A1; [rewrite table_len, I3, I4; reflexivity | apply from_base]).
    assert (Zf : forall s, m_sec m0 s = repeat e_ZERO (si_width si s * N) -> full si m0 s) by (intros s E; split; rewrite E; [rewrite repeat_length; apply Nat.mul_comm | apply zeros_base]).
    assert (HN : 0 < N) by (apply Nat.neq_0_lt_0, Nat.pow_nonzero; discriminate).
    unfold stages in Eg. apply bind_ok in Eg. destruct Eg as [[[[[ma resa] ta] tra] bra] [E1 Eg]]. apply bind_ok in Eg. destruct Eg as [[[[[[mb kb] resb] tb] trb] brb] [E2 Eg]].
    apply bind_ok in Eg. destruct Eg as [[[[mc tcc] trc] brc] [E3 Eg]]. apply ok_inj in Eg. injection Eg as -> -> -> -> -> ->.
    (* stage 1 *)
    destruct (stage1_inv perm perm_len workers si sg Hw (conj B1 Hb24) Hwd Hpb m0 br ma resa t1 tra bra) as [r1 [x1 [x2 [x3 [u [dv [P1 [_ [P3 [P4 [P5 [_ [_ [P8 [P9 [P10 [mx [P11 P12]]]]]]]]]]]]]]]]]]; try assumption;
      [rewrite A8, repeat_length; apply Nat.mul_comm|].
    destruct (publics_plain si sg m0 cp A1 I1 I3 I4 (am_pub _ _ _ _ _ _ _ _ _ _ _ _ _ _ _ _ _ _ _ _ _ _ _ _ _ _ _ _ HA)) as [mx' [Q1 [Q2 _]]]. rewrite Q1 in P11. apply ok_inj in P11. subst mx'. rewrite Q2 in P12.
    pose proof (get_challenge_wf _ _ _ _ P8) as Wu. pose proof (get_challenge_wf _ _ _ _ P9) as Wd. pose proof (get_challenge_three _ _ _ _ P8) as Tu. pose proof (get_challenge_three _ _ _ _ P9) as Td.
    assert (Na : nbase si sg cp kp ma).
    { constructor; try (rewrite (proj1 P1) by sout; assumption).
      - unfold full. rewrite (proj1 P1) by sout. apply Zf, A14.
      - unfold full. rewrite (proj1 P1) by sout. apply Zf, A15.
      - unfold full. rewrite (proj1 P1) by sout. apply Zf, A16.
      - rewrite (proj2 P1). exact A4.
      - exact P12.
      - rewrite P10. split; [|reflexivity]. constructor; [exact Wu|]. constructor; [exact Wd|]. repeat (constructor; [exact wf_ZERO|]). constructor. }
    assert (Dp : forall mm, nbase si sg cp kp mm -> length (m_sec mm Spublics) = length (st_publics sg) /\ Forall (fun v => d3 v = false) (m_sec mm Spublics)).
    { intros mm B. split; [rewrite (nb_pub _ _ _ _ _ B), map_length; reflexivity | eapply Forall_impl; [|exact (pubs_base _ _ _ _ _ B)]; exact vbase_d3]. }
    assert (Da : drawn sg 2 ma).
    { destruct (Dp ma Na) as [X1 X2]. split; [exact X1|]. split; [exact X2|]. split; [exact (proj2 (nb_cha _ _ _ _ _ Na))|]. rewrite P10. intros j Hj. destruct j as [|[|j]]; [exact Tu | exact Td | lia]. }
    assert (Hcp : nPols cp = si_width si Scm1_n /\ p_n cp = N) by auto. assert (Hkp : nPols kp = si_nconst si /\ p_n kp = N) by auto.
    (* stage 2 *)
    pose proof (stage2_count perm workers si sg Hh _ _ _ _ _ _ _ _ _ _ E2) as Kb. subst kb.
    pose proof E2 as E2'. unfold stage2 in E2'. apply bind_ok in E2'. destruct E2' as [mb1 [G1 E2']]. apply bind_ok in E2'. destruct E2' as [[mh kh] [G2 E2']].
    apply bind_ok in E2'. destruct E2' as [[[[[mbc res'] t2'] trb'] brb'] [G3 E2']]. apply bind_ok in E2'. destruct E2' as [[ga tc1] [G4 E2']]. apply bind_ok in E2'. destruct E2' as [mc1 [G5 E2']].
    apply bind_ok in E2'. destruct E2' as [[be td1] [G6 E2']]. apply bind_ok in E2'. destruct E2' as [md1 [G7 E2']]. apply ok_inj in E2'. injection E2' as -> _ _ _ _ _.
    pose proof (par_same _ _ _ _ _ _ G1) as Sa1.
    pose proof (nseg_ends _ _ _ _ _ _ _ _ _ _ _ _ _ _ _ (am_step2 _ _ _ _ _ _ _ _ _ _ _ _ _ _ _ _ _ _ _ _ _ _ _ _ _ _ _ _ HA ma Da) (nbase_mem _ _ _ _ Hcp Hkp Step2prev ma (or_introl eq_refl) Na) Hw G1) as R1.
    pose proof (nbase_step si sg tbl cp kp Hcp Hkp Step2prev ma mb1 _ _ _ (or_introl eq_refl) Na Sa1 R1) as Nb1.
    destruct (h1h2_same _ _ _ _ _ _ _ Hh G2) as [Sh _].
    pose proof (h1h2_full si sg (st_pu sg) mb1 (st_ncm1 sg) mh kh G2 (nb_cm2 _ _ _ _ _ Nb1) (nb_cm3 _ _ _ _ _ Nb1) (nb_tmp _ _ _ _ _ Nb1) (am_h _ _ _ _ _ _ _ _ _ _ _ _ _ _ _ _ _ _ _ _ _ _ _ _ _ _ _ _ HA)) as Fh.
    assert (Nh : nbase si sg cp kp mh).
    { eapply nbase_same; [exact Hcp | exact Hkp | |exact Sh | exact Fh | | | exact Nb1].
      - intros s Hs. cbn in Hs. repeat (destruct Hs as [<-|Hs]; [sout|]). destruct Hs.
      - unfold full. rewrite (proj1 Sh) by sout. exact (nb_cm3 _ _ _ _ _ Nb1).
      - unfold full. rewrite (proj1 Sh) by sout. exact (nb_tmp _ _ _ _ _ Nb1). }
    pose proof (commit_same _ _ _ _ _ _ _ _ _ _ _ _ _ _ G3) as Cm. destruct (set_challenge_same _ _ _ _ G5) as [S5 _]. destruct (set_challenge_same _ _ _ _ G7) as [S7 _].
    assert (Shb : same_but [Scm2_2ns; Schallenge] mh mb).
    { apply (same_trans _ _ mbc); [eapply same_weak; [|exact Cm]; intros s; cbn; tauto|]. apply (same_trans _ _ mc1); [eapply same_weak; [|exact S5]; intros s; cbn; tauto|]. eapply same_weak; [|exact S7]. intros s. cbn. tauto. }
    assert (F2b : full si mb Scm2_n) by (unfold full; rewrite (proj1 Shb) by sout; exact Fh).
    destruct (stage2_inv perm perm_len workers si sg Hw (conj B1 Hb24) Hwd Hh ma resa tra bra mb (st_ncm1 sg + 2 * length (st_pu sg)) resb t2 trb brb u dv) as [r2 [y1 [y2 [ga' [be' [_ [_ [_ [_ [_ [_ [U7 [U8 [U9 _]]]]]]]]]]]]]]; try assumption;
      [rewrite (proj1 P1) by sout; rewrite A9, repeat_length; apply Nat.mul_comm|].
    pose proof (get_challenge_wf _ _ _ _ U7) as Wg. pose proof (get_challenge_wf _ _ _ _ U8) as Wb. pose proof (get_challenge_three _ _ _ _ U7) as Tg. pose proof (get_challenge_three _ _ _ _ U8) as Tb.
    assert (Nb : nbase si sg cp kp mb).
    { constructor; try (rewrite (proj1 Shb) by sout; apply Nh).
      - exact F2b.
      - unfold full. rewrite (proj1 Shb) by sout. apply Nh.
      - unfold full. rewrite (proj1 Shb) by sout. apply Nh.
      - rewrite (proj2 Shb). apply Nh.
      - rewrite U9. split; [|reflexivity]. constructor; [exact Wu|]. constructor; [exact Wd|]. constructor; [exact Wg|]. constructor; [exact Wb|]. repeat (constructor; [exact wf_ZERO|]). constructor. }
    assert (Db : drawn sg 4 mb).
    { destruct (Dp mb Nb) as [X1 X2]. split; [exact X1|]. split; [exact X2|]. split; [exact (proj2 (nb_cha _ _ _ _ _ Nb))|]. rewrite U9. intros j Hj. destruct j as [|[|[|[|j]]]]; [exact Tu | exact Td | exact Tg | exact Tb | lia]. }
    (* stage 3 *)
    unfold stage3 in E3. apply bind_ok in E3. destruct E3 as [mp [V1 E3]]. apply bind_ok in E3. destruct E3 as [[mz kf] [V2 E3]].
    apply bind_ok in E3. destruct E3 as [mq [V3 E3]]. apply bind_ok in E3. destruct E3 as [[[[[mbq res3] t3'] tr3'] br3'] [V4 E3]]. apply ok_inj in E3. injection E3 as -> _ _ _.
    pose proof (par_same _ _ _ _ _ _ V1) as Sp. pose proof (par_same _ _ _ _ _ _ V3) as Sq. pose proof (commit_same _ _ _ _ _ _ _ _ _ _ _ _ _ _ V4) as Sm.
    pose proof (nseg_ends _ _ _ _ _ _ _ _ _ _ _ _ _ _ _ (am_step3p _ _ _ _ _ _ _ _ _ _ _ _ _ _ _ _ _ _ _ _ _ _ _ _ _ _ _ _ HA mb Db) (nbase_mem _ _ _ _ Hcp Hkp Step3prev mb (or_intror (or_introl eq_refl)) Nb) Hw V1) as R3'.
    assert (Nz : nbase si sg cp kp mz /\ drawn sg 4 mz).
    { split; [eapply z_base | eapply z_drawn]; eassumption. }
    destruct Nz as [Nz Dz].
    pose proof (nseg_ends _ _ _ _ _ _ _ _ _ _ _ _ _ _ _ (am_step3 _ _ _ _ _ _ _ _ _ _ _ _ _ _ _ _ _ _ _ _ _ _ _ _ _ _ _ _ HA mz Dz) (nbase_mem _ _ _ _ Hcp Hkp Step3 mz (or_intror (or_intror eq_refl)) Nz) Hw V3) as R4'.
    pose proof (nbase_step si sg tbl cp kp Hcp Hkp Step3 mz mq _ _ _ (or_intror (or_intror eq_refl)) Nz Sq R4') as Nq.
    split; [unfold full; rewrite (proj1 Sm) by sout; apply Nq|]. split; [unfold full; rewrite (proj1 Sm) by sout; apply Nq|]. split; [rewrite (proj1 Sm) by sout; apply Nq|].
    apply (rows_same si tbl ids ce kcm mq m La Sm).
    pose proof (proj2 (cf_tbl _ _ _ _ _ _ _ _ _ _ C)) as Hlab.
    pose proof C as C'. replace (length (st_publics sg)) with (length (m_sec mq Spublics)) in C' by (rewrite (nb_pub _ _ _ _ _ Nq), map_length; reflexivity).
    destruct (constraint_parts fuel gfuel si tbl ids ncm md ce pg mq C') as [cc CP].
    eapply (third_rows si sg tbl ids ncm ce cp kp) with (a := mb) (b := mp) (z := mz) (cc := cc); try eassumption.
    - exact (cp_tbl _ _ _ _ _ _ _ CP).
    - eapply Forall_impl; [|exact (cp_im _ _ _ _ _ _ _ CP)]. intros q [_ H]. exact H.
  Qed.

  Theorem arg_complete m0 m t1 t2 t3 tr br' rest nq : start_mem si cp kp tc = Ok m0 -> stages perm workers si sg m0 br = Ok (m, t1, t2, t3, tr, br') ->
    chunks_ok si workers -> steps_ok (si_nbits_ext si) rest -> 0 < nq ->
    exists rc m4 t4 root4 xi tr4, tree_root tc = Ok rc /\ quotient_phase perm workers si pg m tr br' = Ok (m4, t4, root4, xi, tr4) /\
      ((forall r, r < 2 ^ si_nbits_ext si -> val xi <> cpt (si_nbits_ext si) r) ->
       exists p, stark_gen perm workers si sg pg (si_nbits_ext si :: rest) nq cp kp tc br = Ok p /\ sp_publics p = map (pub_value cp) (st_publics sg) /\
         stark_verify perm si pg (si_nbits_ext si :: rest) nq rc p = Ok true).
  Proof.
    intros Es Eg Hc Hs Hq. destruct (arg_stages _ _ _ _ _ _ _ Es Eg) as [F2 [F3 [Pm Hr]]].
    assert (Bp : Forall vbase (m_sec m Spublics)).
    { rewrite Pm. apply Forall_forall. intros x Hx. apply in_map_iff in Hx. destruct Hx as [p [<- _]]. eexists. reflexivity. }
    rewrite <- Pm. eapply gen_complete; try eassumption.
    - eapply Forall_impl; [|exact Bp]. exact vbase_wf.
    - intros _. eapply Forall_impl; [|exact Bp]. exact vbase_d3.
  Qed.
End Whole.

(* a proof the prover returns, for a table that satisfies the identities that are not of an argument *)
Theorem returned_verifies perm fuel gfuel workers w0 si sg tbl ids ncm md ce pg cp kp tc br0 br texp td2 td3 td4 fl ids2 ids3 ids4 s2 s3 s4 c2 c3 c4 R2 R3 R4 RA RT pids l1 zp ac rest nq p :
  (forall i s, length (perm i s) = 12) -> workers <> 0 -> w0 <> 0 -> machine fuel gfuel si sg tbl ids ncm md ce pg -> inputs perm w0 si cp kp tc br0 br ->
  argmachine si sg tbl ids ce texp td2 td3 td4 fl ids2 ids3 ids4 s2 s3 s4 c2 c3 c4 R2 R3 R4 RA RT pids l1 zp ac -> table_ok si sg tbl pids cp kp -> first_row_column si sg kp l1 ->
  chunks_ok si workers -> steps_ok (si_nbits_ext si) rest -> 0 < nq -> stark_gen perm workers si sg pg (si_nbits_ext si :: rest) nq cp kp tc br = Ok p ->
  exists rc m0 m t1 t2 t3 tr br' m4 t4 root4 xi tr4, tree_root tc = Ok rc /\ start_mem si cp kp tc = Ok m0 /\ stages perm workers si sg m0 br = Ok (m, t1, t2, t3, tr, br') /\
    quotient_phase perm workers si pg m tr br' = Ok (m4, t4, root4, xi, tr4) /\
    ((forall r, r < 2 ^ si_nbits_ext si -> val xi <> cpt (si_nbits_ext si) r) ->
      sp_publics p = map (pub_value cp) (st_publics sg) /\ stark_verify perm si pg (si_nbits_ext si :: rest) nq rc p = Ok true).
Proof.
  intros Hp Hw Hw0 HM HI HA HT HL Hc Hs Hq Eg. pose proof Eg as E. unfold stark_gen in E. apply bind_ok in E. destruct E as [m0 [E1 E]]. apply bind_ok in E. destruct E as [[[[[[m t1] t2] t3] tr] br'] [E2 _]].
  destruct (arg_complete perm Hp fuel gfuel workers w0 si sg tbl ids ncm md ce pg cp kp tc br0 br _ _ _ _ _ _ _ _ _ _ _ _ _ _ _ _ _ _ _ _ _ _ _ Hw Hw0 HM HI HA HT HL m0 m t1 t2 t3 tr br' rest nq E1 E2 Hc Hs Hq)
    as [rc [m4 [t4 [root4 [xi [tr4 [A1 [A2 A3]]]]]]]].
  exists rc, m0, m, t1, t2, t3, tr, br', m4, t4, root4, xi, tr4. split; [exact A1|]. split; [exact E1|]. split; [exact E2|]. split; [exact A2|].
  intros Hx. destruct (A3 Hx) as [p' [B1 [B2 B3]]]. rewrite Eg in B1. apply ok_inj in B1. subst p'. split; [exact B2 | exact B3].
Qed.
