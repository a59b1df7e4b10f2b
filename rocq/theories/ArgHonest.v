(* When the prover of a machine with lookups, permutations and connections ends. *)
From Coq Require Import Ring Field Arith.
From Verif Require Import Base GlModel FrField F3gModel Cubic F3gProof ListAux PolyModel Roots PolyProof FftProof FftTop FriMath CodegenModel CodegenProof
  InterpModel InterpProof BnProof VerifierModel VerifierProof ImModel HashModel FftpModel FftpProof FftpBase FftpTop BrProof FriModel FriProof PolsModel PolsProof ProverModel ProverProof
  ParModel ParProof StarkMath StarkModel StarkGen StarkSrc StarkPoly StarkRow StarkQuot StarkEval StarkStep4 StarkTop StarkDone StageModel StarkExtend StarkStages StarkPlain NStep NGen NTop ZStage DenRel ArgStages.
From Verif Require StarkToy ArgModel ArgMath ArgGen ArgTop.
Open Scope nat_scope.
Open Scope list_scope.
Open Scope res_scope.

Section Pols.
  Variable si : sinfo.
  Local Notation N := (2 ^ si_nbits si).
  Local Notation w := (si_width si).
  Lemma read_pol_ok m id s pos dim : nth_error (si_map si) id = Some (s, pos, dim) -> nsec s -> full si m s -> pos + dim <= w s -> dim = 1 \/ dim = 3 ->
    read_pol si m id = Ok (map (elem (m_sec m s) (w s) pos dim) (seq 0 N)).
  Proof.
    intros Hm Hs [L B] Hp Hd. unfold read_pol, get_pol_ref. rewrite (vget_some _ _ _ Hm), bindE, bindE. cbn [fst snd]. rewrite (nsec_deg si s Hs). unfold get_pol. cbn [p_dim p_deg].
    replace ((dim =? 1) || (dim =? 3)) with true by (destruct Hd as [-> | ->]; reflexivity).
    apply mapM_ok. intros i Hi. apply in_seq in Hi. unfold get_row. cbn [p_offset p_size p_dim]. unfold elem.
    assert (Hb : forall j, j < dim -> pos + i * w s + j < length (m_sec m s)).
    { intros j Hj. rewrite L. replace (pos + i * w s + j) with ((pos + j) + i * w s) by lia. apply row_in; lia. }
    destruct Hd as [-> | ->]; cbn [Nat.eqb].
    - apply vget_nth. specialize (Hb 0 ltac:(lia)). lia.
    - pose proof (Hb 0 ltac:(lia)) as H0. rewrite Nat.add_0_r in H0. pose proof (Hb 1 ltac:(lia)) as H1. pose proof (Hb 2 ltac:(lia)) as H2.
      rewrite (vget_nth _ _ e_ZERO H0), (vget_nth _ _ e_ZERO H1), (vget_nth _ _ e_ZERO H2).
      destruct (nth_vbase (m_sec m s) (pos + i * w s) B) as [x Hx]. destruct (nth_vbase (m_sec m s) (pos + i * w s + 1) B) as [y Hy]. destruct (nth_vbase (m_sec m s) (pos + i * w s + 2) B) as [z Hz].
      rewrite Hx, Hy, Hz. reflexivity.
  Qed.
  Lemma write_pol_ok m id v s pos dim : nth_error (si_map si) id = Some (s, pos, dim) -> nsec s -> full si m s -> pos + dim <= w s -> dim = 1 \/ dim = 3 -> length v = N ->
    exists m', write_pol si m id v = Ok m'.
  Proof.
    intros Hm Hs [L B] Hp Hd Lv. unfold write_pol, get_pol_ref. rewrite (vget_some _ _ _ Hm), bindE, bindE. cbn [fst snd]. rewrite (nsec_deg si s Hs). unfold set_pol. cbn [p_dim p_deg].
    replace ((dim =? 1) || (dim =? 3)) with true by (destruct Hd as [-> | ->]; reflexivity).
    destruct (set_rows_spec (mkPol N pos (w s) dim) v Hd Hp N 0 (m_sec m s) ltac:(lia)) as [b [Eb _]]; [cbn [p_size]; rewrite L; reflexivity|].
    rewrite Eb, bindE. eexists. reflexivity.
  Qed.
  Lemma elem_d3 l W pos dim i : dim = 1 \/ dim = 3 -> Forall vbase l -> d3 (elem l W pos dim i) = (dim =? 3).
  Proof. intros [-> | ->] B; unfold elem; cbn [Nat.eqb]; [apply vbase_d3, nth_vbase, B | reflexivity]. Qed.
  Lemma elem_inj l l' W W' pos pos' dim i j : dim = 1 \/ dim = 3 -> Forall vbase l -> Forall vbase l' -> val (elem l W pos dim i) = val (elem l' W' pos' dim j) ->
    elem l W pos dim i = elem l' W' pos' dim j.
  Proof.
    intros Hd B B' E. apply val_inj; [| | rewrite !elem_d3 by assumption; reflexivity | exact E].
    - destruct Hd as [-> | ->]; unfold elem; cbn [Nat.eqb]; [apply vbase_wf, nth_vbase, B | apply wf_new].
    - destruct Hd as [-> | ->]; unfold elem; cbn [Nat.eqb]; [apply vbase_wf, nth_vbase, B' | apply wf_new].
  Qed.
End Pols.

(** ** h1 and h2 *)
(* the column of expression e *)
Definition pol_at (si : sinfo) (sg : stageprog) (e : nat) (s : sec) (pos dim : nat) : Prop :=
  exists id, st_exp2pol sg e = Ok id /\ nth_error (si_map si) id = Some (s, pos, dim) /\ (s = Scm3_n \/ s = Stmpexp_n) /\ (dim = 1 \/ dim = 3) /\ pos + dim <= si_width si s.

Section H.
  Variables (si : sinfo) (sg : stageprog).
  Local Notation N := (2 ^ si_nbits si).
  Lemma pol_at_val e s pos dim m i : pol_at si sg e s pos dim -> polval si sg m e i = val (elem (m_sec m s) (si_width si s) pos dim i).
  Proof. intros [id [E1 [E2 _]]]. unfold polval. rewrite E1, E2. reflexivity. Qed.
  Lemma pol_at_in e s pos dim : pol_at si sg e s pos dim -> pol_in si sg e.
  Proof. intros [id [E1 [E2 [E3 [E4 E5]]]]] id' E. rewrite E1 in E. apply ok_inj in E. subst id'. exists s, pos, dim. auto. Qed.
  Lemma pol_at_read e s pos dim m : pol_at si sg e s pos dim -> full si m Scm3_n -> full si m Stmpexp_n ->
    exists id, st_exp2pol sg e = Ok id /\ read_pol si m id = Ok (map (elem (m_sec m s) (si_width si s) pos dim) (seq 0 N)) /\ full si m s.
  Proof.
    intros [id [E1 [E2 [E3 [E4 E5]]]]] F3 Ft. assert (Fs : full si m s) by (destruct E3 as [-> | ->]; assumption).
    exists id. split; [exact E1|]. split; [|exact Fs]. apply read_pol_ok; try assumption. destruct E3 as [-> | ->]; cbn; tauto.
  Qed.
  Definition every_f (m : mem) (pu : pcctx) : Prop := forall i, i < N -> exists j, j < N /\ polval si sg m (pc_f pu) i = polval si sg m (pc_t pu) j.

  Lemma h_step_inv m k pu m' k' : full si m Scm2_n -> full si m Scm3_n -> full si m Stmpexp_n -> hcol si sg k pu -> hcol si sg (k + 1) pu -> pol_in si sg (pc_f pu) -> pol_in si sg (pc_t pu) ->
    h1h2_stage si sg (m, k) pu = Ok (m', k') -> k' = k + 2 /\ same_but [Scm2_n] m m' /\ full si m' Scm2_n.
  Proof.
    intros F2 F3 Ft H1 H2 Pf Pt E. assert (E' : foldM (h1h2_stage si sg) [pu] (m, k) = Ok (m', k')) by (cbn [foldM]; rewrite E, bindE; reflexivity).
    assert (F' : full si m' Scm2_n).
    { eapply h1h2_full; [exact E' | exact F2 | exact F3 | exact Ft|]. intros [|t] pu' Hp; [|destruct t; discriminate Hp]. cbn in Hp. injection Hp as <-. rewrite Nat.mul_0_r, Nat.add_0_r. auto. }
    destruct (h1h2_same si sg [pu] m k m' k') as [S1 K]; [|exact E'|].
    - intros j id s pos dim Hj Hid Hm. cbn [length] in Hj. assert (Hk : j = k \/ j = k + 1) by lia. rewrite <- (place_map si j id Hid) in Hm.
      destruct Hk as [-> | ->]; [destruct H1 as [p [d [Q _]]] | destruct H2 as [p [d [Q _]]]]; rewrite Q in Hm; injection Hm as <- _ _; reflexivity.
    - cbn [length] in K. split; [lia|]. split; assumption.
  Qed.
  Lemma h_step m k pu sf pf df st pt dt : full si m Scm2_n -> full si m Scm3_n -> full si m Stmpexp_n -> hcol si sg k pu -> hcol si sg (k + 1) pu ->
    pol_at si sg (pc_f pu) sf pf df -> pol_at si sg (pc_t pu) st pt dt -> ((exists x, h1h2_stage si sg (m, k) pu = Ok x) <-> df = dt /\ every_f m pu).
  Proof.
    intros F2 F3 Ft Hc1 Hc2 Af At. pose proof (Nat.pow_nonzero 2 (si_nbits si)) as HN.
    destruct (pol_at_read _ _ _ _ m Af F3 Ft) as [fid [Ef [Rf Ff]]]. destruct (pol_at_read _ _ _ _ m At F3 Ft) as [tid [Et [Rt Fft]]].
    set (f := map (elem (m_sec m sf) (si_width si sf) pf df) (seq 0 N)) in *. set (t := map (elem (m_sec m st) (si_width si st) pt dt) (seq 0 N)) in *.
    assert (Df : df = 1 \/ df = 3) by (destruct Af as [? [_ [_ [_ [X _]]]]]; exact X). assert (Dt : dt = 1 \/ dt = 3) by (destruct At as [? [_ [_ [_ [X _]]]]]; exact X).
    assert (Lf : length f = N) by (unfold f; rewrite map_length, seq_length; reflexivity). assert (Lt : length t = N) by (unfold t; rewrite map_length, seq_length; reflexivity).
    assert (Inc : incl f t <-> df = dt /\ every_f m pu).
    { unfold every_f. split.
      - intros H. assert (Dd : df = dt).
        { specialize (H (elem (m_sec m sf) (si_width si sf) pf df 0)). destruct (proj1 (in_map_iff _ _ _) (H ltac:(apply in_map, in_seq; lia))) as [j [Ej _]]. apply (f_equal d3) in Ej.
          rewrite !elem_d3 in Ej by (first [assumption | exact (proj2 Ff) | exact (proj2 Fft)]). destruct Df as [-> | ->], Dt as [-> | ->]; first [reflexivity | discriminate Ej]. }
        split; [exact Dd|]. intros i Hi. destruct (proj1 (in_map_iff _ _ _) (H _ (in_map _ _ i (proj2 (in_seq N 0 i) ltac:(lia))))) as [j [Ej Hj]]. apply in_seq in Hj. exists j. split; [lia|].
        rewrite (pol_at_val _ _ _ _ _ _ Af), (pol_at_val _ _ _ _ _ _ At), Ej. reflexivity.
      - intros [Dd H] x Hx. apply in_map_iff in Hx. destruct Hx as [i [<- Hi]]. apply in_seq in Hi. destruct (H i ltac:(lia)) as [j [Hj E]].
        rewrite (pol_at_val _ _ _ _ _ _ Af), (pol_at_val _ _ _ _ _ _ At) in E. subst dt. rewrite (elem_inj _ _ _ _ _ _ _ _ _ Df (proj2 Ff) (proj2 Fft) E). apply in_map, in_seq. lia. }
    rewrite <- Inc. unfold h1h2_stage. rewrite Ef, bindE, Rf, bindE, Et, bindE, Rt, bindE. split.
    - intros [x E]. apply bind_ok in E. destruct E as [[h1 h2] [E _]]. exact (proj1 (proj2 (proj2 (proj2 (h1h2_spec f t h1 h2 E))))).
    - intros H. destruct (h1h2_total f t H ltac:(lia)) as [h1 [h2 Eh]]. rewrite Eh, bindE. cbn [fst snd].
      destruct (h1h2_spec f t h1 h2 Eh) as [L1 [L2 _]]. destruct (h1h2_in f t h1 h2 Eh) as [N1 N2].
      assert (Hb : pol_dim1 si sg (pc_f pu) /\ pol_dim1 si sg (pc_t pu) -> Forall vbase (t ++ f)).
      { intros [D1 D2]. destruct Af as [id [A1 [A2 _]]]. destruct At as [id' [A1' [A2' _]]]. pose proof (D1 _ _ _ _ A1 A2) as Q1. pose proof (D2 _ _ _ _ A1' A2') as Q2. apply Forall_app.
        split; apply Forall_forall; intros x Hx; apply in_map_iff in Hx; destruct Hx as [i [<- _]]; [rewrite Q2 | rewrite Q1]; unfold elem; cbn [Nat.eqb]; apply nth_vbase; [exact (proj2 Fft) | exact (proj2 Ff)]. }
      destruct Hc1 as [p1 [d1 [P1 [D1 B1]]]]. destruct Hc2 as [p2 [d2 [P2 [D2 B2]]]].
      destruct (nth_error (si_cm_n si) k) as [id1|] eqn:I1; [|unfold place in P1; rewrite I1 in P1; discriminate P1].
      destruct (nth_error (si_cm_n si) (k + 1)) as [id2|] eqn:I2; [|unfold place in P2; rewrite I2 in P2; discriminate P2].
      rewrite (place_map si k id1 I1) in P1. rewrite (place_map si (k + 1) id2 I2) in P2.
      assert (Dd1 : d1 = 1 \/ d1 = 3) by (destruct D1 as [D1|[D1 _]]; auto). assert (Dd2 : d2 = 1 \/ d2 = 3) by (destruct D2 as [D2|[D2 _]]; auto).
      rewrite (vget_some _ _ _ I1), bindE. destruct (write_pol_ok si m id1 h1 Scm2_n p1 d1 P1) as [ma Wa]; try assumption; [cbn; tauto | lia|]. rewrite Wa, bindE.
      destruct (write_pol_col si m id1 h1 ma Scm2_n p1 d1 Wa P1) as [_ [Fa _]]; [cbn; tauto | exact F2 | exact B1 | exact Dd1 | lia | |].
      { intros ->. destruct D1 as [D1|[_ D1]]; [discriminate D1|]. apply Forall_forall. intros x Hx. exact (proj1 (Forall_forall _ _) (Hb D1) x (N1 x Hx)). }
      rewrite (vget_some _ _ _ I2), bindE. destruct (write_pol_ok si ma id2 h2 Scm2_n p2 d2 P2) as [mb Wb]; try assumption; [cbn; tauto | lia|]. rewrite Wb, bindE. eexists. reflexivity.
  Qed.
  (* the lookups at cm columns k, k + 1, ... *)
  Lemma h_ends l : forall m k, full si m Scm2_n -> full si m Scm3_n -> full si m Stmpexp_n ->
    (forall t pu, nth_error l t = Some pu -> hcol si sg (k + 2 * t) pu /\ hcol si sg (k + 2 * t + 1) pu) ->
    (forall pu, In pu l -> exists sf pf st pt dim, pol_at si sg (pc_f pu) sf pf dim /\ pol_at si sg (pc_t pu) st pt dim) ->
    ((exists x, foldM (h1h2_stage si sg) l (m, k) = Ok x) <-> forall pu, In pu l -> every_f m pu).
  Proof.
    induction l as [|pu l IH]; intros m k F2 F3 Ft Hh Hp.
    - cbn [foldM]. split; [intros _ pu [] | intros _; eexists; reflexivity].
    - destruct (Hp pu (or_introl eq_refl)) as [sf [pf [st [pt [dim [Af At]]]]]]. destruct (Hh 0 pu eq_refl) as [C1 C2]. rewrite Nat.mul_0_r, Nat.add_0_r in C1, C2.
      pose proof (h_step m k pu _ _ _ _ _ _ F2 F3 Ft C1 C2 Af At) as HS. cbn [foldM].
      assert (Nx : forall m' k', h1h2_stage si sg (m, k) pu = Ok (m', k') -> ((exists x, foldM (h1h2_stage si sg) l (m', k') = Ok x) <-> forall pu, In pu l -> every_f m pu)).
      { intros m' k' E. destruct (h_step_inv m k pu m' k' F2 F3 Ft C1 C2 (pol_at_in _ _ _ _ Af) (pol_at_in _ _ _ _ At) E) as [-> [S1 F']].
        rewrite (IH m' (k + 2)).
        - assert (Q : forall q, In q l -> (every_f m' q <-> every_f m q)).
          { intros q Hq. destruct (Hp q (or_intror Hq)) as [s1 [p1 [s2 [p2 [d [A1 A2]]]]]]. assert (G : forall e s pos i, pol_at si sg e s pos d -> polval si sg m' e i = polval si sg m e i).
            { intros e s pos i A. rewrite !(pol_at_val _ _ _ _ _ _ A). destruct A as [_ [_ [_ [[-> | ->] _]]]]; rewrite (proj1 S1) by sout; reflexivity. }
            unfold every_f. split; intros H i Hi; destruct (H i Hi) as [j [Hj E1]]; exists j; (split; [exact Hj|]); [rewrite <- (G _ _ _ _ A1), <- (G _ _ _ _ A2) | rewrite (G _ _ _ _ A1), (G _ _ _ _ A2)]; exact E1. }
          split; intros H q Hq; apply (Q q Hq), H, Hq.
        - exact F'.
        - unfold full. rewrite (proj1 S1) by sout. exact F3.
        - unfold full. rewrite (proj1 S1) by sout. exact Ft.
        - intros t q Hq. replace (k + 2 + 2 * t) with (k + 2 * S t) by lia. exact (Hh (S t) q Hq).
        - intros q Hq. exact (Hp q (or_intror Hq)). }
      split.
      + intros [x E]. apply bind_ok in E. destruct E as [[m' k'] [E1 E]]. pose proof (proj1 (Nx m' k' E1) (ex_intro _ x E)) as H1. pose proof (proj1 HS (ex_intro _ _ E1)) as [_ H2].
        intros q [<-|Hq]; [exact H2 | exact (H1 q Hq)].
      + intros H. destruct (proj2 HS (conj eq_refl (H pu (or_introl eq_refl)))) as [[m' k'] E1]. rewrite E1, bindE. apply (Nx m' k' E1). intros q Hq. apply H. now right.
  Qed.
  (* the column of number a *)
  Definition hval (m : mem) (a i : nat) : K := match place si a with Some (s, pos, dim) => val (elem (m_sec m s) (si_width si s) pos dim i) | None => kzero end.
  (* no two of the columns k, k + 1, ... share a cell *)
  Definition apart (k n : nat) : Prop := forall a b s p d p' d', k <= a < k + n -> k <= b < k + n -> a <> b -> place si a = Some (s, p, d) -> place si b = Some (s, p', d') -> p + d <= p' \/ p' + d' <= p.
  Local Notation w2 := (si_width si Scm2_n).
  Lemma h_one m k pu m' k' : full si m Scm2_n -> full si m Scm3_n -> full si m Stmpexp_n -> hcol si sg k pu -> hcol si sg (k + 1) pu -> pol_in si sg (pc_f pu) -> pol_in si sg (pc_t pu) -> apart k 2 ->
    h1h2_stage si sg (m, k) pu = Ok (m', k') ->
    (forall g c, g < N -> c < w2 -> (forall a p d, k <= a < k + 2 -> place si a = Some (Scm2_n, p, d) -> c < p \/ p + d <= c) -> nth_error (m_sec m' Scm2_n) (c + g * w2) = nth_error (m_sec m Scm2_n) (c + g * w2)) /\
    exists f t h1 h2, length f = N /\ length t = N /\ (forall i, i < N -> val (nth i f e_ZERO) = polval si sg m (pc_f pu) i /\ val (nth i t e_ZERO) = polval si sg m (pc_t pu) i) /\ calculate_H1H2 f t = Ok (h1, h2) /\
      forall i, i < N -> hval m' k i = val (nth i h1 e_ZERO) /\ hval m' (k + 1) i = val (nth i h2 e_ZERO).
  Proof.
    intros F2 F3 Ft Hc1 Hc2 Pf Pt HD E1. unfold h1h2_stage in E1.
    apply bind_ok in E1. destruct E1 as [fid [Ef E1]]. apply bind_ok in E1. destruct E1 as [f [Rf E1]]. apply bind_ok in E1. destruct E1 as [tid [Et E1]]. apply bind_ok in E1. destruct E1 as [t [Rt E1]].
    apply bind_ok in E1. destruct E1 as [[h1 h2] [Eh E1]]. apply bind_ok in E1. destruct E1 as [id1 [I1 E1]]. apply bind_ok in E1. destruct E1 as [ma [W1 E1]].
    apply bind_ok in E1. destruct E1 as [id2 [I2 E1]]. apply bind_ok in E1. destruct E1 as [mb [W2 E1]]. apply ok_inj in E1. injection E1 as <- <-. cbn [fst snd] in *.
    apply vget_inv in I1, I2.
    destruct (Pf fid Ef) as [sf [pf [df [Mf [Sf [Df Bf]]]]]]. destruct (Pt tid Et) as [st [pt [dt [Mt [St [Dt Bt]]]]]].
    assert (Nf : nsec sf) by (destruct Sf as [-> | ->]; cbn; tauto). assert (Nt : nsec st) by (destruct St as [-> | ->]; cbn; tauto).
    assert (Ff : full si m sf) by (destruct Sf as [-> | ->]; assumption). assert (Fft : full si m st) by (destruct St as [-> | ->]; assumption).
    destruct (read_pol_col si m fid f sf pf df Rf Mf Nf Ff Bf Df) as [Lf Vf]. destruct (read_pol_col si m tid t st pt dt Rt Mt Nt Fft Bt Dt) as [Lt Vt].
    destruct (h1h2_spec f t h1 h2 Eh) as [L1 [L2 _]]. destruct (h1h2_in f t h1 h2 Eh) as [N1 N2].
    assert (Hb : pol_dim1 si sg (pc_f pu) /\ pol_dim1 si sg (pc_t pu) -> Forall vbase (t ++ f)).
    { intros [D1 D2]. pose proof (D1 _ _ _ _ Ef Mf) as ->. pose proof (D2 _ _ _ _ Et Mt) as ->. apply Forall_app.
      split; [exact (base_col si m tid t st pt Rt Mt Nt Fft Bt) | exact (base_col si m fid f sf pf Rf Mf Nf Ff Bf)]. }
    destruct Hc1 as [p1 [d1 [P1 [D1 B1]]]]. destruct Hc2 as [p2 [d2 [P2 [D2 B2]]]]. pose proof P1 as Q1. pose proof P2 as Q2.
    rewrite (place_map si k id1 I1) in P1. rewrite (place_map si (k + 1) id2 I2) in P2.
    assert (Dd1 : d1 = 1 \/ d1 = 3) by (destruct D1 as [D1|[D1 _]]; auto). assert (Dd2 : d2 = 1 \/ d2 = 3) by (destruct D2 as [D2|[D2 _]]; auto).
    destruct (write_pol_col si m id1 h1 ma Scm2_n p1 d1 W1 P1) as [Sa [Fa [Va Ka]]]; [cbn; tauto | exact F2 | exact B1 | exact Dd1 | lia | |].
    { intros ->. destruct D1 as [D1|[_ D1]]; [discriminate D1|]. apply Forall_forall. intros x Hx. exact (proj1 (Forall_forall _ _) (Hb D1) x (N1 x Hx)). }
    destruct (write_pol_col si ma id2 h2 mb Scm2_n p2 d2 W2 P2) as [Sb [Fb [Vb Kb]]]; [cbn; tauto | exact Fa | exact B2 | exact Dd2 | lia | |].
    { intros ->. destruct D2 as [D2|[_ D2]]; [discriminate D2|]. apply Forall_forall. intros x Hx. exact (proj1 (Forall_forall _ _) (Hb D2) x (N2 x Hx)). }
    pose proof (HD k (k + 1) Scm2_n p1 d1 p2 d2 ltac:(lia) ltac:(lia) ltac:(lia) Q1 Q2) as Hapart.
    split.
    - intros g c Hg Hc HO. rewrite (Kb g c Hg Hc) by (apply (HO (k + 1)); [lia | exact Q2]). apply (Ka g c Hg Hc). apply (HO k); [lia | exact Q1].
    - exists f, t, h1, h2. split; [exact Lf|]. split; [exact Lt|]. split; [|split; [exact Eh|]].
      + intros i Hi. rewrite (Vf i Hi), (Vt i Hi). unfold polval. rewrite Ef, Mf, Et, Mt. split; reflexivity.
      + intros i Hi. unfold hval. rewrite Q1, Q2. split; [|exact (Vb i Hi)]. rewrite <- (Va i Hi). refine (f_equal val _). apply elem_ext; [exact Dd1|]. intros c Hc. apply Kb; [exact Hi | lia | lia].
  Qed.
  Lemma h_fold l : forall m k m' k', full si m Scm2_n -> full si m Scm3_n -> full si m Stmpexp_n ->
    (forall t pu, nth_error l t = Some pu -> hcol si sg (k + 2 * t) pu /\ hcol si sg (k + 2 * t + 1) pu /\ pol_in si sg (pc_f pu) /\ pol_in si sg (pc_t pu)) -> apart k (2 * length l) ->
    foldM (h1h2_stage si sg) l (m, k) = Ok (m', k') ->
    (forall g c, g < N -> c < w2 -> (forall a p d, k <= a < k + 2 * length l -> place si a = Some (Scm2_n, p, d) -> c < p \/ p + d <= c) -> nth_error (m_sec m' Scm2_n) (c + g * w2) = nth_error (m_sec m Scm2_n) (c + g * w2)) /\
    forall t pu, nth_error l t = Some pu -> exists f tt h1 h2, length f = N /\ length tt = N /\
      (forall i, i < N -> val (nth i f e_ZERO) = polval si sg m (pc_f pu) i /\ val (nth i tt e_ZERO) = polval si sg m (pc_t pu) i) /\ calculate_H1H2 f tt = Ok (h1, h2) /\
      forall i, i < N -> hval m' (k + 2 * t) i = val (nth i h1 e_ZERO) /\ hval m' (k + 2 * t + 1) i = val (nth i h2 e_ZERO).
  Proof.
    induction l as [|q l IH]; intros m k m' k' F2 F3 Ft Hh HD E.
    - cbn [foldM] in E. injection E as <- <-. split; [reflexivity|]. intros [|t] pu Ht; discriminate Ht.
    - cbn [foldM] in E. apply bind_ok in E. destruct E as [[m1 k1] [E1 E]]. destruct (Hh 0 q eq_refl) as [C1 [C2 [Pf Pt]]]. rewrite Nat.mul_0_r, Nat.add_0_r in C1, C2.
      cbn [length] in HD |- *.
      destruct (h_step_inv m k q m1 k1 F2 F3 Ft C1 C2 Pf Pt E1) as [-> [S1 F1]].
      destruct (h_one m k q m1 (k + 2) F2 F3 Ft C1 C2 Pf Pt) as [K1 V1]; [|exact E1|].
      { intros a b s p d p' d' Ha Hb. apply HD; lia. }
      destruct (IH m1 (k + 2) m' k' F1) as [K2 V2].
      + unfold full. rewrite (proj1 S1) by sout. exact F3.
      + unfold full. rewrite (proj1 S1) by sout. exact Ft.
      + intros t pu Ht. replace (k + 2 + 2 * t) with (k + 2 * S t) by lia. exact (Hh (S t) pu Ht).
      + intros a b s p d p' d' Ha Hb. apply HD; lia.
      + exact E.
      + split.
        * intros g c Hg Hc HO. rewrite K2 by (first [assumption | intros a p d Ha; apply HO; lia]). apply K1; [exact Hg | exact Hc|]. intros a p d Ha. apply HO. lia.
        * intros [|t] pu Ht.
          -- cbn in Ht. injection Ht as <-. rewrite Nat.mul_0_r, Nat.add_0_r. destruct V1 as [f [tt [h1 [h2 [A1 [A2 [A3 [A4 A5]]]]]]]]. exists f, tt, h1, h2. split; [exact A1|]. split; [exact A2|]. split; [exact A3|]. split; [exact A4|].
             assert (G : forall a i, k <= a < k + 2 -> hcol si sg a q -> i < N -> hval m' a i = hval m1 a i).
             { intros a i Ha [p [d [Q [Qd Qb]]]] Hi. unfold hval. rewrite Q. refine (f_equal val _). apply elem_ext; [destruct Qd as [Qd|[Qd _]]; auto|].
               intros c Hc. apply K2; [exact Hi | lia|]. intros b p' d' Hb Eb. destruct (HD a b Scm2_n p d p' d' ltac:(lia) ltac:(lia) ltac:(lia) Q Eb); lia. }
             intros i Hi. rewrite (G k i ltac:(lia) C1 Hi), (G (k + 1) i ltac:(lia) C2 Hi). exact (A5 i Hi).
          -- cbn in Ht. destruct (V2 t pu Ht) as [f [tt [h1 [h2 [A1 [A2 [A3 [A4 A5]]]]]]]]. exists f, tt, h1, h2. split; [exact A1|]. split; [exact A2|]. replace (k + 2 * S t) with (k + 2 + 2 * t) by lia. split; [|split; [exact A4 | exact A5]].
             destruct (Hh (S t) pu Ht) as [_ [_ [P1 P2]]].
             assert (G : forall e i, pol_in si sg e -> polval si sg m1 e i = polval si sg m e i).
             { intros e i Pe. unfold polval. destruct (st_exp2pol sg e) as [id| | |] eqn:Ee; try reflexivity. destruct (Pe id Ee) as [s [pos [dim [M1 [M2 _]]]]]. rewrite M1.
               destruct M2 as [-> | ->]; rewrite (proj1 S1) by sout; reflexivity. }
             intros i Hi. destruct (A3 i Hi) as [X1 X2]. rewrite X1, X2. split; apply G; assumption.
  Qed.
  (* a lookup whose columns f and t have different numbers of components *)
  Lemma h_mixed l : forall m k t pu sf pf df st pt dt, full si m Scm2_n -> full si m Scm3_n -> full si m Stmpexp_n ->
    (forall t pu, nth_error l t = Some pu -> hcol si sg (k + 2 * t) pu /\ hcol si sg (k + 2 * t + 1) pu /\ pol_in si sg (pc_f pu) /\ pol_in si sg (pc_t pu)) ->
    nth_error l t = Some pu -> pol_at si sg (pc_f pu) sf pf df -> pol_at si sg (pc_t pu) st pt dt -> df <> dt -> forall x, foldM (h1h2_stage si sg) l (m, k) <> Ok x.
  Proof.
    induction l as [|q l IH]; intros m k t pu sf pf df st pt dt F2 F3 Ft Hh Ht Af At Hd x E; [destruct t; discriminate Ht|].
    cbn [foldM] in E. apply bind_ok in E. destruct E as [[m' k'] [E1 E]]. destruct (Hh 0 q eq_refl) as [C1 [C2 [Pf Pt]]]. rewrite Nat.mul_0_r, Nat.add_0_r in C1, C2. destruct t as [|t].
    - cbn in Ht. injection Ht as ->. destruct (proj1 (h_step m k pu _ _ _ _ _ _ F2 F3 Ft C1 C2 Af At) (ex_intro _ _ E1)) as [Q _]. exact (Hd Q).
    - destruct (h_step_inv m k q m' k' F2 F3 Ft C1 C2 Pf Pt E1) as [-> [S1 F']]. refine (IH m' (k + 2) t pu sf pf df st pt dt F' _ _ _ Ht Af At Hd x E).
      + unfold full. rewrite (proj1 S1) by sout. exact F3.
      + unfold full. rewrite (proj1 S1) by sout. exact Ft.
      + intros i o Ho. replace (k + 2 + 2 * i) with (k + 2 * S i) by lia. exact (Hh (S i) o Ho).
  Qed.
End H.

(** ** z *)
Section Z.
  Variables (si : sinfo) (sg : stageprog) (l : list pcctx) (k0 : nat) (zp : nat -> nat).
  Local Notation N := (2 ^ si_nbits si).
  Local Notation w3 := (si_width si Scm3_n).
  Hypothesis Hplace : forall t, t < length l -> place si (k0 + t) = Some (Scm3_n, zp t, 3) /\ zp t + 3 <= w3.
  Hypothesis Hdisj : forall t t', t < length l -> t' < length l -> t <> t' -> zp t + 3 <= zp t' \/ zp t' + 3 <= zp t.
  Hypothesis Hat : forall o e, In o l -> e = pc_num o \/ e = pc_den o -> exists s pos dim, pol_at si sg e s pos dim /\ (s = Scm3_n -> forall t, t < length l -> pos + dim <= zp t \/ zp t + 3 <= pos).
  (* the products over all rows agree and no denominator is zero *)
  Definition balanced (m : mem) (o : pcctx) : Prop :=
    kprod (map (polval si sg m (pc_num o)) (seq 0 N)) = kprod (map (polval si sg m (pc_den o)) (seq 0 N)) /\ forall i, i < N -> polval si sg m (pc_den o) i <> kzero.
  Lemma z_src o : In o l -> src si sg l zp (pc_num o) /\ src si sg l zp (pc_den o).
  Proof.
    intros Ho. split; intros id E; [destruct (Hat o (pc_num o) Ho (or_introl eq_refl)) as [s [pos [dim [[id' [A1 [A2 [A3 [A4 A5]]]]] D]]]]
      | destruct (Hat o (pc_den o) Ho (or_intror eq_refl)) as [s [pos [dim [[id' [A1 [A2 [A3 [A4 A5]]]]] D]]]]]; rewrite A1 in E; apply ok_inj in E; subst id'; exists s, pos, dim; auto.
  Qed.
  Lemma firstn_next n o : nth_error l n = Some o -> firstn (S n) l = firstn n l ++ [o].
  Proof.
    clear. revert n. induction l as [|a l' IHl]; intros [|n] Eo; cbn in Eo; try discriminate Eo; [injection Eo as ->; reflexivity|]. cbn [firstn app]. f_equal. now apply IHl.
  Qed.
  Lemma z_ends m : full si m Scm3_n -> full si m Stmpexp_n -> forall n, n <= length l ->
    ((exists x, foldM (z_stage si sg) (firstn n l) (m, k0) = Ok x) <-> forall t o, t < n -> nth_error l t = Some o -> balanced m o).
  Proof.
    intros F3 Ft. induction n as [|n IH]; intros Hn; [cbn; split; [intros _ t o Ht; lia | intros _; eexists; reflexivity]|].
    destruct (nth_error l n) as [o|] eqn:Eo; [|apply nth_error_None in Eo; lia]. rewrite (firstn_next n o Eo), foldM_app. pose proof (nth_error_In _ _ Eo) as Ho.
    assert (HN : 0 < N) by (apply Nat.neq_0_lt_0, Nat.pow_nonzero; discriminate).
    assert (Nx : forall m1 k1, foldM (z_stage si sg) (firstn n l) (m, k0) = Ok (m1, k1) -> ((exists x, z_stage si sg (m1, k1) o = Ok x) <-> balanced m o)).
    { intros m1 k1 E1. destruct (z_fold si sg l k0 zp Hplace Hdisj z_src m F3 Ft n ltac:(lia) m1 k1 E1) as [-> [S1 [F1 [K1 _]]]].
      assert (K1' : forall g c, g < N -> c < w3 -> (forall t, t < length l -> c < zp t \/ zp t + 3 <= c) -> nth_error (m_sec m1 Scm3_n) (c + g * w3) = nth_error (m_sec m Scm3_n) (c + g * w3)).
      { intros g c Hg Hc Hz. apply K1; [exact Hg | exact Hc|]. intros t Ht. apply Hz. lia. }
      assert (Ft1 : full si m1 Stmpexp_n) by (unfold full; rewrite (proj1 S1) by sout; exact Ft).
      destruct (z_src o Ho) as [Sn Sd].
      destruct (Hat o (pc_num o) Ho (or_introl eq_refl)) as [sn [pn [dn [An _]]]]. destruct (Hat o (pc_den o) Ho (or_intror eq_refl)) as [sd [pd [dd [Ad _]]]].
      destruct (pol_at_read si sg _ _ _ _ m1 An F1 Ft1) as [nid [En [Rn _]]]. destruct (pol_at_read si sg _ _ _ _ m1 Ad F1 Ft1) as [did [Ed [Rd _]]].
      set (num := map (elem (m_sec m1 sn) (si_width si sn) pn dn) (seq 0 N)) in *. set (den := map (elem (m_sec m1 sd) (si_width si sd) pd dd) (seq 0 N)) in *.
      destruct (read_src si sg l zp m m1 (pc_num o) nid num F1 Ft1 S1 Sn K1' En Rn) as [Ln Vn]. destruct (read_src si sg l zp m m1 (pc_den o) did den F1 Ft1 S1 Sd K1' Ed Rd) as [Ld Vd].
      unfold z_stage. rewrite En, bindE, Rn, bindE, Ed, bindE, Rd, bindE. unfold balanced. rewrite <- (ArgTop.list_vals N num _ Ln Vn), <- (ArgTop.list_vals N den _ Ld Vd).
      assert (Q : (exists z, calculate_Z num den = Ok z) <-> kprod (map val num) = kprod (map val den) /\ forall i, i < N -> polval si sg m (pc_den o) i <> kzero).
      { rewrite calculate_Z_iff. split.
        - intros [_ [_ [H1 H2]]]. split; [exact H2|]. intros i Hi. rewrite <- (Vd i Hi). exact (proj1 (Forall_forall _ _) H1 _ (nth_In den e_ZERO (eq_ind_r (fun x => i < x) Hi Ld))).
        - intros [H1 H2]. split; [congruence|]. split; [intros X; rewrite X in Ln; cbn in Ln; lia|]. split; [|exact H1]. apply Forall_forall. intros x Hx. destruct (In_nth _ _ e_ZERO Hx) as [i [Hi <-]].
          rewrite Ld in Hi. rewrite (Vd i Hi). apply H2, Hi. }
      rewrite <- Q. split.
      - intros [x E]. apply bind_ok in E. destruct E as [z [E _]]. exists z. exact E.
      - intros [z Ez]. rewrite Ez, bindE. destruct (calculate_Z_spec num den z Ez) as [Lz _]. destruct (Hplace n ltac:(lia)) as [Pz Bz].
        destruct (nth_error (si_cm_n si) (k0 + n)) as [id|] eqn:Eid; [|unfold place in Pz; rewrite Eid in Pz; discriminate Pz]. rewrite (place_map si _ id Eid) in Pz.
        rewrite (vget_some _ _ _ Eid), bindE. destruct (write_pol_ok si m1 id z Scm3_n (zp n) 3 Pz) as [m' W]; [cbn; tauto | exact F1 | exact Bz | now right | lia|]. rewrite W, bindE. eexists. reflexivity. }
    split.
    - intros [x E]. apply bind_ok in E. destruct E as [[m1 k1] [E1 E]]. cbn [foldM] in E. apply bind_ok in E. destruct E as [y [E2 _]].
      pose proof (proj1 (IH ltac:(lia)) (ex_intro _ _ E1)) as H1. pose proof (proj1 (Nx m1 k1 E1) (ex_intro _ _ E2)) as H2. intros t o' Ht Eo'.
      destruct (Nat.eq_dec t n) as [->|Hne]; [rewrite Eo in Eo'; injection Eo' as <-; exact H2 | exact (H1 t o' ltac:(lia) Eo')].
    - intros H. destruct (proj2 (IH ltac:(lia))) as [[m1 k1] E1]; [intros t o' Ht; apply H; lia|]. rewrite E1, bindE. destruct (proj2 (Nx m1 k1 E1) (H n o ltac:(lia) Eo)) as [y E2].
      cbn [foldM]. rewrite E2, bindE. eexists. reflexivity.
  Qed.
  Lemma z_all m : full si m Scm3_n -> full si m Stmpexp_n -> ((exists x, foldM (z_stage si sg) l (m, k0) = Ok x) <-> forall o, In o l -> balanced m o).
  Proof.
    intros F3 Ft. pose proof (z_ends m F3 Ft (length l) (le_n _)) as H. rewrite firstn_all in H. rewrite H. split; intros G.
    - intros o Ho. apply In_nth_error in Ho. destruct Ho as [t Ht]. apply (G t o); [apply nth_error_Some; congruence | exact Ht].
    - intros t o _ Ho. apply G. exact (nth_error_In _ _ Ho).
  Qed.
End Z.

(** ** the stages *)
Section Whole.
  Variable perm : list Fr -> list Fr -> list Fr.
  Hypothesis perm_len : forall i s, length (perm i s) = 12.
  Variables (fuel gfuel workers w0 : nat) (si : sinfo) (sg : stageprog) (tbl : list expr) (ids : list nat) (ncm md : nat) (ce : cexp) (pg : program) (cp kp : pols) (tc : tree) (br0 br : brstate).
  Variables (texp : list (nat * nat)) (td2 td3 td4 : nat -> bool) (fl : nat) (ids2 ids3 ids4 : list nat) (s2 s3 s4 : nat) (c2 c3 c4 : context) (R2 R3 R4 RA RT : bool * nat -> Prop)
    (pids : list nat) (l1 : nat) (zp : nat -> nat) (ac : nat -> nat * nat).
  Local Notation kcm := (ncm + length (ce_im ce)).
  Local Notation im := (ce_im ce).
  Local Notation N := (2 ^ si_nbits si).
  Local Notation Ne := (2 ^ si_nbits_ext si).
  Local Notation args := (st_pu sg ++ st_pe sg ++ st_ci sg).
  Local Notation kz := (st_ncm1 sg + 2 * length (st_pu sg)).

  (* the programs are compiled; f and t of a lookup are kept in step 2, where stage 2 looks for them *)
  Record argends : Prop := {
    ae_code : (exists b, compile_code si (sg_first (st_step2prev sg)) true false = Ok b) /\ (exists b, compile_code si (sg_first (st_step3prev sg)) true false = Ok b) /\
      exists b, compile_code si (sg_first (st_step3 sg)) true false = Ok b;
    ae_ft : forall pu e, In pu (st_pu sg) -> e = pc_f pu \/ e = pc_t pu -> In e ids2 /\ exists q id, kcol si im texp e = Some q /\ st_exp2pol sg e = Ok id /\ nth_error (si_map si) id = Some q }.
  (* f and t of a lookup have the same number of components *)
  Definition same_dims (pu : pcctx) : Prop :=
    exists s pos s' pos' dim, kcol si im texp (pc_f pu) = Some (s, pos, dim) /\ kcol si im texp (pc_t pu) = Some (s', pos', dim).
  (* in the rows of memory m every value of f is a value of t *)
  Definition taken (m : mem) (pu : pcctx) : Prop := forall i, i < N -> exists j x, j < N /\
    ArgGen.va tbl (row_of si m i) false (E_exp (pc_f pu) false) x /\ ArgGen.va tbl (row_of si m j) false (E_exp (pc_t pu) false) x.
  (* in the rows of memory m the denominators are not zero and numerators and denominators have the same product *)
  Definition weighed (m : mem) (o : pcctx) : Prop := exists a d : nat -> K,
    (forall i, i < N -> ArgGen.va tbl (row_of si m i) false (E_exp (pc_num o) false) (a i) /\ ArgGen.va tbl (row_of si m i) false (E_exp (pc_den o) false) (d i) /\ d i <> kzero) /\
    kprod (map a (seq 0 N)) = kprod (map d (seq 0 N)).

  Hypothesis Hw : workers <> 0.
  Hypothesis Hw0 : w0 <> 0.
  Hypothesis HM : machine fuel gfuel si sg tbl ids ncm md ce pg.
  Hypothesis HI : inputs perm w0 si cp kp tc br0 br.
  Hypothesis HA : argmachine si sg tbl ids ce texp td2 td3 td4 fl ids2 ids3 ids4 s2 s3 s4 c2 c3 c4 R2 R3 R4 RA RT pids l1 zp ac.
  Hypothesis HE : argends.

  (* what the second stage is given *)
  Record given (k : nat) (m : mem) (result : list F3G) (tr : transcript) (b : brstate) : Prop := {
    gv_base : nbase si sg cp kp m; gv_drawn : drawn sg k m;
    gv_l2 : length (m_sec m Scm2_2ns) = Ne * si_width si Scm2_n; gv_l3 : length (m_sec m Scm3_2ns) = Ne * si_width si Scm3_n;
    gv_res : Forall vbase result; gv_tr : TranscriptProof.wf tr; gv_br : nice b }.
  Lemma sizes : nPols cp = si_width si Scm1_n /\ p_n cp = N /\ nPols kp = si_nconst si /\ p_n kp = N /\ 1 <= si_nbits si <= si_nbits_ext si /\ si_nbits_ext si <= 24 /\
    forall s, In s [Scm1_n; Scm2_n; Scm3_n] -> si_width si s <= MAX_OPS.
  Proof.
    pose proof HM as [C Hb24 La Hpb Hh Hz]. pose proof HI as [[I1 [I2 [I3 I4]]] [J1 [J2 J3]] Hbr Hsu]. destruct (cf_bits _ _ _ _ _ _ _ _ _ _ C) as [B1 B2].
    destruct (setup_ok _ _ _ _ _ _ _ _ _ perm_len Hw0 B1 B2 (la_const _ _ La) J1 J2 J3 Hbr Hsu) as [K1 _].
    split; [exact I4|]. split; [exact I3|]. split; [exact K1|]. split; [exact J3|]. split; [exact B1|]. split; [exact Hb24|].
    intros s Hs. cbn in Hs. destruct Hs as [<-|[<-|[<-|[]]]]; eapply (la_width _ _ La); [left | right; left | right; right; left]; reflexivity.
  Qed.
  Lemma base_pubs k m : nbase si sg cp kp m -> (forall j, j < k -> d3 (nth j (m_sec m Schallenge) e_ZERO) = true) -> drawn sg k m.
  Proof.
    intros B H. split; [rewrite (nb_pub _ _ _ _ _ B), map_length; reflexivity|]. split; [eapply Forall_impl; [|exact (pubs_base _ _ _ _ _ B)]; exact vbase_d3|]. split; [exact (proj2 (nb_cha _ _ _ _ _ B)) | exact H].
  Qed.

  Lemma first_ends m0 : start_mem si cp kp tc = Ok m0 -> exists ma ra t1 tra bra, stage1 perm workers si sg m0 br = Ok (ma, ra, t1, tra, bra) /\ given 2 ma ra tra bra.
  Proof.
    intros Es. pose proof HM as [C Hb24 La Hpb Hh Hz]. pose proof HI as [[I1 [I2 [I3 I4]]] [J1 [J2 J3]] Hbr Hsu].
    destruct (cf_bits _ _ _ _ _ _ _ _ _ _ C) as [B1 B2]. destruct sizes as [_ [_ [Kw [_ [_ [_ Hwd]]]]]].
    destruct (start_ok _ _ _ _ _ B1 B2 I1 I2 J1 J2 Es) as [A1 [A2 [A3 [A4 [A5 [A6 [A7 [A8 [A9 [A10 [A11 [A12 [A13 [A14 [A15 [A16 A17]]]]]]]]]]]]]]]].
    destruct (setup_ok _ _ _ _ _ _ _ _ _ perm_len Hw0 B1 B2 (la_const _ _ La) J1 J2 J3 Hbr Hsu) as [K1 [K2 _]].
    pose proof (am_pub _ _ _ _ _ _ _ _ _ _ _ _ _ _ _ _ _ _ _ _ _ _ _ _ _ _ _ _ HA) as Hpp.
    assert (F1 : full si m0 Scm1_n) by (split; rewrite A1; [rewrite table_len, I3, I4; reflexivity | apply from_base]).
    assert (Zf : forall s, m_sec m0 s = repeat e_ZERO (si_width si s * N) -> full si m0 s) by (intros s E; split; rewrite E; [rewrite repeat_length; apply Nat.mul_comm | apply zeros_base]).
    assert (X : exists ma ra t1 tra bra, stage1 perm workers si sg m0 br = Ok (ma, ra, t1, tra, bra)).
    { destruct (publics_plain si sg m0 cp A1 I1 I3 I4 Hpp) as [mx [Q1 [Q2 Sa]]].
      destruct (elems_ok perm perm_len (m_sec mx Spublics) tr_new TranscriptProof.new_wf) as [ta [Ta Wa]].
      destruct (commit_ok perm perm_len workers si Scm1_n Scm1_2ns mx (repeat e_ZERO (Ne * 8)) ta br) as [mb [rb [t1 [r1 [tb [bb [Eb [Cb [Rb [Tb [Wb Nb]]]]]]]]]]]; try assumption; try lia;
        [apply Hwd; now left | rewrite (proj1 Sa) by sout; exact (proj1 F1) | rewrite (proj1 Sa) by sout; exact (proj2 F1) | rewrite (proj1 Sa) by sout; rewrite A8, repeat_length; apply Nat.mul_comm | apply zeros_base|].
      destruct (challenge_ok perm perm_len tb Wb) as [u [tc1 [Ec1 Wc1]]]. destruct (challenge_ok perm perm_len tc1 Wc1) as [dv [td [Ed Wd]]].
      assert (Cbc : length (m_sec mb Schallenge) = 8) by (rewrite (proj1 (cd_same _ _ _ _ _ _ _ _ Cb)), (proj1 Sa) by sout; rewrite A6; reflexivity).
      destruct (set_challenge_ok mb 0 u ltac:(lia)) as [l0 [E0 [Ll0 _]]].
      destruct (set_challenge_ok (m_set mb Schallenge l0) 1 dv ltac:(rewrite m_set_same; lia)) as [l2 [E1 [Ll1 _]]].
      do 5 eexists. unfold stage1. rewrite Q1, bindE, Ta, bindE. cbv zeta. rewrite Eb, bindE. cbv beta iota. rewrite Ec1, bindE. cbv beta iota. rewrite E0, bindE, Ed, bindE. cbv beta iota. rewrite E1, bindE. reflexivity. }
    destruct X as [ma [ra [t1 [tra [bra E1]]]]]. exists ma, ra, t1, tra, bra. split; [exact E1|].
    destruct (stage1_inv perm perm_len workers si sg Hw (conj B1 Hb24) Hwd Hpb m0 br ma ra t1 tra bra) as [r1 [x1 [x2 [x3 [u [dv [P1 [_ [P3 [P4 [P5 [_ [_ [P8 [P9 [P10 [mx [P11 P12]]]]]]]]]]]]]]]]]]; try assumption;
      [rewrite A8, repeat_length; apply Nat.mul_comm|].
    destruct (publics_plain si sg m0 cp A1 I1 I3 I4 Hpp) as [mx' [Q1 [Q2 _]]]. rewrite Q1 in P11. apply ok_inj in P11. subst mx'. rewrite Q2 in P12.
    pose proof (get_challenge_wf _ _ _ _ P8) as Wu. pose proof (get_challenge_wf _ _ _ _ P9) as Wd. pose proof (get_challenge_three _ _ _ _ P8) as Tu. pose proof (get_challenge_three _ _ _ _ P9) as Td.
    assert (Na : nbase si sg cp kp ma).
    { constructor; try (rewrite (proj1 P1) by sout; assumption).
      - unfold full. rewrite (proj1 P1) by sout. apply Zf, A14.
      - unfold full. rewrite (proj1 P1) by sout. apply Zf, A15.
      - unfold full. rewrite (proj1 P1) by sout. apply Zf, A16.
      - rewrite (proj2 P1). exact A4.
      - exact P12.
      - rewrite P10. split; [|reflexivity]. constructor; [exact Wu|]. constructor; [exact Wd|]. repeat (constructor; [exact wf_ZERO|]). constructor. }
    constructor; try assumption.
    - apply base_pubs; [exact Na|]. rewrite P10. intros j Hj. destruct j as [|[|j]]; [exact Tu | exact Td | lia].
    - rewrite (proj1 P1) by sout. rewrite A9, repeat_length. apply Nat.mul_comm.
    - rewrite (proj1 P1) by sout. rewrite A10, repeat_length. apply Nat.mul_comm.
  Qed.

  (* a kept expression after its step *)
  Lemma kept_va st c R ids' t0 td seg e s pos dim m p g : nseg si st im texp td tbl fl ids' t0 c seg R m -> nresult si st im texp tbl c m p -> In e ids' -> kcol si im texp e = Some (s, pos, dim) ->
    dim = 1 \/ dim = 3 -> si_width si s = sec_width si s -> g < N -> ArgGen.va tbl (row_of si m g) false (E_exp e false) (val (elem (m_sec p s) (si_width si s) pos dim g)).
  Proof.
    intros NS HR Hi K1 K2 K3 Hg. pose proof (gens_requested _ _ _ _ _ (ns_gen _ _ _ _ _ _ _ _ _ _ _ _ _ NS) e Hi) as X.
    destruct (kept_val si st im texp tbl c m p HR e g s pos dim X Hg K1 K2 K3) as [x [v [E1 [E2 E3]]]]. exists v. split; [|symmetry; exact E3]. eapply D_exp; [reflexivity | reflexivity | reflexivity | exact E1 | exact E2].
  Qed.
  Lemma ft_at pu e : In pu (st_pu sg) -> e = pc_f pu \/ e = pc_t pu -> exists s pos dim, kcol si im texp e = Some (s, pos, dim) /\ pol_at si sg e s pos dim /\ si_width si s = sec_width si s.
  Proof.
    intros Hp He. destruct (ae_ft HE pu e Hp He) as [_ [[[s pos] dim] [id [K1 [K2 K3]]]]]. exists s, pos, dim. split; [exact K1|].
    apply In_nth_error in Hp. destruct Hp as [t Ht]. destruct (am_h _ _ _ _ _ _ _ _ _ _ _ _ _ _ _ _ _ _ _ _ _ _ _ _ _ _ _ _ HA t pu Ht) as [_ [_ [Pf Pt]]].
    assert (P : pol_in si sg e) by (destruct He as [-> | ->]; assumption). destruct (P id K2) as [s' [pos' [dim' [Q1 [Q2 [Q3 Q4]]]]]]. rewrite K3 in Q1. injection Q1 as <- <- <-.
    split; [exists id; auto|]. destruct Q2 as [-> | ->]; reflexivity.
  Qed.
  Lemma ft_va ma mb pu e i : drawn sg 2 ma -> nresult si Step2prev im texp tbl c2 ma mb -> In pu (st_pu sg) -> e = pc_f pu \/ e = pc_t pu -> i < N ->
    ArgGen.va tbl (row_of si ma i) false (E_exp e false) (polval si sg mb e i).
  Proof.
    intros G HR Hp He Hi. pose proof (am_step2 _ _ _ _ _ _ _ _ _ _ _ _ _ _ _ _ _ _ _ _ _ _ _ _ _ _ _ _ HA ma G) as NS.
    destruct (ft_at pu e Hp He) as [s [pos [dim [K1 [K2 K3]]]]]. rewrite (pol_at_val _ _ _ _ _ _ _ _ K2). destruct K2 as [_ [_ [_ [_ [Hd _]]]]].
    eapply kept_va; try eassumption. exact (proj1 (ae_ft HE pu e Hp He)).
  Qed.
  Lemma taken_iff ma mb pu : drawn sg 2 ma -> nresult si Step2prev im texp tbl c2 ma mb -> In pu (st_pu sg) -> (every_f si sg mb pu <-> taken ma pu).
  Proof.
    intros G HR Hp. pose proof (am_step2 _ _ _ _ _ _ _ _ _ _ _ _ _ _ _ _ _ _ _ _ _ _ _ _ _ _ _ _ HA ma G) as NS.
    assert (V : forall e i, e = pc_f pu \/ e = pc_t pu -> i < N -> ArgGen.va tbl (row_of si ma i) false (E_exp e false) (polval si sg mb e i)).
    { intros e i He Hi. destruct (ft_at pu e Hp He) as [s [pos [dim [K1 [K2 K3]]]]]. rewrite (pol_at_val _ _ _ _ _ _ _ _ K2). destruct K2 as [_ [_ [_ [_ [Hd _]]]]].
      eapply kept_va; try eassumption. exact (proj1 (ae_ft HE pu e Hp He)). }
    unfold every_f, taken. split; intros H i Hi.
    - destruct (H i Hi) as [j [Hj E]]. exists j, (polval si sg mb (pc_f pu) i). split; [exact Hj|]. split; [apply V; auto | rewrite E; apply V; auto].
    - destruct (H i Hi) as [j [x [Hj [E1 E2]]]]. exists j. split; [exact Hj|]. rewrite (ArgGen.va_fun _ _ _ _ _ _ (V (pc_f pu) i ltac:(auto) Hi) E1), (ArgGen.va_fun _ _ _ _ _ _ (V (pc_t pu) j ltac:(auto) Hj) E2). reflexivity.
  Qed.

  Lemma step2_runs ma ra tra bra : given 2 ma ra tra bra -> exists mb, calculate_exps_parallel si Step2prev ma (st_step2prev sg) workers = Ok mb /\ nresult si Step2prev im texp tbl c2 ma mb /\ nbase si sg cp kp mb /\ same_but [Scm2_n; Scm3_n; Stmpexp_n] ma mb.
  Proof.
    intros [G1 G2 _ _ _ _ _]. destruct sizes as [Z1 [Z2 [Z3 [Z4 _]]]]. destruct (ae_code HE) as [[blk Eb] _].
    destruct (nseg_run _ _ _ _ _ _ _ _ _ _ _ _ _ _ _ (am_step2 _ _ _ _ _ _ _ _ _ _ _ _ _ _ _ _ _ _ _ _ _ _ _ _ _ _ _ _ HA ma G2) (nbase_mem _ _ _ _ (conj Z1 Z2) (conj Z3 Z4) Step2prev ma (or_introl eq_refl) G1) Eb Hw) as [mb [E HR]].
    pose proof (par_same _ _ _ _ _ _ E) as Sa. exists mb. split; [exact E|]. split; [exact HR|]. split; [|exact Sa]. exact (nbase_step si sg tbl cp kp (conj Z1 Z2) (conj Z3 Z4) Step2prev ma mb _ _ _ (or_introl eq_refl) G1 Sa HR).
  Qed.
  Lemma h_out mb m' k' : nbase si sg cp kp mb -> foldM (h1h2_stage si sg) (st_pu sg) (mb, st_ncm1 sg) = Ok (m', k') -> nbase si sg cp kp m' /\ k' = kz /\ same_but [Scm2_n] mb m'.
  Proof.
    intros B E. destruct (h1h2_same _ _ _ _ _ _ _ (mc_h _ _ _ _ _ _ _ _ _ _ HM) E) as [Sh K]. split; [|split; [exact K | exact Sh]]. destruct sizes as [Z1 [Z2 [Z3 [Z4 _]]]].
    pose proof (h1h2_full si sg (st_pu sg) mb (st_ncm1 sg) m' k' E (nb_cm2 _ _ _ _ _ B) (nb_cm3 _ _ _ _ _ B) (nb_tmp _ _ _ _ _ B) (am_h _ _ _ _ _ _ _ _ _ _ _ _ _ _ _ _ _ _ _ _ _ _ _ _ _ _ _ _ HA)) as Fh.
    eapply nbase_same; [exact (conj Z1 Z2) | exact (conj Z3 Z4) | |exact Sh | exact Fh | | | exact B].
    - intros s Hs. cbn in Hs. repeat (destruct Hs as [<-|Hs]; [sout|]). destruct Hs.
    - unfold full. rewrite (proj1 Sh) by sout. exact (nb_cm3 _ _ _ _ _ B).
    - unfold full. rewrite (proj1 Sh) by sout. exact (nb_tmp _ _ _ _ _ B).
  Qed.

  Lemma second_ends ma ra tra bra : given 2 ma ra tra bra -> (forall pu, In pu (st_pu sg) -> same_dims pu) ->
    ((exists x, stage2 perm workers si sg ma ra tra bra = Ok x) <-> forall pu, In pu (st_pu sg) -> taken ma pu).
  Proof.
    intros G Hd. destruct (step2_runs _ _ _ _ G) as [mb [E1 [R1 [Nb Sa]]]]. destruct sizes as [Z1 [Z2 [Z3 [Z4 [B1 [B2 Hwd]]]]]].
    assert (HE' : (exists x, foldM (h1h2_stage si sg) (st_pu sg) (mb, st_ncm1 sg) = Ok x) <-> forall pu, In pu (st_pu sg) -> taken ma pu).
    { rewrite (h_ends si sg (st_pu sg) mb (st_ncm1 sg) (nb_cm2 _ _ _ _ _ Nb) (nb_cm3 _ _ _ _ _ Nb) (nb_tmp _ _ _ _ _ Nb)).
      - split; intros H pu Hp; apply (taken_iff ma mb pu (gv_drawn _ _ _ _ _ G) R1 Hp), H, Hp.
      - intros t pu Ht. destruct (am_h _ _ _ _ _ _ _ _ _ _ _ _ _ _ _ _ _ _ _ _ _ _ _ _ _ _ _ _ HA t pu Ht) as [Q1 [Q2 _]]. auto.
      - intros pu Hp. destruct (ft_at pu (pc_f pu) Hp (or_introl eq_refl)) as [s [pos [dim [K1 [K2 _]]]]]. destruct (ft_at pu (pc_t pu) Hp (or_intror eq_refl)) as [s' [pos' [dim' [L1 [L2 _]]]]].
        destruct (Hd pu Hp) as [x1 [x2 [x3 [x4 [d [D1 D2]]]]]]. rewrite K1 in D1. rewrite L1 in D2. injection D1 as -> -> ->. injection D2 as -> -> ->. exists x1, x2, x3, x4, d. auto. }
    rewrite <- HE'. unfold stage2. rewrite E1, bindE. split.
    - intros [x E]. apply bind_ok in E. destruct E as [h [E _]]. exists h. exact E.
    - intros [[m' k'] E]. rewrite E, bindE. cbv beta iota. destruct (h_out mb m' k' Nb E) as [Nm [-> Sh]].
      destruct (commit_ok perm perm_len workers si Scm2_n Scm2_2ns m' ra tra bra) as [mf [rf [t2 [r2 [tf [bf [Ef [Cf [Rf [Tf [Wf Nf]]]]]]]]]]];
        [exact Hw | apply Hwd; right; now left | exact B1 | exact B2 | exact (proj1 (nb_cm2 _ _ _ _ _ Nm)) | exact (proj2 (nb_cm2 _ _ _ _ _ Nm))
        | rewrite (proj1 Sh) by sout; rewrite (proj1 Sa) by sout; exact (gv_l2 _ _ _ _ _ G) | exact (gv_res _ _ _ _ _ G) | exact (gv_br _ _ _ _ _ G) | exact (gv_tr _ _ _ _ _ G)|].
      rewrite Ef, bindE. cbv beta iota. destruct (challenge_ok perm perm_len tf Wf) as [ga [tg [Eg Wg]]]. destruct (challenge_ok perm perm_len tg Wg) as [be [th [Eh Wh]]].
      assert (Cfc : length (m_sec mf Schallenge) = 8) by (rewrite (proj1 (cd_same _ _ _ _ _ _ _ _ Cf)) by sout; exact (proj2 (nb_cha _ _ _ _ _ Nm))).
      destruct (set_challenge_ok mf 2 ga ltac:(lia)) as [l2 [E2 [Ll2 _]]]. destruct (set_challenge_ok (m_set mf Schallenge l2) 3 be ltac:(rewrite m_set_same; lia)) as [l3 [E3 _]].
      rewrite Eg, bindE. cbv beta iota. rewrite E2, bindE, Eh, bindE. cbv beta iota. rewrite E3, bindE. eexists. reflexivity.
  Qed.
  (* a lookup whose f and t have different numbers of components stops the prover *)
  Lemma second_mixed ma ra tra bra pu s pos dim s' pos' dim' : given 2 ma ra tra bra -> In pu (st_pu sg) -> kcol si im texp (pc_f pu) = Some (s, pos, dim) -> kcol si im texp (pc_t pu) = Some (s', pos', dim') ->
    dim <> dim' -> forall x, stage2 perm workers si sg ma ra tra bra <> Ok x.
  Proof.
    intros G Hp K1 K2 Hd x E. destruct (step2_runs _ _ _ _ G) as [mb [E1 [R1 [Nb Sa]]]]. unfold stage2 in E. rewrite E1, bindE in E. apply bind_ok in E. destruct E as [h [E _]].
    destruct (ft_at pu (pc_f pu) Hp (or_introl eq_refl)) as [s1 [p1 [d1 [L1 [A1 _]]]]]. destruct (ft_at pu (pc_t pu) Hp (or_intror eq_refl)) as [x2 [p2 [d2 [L2 [A2 _]]]]].
    rewrite K1 in L1. rewrite K2 in L2. injection L1 as <- <- <-. injection L2 as <- <- <-. apply In_nth_error in Hp. destruct Hp as [t Ht].
    refine (h_mixed si sg (st_pu sg) mb (st_ncm1 sg) t pu s pos dim s' pos' dim' (nb_cm2 _ _ _ _ _ Nb) (nb_cm3 _ _ _ _ _ Nb) (nb_tmp _ _ _ _ _ Nb) _ Ht A1 A2 Hd h E).
    exact (am_h _ _ _ _ _ _ _ _ _ _ _ _ _ _ _ _ _ _ _ _ _ _ _ _ _ _ _ _ HA).
  Qed.
  Lemma second_mem ma ra tra bra mb k rb t2 trb brb : given 2 ma ra tra bra -> stage2 perm workers si sg ma ra tra bra = Ok (mb, k, rb, t2, trb, brb) -> k = kz /\ given 4 mb rb trb brb.
  Proof.
    intros G E. pose proof (stage2_count perm workers si sg (mc_h _ _ _ _ _ _ _ _ _ _ HM) _ _ _ _ _ _ _ _ _ _ E) as Kb. split; [exact Kb|]. subst k. destruct sizes as [Z1 [Z2 [Z3 [Z4 [B1 [B2 Hwd]]]]]].
    destruct (step2_runs _ _ _ _ G) as [mb1 [E1 [R1 [Nb1 Sa]]]]. unfold stage2 in E. rewrite E1, bindE in E. apply bind_ok in E. destruct E as [[mh kh] [G2 E]]. destruct (h_out mb1 mh kh Nb1 G2) as [Nh [-> Sh]].
    destruct (commit_ok perm perm_len workers si Scm2_n Scm2_2ns mh ra tra bra) as [mf [rf [t2' [r2 [tf [bf [Ef [Cf [Rf [Tf [Wf Nf]]]]]]]]]]];
        [exact Hw | apply Hwd; right; now left | exact B1 | exact B2 | exact (proj1 (nb_cm2 _ _ _ _ _ Nh)) | exact (proj2 (nb_cm2 _ _ _ _ _ Nh))
        | rewrite (proj1 Sh) by sout; rewrite (proj1 Sa) by sout; exact (gv_l2 _ _ _ _ _ G) | exact (gv_res _ _ _ _ _ G) | exact (gv_br _ _ _ _ _ G) | exact (gv_tr _ _ _ _ _ G)|].
    rewrite Ef, bindE in E. cbv beta iota in E. destruct (challenge_ok perm perm_len tf Wf) as [ga [tg [Eg Wg]]]. destruct (challenge_ok perm perm_len tg Wg) as [be [th [Eh Wh]]].
    pose proof (cd_same _ _ _ _ _ _ _ _ Cf) as Sc. pose proof (cd_len _ _ _ _ _ _ _ _ Cf) as Lc.
    assert (Cfc : m_sec mf Schallenge = m_sec mh Schallenge) by (rewrite (proj1 Sc) by sout; reflexivity).
    destruct (nb_cha _ _ _ _ _ Nh) as [Wc L8]. rewrite Eg, bindE in E. cbv beta iota in E.
    destruct (set_challenge_ok mf 2 ga ltac:(rewrite Cfc; lia)) as [l2 [E2 [Ll2 V2]]]. destruct (set_challenge_ok (m_set mf Schallenge l2) 3 be ltac:(rewrite m_set_same, Ll2, Cfc; lia)) as [l3 [E3 [Ll3 V3]]].
    rewrite E2, bindE, Eh, bindE in E. cbv beta iota in E. rewrite E3, bindE in E. apply ok_inj in E. injection E as <- <- <- <- <-. rewrite m_set_same in V3, Ll3.
    set (md' := m_set (m_set mf Schallenge l2) Schallenge l3).
    assert (Shb : same_but [Scm2_2ns; Schallenge] mh md').
    { apply (same_trans _ _ mf); [eapply same_weak; [|exact Sc]; intros s; cbn; tauto|]. apply (same_trans _ _ (m_set mf Schallenge l2)); apply same_set; cbn; tauto. }
    assert (Em : m_sec md' Schallenge = l3) by apply m_set_same.
    assert (Nm : nbase si sg cp kp md').
    { constructor; try (rewrite (proj1 Shb) by sout; apply Nh); try (unfold full; rewrite (proj1 Shb) by sout; apply Nh).
      - rewrite (proj2 Shb). apply Nh.
      - rewrite Em, Ll3, Ll2, Cfc. split; [|exact L8]. eapply forall_set; [|exact (get_challenge_wf _ _ _ _ Eh) | exact V3]. eapply forall_set; [|exact (get_challenge_wf _ _ _ _ Eg) | exact V2]. rewrite Cfc. exact Wc. }
    constructor; try assumption.
    - apply base_pubs; [exact Nm|]. rewrite Em. intros j Hj.
      assert (Hj' : j < 2 \/ j = 2 \/ j = 3) by lia. destruct Hj' as [Hj'|[-> | ->]].
      + rewrite (nth_eq l3 (m_sec ma Schallenge) e_ZERO j); [apply (gv_drawn _ _ _ _ _ G), Hj'|]. rewrite V3, V2, Cfc, (proj1 Sh), (proj1 Sa) by sout. destruct j as [|[|j]]; [reflexivity | reflexivity | lia].
      + assert (Q : nth_error l3 2 = Some ga) by (rewrite V3, V2; reflexivity). rewrite (nth_error_nth _ _ _ Q). exact (get_challenge_three _ _ _ _ Eg).
      + assert (Q : nth_error l3 3 = Some be) by (rewrite V3; reflexivity). rewrite (nth_error_nth _ _ _ Q). exact (get_challenge_three _ _ _ _ Eh).
    - rewrite (proj1 Shb), (proj1 Sh), (proj1 Sa) by sout. apply G.
  Qed.

  (* h1 and h2 after the second stage *)
  Lemma second_cols ma ra tra bra mb k rb t2 trb brb : given 2 ma ra tra bra -> stage2 perm workers si sg ma ra tra bra = Ok (mb, k, rb, t2, trb, brb) -> apart si (st_ncm1 sg) (2 * length (st_pu sg)) ->
    (forall j, j < 2 -> nth j (m_sec mb Schallenge) e_ZERO = nth j (m_sec ma Schallenge) e_ZERO) /\
    forall t pu, nth_error (st_pu sg) t = Some pu -> exists f tt h1 h2, length f = N /\ length tt = N /\
      (forall i, i < N -> ArgGen.va tbl (row_of si ma i) false (E_exp (pc_f pu) false) (val (nth i f e_ZERO)) /\ ArgGen.va tbl (row_of si ma i) false (E_exp (pc_t pu) false) (val (nth i tt e_ZERO))) /\
      calculate_H1H2 f tt = Ok (h1, h2) /\
      forall i, i < N -> hval si mb (st_ncm1 sg + 2 * t) i = val (nth i h1 e_ZERO) /\ hval si mb (st_ncm1 sg + 2 * t + 1) i = val (nth i h2 e_ZERO).
  Proof.
    intros G E HD. destruct (step2_runs _ _ _ _ G) as [mb1 [E1 [R1 [Nb1 Sa]]]]. destruct sizes as [Z1 [Z2 [Z3 [Z4 [B1 [B2 Hwd]]]]]].
    unfold stage2 in E. rewrite E1, bindE in E. apply bind_ok in E. destruct E as [[mh kh] [G2 E]]. destruct (h_out mb1 mh kh Nb1 G2) as [Nh [-> Sh]].
    destruct (commit_ok perm perm_len workers si Scm2_n Scm2_2ns mh ra tra bra) as [mf [rf [t2' [r2 [tf [bf [Ef [Cf [Rf [Tf [Wf Nf]]]]]]]]]]];
        [exact Hw | apply Hwd; right; now left | exact B1 | exact B2 | exact (proj1 (nb_cm2 _ _ _ _ _ Nh)) | exact (proj2 (nb_cm2 _ _ _ _ _ Nh))
        | rewrite (proj1 Sh) by sout; rewrite (proj1 Sa) by sout; exact (gv_l2 _ _ _ _ _ G) | exact (gv_res _ _ _ _ _ G) | exact (gv_br _ _ _ _ _ G) | exact (gv_tr _ _ _ _ _ G)|].
    rewrite Ef, bindE in E. cbv beta iota in E. destruct (challenge_ok perm perm_len tf Wf) as [ga [tg [Eg Wg]]]. destruct (challenge_ok perm perm_len tg Wg) as [be [th [Eh Wh]]].
    pose proof (cd_same _ _ _ _ _ _ _ _ Cf) as Sc.
    assert (Cfc : m_sec mf Schallenge = m_sec mh Schallenge) by (rewrite (proj1 Sc) by sout; reflexivity).
    destruct (nb_cha _ _ _ _ _ Nh) as [Wc L8]. rewrite Eg, bindE in E. cbv beta iota in E.
    destruct (set_challenge_ok mf 2 ga ltac:(rewrite Cfc; lia)) as [l2 [E2 [Ll2 V2]]]. destruct (set_challenge_ok (m_set mf Schallenge l2) 3 be ltac:(rewrite m_set_same, Ll2, Cfc; lia)) as [l3 [E3 [Ll3 V3]]].
    rewrite E2, bindE, Eh, bindE in E. cbv beta iota in E. rewrite E3, bindE in E. apply ok_inj in E. injection E as <- <- <- <- <-. rewrite m_set_same in V3.
    set (md' := m_set (m_set mf Schallenge l2) Schallenge l3).
    assert (Shb : same_but [Scm2_2ns; Schallenge] mh md').
    { apply (same_trans _ _ mf); [eapply same_weak; [|exact Sc]; intros s; cbn; tauto|]. apply (same_trans _ _ (m_set mf Schallenge l2)); apply same_set; cbn; tauto. }
    split.
    - intros j Hj. assert (Em : m_sec md' Schallenge = l3) by apply m_set_same. rewrite Em. apply nth_eq. rewrite V3, V2, Cfc, (proj1 Sh), (proj1 Sa) by sout. destruct j as [|[|j]]; [reflexivity | reflexivity | lia].
    - intros t pu Ht. pose proof (am_h _ _ _ _ _ _ _ _ _ _ _ _ _ _ _ _ _ _ _ _ _ _ _ _ _ _ _ _ HA) as Hh.
      destruct (h_fold si sg (st_pu sg) mb1 (st_ncm1 sg) mh kz (nb_cm2 _ _ _ _ _ Nb1) (nb_cm3 _ _ _ _ _ Nb1) (nb_tmp _ _ _ _ _ Nb1) Hh HD G2) as [_ V].
      destruct (V t pu Ht) as [f [tt [h1 [h2 [A1 [A2 [A3 [A4 A5]]]]]]]]. exists f, tt, h1, h2. split; [exact A1|]. split; [exact A2|]. split; [|split; [exact A4|]].
      + intros i Hi. destruct (A3 i Hi) as [-> ->]. pose proof (nth_error_In _ _ Ht) as Hp. split; [apply (ft_va ma mb1 pu) | apply (ft_va ma mb1 pu)]; try assumption; first [exact (gv_drawn _ _ _ _ _ G) | left; reflexivity | right; reflexivity].
      + intros i Hi. destruct (A5 i Hi) as [X1 X2]. destruct (Hh t pu Ht) as [[p1 [d1 [Q1 _]]] [[p2 [d2 [Q2 _]]] _]]. rewrite <- X1, <- X2. unfold hval. rewrite Q1, Q2, (proj1 Shb) by sout. split; reflexivity.
  Qed.

  Lemma step3_runs mb rb trb brb : given 4 mb rb trb brb -> exists mp, calculate_exps_parallel si Step3prev mb (st_step3prev sg) workers = Ok mp /\ nresult si Step3prev im texp tbl c3 mb mp /\ nbase si sg cp kp mp /\
    same_but [Scm3_n; Stmpexp_n] mb mp.
  Proof.
    intros [G1 G2 _ _ _ _ _]. destruct sizes as [Z1 [Z2 [Z3 [Z4 _]]]]. destruct (ae_code HE) as [_ [[blk Eb] _]].
    destruct (nseg_run _ _ _ _ _ _ _ _ _ _ _ _ _ _ _ (am_step3p _ _ _ _ _ _ _ _ _ _ _ _ _ _ _ _ _ _ _ _ _ _ _ _ _ _ _ _ HA mb G2) (nbase_mem _ _ _ _ (conj Z1 Z2) (conj Z3 Z4) Step3prev mb (or_intror (or_introl eq_refl)) G1) Eb Hw) as [mp [E HR]].
    pose proof (par_same _ _ _ _ _ _ E) as Sa. exists mp. split; [exact E|]. split; [exact HR|]. split; [|exact Sa]. exact (nbase_step si sg tbl cp kp (conj Z1 Z2) (conj Z3 Z4) Step3prev mb mp _ _ _ (or_intror (or_introl eq_refl)) G1 Sa HR).
  Qed.
  Lemma nd_at mb o e : drawn sg 4 mb -> In o args -> e = pc_num o \/ e = pc_den o -> exists s pos dim, kcol si im texp e = Some (s, pos, dim) /\ pol_at si sg e s pos dim /\ si_width si s = sec_width si s /\
    (s = Scm3_n -> forall t, t < length args -> pos + dim <= zp t \/ zp t + 3 <= pos).
  Proof.
    intros D Ho He. assert (X : exists s pos dim id, kcol si im texp e = Some (s, pos, dim) /\ st_exp2pol sg e = Ok id /\ nth_error (si_map si) id = Some (s, pos, dim) /\
      In (false, e) (x_calc c3) /\ R3 (false, e) /\ (s = Scm3_n \/ s = Stmpexp_n) /\ (dim = 1 \/ dim = 3) /\ pos + dim <= si_width si s /\ si_width si s = sec_width si s /\
      (s = Scm3_n -> forall t, t < length args -> pos + dim <= zp t \/ zp t + 3 <= pos)) by (destruct sizes as [Z1 [Z2 [Z3 [Z4 _]]]]; exact (pol_src si sg tbl ids ce cp kp texp td2 td3 td4 fl ids2 ids3 ids4 s2 s3 s4 c2 c3 c4 R2 R3 R4 RA RT pids l1 zp ac HA (conj Z1 Z2) (conj Z3 Z4) mb D o e Ho He)).
    destruct X as [s [pos [dim [id [X1 [X2 [X3 [_ [_ [X4 [X5 [X6 [X7 X8]]]]]]]]]]]]]. exists s, pos, dim. split; [exact X1|]. split; [exists id; auto|]. split; [exact X7 | exact X8].
  Qed.
  Lemma weighed_iff mb mp o : drawn sg 4 mb -> nresult si Step3prev im texp tbl c3 mb mp -> In o args -> (balanced si sg mp o <-> weighed mb o).
  Proof.
    intros G HR Ho. pose proof (am_step3p _ _ _ _ _ _ _ _ _ _ _ _ _ _ _ _ _ _ _ _ _ _ _ _ _ _ _ _ HA mb G) as NS.
    assert (V : forall e i, e = pc_num o \/ e = pc_den o -> i < N -> ArgGen.va tbl (row_of si mb i) false (E_exp e false) (polval si sg mp e i)).
    { intros e i He Hi. destruct (nd_at mb o e G Ho He) as [s [pos [dim [K1 [K2 [K3 _]]]]]]. rewrite (pol_at_val _ _ _ _ _ _ _ _ K2). destruct K2 as [_ [_ [_ [_ [Hd _]]]]].
      eapply kept_va; try eassumption. exact (proj1 (am_pol _ _ _ _ _ _ _ _ _ _ _ _ _ _ _ _ _ _ _ _ _ _ _ _ _ _ _ _ HA o e Ho He)). }
    unfold balanced, weighed. split.
    - intros [P Z]. exists (polval si sg mp (pc_num o)), (polval si sg mp (pc_den o)). split; [|exact P]. intros i Hi. split; [apply V; auto|]. split; [apply V; auto | apply Z, Hi].
    - intros [a [d [H P]]]. assert (Ea : forall i, i < N -> polval si sg mp (pc_num o) i = a i) by (intros i Hi; exact (ArgGen.va_fun _ _ _ _ _ _ (V (pc_num o) i (or_introl eq_refl) Hi) (proj1 (H i Hi)))).
      assert (Ed : forall i, i < N -> polval si sg mp (pc_den o) i = d i) by (intros i Hi; exact (ArgGen.va_fun _ _ _ _ _ _ (V (pc_den o) i (or_intror eq_refl) Hi) (proj1 (proj2 (H i Hi))))).
      split; [|intros i Hi; rewrite (Ed i Hi); apply (H i Hi)].
      assert (M : forall f g : nat -> K, (forall i, i < N -> f i = g i) -> map f (seq 0 N) = map g (seq 0 N)) by (intros f g Hf; apply map_ext_in; intros i Hi; apply in_seq in Hi; apply Hf; lia).
      rewrite (M _ _ Ea), (M _ _ Ed). exact P.
  Qed.
  Lemma third_ends mb rb trb brb : given 4 mb rb trb brb -> ((exists x, stage3 perm workers si sg mb kz rb trb brb = Ok x) <-> forall o, In o args -> weighed mb o).
  Proof.
    intros G. destruct (step3_runs _ _ _ _ G) as [mp [E1 [R1 [Np Sp]]]]. destruct sizes as [Z1 [Z2 [Z3 [Z4 [B1 [B2 Hwd]]]]]]. pose proof (gv_drawn _ _ _ _ _ G) as Dm. pose proof (gv_base _ _ _ _ _ G) as Nm.
    assert (HZ : (exists x, foldM (z_stage si sg) args (mp, kz) = Ok x) <-> forall o, In o args -> weighed mb o).
    { rewrite (z_all si sg args kz zp) with (m := mp).
      - split; intros H o Ho; apply (weighed_iff mb mp o Dm R1 Ho), H, Ho.
      - exact (am_z _ _ _ _ _ _ _ _ _ _ _ _ _ _ _ _ _ _ _ _ _ _ _ _ _ _ _ _ HA).
      - exact (am_zz _ _ _ _ _ _ _ _ _ _ _ _ _ _ _ _ _ _ _ _ _ _ _ _ _ _ _ _ HA).
      - intros o e Ho He. destruct (nd_at mb o e Dm Ho He) as [s [pos [dim [_ [K2 [_ K3]]]]]]. exists s, pos, dim. split; [exact K2 | exact K3].
      - exact (nb_cm3 _ _ _ _ _ Np).
      - exact (nb_tmp _ _ _ _ _ Np). }
    rewrite <- HZ. unfold stage3. rewrite E1, bindE. split.
    - intros [x E]. apply bind_ok in E. destruct E as [z [E _]]. exists z. exact E.
    - intros [[mz kf] E]. rewrite E, bindE. cbv beta iota.
      assert (Nz : nbase si sg cp kp mz /\ drawn sg 4 mz).
      { pose proof (same_refl (step_out Step3) mz) as Szz.
        split; [exact (z_base si sg tbl ids ce cp kp texp td2 td3 td4 fl ids2 ids3 ids4 s2 s3 s4 c2 c3 c4 R2 R3 R4 RA RT pids l1 zp ac HA (conj Z1 Z2) (conj Z3 Z4) mb mp mz kf Nm Dm Sp R1 E)
          | exact (z_drawn si sg tbl ids ce cp kp texp td2 td3 td4 fl ids2 ids3 ids4 s2 s3 s4 c2 c3 c4 R2 R3 R4 RA RT pids l1 zp ac HA (conj Z1 Z2) (conj Z3 Z4) mb mp mz mz kf Nm Dm Sp R1 E Szz)]. }
      destruct Nz as [Nz Dz]. destruct (ae_code HE) as [_ [_ [blk Eb]]].
      destruct (nseg_run _ _ _ _ _ _ _ _ _ _ _ _ _ _ _ (am_step3 _ _ _ _ _ _ _ _ _ _ _ _ _ _ _ _ _ _ _ _ _ _ _ _ _ _ _ _ HA mz Dz) (nbase_mem _ _ _ _ (conj Z1 Z2) (conj Z3 Z4) Step3 mz (or_intror (or_intror eq_refl)) Nz) Eb Hw) as [mq [E4 R4']].
      pose proof (par_same _ _ _ _ _ _ E4) as Sq. cbn [step_out] in Sq.
      pose proof (nbase_step si sg tbl cp kp (conj Z1 Z2) (conj Z3 Z4) Step3 mz mq _ _ _ (or_intror (or_intror eq_refl)) Nz Sq R4') as Nq.
      assert (Sz : same_but [Scm3_n] mp mz) by exact (proj1 (z_same _ _ _ _ _ _ _ (mc_z _ _ _ _ _ _ _ _ _ _ HM) E)).
      rewrite E4, bindE.
      destruct (commit_ok perm perm_len workers si Scm3_n Scm3_2ns mq rb trb brb) as [mk [rk [t3 [r3 [tk [bk [Ek [Ck [Rk [Tk [Wk Nk]]]]]]]]]]];
        [exact Hw | apply Hwd; right; right; now left | exact B1 | exact B2 | exact (proj1 (nb_cm3 _ _ _ _ _ Nq)) | exact (proj2 (nb_cm3 _ _ _ _ _ Nq))
        | rewrite (proj1 Sq) by sout; rewrite (proj1 Sz) by sout; rewrite (proj1 Sp) by sout; exact (gv_l3 _ _ _ _ _ G) | exact (gv_res _ _ _ _ _ G) | exact (gv_br _ _ _ _ _ G) | exact (gv_tr _ _ _ _ _ G)|].
      rewrite Ek, bindE. eexists. reflexivity.
  Qed.

  Theorem honest_prover rest nq : (forall pu, In pu (st_pu sg) -> same_dims pu) -> table_ok si sg tbl pids cp kp -> first_row_column si sg kp l1 ->
    chunks_ok si workers -> steps_ok (si_nbits_ext si) rest -> 0 < nq ->
    exists m0 ma ra t1 tra bra, start_mem si cp kp tc = Ok m0 /\ stage1 perm workers si sg m0 br = Ok (ma, ra, t1, tra, bra) /\
      ((exists x, stage2 perm workers si sg ma ra tra bra = Ok x) <-> forall pu, In pu (st_pu sg) -> taken ma pu) /\
      forall mb k rb t2 trb brb, stage2 perm workers si sg ma ra tra bra = Ok (mb, k, rb, t2, trb, brb) ->
        ((exists x, stage3 perm workers si sg mb k rb trb brb = Ok x) <-> forall o, In o args -> weighed mb o) /\
        forall m t3 tr br', stage3 perm workers si sg mb k rb trb brb = Ok (m, t3, tr, br') ->
          exists rc m4 t4 root4 xi tr4, tree_root tc = Ok rc /\ quotient_phase perm workers si pg m tr br' = Ok (m4, t4, root4, xi, tr4) /\
            ((forall r, r < Ne -> val xi <> cpt (si_nbits_ext si) r) ->
             exists p, stark_gen perm workers si sg pg (si_nbits_ext si :: rest) nq cp kp tc br = Ok p /\ sp_publics p = map (pub_value cp) (st_publics sg) /\
               stark_verify perm si pg (si_nbits_ext si :: rest) nq rc p = Ok true).
  Proof.
    intros Hd HT HL Hc Hs Hq. destruct sizes as [_ [_ [_ [_ [B1 [B2 _]]]]]]. pose proof HI as [[I1 [I2 _]] [J1 [J2 _]] _ _].
    destruct (start_total si cp kp tc ltac:(lia) ltac:(lia) I1 I2 J1 J2) as [m0 E0]. destruct (first_ends m0 E0) as [ma [ra [t1 [tra [bra [E1 G1]]]]]].
    exists m0, ma, ra, t1, tra, bra. split; [exact E0|]. split; [exact E1|]. split; [exact (second_ends _ _ _ _ G1 Hd)|].
    intros mb k rb t2 trb brb E2. destruct (second_mem _ _ _ _ _ _ _ _ _ _ G1 E2) as [-> G2]. split; [exact (third_ends _ _ _ _ G2)|].
    intros m t3 tr br' E3. eapply (arg_complete perm perm_len fuel gfuel workers w0 si sg tbl ids ncm md ce pg cp kp tc br0 br _ _ _ _ _ _ _ _ _ _ _ _ _ _ _ _ _ _ _ _ _ _ _ Hw Hw0 HM HI HA HT HL m0 m t1 t2 t3 tr br' rest nq E0); [|exact Hc | exact Hs | exact Hq].
    unfold stages. rewrite E1, bindE. cbv beta iota. rewrite E2, bindE. cbv beta iota. rewrite E3, bindE. reflexivity.
  Qed.
  Theorem mixed_never pu s pos dim s' pos' dim' steps nq : In pu (st_pu sg) -> kcol si im texp (pc_f pu) = Some (s, pos, dim) -> kcol si im texp (pc_t pu) = Some (s', pos', dim') ->
    dim <> dim' -> forall p, stark_gen perm workers si sg pg steps nq cp kp tc br <> Ok p.
  Proof.
    intros Hp K1 K2 Hd p E. unfold stark_gen in E. apply bind_ok in E. destruct E as [m0 [E0 E]]. apply bind_ok in E. destruct E as [y [E _]].
    destruct (first_ends m0 E0) as [ma [ra [t1 [tra [bra [E1 G1]]]]]]. unfold stages in E. rewrite E1, bindE in E. cbv beta iota in E. apply bind_ok in E. destruct E as [x [E _]].
    exact (second_mixed _ _ _ _ _ _ _ _ _ _ _ G1 Hp K1 K2 Hd x E).
  Qed.
End Whole.
