(* The columns read and written between the steps of the prover: h1, h2 and z. *)
From Coq Require Import Arith Permutation.
From Verif Require Import Base GlModel FrField F3gModel Cubic F3gProof ListAux PolyModel CodegenModel CodegenProof InterpModel InterpProof BnProof FftpBase
  VerifierModel VerifierProof HashModel FriModel FftpModel ProverModel ProverProof ParModel ParProof StarkModel StarkGen StarkRow StarkSrc StageModel StarkTop StarkExtend StarkStages NStep NGen NTop.
From Verif Require ArgMath ArgTop.
Open Scope nat_scope.
Open Scope list_scope.
Open Scope res_scope.

Definition nsec (s : sec) : Prop := In s [Scm1_n; Scm2_n; Scm3_n; Stmpexp_n].
Lemma nsec_deg si s : nsec s -> sec_deg si s = 2 ^ si_nbits si.
Proof. intros H. cbn in H. repeat (destruct H as [<-|H]; [reflexivity|]). destruct H. Qed.
Lemma nsec_width si s : nsec s -> sec_width si s = si_width si s.
Proof. intros H. cbn in H. repeat (destruct H as [<-|H]; [reflexivity|]). destruct H. Qed.

Section Pols.
  Variable si : sinfo.
  Local Notation N := (2 ^ si_nbits si).
  Local Notation w := (si_width si).
  Lemma row_in g c W n : c < W -> g < n -> c + g * W < n * W.
  Proof. intros Hc Hg. apply Nat.lt_le_trans with (W + g * W); [lia|]. change (W + g * W) with (S g * W). apply Nat.mul_le_mono_r. exact Hg. Qed.
  Lemma read_pol_col m id l s pos dim : read_pol si m id = Ok l -> nth_error (si_map si) id = Some (s, pos, dim) -> nsec s -> full si m s -> pos + dim <= w s -> dim = 1 \/ dim = 3 ->
    length l = N /\ forall i, i < N -> nth i l e_ZERO = elem (m_sec m s) (w s) pos dim i.
  Proof.
    intros E Hm Hs [L B] Hp Hd. unfold read_pol, get_pol_ref in E. rewrite (vget_some _ _ _ Hm), bindE, bindE in E. cbn [fst snd] in E. rewrite (nsec_deg si s Hs) in E. unfold get_pol in E. cbn [p_dim p_deg] in E.
    replace ((dim =? 1) || (dim =? 3)) with true in E by (destruct Hd as [-> | ->]; reflexivity).
    assert (G : mapM (get_row (mkPol N pos (w s) dim) (m_sec m s)) (seq 0 N) = Ok (map (elem (m_sec m s) (w s) pos dim) (seq 0 N))).
    { apply mapM_ok. intros i Hi. apply in_seq in Hi. unfold get_row. cbn [p_offset p_size p_dim]. unfold elem.
      assert (Hb : forall j, j < dim -> pos + i * w s + j < length (m_sec m s)).
      { intros j Hj. rewrite L. replace (pos + i * w s + j) with ((pos + j) + i * w s) by lia. apply row_in; lia. }
      destruct Hd as [-> | ->]; cbn [Nat.eqb].
      - apply vget_nth. specialize (Hb 0 ltac:(lia)). lia.
      - pose proof (Hb 0 ltac:(lia)) as H0. rewrite Nat.add_0_r in H0. pose proof (Hb 1 ltac:(lia)) as H1. pose proof (Hb 2 ltac:(lia)) as H2.
        rewrite (vget_nth _ _ e_ZERO H0), (vget_nth _ _ e_ZERO H1), (vget_nth _ _ e_ZERO H2).
        destruct (nth_vbase (m_sec m s) (pos + i * w s) B) as [x Hx]. destruct (nth_vbase (m_sec m s) (pos + i * w s + 1) B) as [y Hy]. destruct (nth_vbase (m_sec m s) (pos + i * w s + 2) B) as [z Hz].
        rewrite Hx, Hy, Hz. reflexivity. }
    rewrite G in E. apply ok_inj in E. subst l. split; [rewrite map_length, seq_length; reflexivity|]. intros i Hi. rewrite nth_indep with (d' := elem (m_sec m s) (w s) pos dim 0) by (rewrite map_length, seq_length; exact Hi).
    rewrite map_nth, seq_nth by exact Hi. reflexivity.
  Qed.
  Lemma write_pol_col m id v m' s pos dim : write_pol si m id v = Ok m' -> nth_error (si_map si) id = Some (s, pos, dim) -> nsec s -> full si m s -> pos + dim <= w s -> dim = 1 \/ dim = 3 ->
    length v = N -> (dim = 1 -> Forall vbase v) ->
    same_but [s] m m' /\ full si m' s /\ (forall i, i < N -> val (elem (m_sec m' s) (w s) pos dim i) = val (nth i v e_ZERO)) /\
    forall g c, g < N -> c < w s -> c < pos \/ pos + dim <= c -> nth_error (m_sec m' s) (c + g * w s) = nth_error (m_sec m s) (c + g * w s).
  Proof.
    intros E Hm Hs [L B] Hp Hd Lv Bv. unfold write_pol, get_pol_ref in E. rewrite (vget_some _ _ _ Hm), bindE, bindE in E. cbn [fst snd] in E. rewrite (nsec_deg si s Hs) in E.
    apply bind_ok in E. destruct E as [buf [E1 E]]. apply ok_inj in E. subst m'. unfold set_pol in E1. cbn [p_dim p_deg] in E1.
    replace ((dim =? 1) || (dim =? 3)) with true in E1 by (destruct Hd as [-> | ->]; reflexivity).
    destruct (set_rows_spec (mkPol N pos (w s) dim) v Hd Hp N 0 (m_sec m s) ltac:(lia)) as [b [Eb [Lb [Hin Hout]]]]; [cbn [p_size]; rewrite L; reflexivity|].
    rewrite Eb in E1. apply ok_inj in E1. subst buf. cbn [p_dim p_offset p_size] in *. rewrite m_set_same.
    assert (Hv : forall i, i < N -> nth_error v i = Some (nth i v e_ZERO)) by (intros i Hi; apply nth_error_nth'; lia).
    assert (Hc : forall i j, i < N -> j < dim -> nth (pos + i * w s + j) b e_ZERO = ProverProof.coord dim (nth i v e_ZERO) j).
    { intros i j Hi Hj. apply nth_error_nth. apply Hin; [lia | exact Hj | apply Hv, Hi]. }
    assert (Hkeep : forall g c, c < w s -> (c < pos \/ pos + dim <= c) -> nth_error b (c + g * w s) = nth_error (m_sec m s) (c + g * w s)).
    { intros g c Hcw Hcc. apply Hout. intros i j Hi Hj EE.
      destruct (cell_inj (w s) g i c (pos + j)); [exact Hcw | lia | lia | lia]. }
    split; [apply same_set; now left|]. split; [|split].
    - unfold full. rewrite m_set_same, Lb. split; [exact L|]. apply Forall_forall. intros x Hx. apply In_nth_error in Hx. destruct Hx as [q Hq].
      assert (Hql : q < N * w s) by (rewrite <- L, <- Lb; apply nth_error_Some; congruence).
      destruct (row_split (w s) q N Hql) as [g [c [-> [Hg Hcw]]]]. rewrite Nat.add_comm in Hq.
      destruct (Nat.lt_ge_cases c pos) as [H1|H1]; [|destruct (Nat.lt_ge_cases c (pos + dim)) as [H2|H2]].
      + rewrite Hkeep in Hq by (try exact Hcw; lia). exact (proj1 (Forall_forall _ _) B x (nth_error_In _ _ Hq)).
      + pose proof (Hin g (c - pos) _ ltac:(lia) ltac:(lia) (Hv g Hg)) as HH. replace (pos + g * w s + (c - pos)) with (c + g * w s) in HH by lia. rewrite HH in Hq. injection Hq as <-.
        unfold ProverProof.coord. destruct Hd as [-> | ->]; cbn [Nat.eqb].
        * apply (proj1 (Forall_forall _ _) (Bv eq_refl)). apply nth_In. lia.
        * destruct (c - pos) as [|[|k]]; [eexists; reflexivity | | ]; destruct (d3 (nth g v e_ZERO)); eexists; reflexivity.
      + rewrite Hkeep in Hq by (try exact Hcw; lia). exact (proj1 (Forall_forall _ _) B x (nth_error_In _ _ Hq)).
    - intros i Hi. pose proof (Hc i) as Hci. unfold elem. destruct Hd as [-> | ->]; cbn [Nat.eqb].
      + specialize (Hci 0 Hi ltac:(lia)). rewrite Nat.add_0_r in Hci. rewrite Hci. reflexivity.
      + pose proof (Hci 0 Hi ltac:(lia)) as H0. rewrite Nat.add_0_r in H0. rewrite H0, (Hci 1 Hi ltac:(lia)), (Hci 2 Hi ltac:(lia)). unfold ProverProof.coord. cbn [Nat.eqb]. unfold val. cbn [d3 e_new c0 c1 c2 e_from].
        destruct (d3 (nth i v e_ZERO)); reflexivity.
    - intros g c _ Hcw Hcc. exact (Hkeep g c Hcw Hcc).
  Qed.
  Lemma elem_ext l l' W pos dim i : dim = 1 \/ dim = 3 -> (forall c, pos <= c < pos + dim -> nth_error l (c + i * W) = nth_error l' (c + i * W)) -> elem l W pos dim i = elem l' W pos dim i.
  Proof.
    intros Hd H. assert (G : forall c, pos <= c < pos + dim -> nth (c + i * W) l e_ZERO = nth (c + i * W) l' e_ZERO).
    { intros c Hc. rewrite !nth_default_eq || idtac. specialize (H c Hc). destruct (nth_error l (c + i * W)) as [x|] eqn:E.
      - rewrite (nth_error_nth _ _ _ E). symmetry in H. rewrite (nth_error_nth _ _ _ H). reflexivity.
      - symmetry in H. apply nth_error_None in E. apply nth_error_None in H. rewrite !nth_overflow by assumption. reflexivity. }
    unfold elem. destruct Hd as [-> | ->]; cbn [Nat.eqb].
    - apply G. lia.
    - rewrite (G pos) by lia. pose proof (G (pos + 1) ltac:(lia)) as G1. pose proof (G (pos + 2) ltac:(lia)) as G2.
      replace (pos + 1 + i * W) with (pos + i * W + 1) in G1 by lia. replace (pos + 2 + i * W) with (pos + i * W + 2) in G2 by lia. rewrite G1, G2. reflexivity.
  Qed.
End Pols.

(** ** the columns h1 and h2 *)
Definition pol_dim1 (si : sinfo) (sg : stageprog) (e : nat) : Prop :=
  forall id s pos dim, st_exp2pol sg e = Ok id -> nth_error (si_map si) id = Some (s, pos, dim) -> dim = 1.
Definition pol_in (si : sinfo) (sg : stageprog) (e : nat) : Prop :=
  forall id, st_exp2pol sg e = Ok id -> exists s pos dim, nth_error (si_map si) id = Some (s, pos, dim) /\ (s = Scm3_n \/ s = Stmpexp_n) /\ (dim = 1 \/ dim = 3) /\ pos + dim <= si_width si s.
(* the column k of h1 or h2: it has three components, or one and so have f and t *)
Definition hcol (si : sinfo) (sg : stageprog) (k : nat) (pu : pcctx) : Prop :=
  exists pos dim, place si k = Some (Scm2_n, pos, dim) /\ (dim = 3 \/ dim = 1 /\ pol_dim1 si sg (pc_f pu) /\ pol_dim1 si sg (pc_t pu)) /\ pos + dim <= si_width si Scm2_n.

Lemma h1h2_in f t h1 h2 : calculate_H1H2 f t = Ok (h1, h2) -> (forall x, In x h1 -> In x (t ++ f)) /\ forall x, In x h2 -> In x (t ++ f).
Proof.
  intros E. destruct (h1h2_spec f t h1 h2 E) as [L1 [L2 [_ [_ [s [counts [_ [_ [P I]]]]]]]]].
  assert (G : forall x, In x (interleave h1 h2) -> In x (t ++ f)).
  { intros x Hx. rewrite I in Hx. apply (Permutation_in _ P). rewrite <- (firstn_skipn (2 * length f) s). apply in_or_app. now left. }
  split; intros x Hx; apply G; unfold interleave; apply in_flat_map; apply In_nth_error in Hx; destruct Hx as [k Hk].
  - destruct (nth_error h2 k) as [y|] eqn:Ey.
    + exists (x, y). split; [|now left]. clear -Hk Ey. revert h1 h2 Hk Ey. induction k as [|k IH]; intros [|a h1] [|b h2] Hk Ey; cbn in *; try discriminate; [injection Hk as ->; injection Ey as ->; now left | right; now apply IH].
    + apply nth_error_None in Ey. assert (k < length h1) by (apply nth_error_Some; congruence). lia.
  - destruct (nth_error h1 k) as [y|] eqn:Ey.
    + exists (y, x). split; [|right; now left]. clear -Hk Ey. revert h1 h2 Hk Ey. induction k as [|k IH]; intros [|a h1] [|b h2] Hk Ey; cbn in *; try discriminate; [injection Hk as ->; injection Ey as ->; now left | right; now apply IH].
    + apply nth_error_None in Ey. assert (k < length h2) by (apply nth_error_Some; congruence). lia.
Qed.
Lemma base_col si m id l s pos : read_pol si m id = Ok l -> nth_error (si_map si) id = Some (s, pos, 1) -> nsec s -> full si m s -> pos + 1 <= si_width si s -> Forall vbase l.
Proof.
  intros E Hm Hs F Hp. destruct (read_pol_col si m id l s pos 1 E Hm Hs F Hp (or_introl eq_refl)) as [L V]. apply Forall_forall. intros x Hx.
  destruct (In_nth _ _ e_ZERO Hx) as [i [Hi <-]]. rewrite V by lia. unfold elem. cbn [Nat.eqb]. apply nth_vbase. exact (proj2 F).
Qed.
Lemma place_map si k id : nth_error (si_cm_n si) k = Some id -> place si k = nth_error (si_map si) id.
Proof. intros H. unfold place. now rewrite H. Qed.

Lemma h1h2_full si sg l : forall m k m' k', foldM (h1h2_stage si sg) l (m, k) = Ok (m', k') -> full si m Scm2_n -> full si m Scm3_n -> full si m Stmpexp_n ->
  (forall t pu, nth_error l t = Some pu -> hcol si sg (k + 2 * t) pu /\ hcol si sg (k + 2 * t + 1) pu /\ pol_in si sg (pc_f pu) /\ pol_in si sg (pc_t pu)) -> full si m' Scm2_n.
Proof.
  induction l as [|pu l IH]; intros m k m' k' E F2 F3 Ft H; cbn [foldM] in E.
  - injection E as <- <-. exact F2.
  - apply bind_ok in E. destruct E as [[m1 k1] [E1 E]]. unfold h1h2_stage in E1.
    apply bind_ok in E1. destruct E1 as [fid [Ef E1]]. apply bind_ok in E1. destruct E1 as [f [Rf E1]]. apply bind_ok in E1. destruct E1 as [tid [Et E1]]. apply bind_ok in E1. destruct E1 as [t [Rt E1]].
    apply bind_ok in E1. destruct E1 as [[h1 h2] [Eh E1]]. apply bind_ok in E1. destruct E1 as [id1 [I1 E1]]. apply bind_ok in E1. destruct E1 as [ma [W1 E1]].
    apply bind_ok in E1. destruct E1 as [id2 [I2 E1]]. apply bind_ok in E1. destruct E1 as [mb [W2 E1]]. apply ok_inj in E1. injection E1 as <- <-. cbn [fst snd] in *.
    apply vget_inv in I1, I2. destruct (H 0 pu eq_refl) as [Hc1 [Hc2 [Pf Pt]]]. rewrite Nat.mul_0_r, Nat.add_0_r in Hc1, Hc2.
    destruct (Pf fid Ef) as [sf [pf [df [Mf [Sf [Df Bf]]]]]]. destruct (Pt tid Et) as [st [pt [dt [Mt [St [Dt Bt]]]]]].
    assert (Nf : nsec sf) by (destruct Sf as [-> | ->]; cbn; tauto). assert (Nt : nsec st) by (destruct St as [-> | ->]; cbn; tauto).
    assert (Ff : full si m sf) by (destruct Sf as [-> | ->]; assumption). assert (Fft : full si m st) by (destruct St as [-> | ->]; assumption).
    destruct (read_pol_col si m fid f sf pf df Rf Mf Nf Ff Bf Df) as [Lf _].
    destruct (h1h2_spec f t h1 h2 Eh) as [L1 [L2 _]]. destruct (h1h2_in f t h1 h2 Eh) as [N1 N2].
    assert (Hb : pol_dim1 si sg (pc_f pu) /\ pol_dim1 si sg (pc_t pu) -> Forall vbase (t ++ f)).
    { intros [D1 D2]. pose proof (D1 _ _ _ _ Ef Mf) as ->. pose proof (D2 _ _ _ _ Et Mt) as ->. apply Forall_app.
      split; [exact (base_col si m tid t st pt Rt Mt Nt Fft Bt) | exact (base_col si m fid f sf pf Rf Mf Nf Ff Bf)]. }
    destruct Hc1 as [p1 [d1 [P1 [D1 B1]]]]. destruct Hc2 as [p2 [d2 [P2 [D2 B2]]]].
    rewrite (place_map si k id1 I1) in P1. rewrite (place_map si (k + 1) id2 I2) in P2.
    destruct (write_pol_col si m id1 h1 ma Scm2_n p1 d1 W1 P1) as [Sa [Fa _]]; [cbn; tauto | exact F2 | exact B1 | destruct D1 as [D1|[D1 _]]; auto | lia | |].
    { intros ->. destruct D1 as [D1|[_ D1]]; [discriminate D1|]. apply Forall_forall. intros x Hx. exact (proj1 (Forall_forall _ _) (Hb D1) x (N1 x Hx)). }
    destruct (write_pol_col si ma id2 h2 mb Scm2_n p2 d2 W2 P2) as [Sb [Fb _]]; [cbn; tauto | exact Fa | exact B2 | destruct D2 as [D2|[D2 _]]; auto | lia | |].
    { intros ->. destruct D2 as [D2|[_ D2]]; [discriminate D2|]. apply Forall_forall. intros x Hx. exact (proj1 (Forall_forall _ _) (Hb D2) x (N2 x Hx)). }
    apply (IH mb (k + 2) m' k' E); [exact Fb | | |].
    + unfold full. rewrite (proj1 Sb), (proj1 Sa) by sout. exact F3.
    + unfold full. rewrite (proj1 Sb), (proj1 Sa) by sout. exact Ft.
    + intros q pu' Hq. replace (k + 2 + 2 * q) with (k + 2 * S q) by lia. exact (H (S q) pu' Hq).
Qed.

(** ** the column z *)
Section Z.
  Variables (si : sinfo) (sg : stageprog) (l : list pcctx) (k0 : nat) (zp : nat -> nat).
  Local Notation N := (2 ^ si_nbits si).
  Local Notation w3 := (si_width si Scm3_n).
  Hypothesis Hplace : forall t, t < length l -> place si (k0 + t) = Some (Scm3_n, zp t, 3) /\ zp t + 3 <= w3.
  Hypothesis Hdisj : forall t t', t < length l -> t' < length l -> t <> t' -> zp t + 3 <= zp t' \/ zp t' + 3 <= zp t.
  Definition src (e : nat) : Prop := forall id, st_exp2pol sg e = Ok id -> exists s pos dim, nth_error (si_map si) id = Some (s, pos, dim) /\ (s = Scm3_n \/ s = Stmpexp_n) /\
    (dim = 1 \/ dim = 3) /\ pos + dim <= si_width si s /\ (s = Scm3_n -> forall t, t < length l -> pos + dim <= zp t \/ zp t + 3 <= pos).
  Hypothesis Hsrc : forall o, In o l -> src (pc_num o) /\ src (pc_den o).
  (* the value of the column of an expression in row i *)
  Definition polval (m : mem) (e i : nat) : K :=
    match st_exp2pol sg e with
    | Ok id => match nth_error (si_map si) id with Some (s, pos, dim) => val (elem (m_sec m s) (si_width si s) pos dim i) | None => kzero end
    | _ => kzero
    end.
  Lemma read_src m m1 e id v : full si m1 Scm3_n -> full si m1 Stmpexp_n -> same_but [Scm3_n] m m1 -> src e ->
    (forall g c, g < N -> c < w3 -> (forall t, t < length l -> c < zp t \/ zp t + 3 <= c) -> nth_error (m_sec m1 Scm3_n) (c + g * w3) = nth_error (m_sec m Scm3_n) (c + g * w3)) ->
    st_exp2pol sg e = Ok id -> read_pol si m1 id = Ok v -> length v = N /\ forall i, i < N -> val (nth i v e_ZERO) = polval m e i.
  Proof.
    intros F3 Ft S1 Hs Hk Ee Er. destruct (Hs id Ee) as [s [pos [dim [Hm [Hsec [Hd [Hp Hz]]]]]]].
    assert (Hn : nsec s) by (destruct Hsec as [-> | ->]; cbn; tauto). assert (Hf : full si m1 s) by (destruct Hsec as [-> | ->]; assumption).
    destruct (read_pol_col si m1 id v s pos dim Er Hm Hn Hf Hp Hd) as [L V]. split; [exact L|]. intros i Hi. rewrite (V i Hi). unfold polval. rewrite Ee, Hm. f_equal.
    destruct Hsec as [-> | ->]; [|rewrite (proj1 S1) by sout; reflexivity]. apply elem_ext; [exact Hd|]. intros c Hc. apply Hk; [exact Hi | lia|].
    intros t Ht. destruct (Hz eq_refl t Ht); lia.
  Qed.
  Lemma z_fold m : full si m Scm3_n -> full si m Stmpexp_n -> forall n, n <= length l -> forall m' k', foldM (z_stage si sg) (firstn n l) (m, k0) = Ok (m', k') ->
    k' = k0 + n /\ same_but [Scm3_n] m m' /\ full si m' Scm3_n /\
    (forall g c, g < N -> c < w3 -> (forall t, t < n -> c < zp t \/ zp t + 3 <= c) -> nth_error (m_sec m' Scm3_n) (c + g * w3) = nth_error (m_sec m Scm3_n) (c + g * w3)) /\
    forall t o, t < n -> nth_error l t = Some o -> ArgMath.running N (fun i => val (elem (m_sec m' Scm3_n) w3 (zp t) 3 i)) (polval m (pc_num o)) (polval m (pc_den o)).
  Proof.
    intros F3 Ft. induction n as [|n IH]; intros Hn m' k' E.
    - cbn in E. injection E as <- <-. split; [lia|]. split; [apply same_refl|]. split; [exact F3|]. split; [reflexivity|]. intros t o Ht. lia.
    - destruct (nth_error l n) as [o|] eqn:Eo; [|apply nth_error_None in Eo; lia].
      assert (Ef : firstn (S n) l = firstn n l ++ [o]).
      { clear -Eo. revert n Eo. induction l as [|a l' IHl]; intros [|n] Eo; cbn in Eo; try discriminate Eo; [injection Eo as ->; reflexivity|]. cbn [firstn app]. f_equal. now apply IHl. }
      rewrite Ef, foldM_app in E. apply bind_ok in E. destruct E as [[m1 k1] [E1 E]]. destruct (IH ltac:(lia) m1 k1 E1) as [-> [S1 [F1 [K1 R1]]]].
      cbn [foldM] in E. apply bind_ok in E. destruct E as [[m2 k2] [E2 E]]. injection E as <- <-. unfold z_stage in E2.
      apply bind_ok in E2. destruct E2 as [nid [En E2]]. apply bind_ok in E2. destruct E2 as [num [Rn E2]]. apply bind_ok in E2. destruct E2 as [did [Ed E2]]. apply bind_ok in E2. destruct E2 as [dn [Rd E2]].
      apply bind_ok in E2. destruct E2 as [z [Ez E2]]. apply bind_ok in E2. destruct E2 as [id [Hid E2]]. apply bind_ok in E2. destruct E2 as [ma [W E2]]. apply ok_inj in E2. injection E2 as <- <-.
      apply vget_inv in Hid. destruct (Hplace n ltac:(lia)) as [Pz Bz]. rewrite (place_map si _ id Hid) in Pz.
      destruct (Hsrc o (nth_error_In _ _ Eo)) as [Sn Sd].
      assert (K1' : forall g c, g < N -> c < w3 -> (forall t, t < length l -> c < zp t \/ zp t + 3 <= c) -> nth_error (m_sec m1 Scm3_n) (c + g * w3) = nth_error (m_sec m Scm3_n) (c + g * w3)).
      { intros g c Hg Hc Hz. apply K1; [exact Hg | exact Hc|]. intros t Ht. apply Hz. lia. }
      assert (Ft1 : full si m1 Stmpexp_n) by (unfold full; rewrite (proj1 S1) by sout; exact Ft).
      destruct (read_src m m1 (pc_num o) nid num F1 Ft1 S1 Sn K1' En Rn) as [Ln Vn]. destruct (read_src m m1 (pc_den o) did dn F1 Ft1 S1 Sd K1' Ed Rd) as [Ld Vd].
      destruct (calculate_Z_spec num dn z Ez) as [Lz _].
      destruct (write_pol_col si m1 id z ma Scm3_n (zp n) 3 W Pz) as [S2 [F2 [V2 K2]]]; [cbn; tauto | exact F1 | exact Bz | now right | lia | discriminate|].
      split; [lia|]. split; [exact (same_trans _ _ _ _ S1 S2)|]. split; [exact F2|]. split.
      + intros g c Hg Hc Hz. rewrite (K2 g c Hg Hc) by (apply Hz; lia). apply K1; [exact Hg | exact Hc|]. intros t Ht. apply Hz. lia.
      + assert (H0 : 0 < N) by (pose proof (Nat.pow_nonzero 2 (si_nbits si)); lia).
        intros t o' Ht Ho'. destruct (Nat.eq_dec t n) as [->|Hne].
        * rewrite Eo in Ho'. injection Ho' as <-. pose proof (ArgTop.z_runs N num dn z _ _ Ez Ln Vn Vd) as HR. revert HR.
          apply ArgTop.running_ext; [|reflexivity|reflexivity|exact H0]. intros i Hi. symmetry. apply V2, Hi.
        * pose proof (R1 t o' ltac:(lia) Ho') as HR. revert HR. apply ArgTop.running_ext; [|reflexivity|reflexivity|exact H0].
          intros i Hi. f_equal. apply elem_ext; [now right|]. intros c Hc. symmetry. destruct (Hplace t ltac:(lia)) as [_ Bt].
          apply K2; [exact Hi | lia|]. destruct (Hdisj t n ltac:(lia) ltac:(lia) Hne); lia.
  Qed.
End Z.

(** ** a step that ends has compiled its code *)
Lemma par_compiles si st m seg workers p : calculate_exps_parallel si st m seg workers = Ok p -> exists blk, compile_code si (sg_first seg) (step_dom st) false = Ok blk.
Proof.
  intros E. unfold calculate_exps_parallel in E. apply bind_ok in E. destruct E as [per [Ep E]]. pose proof (rows_per_thread_pos _ _ _ Ep) as Hp. unfold exps_chunked in E.
  apply bind_ok in E. destruct E as [cs [E1 E]]. apply bind_ok in E. destruct E as [cs' [E2 _]].
  assert (Hn : 0 < par_n si st) by (unfold par_n, dom_size; destruct (step_dom st); apply Nat.neq_0_lt_0, Nat.pow_nonzero; discriminate).
  assert (HK : 0 < (par_n si st + per - 1) / per) by (apply Nat.div_str_pos; lia).
  unfold chunk_starts in E1. destruct ((par_n si st + per - 1) / per) as [|K]; [lia|]. cbn [seq map mapM] in E1.
  apply bind_ok in E1. destruct E1 as [c [_ E1]]. apply bind_ok in E1. destruct E1 as [cs1 [_ E1]]. apply ok_inj in E1. subst cs. cbn [length seq combine mapM] in E2.
  apply bind_ok in E2. destruct E2 as [C [E2 _]]. unfold run_chunk in E2. unfold calculate_exps in E2. apply bind_ok in E2. destruct E2 as [blk [E2 _]]. exists blk. exact E2.
Qed.
Lemma nseg_ends si st im texp td tbl fl ids t0 c seg R m workers p : nseg si st im texp td tbl fl ids t0 c seg R m -> nmem si st m -> workers <> 0 ->
  calculate_exps_parallel si st m seg workers = Ok p -> nresult si st im texp tbl c m p.
Proof.
  intros S M W E. destruct (par_compiles _ _ _ _ _ _ E) as [blk B]. rewrite (ns_dom _ _ _ _ _ _ _ _ _ _ _ _ _ S) in B.
  destruct (nseg_run _ _ _ _ _ _ _ _ _ _ _ _ _ _ _ S M B W) as [q [Eq HR]]. rewrite Eq in E. apply ok_inj in E. subst q. exact HR.
Qed.
