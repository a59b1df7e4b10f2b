(* Running generated code in chunks over the rows of the trace, where an expression of the next row may be
   kept in a column: the written columns hold the values of their expressions. *)
From Verif Require Import Base GlModel FrField F3gModel Cubic F3gProof ListAux PolyModel CodegenModel CodegenProof InterpModel InterpProof BnProof FftpBase
  VerifierModel VerifierProof HashModel FriModel FftpModel ProverModel ProverProof ParModel ParProof StarkModel StarkGen StarkRow.
Open Scope nat_scope.
Open Scope res_scope.

Lemma bind_Ok {A B} (a : A) (f : A -> res B) : bind (Ok a) f = f a. Proof. reflexivity. Qed.
(* ---------- values up to representation ---------- *)
Definition kc (j : nat) (x : K) : Fr := match j with 0 => k0 x | 1 => k1 x | _ => k2 x end.
Definition up (v v' : F3G) : Prop := val v = val v' /\ wf v /\ wf v' /\ (d3 v = true -> d3 v' = true).
Lemma up_refl v : wf v -> up v v. Proof. intros H. repeat split; auto; apply H; assumption. Qed.
Lemma up_add a a' b b' : up a a' -> up b b' -> up (e_add a b) (e_add a' b').
Proof.
  intros [A1 [A2 [A3 A4]]] [B1 [B2 [B3 B4]]]. split; [now rewrite !val_add, A1, B1|]. split; [apply wf_add|]. split; [apply wf_add|].
  rewrite !d3_add. intros H. apply orb_prop in H. destruct H as [H|H]; [rewrite (A4 H); reflexivity | rewrite (B4 H); apply orb_true_r].
Qed.
Lemma up_sub a a' b b' : up a a' -> up b b' -> up (e_sub a b) (e_sub a' b').
Proof.
  intros [A1 [A2 [A3 A4]]] [B1 [B2 [B3 B4]]]. split; [now rewrite !val_sub, A1, B1|]. split; [apply wf_sub|]. split; [apply wf_sub|].
  rewrite !d3_sub. intros H. apply orb_prop in H. destruct H as [H|H]; [rewrite (A4 H); reflexivity | rewrite (B4 H); apply orb_true_r].
Qed.
Lemma up_mul a a' b b' : up a a' -> up b b' -> up (e_mul a b) (e_mul a' b').
Proof.
  intros [A1 [A2 [A3 A4]]] [B1 [B2 [B3 B4]]]. split; [now rewrite !val_mul, A1, B1|]. split; [apply wf_mul|]. split; [apply wf_mul|].
  rewrite !d3_mul. intros H. apply orb_prop in H. destruct H as [H|H]; [rewrite (A4 H); reflexivity | rewrite (B4 H); apply orb_true_r].
Qed.
Lemma base_from v : wf v -> d3 v = false -> v = e_from (kc 0 (val v)).
Proof. intros H D. destruct (H D) as [H1 H2]. destruct v as [a b c d]. cbn in *. subst. reflexivity. Qed.
Lemma base_kc v j : d3 v = false -> kc (S j) (val v) = f0.
Proof. intros D. unfold val. rewrite D. destruct j; reflexivity. Qed.
Lemma wide_kc v : d3 v = true -> c0 v = kc 0 (val v) /\ c1 v = kc 1 (val v) /\ c2 v = kc 2 (val v).
Proof. intros D. unfold val. rewrite D. repeat split. Qed.
Lemma val_kc v : val v = mkK (kc 0 (val v)) (kc 1 (val v)) (kc 2 (val v)).
Proof. destruct (val v). reflexivity. Qed.

(* ---------- writing the chunks back, whatever they hold ---------- *)
Section Back.
  Variables (si : sinfo) (st : pstep) (m0 : mem) (per n next : nat) (tg : sec -> nat -> nat -> option F3G).
  Local Notation w := (sec_width si).
  Hypothesis Hnx : par_next si st = next.
  Hypothesis Hm0 : forall s, In s (step_out st) -> length (m_sec m0 s) = n * w s.
  Definition wid (k : nat) : nat := Nat.min per (n - k * per).
  Definition drows (k : nat) : nat := Nat.min n (k * per).
  Definition cdone (k : nat) (C : mem) : Prop :=
    forall s, In s (step_out st) -> length (m_sec C s) = (wid k + next) * w s /\
      forall r c, r < wid k -> c < w s -> nth_error (m_sec C s) (r * w s + c) = tg s (k * per + r) c.
  Lemma drows_S k : k * per < n -> drows k = k * per /\ drows (S k) = k * per + wid k.
  Proof. intros H. unfold drows, wid. rewrite Nat.mul_succ_l. lia. Qed.
  Lemma step_out_nd : NoDup (step_out st).
  Proof. clear. destruct st; cbn [step_out]; repeat constructor; cbn [In]; intuition discriminate. Qed.
  (* writing one section back *)
  Lemma nwrite_section k C m s : k * per < n -> cdone k C -> In s (step_out st) -> length (m_sec m s) = n * w s ->
    exists m', write_section si st per k C m s = Ok m' /\ (forall s', s' <> s -> m_sec m' s' = m_sec m s') /\
      length (m_sec m' s) = n * w s /\
      forall r c, r < n -> c < w s -> nth_error (m_sec m' s) (r * w s + c) =
        if (k * per <=? r) && (r <? k * per + wid k) then tg s r c else nth_error (m_sec m s) (r * w s + c).
  Proof.
    intros Hk HD Hs HL. destruct (HD s Hs) as [L N]. unfold write_section. cbv zeta. rewrite Hnx.
    assert (Hle : length (m_sec C s) - w s * next = wid k * w s).
    { rewrite L, Nat.mul_add_distr_r, (Nat.mul_comm (w s)). apply Nat.add_sub. }
    destruct (Nat.ltb_spec (length (m_sec C s)) (w s * next)) as [Hlt|_].
    { exfalso. rewrite L, Nat.mul_add_distr_r, (Nat.mul_comm (w s)) in Hlt. lia. }
    rewrite Hle.
    assert (Hb : k * per * w s + wid k * w s <= length (m_sec m s)).
    { rewrite HL, <- Nat.mul_add_distr_r. apply Nat.mul_le_mono_r. unfold wid. lia. }
    assert (Hc : wid k * w s <= length (m_sec C s)).
    { rewrite L, Nat.mul_add_distr_r. apply Nat.le_add_r. }
    destruct (copy_back (m_sec C s) (k * per * w s) (wid k * w s) (m_sec m s) Hc Hb) as [out [E [Lo No]]].
    rewrite E. cbn [bind]. exists (m_set m s out). split; [reflexivity|]. split; [intros s' Hs'; now apply m_set_other|].
    rewrite m_set_same. split; [lia|]. intros r c Hr Hcc. rewrite No.
    destruct (Nat.leb_spec (k * per) r) as [H1|H1].
    - destruct (Nat.ltb_spec r (k * per + wid k)) as [H2|H2]; cbn [andb].
      + assert (Hrk : r = k * per + (r - k * per)) by lia. set (q := r - k * per) in *. clearbody q. subst r.
        assert (Hq : q * w s + c < wid k * w s) by (apply row_bound; [exact Hcc | lia]).
        rewrite Nat.mul_add_distr_r, <- Nat.add_assoc.
        replace (k * per * w s <=? k * per * w s + (q * w s + c)) with true by (symmetry; apply Nat.leb_le, Nat.le_add_r).
        replace (k * per * w s + (q * w s + c) <? k * per * w s + wid k * w s) with true by (symmetry; apply Nat.ltb_lt; lia).
        cbn [andb]. rewrite (Nat.add_comm (k * per * w s)), Nat.add_sub. apply N; [lia | exact Hcc].
      + pose proof (Nat.mul_le_mono_r _ _ (w s) H2) as Hm. rewrite Nat.mul_add_distr_r in Hm.
        replace (r * w s + c <? k * per * w s + wid k * w s) with false by (symmetry; apply Nat.ltb_ge; lia).
        rewrite andb_false_r. reflexivity.
    - pose proof (row_bound (w s) r c (k * per) Hcc H1) as Hm.
      replace (k * per * w s <=? r * w s + c) with false by (symmetry; apply Nat.leb_gt; exact Hm). reflexivity.
  Qed.

  Lemma nwrite_all k C : k * per < n -> cdone k C -> forall L m, NoDup L -> (forall s, In s L -> In s (step_out st)) ->
    (forall s, In s L -> length (m_sec m s) = n * w s) ->
    exists m', foldM (write_section si st per k C) L m = Ok m' /\ (forall s, ~ In s L -> m_sec m' s = m_sec m s) /\
      forall s, In s L -> length (m_sec m' s) = n * w s /\
        forall r c, r < n -> c < w s -> nth_error (m_sec m' s) (r * w s + c) =
          if (k * per <=? r) && (r <? k * per + wid k) then tg s r c else nth_error (m_sec m s) (r * w s + c).
  Proof.
    intros Hk HD. induction L as [|a L IH]; intros m ND Hsub HL.
    - exists m. split; [reflexivity|]. split; [reflexivity|]. intros s [].
    - inversion ND as [|x y Hna ND']; subst.
      destruct (nwrite_section k C m a Hk HD (Hsub a (or_introl eq_refl)) (HL a (or_introl eq_refl))) as [ma [Ea [Oa [La Na]]]].
      assert (HL' : forall s, In s L -> length (m_sec ma s) = n * w s).
      { intros s Hs. rewrite Oa by (intros ->; contradiction). apply HL. now right. }
      destruct (IH ma ND' (fun s Hs => Hsub s (or_intror Hs)) HL') as [m' [E [O N]]].
      exists m'. cbn [foldM]. rewrite Ea. cbn [bind]. split; [exact E|]. split.
      + intros s Hs. rewrite O by (intros HH; apply Hs; now right). apply Oa. intros ->. apply Hs. now left.
      + intros s [<-|Hs]; [rewrite O by exact Hna; split; [exact La | exact Na]|].
        destruct (N s Hs) as [L1 N1]. split; [exact L1|]. intros r c Hr Hc. rewrite N1 by assumption.
        rewrite Oa by (intros ->; contradiction). reflexivity.
  Qed.

  Lemma nwrite_chunks cs : (forall i C, nth_error cs i = Some C -> cdone i C) -> forall k, k <= length cs ->
    (forall i, i < k -> i * per < n) ->
    exists p, foldM (write_back si st per) (combine (seq 0 k) (firstn k cs)) m0 = Ok p /\
      (forall s, ~ In s (step_out st) -> m_sec p s = m_sec m0 s) /\
      forall s, In s (step_out st) -> length (m_sec p s) = n * w s /\
        forall r c, r < n -> c < w s -> nth_error (m_sec p s) (r * w s + c) =
          if r <? drows k then tg s r c else nth_error (m_sec m0 s) (r * w s + c).
  Proof.
    intros HD. induction k as [|k IH]; intros Hk Hkn.
    - exists m0. split; [reflexivity|]. split; [reflexivity|]. intros s Hs. 
      split; [exact (Hm0 s Hs)|]. intros r c Hr Hc.
      replace (r <? drows 0) with false by (symmetry; apply Nat.ltb_ge; unfold drows; lia). reflexivity.
    - destruct (IH ltac:(lia) (fun i Hi => Hkn i ltac:(lia))) as [p [E [O N]]].
      destruct (nth_error cs k) as [C|] eqn:EC; [|apply nth_error_None in EC; lia].
      pose proof (Hkn k ltac:(lia)) as Hkk. destruct (drows_S k Hkk) as [DK DS].
      destruct (nwrite_all k C Hkk (HD k C EC) (step_out st) p step_out_nd (fun s H => H) (fun s Hs => proj1 (N s Hs))) as [p' [E' [O' N']]].
      exists p'. rewrite seq_S, Nat.add_0_l.
      assert (Hf : firstn (S k) cs = firstn k cs ++ [C]).
      { apply firstn_nth. exact EC. }
      rewrite Hf, combine_app_len by (rewrite seq_length, firstn_length; lia). rewrite foldM_app, E. cbn [bind combine foldM write_back].
      rewrite E'. cbn [bind]. split; [reflexivity|]. split; [intros s Hs; rewrite O' by exact Hs; now apply O|].
      intros s Hs. destruct (N' s Hs) as [L1 N1]. destruct (N s Hs) as [_ N2]. split; [exact L1|]. intros r c Hr Hc. rewrite N1, N2 by assumption.
      rewrite DK, DS. destruct (Nat.leb_spec (k * per) r) as [H1|H1]; destruct (Nat.ltb_spec r (k * per + wid k)) as [H2|H2]; cbn [andb].
      + reflexivity.
      + replace (r <? k * per) with false by (symmetry; apply Nat.ltb_ge; lia). reflexivity.
      + replace (r <? k * per) with true by (symmetry; apply Nat.ltb_lt; lia). reflexivity.
      + lia.
  Qed.

End Back.

Section NStep.
  Variables (si : sinfo) (st : pstep) (m0 : mem).
  (* the columns written, and the values they are to hold *)
  Variables (W : sec -> nat -> bool) (X : sec -> nat -> nat -> Fr).
  Variables (im texp : list (nat * nat)) (td : nat -> bool) (T tused : nat).
  Hypothesis Hdom : step_dom st = true.
  Local Notation n := (2 ^ si_nbits si).
  Local Notation w := (sec_width si).
  Local Notation io := (step_in st ++ step_out st).
  Local Notation store := (ntype * nat * bool -> option F3G).

  Lemma nn : n <> 0. Proof. apply Nat.pow_nonzero. discriminate. Qed.
  Lemma par_n_n : par_n si st = n. Proof. unfold par_n. rewrite Hdom. reflexivity. Qed.
  Lemma par_next_n : par_next si st = 1. Proof. unfold par_next. rewrite Hdom. reflexivity. Qed.

  (* the column of a reference, and that of a kept expression *)
  Definition ncol (ty : ntype) (id : nat) : option (sec * nat * nat) :=
    match ty with
    | Ncm => match nth_error (si_cm_n si) id with Some q => nth_error (si_map si) q | None => None end
    | NtmpExp => match nth_error (si_tmpexp si) id with Some q => nth_error (si_map si) q | None => None end
    | _ => None
    end.
  Definition kept (i : nat) : option (ntype * nat) :=
    match assoc Nat.eqb im i with
    | Some c => Some (Ncm, c)
    | None => match assoc Nat.eqb texp i with Some k => Some (NtmpExp, k) | None => None end
    end.
  Definition col_ok (q : sec * nat * nat) : Prop :=
    let '(s, pos, dim) := q in (dim = 1 \/ dim = 3) /\ In s io /\ si_width si s = w s /\ pos + dim <= w s.
  Definition wnode (r : node) : bool :=
    match n_ty r with
    | Ntmp => td (n_id r)
    | Ncm | NtmpExp => match ncol (n_ty r) (n_id r) with Some (_, _, dim) => dim =? 3 | None => true end
    | Npublic => existsb d3 (m_sec m0 Spublics)
    | Nchallenge => true
    | _ => false
    end.
  Definition typed (c : instr) : Prop := wnode (i_dest c) = false -> Forall (fun r => wnode r = false) (i_src c).
  (* a reference to data that the code leaves as it is *)
  Definition lread (r : node) : Prop :=
    match n_ty r with
    | Ncm => exists s pos dim, ncol Ncm (n_id r) = Some (s, pos, dim) /\ col_ok (s, pos, dim) /\ In s (step_in st) /\
        forall c, pos <= c < pos + dim -> W s c = false
    | Nconst => n_id r < si_nconst si /\ In Sconst_n (step_in st) /\ (forall c, W Sconst_n c = false)
    | Nnumber => exists v, number_ref (n_value r) = Ok v
    | Npublic => n_id r < length (m_sec m0 Spublics)
    | Nchallenge => n_id r < length (m_sec m0 Schallenge)
    | Nx => In Sx_n (step_in st) /\ forall c, W Sx_n c = false
    | _ => False
    end.

  (* a cell before the code runs *)
  Definition init (s : sec) (c g : nat) : option F3G :=
    if in_dec sec_dec s (step_in st) then nth_error (m_sec m0 s) (g * w s + c) else Some e_ZERO.

  Hypothesis Hmem : mem_ok si st m0.
  Hypothesis Hbase : forall s, In s io -> Forall vbase (m_sec m0 s).
  Hypothesis Hpub : Forall wf (m_sec m0 Spublics).
  Hypothesis Hcha : Forall wf (m_sec m0 Schallenge).

  Lemma m0_len s : In s io -> length (m_sec m0 s) = n * w s.
  Proof. intros H. destruct Hmem as [M _]. destruct (M s H) as [L _]. now rewrite par_n_n in L. Qed.
  Lemma init_base s c g : In s io -> g < n -> c < w s -> exists x, init s c g = Some (e_from x).
  Proof.
    intros Hs Hg Hc. unfold init. destruct (in_dec sec_dec s (step_in st)) as [Hi|Hi]; [|now exists f0].
    pose proof (m0_len s Hs) as L. pose proof (row_bound (w s) g c n Hc Hg) as Hb. rewrite <- L in Hb.
    destruct (nth_error (m_sec m0 s) (g * w s + c)) as [v|] eqn:E; [|apply nth_error_None in E; lia].
    pose proof (proj1 (Forall_forall _ _) (Hbase s Hs) v (nth_error_In _ _ E)) as [x ->]. now exists x.
  Qed.

  Section Chunk.
    Variables (s0 cur : nat).
    Hypothesis Hcur : s0 + cur <= n.
    Local Notation cell C s r c := (nth_error (m_sec C s) (r * w s + c)).
    Local Notation truth s c r := (Some (e_from (X s c ((s0 + r) mod n)))).

    Record inv (C : mem) : Prop := mkInv {
      i_glob : forall s, global s = true -> m_sec C s = m_sec m0 s;
      i_len : forall s, In s io -> length (m_sec C s) = (cur + 1) * w s;
      i_cell : forall s r c, In s io -> r < cur + 1 -> c < w s ->
        cell C s r c = init s c ((s0 + r) mod n) \/ (In s (step_out st) /\ W s c = true /\ cell C s r c = truth s c r);
      i_tmp : length (m_sec C Stmp) = tused }.
    Definition mono (C C' : mem) : Prop :=
      forall s r c, In s io -> r < cur + 1 -> c < w s -> cell C s r c = truth s c r -> cell C' s r c = truth s c r.
    Lemma mono_refl C : mono C C. Proof. intros s r c _ _ _ H. exact H. Qed.
    Lemma mono_trans A B C : mono A B -> mono B C -> mono A C.
    Proof. intros H1 H2 s r c a b d e. apply H2; try assumption. now apply H1. Qed.

    Definition lrow (j : nat) (p : bool) : nat := (j + if p then 1 else 0) mod n.
    Lemma lrow_le j p : j < cur -> lrow j p < cur + 1.
    Proof. intros H. unfold lrow. pose proof (Nat.mod_le (j + if p then 1 else 0) n nn). destruct p; lia. Qed.
    Lemma lrow_row j p : (s0 + lrow j p) mod n = (s0 + j + if p then 1 else 0) mod n.
    Proof. unfold lrow. rewrite Nat.add_mod_idemp_r by exact nn. now rewrite Nat.add_assoc. Qed.
    Lemma row_lt r : (s0 + r) mod n < n. Proof. apply Nat.mod_upper_bound, nn. Qed.

    Lemma inv_cell C s r c : inv C -> In s io -> r < cur + 1 -> c < w s -> exists x, cell C s r c = Some (e_from x).
    Proof.
      intros HI Hs Hr Hc. destruct (i_cell C HI s r c Hs Hr Hc) as [E|[_ [_ E]]]; [|eexists; exact E].
      destruct (init_base s c ((s0 + r) mod n) Hs (row_lt r) Hc) as [x E']. exists x. now rewrite E.
    Qed.
    Lemma inv_keep C s r c : inv C -> In s io -> r < cur + 1 -> c < w s -> W s c = false -> cell C s r c = init s c ((s0 + r) mod n).
    Proof. intros HI Hs Hr Hc HW. destruct (i_cell C HI s r c Hs Hr Hc) as [E|[_ [E _]]]; [exact E | congruence]. Qed.

    (* reading a column of the chunk *)
    Lemma read_col C s pos dim nxt j : inv C -> j < cur -> nxt <= 1 -> col_ok (s, pos, dim) ->
      exists f, (forall k, k < dim -> cell C s ((j + nxt) mod n) (pos + k) = Some (e_from (f k))) /\
        get_value C (mkR (RSec s) (dim =? 3) pos nxt n (si_width si s)) j = Ok (if dim =? 3 then e_new (f 0) (f 1) (f 2) else e_from (f 0)).
    Proof.
      intros HI Hj Hn [Hd [Hs [Hw Hp]]]. pose proof (Nat.mod_le (j + nxt) n nn) as Hr. set (r := (j + nxt) mod n) in *.
      assert (Hx : forall k, k < dim -> exists x, cell C s r (pos + k) = Some (e_from x)).
      { intros k Hk. apply (inv_cell C s r (pos + k) HI Hs); lia. }
      unfold get_value. cbn [r_sym r_three]. unfold get_i. cbn [r_off r_next r_mod r_size]. fold r. rewrite Hw.
      destruct Hd as [-> | ->]; cbn [Nat.eqb].
      - destruct (Hx 0 ltac:(lia)) as [x Ex]. exists (fun _ => x). split.
        + intros k Hk. replace k with 0 by lia. exact Ex.
        + apply vget_some. replace (pos + r * w s) with (r * w s + (pos + 0)) by lia. exact Ex.
      - destruct (Hx 0 ltac:(lia)) as [x Ex]. destruct (Hx 1 ltac:(lia)) as [y Ey]. destruct (Hx 2 ltac:(lia)) as [z Ez].
        exists (fun k => match k with 0 => x | 1 => y | _ => z end). split.
        + intros k Hk. destruct k as [|[|[|k]]]; try assumption. lia.
        + unfold three. replace (pos + r * w s) with (r * w s + (pos + 0)) by lia. rewrite (vget_some _ _ _ Ex). cbn [bind].
          replace (r * w s + (pos + 0) + 1) with (r * w s + (pos + 1)) by lia. rewrite (vget_some _ _ _ Ey). cbn [bind].
          replace (r * w s + (pos + 0) + 2) with (r * w s + (pos + 2)) by lia. rewrite (vget_some _ _ _ Ez). reflexivity.
    Qed.

    Lemma col_read C r d s pos dim j : (n_ty r = Ncm \/ n_ty r = NtmpExp) -> d = true -> ncol (n_ty r) (n_id r) = Some (s, pos, dim) ->
      dim = 1 \/ dim = 3 ->
      read_ref si d j C r = get_value C (mkR (RSec s) (dim =? 3) pos (if n_prime r then 1 else 0) n (si_width si s)) j.
    Proof.
      intros Ht -> Hc Hd. unfold read_ref, get_ref, cm_ref, tmpexp_ref, eval_map, ncol in *.
      destruct Ht as [Ht|Ht]; rewrite Ht in *.
      - destruct (nth_error (si_cm_n si) (n_id r)) as [q|] eqn:Eq; [|discriminate Hc].
        rewrite (vget_some _ _ _ Eq). cbn [bind]. rewrite (vget_some _ _ _ Hc). cbn [bind].
        replace ((dim =? 1) || (dim =? 3)) with true by (destruct Hd as [-> | ->]; reflexivity). reflexivity.
      - destruct (nth_error (si_tmpexp si) (n_id r)) as [q|] eqn:Eq; [|discriminate Hc].
        rewrite (vget_some _ _ _ Eq). cbn [bind]. rewrite (vget_some _ _ _ Hc). cbn [bind].
        replace ((dim =? 1) || (dim =? 3)) with true by (destruct Hd as [-> | ->]; reflexivity). reflexivity.
    Qed.

    (* data the code leaves as it is *)
    Lemma leaf_read C r j : inv C -> j < cur -> lread r ->
      exists v, read_ref si true j C r = Ok v /\ read_ref si true (s0 + j) m0 r = Ok v /\ wf v /\ (d3 v = true -> wnode r = true).
    Proof.
      intros HI Hj Hr. unfold lread in Hr. unfold wnode. destruct (n_ty r) eqn:Et; try contradiction.
      - destruct Hr as [s [pos [dim [Hc [Hok [Hin HWc]]]]]]. pose proof Hok as [Hd [Hs [Hw Hp]]].
        assert (Hty : n_ty r = Ncm \/ n_ty r = NtmpExp) by (left; exact Et).
        assert (Hc' : ncol (n_ty r) (n_id r) = Some (s, pos, dim)) by (rewrite Et; exact Hc).
        set (p := if n_prime r then 1 else 0). assert (Hp1 : p <= 1) by (unfold p; destruct (n_prime r); lia).
        destruct (read_col C s pos dim p j HI Hj Hp1 Hok) as [f [Hf Hg]].
        pose proof (Nat.mod_le (j + p) n nn) as Hr'.
        exists (if dim =? 3 then e_new (f 0) (f 1) (f 2) else e_from (f 0)).
        split; [rewrite (col_read C r true s pos dim j Hty eq_refl Hc' Hd); exact Hg|]. split.
        + rewrite (col_read m0 r true s pos dim (s0 + j) Hty eq_refl Hc' Hd). fold p.
          assert (Hf' : forall k, k < dim -> nth_error (m_sec m0 s) (((s0 + j + p) mod n) * w s + (pos + k)) = Some (e_from (f k))).
          { intros k Hk. pose proof (Hf k Hk) as E. rewrite (inv_keep C s _ _ HI Hs) in E; [|lia|lia|apply HWc; lia]. unfold init in E.
            destruct (in_dec sec_dec s (step_in st)) as [_|Hno]; [|contradiction].
            rewrite Nat.add_mod_idemp_r in E by exact nn. rewrite (Nat.add_assoc s0 j p) in E. exact E. }
          unfold get_value. cbn [r_sym r_three]. unfold get_i. cbn [r_off r_next r_mod r_size]. rewrite Hw. set (q := (s0 + j + p) mod n) in *. clearbody q.
          destruct Hd as [-> | ->]; cbn [Nat.eqb].
          * apply vget_some. replace (pos + q * w s) with (q * w s + (pos + 0)) by lia. apply Hf'. lia.
          * unfold three. replace (pos + q * w s) with (q * w s + (pos + 0)) by lia. rewrite (vget_some _ _ _ (Hf' 0 ltac:(lia))). cbn [bind].
            replace (q * w s + (pos + 0) + 1) with (q * w s + (pos + 1)) by lia. rewrite (vget_some _ _ _ (Hf' 1 ltac:(lia))). cbn [bind].
            replace (q * w s + (pos + 0) + 2) with (q * w s + (pos + 2)) by lia. rewrite (vget_some _ _ _ (Hf' 2 ltac:(lia))). reflexivity.
        + rewrite Hc. destruct (dim =? 3); [split; [apply wf_new | reflexivity] | split; [apply wf_from | intros H; exact H]].
      - destruct Hr as [Hlt [Hin HWc]].
        assert (Hio : In Sconst_n io) by (apply in_or_app; now left).
        set (p := if n_prime r then 1 else 0).
        assert (Hp : p <= 1) by (unfold p; destruct (n_prime r); lia).
        pose proof (Nat.mod_le (j + p) n nn) as Hr'.
        destruct (inv_cell C Sconst_n ((j + p) mod n) (n_id r) HI Hio ltac:(lia) Hlt) as [x Ex].
        exists (e_from x). unfold read_ref, get_ref. rewrite Et. cbn [bind operand_value]. unfold InterpModel.cell. cbn [operand_value]. unfold get_value. cbn [r_sym r_three].
        unfold get_i. cbn [r_off r_next r_mod r_size dom_size]. fold p. rewrite !(Nat.add_comm (n_id r)).
        split; [apply vget_some; exact Ex|]. split; [|split; [apply wf_from | intros H; discriminate H]].
        rewrite (inv_keep C Sconst_n ((j + p) mod n) (n_id r) HI Hio ltac:(lia) Hlt (HWc _)) in Ex. unfold init in Ex.
        destruct (in_dec sec_dec Sconst_n (step_in st)) as [_|Hno]; [|contradiction].
        rewrite Nat.add_mod_idemp_r in Ex by exact nn. rewrite (Nat.add_assoc s0 j p) in Ex. apply vget_some. exact Ex.
      - destruct Hr as [v Hv]. exists v. unfold read_ref, get_ref. rewrite Et, Hv. cbn [rmap bind operand_value].
        assert (Hb : exists x, v = e_from x).
        { unfold number_ref in Hv. destruct (n_value r) as [z|]; [|discriminate Hv]. cbn [CodegenModel.unwrap bind] in Hv.
          match type of Hv with (if ?b then _ else _) = _ => destruct b end; [|discriminate Hv]. eexists. exact (eq_sym (f_equal (fun x => match x with Ok y => y | _ => e_ZERO end) Hv)). }
        destruct Hb as [x ->]. split; [reflexivity|]. split; [reflexivity|]. split; [apply wf_from | intros H; exact H].
      - destruct (nth_error (m_sec m0 Spublics) (n_id r)) as [v|] eqn:Ev; [|apply nth_error_None in Ev; lia]. exists v.
        unfold read_ref, get_ref. rewrite Et. cbn [bind]. unfold InterpModel.cell. cbn [operand_value]. unfold get_value. cbn [r_sym r_three].
        unfold get_i. cbn [r_off r_next r_mod r_size]. rewrite !Nat.mul_0_r, !Nat.add_0_r, (i_glob C HI Spublics eq_refl).
        split; [apply vget_some; exact Ev|]. split; [apply vget_some; exact Ev|].
        split; [exact (proj1 (Forall_forall _ _) Hpub v (nth_error_In _ _ Ev))|]. intros Hd. apply existsb_exists. exists v. split; [exact (nth_error_In _ _ Ev) | exact Hd].
      - destruct (nth_error (m_sec m0 Schallenge) (n_id r)) as [v|] eqn:Ev; [|apply nth_error_None in Ev; lia]. exists v.
        unfold read_ref, get_ref. rewrite Et. cbn [bind]. unfold InterpModel.cell. cbn [operand_value]. unfold get_value. cbn [r_sym r_three].
        unfold get_i. cbn [r_off r_next r_mod r_size]. rewrite !Nat.mul_0_r, !Nat.add_0_r, (i_glob C HI Schallenge eq_refl).
        split; [apply vget_some; exact Ev|]. split; [apply vget_some; exact Ev|].
        split; [exact (proj1 (Forall_forall _ _) Hcha v (nth_error_In _ _ Ev)) | reflexivity].
      - destruct Hr as [Hin HWc]. assert (Hio : In Sx_n io) by (apply in_or_app; now left).
        assert (Hjn : j < n) by lia. assert (Hsn : s0 + j < n) by lia.
        destruct (inv_cell C Sx_n j 0 HI Hio ltac:(lia) ltac:(cbn; lia)) as [x Ex].
        exists (e_from x). unfold read_ref, get_ref. rewrite Et. cbn [bind]. unfold InterpModel.cell. cbn [operand_value]. unfold get_value. cbn [r_sym r_three].
        unfold get_i. cbn [r_off r_next r_mod r_size]. change (dom_size si true) with n. rewrite !Nat.add_0_r, !Nat.mod_small, !Nat.add_0_l by assumption.
        pose proof Ex as Ex'. rewrite (inv_keep C Sx_n j 0 HI Hio ltac:(lia) ltac:(cbn; lia) (HWc _)) in Ex'. unfold init in Ex'.
        destruct (in_dec sec_dec Sx_n (step_in st)) as [_|Hno]; [|contradiction]. rewrite Nat.mod_small in Ex' by exact Hsn.
        cbn [sec_width] in Ex, Ex'. rewrite Nat.add_0_r in Ex, Ex'.
        split; [apply vget_some; exact Ex|]. split; [apply vget_some; exact Ex'|]. split; [apply wf_from | intros H; exact H].
    Qed.

    (* writing a column of the chunk *)
    Lemma write_col C s pos dim p j v : inv C -> j < cur -> col_ok (s, pos, dim) -> In s (step_out st) -> wf v ->
      (dim = 1 -> d3 v = false) ->
      (forall k, k < dim -> W s (pos + k) = true /\ X s (pos + k) ((s0 + lrow j p) mod n) = kc k (val v)) ->
      (dim = 3 -> d3 v = false -> forall k, 1 <= k < 3 -> init s (pos + k) ((s0 + lrow j p) mod n) = Some e_ZERO) ->
      exists C', write_ref C (mkR (RSec s) (dim =? 3) pos (if p then 1 else 0) n (si_width si s)) j v = Ok C' /\ inv C' /\ mono C C' /\
        m_sec C' Stmp = m_sec C Stmp /\ forall k, k < dim -> cell C' s (lrow j p) (pos + k) = truth s (pos + k) (lrow j p).
    Proof.
      intros HI Hj [Hd [Hs [Hw Hp]]] Ho Hv Hd1 HX HZ. destruct (step_secs st s Hs) as [Hne Hng].
      set (L := lrow j p) in *. assert (HL : L < cur + 1) by (apply lrow_le, Hj).
      assert (Hi : get_i (mkR (RSec s) (dim =? 3) pos (if p then 1 else 0) n (si_width si s)) j = L * w s + pos).
      { unfold get_i. cbn [r_off r_next r_mod r_size]. rewrite Hw. unfold L, lrow. apply Nat.add_comm. }
      set (len := length (wcells v)).
      assert (Hlen : 0 < len <= dim).
      { unfold len. rewrite wcells_len. destruct (d3 v) eqn:Ev; cbn [cells]; destruct Hd as [-> | ->]; try lia; exfalso; discriminate (Hd1 eq_refl). }
      assert (BC : L * w s + pos + len <= length (m_sec C s)).
      { rewrite (i_len C HI s Hs). pose proof (row_bound (w s) L (pos + len - 1) (cur + 1) ltac:(lia) HL). lia. }
      destruct (write_cells C (mkR (RSec s) (dim =? 3) pos (if p then 1 else 0) n (si_width si s)) j v s eq_refl Hne ltac:(rewrite Hi; exact BC)) as [lc [EC [Lc NC]]].
      rewrite Hi in NC. fold len in NC.
      assert (QC : forall r c, c < w s -> nth_error lc (r * w s + c) =
                     if (r =? L) && ((pos <=? c) && (c <? pos + len)) then nth_error (wcells v) (c - pos) else nth_error (m_sec C s) (r * w s + c)).
      { intros r c Hc. rewrite NC, (row_idx_b (w s) r c L pos len Hc) by lia.
        destruct ((r =? L) && _) eqn:Eb; [|reflexivity]. apply andb_prop in Eb. destruct Eb as [Eb _]. apply Nat.eqb_eq in Eb. subst r. f_equal. lia. }
      clear NC.
      (* the cells written hold what they should *)
      assert (HT : forall k, k < len -> nth_error (wcells v) k = truth s (pos + k) L).
      { intros k Hk. destruct (HX k ltac:(lia)) as [_ ->]. unfold len, wcells in *. destruct (d3 v) eqn:Ev; cbn [length] in Hk.
        - destruct (wide_kc v Ev) as [-> [-> ->]]. destruct k as [|[|[|k]]]; try reflexivity. lia.
        - replace k with 0 by lia. cbn [nth_error]. now rewrite <- (base_from v Hv Ev). }
      exists (m_set C s lc). split; [exact EC|].
      assert (HC : forall s' r c, In s' io -> c < w s' ->
                cell (m_set C s lc) s' r c = cell C s' r c \/
                (s' = s /\ r = L /\ (exists k, c = pos + k /\ k < len) /\ cell (m_set C s lc) s' r c = truth s c L)).
      { intros s' r c Hs' Hc. destruct (sec_dec s' s) as [->|Hd']; [|left; now rewrite m_set_other]. rewrite m_set_same, (QC r c Hc).
        destruct (Nat.eqb_spec r L) as [->|]; [|left; reflexivity]. destruct (Nat.leb_spec pos c) as [H1|]; [|left; reflexivity].
        destruct (Nat.ltb_spec c (pos + len)) as [H2|]; [|left; reflexivity]. cbn [andb]. right. split; [reflexivity|]. split; [reflexivity|].
        split; [exists (c - pos); lia|]. rewrite HT by lia. replace (pos + (c - pos)) with c by lia. reflexivity. }
      split; [|split; [|split]].
      - constructor.
        + intros s' Hg. rewrite m_set_other by (intros ->; congruence). exact (i_glob C HI s' Hg).
        + intros s' Hs'. destruct (sec_dec s' s) as [->|Hd']; [rewrite m_set_same, Lc; exact (i_len C HI s Hs) | rewrite m_set_other by exact Hd'; exact (i_len C HI s' Hs')].
        + intros s' r c Hs' Hr Hc. destruct (HC s' r c Hs' Hc) as [E|[-> [-> [[k [-> Hk]] E]]]]; [rewrite E; exact (i_cell C HI s' r c Hs' Hr Hc)|].
          right. split; [exact Ho|]. split; [exact (proj1 (HX k ltac:(lia))) | exact E].
        + rewrite m_set_other by (intros E; now apply Hne). exact (i_tmp C HI).
      - intros s' r c Hs' Hr Hc E0. destruct (HC s' r c Hs' Hc) as [E|[-> [-> [_ E]]]]; [now rewrite E | exact E].
      - apply m_set_other. intros E. now apply Hne.
      - intros k Hk. rewrite m_set_same, (QC L (pos + k)) by lia. rewrite Nat.eqb_refl.
        destruct (Nat.leb_spec pos (pos + k)) as [_|]; [|lia]. destruct (Nat.ltb_spec (pos + k) (pos + len)) as [H2|H2]; cbn [andb].
        + replace (pos + k - pos) with k by lia. apply HT. lia.
        + (* the rest of a base value in a wide column *)
          assert (Ev : d3 v = false).
          { destruct (d3 v) eqn:Ev; [|reflexivity]. exfalso. unfold len in H2. rewrite wcells_len, Ev in H2. cbn [cells] in H2. destruct Hd as [-> | ->]; lia. }
          assert (Hl1 : len = 1) by (unfold len; rewrite wcells_len, Ev; reflexivity).
          assert (Hd3 : dim = 3) by (destruct Hd as [-> | ->]; lia).
          destruct (HX k Hk) as [_ EX].
          destruct (i_cell C HI s L (pos + k) Hs HL ltac:(lia)) as [E|[_ [_ E]]]; [|exact E].
          rewrite E, (HZ Hd3 Ev k ltac:(lia)), EX. destruct k as [|k]; [lia|]. now rewrite (base_kc v k Ev).
    Qed.

    (* ---------- the store of the code and the chunk ---------- *)
    Definition tmp_has (C : mem) (k : nat) (v : F3G) : Prop :=
      exists v', nth_error (m_sec C Stmp) k = Some v' /\ up v v' /\ (d3 v' = true -> td k = true).
    Definition col_has (C : mem) (row : nat) (q : sec * nat * nat) (v : F3G) : Prop :=
      let '(s, pos, dim) := q in
      col_ok q /\ wf v /\ (dim = 1 -> d3 v = false) /\
      forall k, k < dim -> cell C s row (pos + k) = truth s (pos + k) row /\ X s (pos + k) ((s0 + row) mod n) = kc k (val v).
    Definition SR (s : store) (f : fstate) (C : mem) (j : nat) : Prop :=
      (forall k v, s (Ntmp, k, false) = Some v -> k < T -> tmp_has C k v) /\
      (forall i p v, s (Nexp, i, p) = Some v ->
         match kept i with
         | Some (ty, k) => exists q, ncol ty k = Some q /\ col_has C (lrow j p) q v
         | None => exists k, ea f (p, i) = Some k /\ tmp_has C k v
         end).
    Lemma SR_le s f f' C j : f_le f f' -> SR s f C j -> SR s f' C j.
    Proof.
      intros L [A B]. split; [exact A|]. intros i p v Hv. specialize (B i p v Hv). destruct (kept i) as [[ty k]|]; [exact B|].
      destruct B as [k [B1 B2]]. exists k. split; [apply L, B1 | exact B2].
    Qed.
    Lemma col_has_mono C C' j p q v : j < cur -> mono C C' -> col_has C (lrow j p) q v -> col_has C' (lrow j p) q v.
    Proof.
      intros Hj HM. destruct q as [[s pos] dim]. intros [A [B [D E]]]. pose proof A as [_ [Hs [_ Hp]]].
      split; [exact A|]. split; [exact B|]. split; [exact D|]. intros k Hk. destruct (E k Hk) as [E1 E2]. split; [|exact E2].
      apply HM; [exact Hs | apply lrow_le, Hj | lia | exact E1].
    Qed.

    Local Notation fixr := (fixp_ref si im texp true).
    Lemma nfix_ok f r r' f' : f_inv T f -> fixr f r = Ok (r', f') -> f_inv T f' /\ f_le f f'.
    Proof.
      intros I E. unfold fixp_ref in E.
      destruct (n_ty r); try discriminate E; try (injection E as <- <-; split; [exact I | apply f_le_refl]).
      - destruct (assoc Nat.eqb im (n_id r)) as [c|]; [injection E as <- <-; split; [exact I | apply f_le_refl]|].
        destruct (assoc Nat.eqb texp (n_id r)) as [c|]; [injection E as <- <-; split; [exact I | apply f_le_refl]|].
        destruct (exp_tmp f (n_prime r, n_id r)) as [t f1] eqn:Et. destruct (exp_tmp_ok T _ _ _ _ I Et) as [A [B _]].
        injection E as <- <-. split; assumption.
      - destruct (vget (si_cm_n si) (n_id r)); try discriminate E. injection E as <- <-. split; [exact I | apply f_le_refl].
    Qed.
    Lemma nfixs_ok l : forall f l' f', f_inv T f -> iter_refs fixr f l = Ok (l', f') -> f_inv T f' /\ f_le f f'.
    Proof.
      induction l as [|r l IH]; intros f l' f' I E; cbn [iter_refs] in E.
      - injection E as <- <-. split; [exact I | apply f_le_refl].
      - destruct (fixr f r) as [[r1 f1]| | |] eqn:E1; try discriminate E. cbn [bind fst snd] in E.
        destruct (iter_refs fixr f1 l) as [[l1 f2]| | |] eqn:E2; try discriminate E. cbn [bind fst snd] in E. injection E as <- <-.
        destruct (nfix_ok _ _ _ _ I E1) as [I1 L1]. destruct (IH _ _ _ I1 E2) as [I2 L2]. split; [exact I2 | eapply f_le_trans; eassumption].
    Qed.
    Lemma nfixc_ok l : forall f l' f', f_inv T f -> iter_code fixr f l = Ok (l', f') -> f_inv T f' /\ f_le f f'.
    Proof.
      induction l as [|c l IH]; intros f l' f' I E; cbn [iter_code] in E.
      - injection E as <- <-. split; [exact I | apply f_le_refl].
      - destruct (iter_refs fixr f (i_src c)) as [[r1 f1]| | |] eqn:E1; try discriminate E. cbn [bind fst snd] in E.
        destruct (fixr f1 (i_dest c)) as [[d f2]| | |] eqn:E2; try discriminate E. cbn [bind fst snd] in E.
        destruct (iter_code fixr f2 l) as [[l1 f3]| | |] eqn:E3; try discriminate E. cbn [bind fst snd] in E. injection E as <- <-.
        destruct (nfixs_ok _ _ _ _ I E1) as [I1 L1]. destruct (nfix_ok _ _ _ _ I1 E2) as [I2 L2]. destruct (IH _ _ _ I2 E3) as [I3 L3].
        split; [exact I3|]. eapply f_le_trans; [exact L1|]. eapply f_le_trans; eassumption.
    Qed.

    Variable rho : node -> F3G.
    Variable j : nat.
    Hypothesis Hj : j < cur.
    (* the leaves at this row *)
    Hypothesis Hrho : forall r, lread r -> read_ref si true (s0 + j) m0 r = Ok (rho r).
    Definition lsrc (r : node) : Prop := n_ty r = Ntmp \/ n_ty r = Nexp \/ lread r.

    Lemma nread C s f r v r' f' : inv C -> SR s f C j -> f_inv T f -> ok_node T r -> lsrc r -> rd rho s r = Some v ->
      fixr f r = Ok (r', f') -> exists v', read_ref si true j C r' = Ok v' /\ up v v' /\ (d3 v' = true -> wnode r' = true).
    Proof.
      intros HI HR I [Hc Hk] Hs Hv Hf. destruct HR as [R1 R2]. unfold rd in Hv.
      destruct Hs as [Ht|[Ht|Hl]].
      - unfold fixp_ref in Hf. rewrite Ht in *. injection Hf as <- <-. destruct (Hk eq_refl) as [K1 K2]. unfold key in Hv. rewrite Ht, K2 in Hv.
        destruct (R1 _ _ Hv K1) as [v' [E [U D]]]. exists v'. rewrite read_tmp by exact Ht. split; [apply vget_some, E|]. split; [exact U|].
        unfold wnode. rewrite Ht. exact D.
      - unfold fixp_ref in Hf. rewrite Ht in *. unfold key in Hv. rewrite Ht in Hv. specialize (R2 _ _ _ Hv). unfold kept in R2.
        assert (Hcol : forall ty k, ty = Ncm \/ ty = NtmpExp -> (exists q, ncol ty k = Some q /\ col_has C (lrow j (n_prime r)) q v) ->
                  r' = mkN ty k (n_value r) (n_dim r) (n_prime r) (CodegenModel.n_pos r) ->
                  exists v', read_ref si true j C r' = Ok v' /\ up v v' /\ (d3 v' = true -> wnode r' = true)).
        { intros ty k Hty [[[s1 pos] dim] [Hq [Hok [Hwf [Hd1 Hcell]]]]] ->. pose proof Hok as [Hd _].
          set (r0 := mkN ty k (n_value r) (n_dim r) (n_prime r) (CodegenModel.n_pos r)).
          assert (Hnx : (if n_prime r then 1 else 0) <= 1) by (destruct (n_prime r); lia).
          destruct (read_col C s1 pos dim _ j HI Hj Hnx Hok) as [g [Hg1 Hg2]].
          assert (Hgv : forall q, q < dim -> g q = kc q (val v)).
          { intros q Hq'. destruct (Hcell q Hq') as [A B]. pose proof (Hg1 q Hq') as A'. unfold lrow in A. rewrite A' in A.
            apply (f_equal (fun o => match o with Some x => c0 x | None => f0 end)) in A. cbn in A. rewrite A. exact B. }
          exists (if dim =? 3 then e_new (g 0) (g 1) (g 2) else e_from (g 0)).
          split; [rewrite (col_read C r0 true s1 pos dim j Hty eq_refl Hq Hd); exact Hg2|].
          assert (Hwn : wnode r0 = (dim =? 3)).
          { unfold wnode, r0. cbn [n_ty n_id]. destruct Hty as [-> | ->]; rewrite Hq; reflexivity. }
          rewrite Hwn. clear Hwn Hg2 Hg1. destruct Hd as [-> | ->]; cbn [Nat.eqb].
          - rewrite Hgv by lia. split; [|intros HH; exact HH].
            rewrite <- (base_from v Hwf (Hd1 eq_refl)). apply up_refl, Hwf.
          - rewrite !Hgv by lia. split; [|reflexivity]. split; [change (val (e_new ?a ?b ?c)) with (mkK a b c); apply val_kc|].
            split; [exact Hwf|]. split; [apply wf_new | reflexivity]. }
        destruct (assoc Nat.eqb im (n_id r)) as [c|].
        + injection Hf as <- <-. exact (Hcol Ncm c (or_introl eq_refl) R2 eq_refl).
        + destruct (assoc Nat.eqb texp (n_id r)) as [k|].
          * injection Hf as <- <-. exact (Hcol NtmpExp k (or_intror eq_refl) R2 eq_refl).
          * destruct R2 as [k [R3 [v' [E [U D]]]]]. unfold exp_tmp, ea in *. rewrite R3 in Hf. injection Hf as <- <-.
            exists v'. rewrite read_tmp by reflexivity. cbn [n_id]. split; [apply vget_some, E|]. split; [exact U|]. exact D.
      - assert (Hlv : Some (rho r) = Some v /\ r' = r).
        { unfold lread in Hl. unfold fixp_ref in Hf. destruct (n_ty r); try contradiction; try (split; [exact Hv | congruence]).
          destruct (vget (si_cm_n si) (n_id r)); try discriminate Hf. cbn [bind] in Hf. split; [exact Hv | congruence]. }
        destruct Hlv as [Hlv ->]. injection Hlv as <-. destruct (leaf_read C r j HI Hj Hl) as [v' [E1 [E2 [E3 E4]]]].
        rewrite (Hrho r Hl) in E2. injection E2 as <-. exists (rho r). split; [exact E1|]. split; [apply up_refl, E3 | exact E4].
    Qed.

    Lemma nreads C s l : forall f vs l' f', inv C -> SR s f C j -> f_inv T f -> Forall (ok_node T) l -> Forall lsrc l -> rds rho s l = Some vs ->
      iter_refs fixr f l = Ok (l', f') -> exists vs', Forall2 (fun r v => read_ref si true j C r = Ok v) l' vs' /\ Forall2 up vs vs' /\
        Forall2 (fun r v => d3 v = true -> wnode r = true) l' vs'.
    Proof.
      induction l as [|r l IH]; intros f vs l' f' HI HR I Hok Hl Hv Hf; cbn [rds iter_refs] in *.
      - injection Hf as <- <-. injection Hv as <-. exists []. repeat constructor.
      - destruct (rd rho s r) as [v|] eqn:E1; [|discriminate Hv]. destruct (rds rho s l) as [vs0|] eqn:E2; [|discriminate Hv]. injection Hv as <-.
        destruct (fixr f r) as [[r1 f1]| | |] eqn:F1; try discriminate Hf. cbn [bind fst snd] in Hf.
        destruct (iter_refs fixr f1 l) as [[l1 f2]| | |] eqn:F2; try discriminate Hf. cbn [bind fst snd] in Hf. injection Hf as <- <-.
        inversion Hok as [|? ? Ho Hok']; subst. inversion Hl as [|? ? Hl1 Hl2]; subst.
        destruct (nfix_ok _ _ _ _ I F1) as [I1 L1].
        destruct (nread C s f r v r1 f1 HI HR I Ho Hl1 E1 F1) as [v' [A1 [A2 A3]]].
        destruct (IH f1 vs0 l1 f2 HI (SR_le _ _ _ _ _ L1 HR) I1 Hok' Hl2 eq_refl F2) as [vs' [B1 [B2 B3]]].
        exists (v' :: vs'). repeat split; constructor; assumption.
    Qed.

    Lemma nop C op srcs vs vs' v : op <> CMuladd -> apply_op op vs = Some v -> Forall2 up vs vs' ->
      Forall2 (fun r v => read_ref si true j C r = Ok v) srcs vs' -> Forall2 (fun r v => d3 v = true -> wnode r = true) srcs vs' ->
      exists v', direct_op si true j C op srcs = Ok v' /\ up v v' /\ (Forall (fun r => wnode r = false) srcs -> d3 v' = false).
    Proof.
      intros Hop Hv HU HR HD.
      assert (Hone : forall (r : node) x, (d3 x = true -> wnode r = true) -> wnode r = false -> d3 x = false).
      { intros r x H1 H2. destruct (d3 x); [rewrite (H1 eq_refl) in H2; discriminate H2 | reflexivity]. }
      assert (Htwo : forall (f : F3G -> F3G -> F3G), (forall a a' b b', up a a' -> up b b' -> up (f a b) (f a' b')) ->
        (forall a b, d3 (f a b) = d3 a || d3 b) -> (exists a b t, vs = a :: b :: t /\ v = f a b) ->
        exists ra rb rt x y, srcs = ra :: rb :: rt /\ read_ref si true j C ra = Ok x /\ read_ref si true j C rb = Ok y /\
          up v (f x y) /\ (Forall (fun r => wnode r = false) srcs -> d3 (f x y) = false)).
      { intros f Hf Hfd [a [b [t [-> ->]]]]. inversion HU as [|? x ? vs1 Ua HU1]; subst. inversion HU1 as [|? y ? vs2 Ub HU2]; subst.
        inversion HR as [|ra ? rs1 ? Ra HR1]; subst. inversion HR1 as [|rb ? rs2 ? Rb HR2]; subst.
        inversion HD as [|? ? ? ? Da HD1]; subst. inversion HD1 as [|? ? ? ? Db HD2]; subst.
        exists ra, rb, rs2, x, y. split; [reflexivity|]. split; [exact Ra|]. split; [exact Rb|]. split; [now apply Hf|].
        intros HF. rewrite Hfd, (Hone ra x Da (Forall_inv HF)), (Hone rb y Db (Forall_inv (Forall_inv_tail HF))). reflexivity. }
      destruct op; cbn [apply_op] in Hv; try contradiction.
      - destruct vs as [|a [|b t]]; try discriminate Hv. injection Hv as <-.
        destruct (Htwo e_add up_add d3_add) as [ra [rb [rt [x [y [-> [Ra [Rb [U D]]]]]]]]]; [exists a, b, t; split; reflexivity|].
        exists (e_add x y). split; [cbn [direct_op]; rewrite Ra, bind_Ok, Rb; reflexivity|]. split; [exact U | exact D].
      - destruct vs as [|a [|b t]]; try discriminate Hv. injection Hv as <-.
        destruct (Htwo e_sub up_sub d3_sub) as [ra [rb [rt [x [y [-> [Ra [Rb [U D]]]]]]]]]; [exists a, b, t; split; reflexivity|].
        exists (e_sub x y). split; [cbn [direct_op]; rewrite Ra, bind_Ok, Rb; reflexivity|]. split; [exact U | exact D].
      - destruct vs as [|a [|b t]]; try discriminate Hv. injection Hv as <-.
        destruct (Htwo e_mul up_mul d3_mul) as [ra [rb [rt [x [y [-> [Ra [Rb [U D]]]]]]]]]; [exists a, b, t; split; reflexivity|].
        exists (e_mul x y). split; [cbn [direct_op]; rewrite Ra, bind_Ok, Rb; reflexivity|]. split; [exact U | exact D].
      - destruct vs as [|a t]; try discriminate Hv. injection Hv as <-. inversion HU as [|? x ? vs1 Ua HU1]; subst.
        inversion HR as [|ra ? rs1 ? Ra HR1]; subst. inversion HD as [|? ? ? ? Da HD1]; subst.
        exists x. split; [exact Ra|]. split; [exact Ua|]. intros HF. exact (Hone ra x Da (Forall_inv HF)).
    Qed.

    (* what a kept expression must satisfy when it is written *)
    Definition truth_ok (i : nat) (p : bool) (v : F3G) : Prop :=
      match kept i with
      | None => True
      | Some (ty, k) => exists s pos dim, ncol ty k = Some (s, pos, dim) /\ col_ok (s, pos, dim) /\ In s (step_out st) /\
          (forall c, c < dim -> W s (pos + c) = true /\ X s (pos + c) ((s0 + lrow j p) mod n) = kc c (val v)) /\
          (dim = 3 -> d3 v = false -> forall c, 1 <= c < 3 -> init s (pos + c) ((s0 + lrow j p) mod n) = Some e_ZERO)
      end.

    Lemma inv_tmp C C' : inv C -> InterpProof.frame C C' -> length (m_sec C' Stmp) = tused -> inv C' /\ mono C C'.
    Proof.
      intros HI [F _] L.
      assert (E : forall s, In s io -> m_sec C' s = m_sec C s) by (intros s Hs; apply F; exact (proj1 (step_secs st s Hs))).
      split; [constructor|].
      - intros s Hs. rewrite F by (intros ->; discriminate Hs). exact (i_glob C HI s Hs).
      - intros s Hs. rewrite (E s Hs). exact (i_len C HI s Hs).
      - intros s r c Hs. rewrite (E s Hs). exact (i_cell C HI s r c Hs).
      - exact L.
      - intros s r c Hs _ _ HH. rewrite (E s Hs). exact HH.
    Qed.

    Lemma nwrite C s f dst d' f' v v' calc : inv C -> SR s f C j -> f_inv T f -> f_tmp f' <= tused ->
      (n_ty dst = Ntmp /\ ok_node T dst \/ exists i p, key dst = (Nexp, i, p) /\ ~ In (p, i) calc) ->
      fixr f dst = Ok (d', f') -> up v v' -> (wnode d' = false -> d3 v' = false) ->
      (n_ty dst = Nexp -> truth_ok (n_id dst) (n_prime dst) v) ->
      exists C', (do r <- dest_ref si d' true (dom_next si true) (dom_size si true); write_ref C r j v') = Ok C' /\ inv C' /\ mono C C' /\
        SR (upd s (key dst) v) f' C' j.
    Proof.
      intros HI HR I Htu Hdst Hf HU Hn HT. destruct (nfix_ok _ _ _ _ I Hf) as [I' Lf]. pose proof (SR_le _ _ _ _ _ Lf HR) as [R1 R2].
      pose proof HU as [U1 [U2 [U3 U4]]].
      assert (Hdt : d3 v' = true -> wnode d' = true) by (intros D; destruct (wnode d'); [reflexivity | rewrite (Hn eq_refl) in D; discriminate D]).
      destruct Hdst as [[Ht Ho]|[i [p [Hkey _]]]].
      - unfold fixp_ref in Hf. rewrite Ht in Hf. injection Hf as <- <-. destruct Ho as [_ Ho]. destruct (Ho Ht) as [K1 K2].
        assert (Hlt : n_id dst < length (m_sec C Stmp)) by (rewrite (i_tmp C HI); destruct I as [I _]; lia).
        destruct (write_tmp si true j C dst v' Ht Hlt) as [l [C' [N1 [N2 [N3 [E [ES F]]]]]]].
        exists C'. split; [exact E|].
        destruct (inv_tmp C C' HI F ltac:(rewrite ES, N3; exact (i_tmp C HI))) as [HI' HM]. split; [exact HI'|]. split; [exact HM|].
        assert (Hkeep : forall k x, k <> n_id dst -> tmp_has C k x -> tmp_has C' k x).
        { intros k x Hk [y [Y1 Y2]]. exists y. split; [rewrite ES, (N2 k Hk); exact Y1 | exact Y2]. }
        unfold key. rewrite Ht, K2. split.
        + intros k x Hx Hk. destruct (key_eqb_spec (Ntmp, k, false) (Ntmp, n_id dst, false)) as [Ek|Ek].
          * injection Ek as ->. rewrite upd_same in Hx. injection Hx as <-. exists v'. split; [rewrite ES; exact N1|]. split; [exact HU|].
            unfold wnode in Hdt. rewrite Ht in Hdt. exact Hdt.
          * rewrite upd_other in Hx by exact Ek. apply Hkeep; [intros ->; now apply Ek | now apply R1].
        + intros i p x Hx. rewrite upd_other in Hx by discriminate. specialize (R2 i p x Hx). destruct (kept i) as [[ty k]|].
          * destruct R2 as [q [Q1 Q2]]. exists q. split; [exact Q1 | exact (col_has_mono C C' j p q x Hj HM Q2)].
          * destruct R2 as [k [Q1 Q2]]. exists k. split; [exact Q1|]. apply Hkeep; [|exact Q2]. destruct I' as [_ [I' _]]. apply I' in Q1. lia.
      - injection Hkey as Ht Hid Hp. unfold key. rewrite Ht. specialize (HT Ht). rewrite Hid, Hp in *. unfold fixp_ref in Hf. rewrite Ht, Hid, Hp in Hf.
        unfold truth_ok in HT.
        assert (Hcol : forall ty k, kept i = Some (ty, k) -> ty = Ncm \/ ty = NtmpExp -> d' = mkN ty k (n_value dst) (n_dim dst) p (CodegenModel.n_pos dst) ->
          exists C', (do r <- dest_ref si d' true (dom_next si true) (dom_size si true); write_ref C r j v') = Ok C' /\ inv C' /\ mono C C' /\
            SR (upd s (Nexp, i, p) v) f' C' j).
        { intros ty k Hk Hty ->. rewrite Hk in HT. destruct HT as [s1 [pos [dim [Hc [Hok [Ho [HX HZ]]]]]]]. pose proof Hok as [Hd _].
          set (d0 := mkN ty k (n_value dst) (n_dim dst) p (CodegenModel.n_pos dst)) in *.
          assert (Hwn : wnode d0 = (dim =? 3)) by (unfold wnode, d0; cbn [n_ty n_id]; destruct Hty as [-> | ->]; rewrite Hc; reflexivity).
          rewrite Hwn in Hn, Hdt.
          assert (Hd1 : dim = 1 -> d3 v' = false) by (intros ->; apply Hn; reflexivity).
          destruct (write_col C s1 pos dim p j v' HI Hj Hok Ho U3 Hd1) as [C' [E [HI' [HM [HS Hcell]]]]].
          { intros c Hc'. rewrite <- U1. exact (HX c Hc'). }
          { intros H3 Hf'. apply HZ; [exact H3|]. destruct (d3 v); [rewrite U4 in Hf' by reflexivity; exact Hf' | reflexivity]. }
          exists C'. split.
          { rewrite <- E. unfold dest_ref, cm_ref, tmpexp_ref, eval_map, ncol, d0 in *. cbn [n_ty n_id n_prime] in *.
            destruct Hty as [-> | ->].
            - destruct (nth_error (si_cm_n si) k) as [q|] eqn:Eq; [|discriminate Hc]. rewrite (vget_some _ _ _ Eq). cbn [bind]. rewrite (vget_some _ _ _ Hc). cbn [bind].
              replace ((dim =? 1) || (dim =? 3)) with true by (destruct Hd as [-> | ->]; reflexivity). reflexivity.
            - destruct (nth_error (si_tmpexp si) k) as [q|] eqn:Eq; [|discriminate Hc]. rewrite (vget_some _ _ _ Eq). cbn [bind]. rewrite (vget_some _ _ _ Hc). cbn [bind].
              replace ((dim =? 1) || (dim =? 3)) with true by (destruct Hd as [-> | ->]; reflexivity). reflexivity. }
          split; [exact HI'|]. split; [exact HM|].
          assert (Hkeep : forall k x, tmp_has C k x -> tmp_has C' k x) by (intros k' x [y Y]; exists y; rewrite HS; exact Y).
          split.
          - intros k' x Hx Hk'. rewrite upd_other in Hx by discriminate. apply Hkeep. now apply R1.
          - intros i' p' x Hx. destruct (key_eqb_spec (Nexp, i', p') (Nexp, i, p)) as [Ek|Ek].
            + injection Ek as -> ->. rewrite upd_same in Hx. injection Hx as <-. rewrite Hk. exists (s1, pos, dim). split; [exact Hc|].
              split; [exact Hok|]. split; [exact U2|]. split.
              * intros H1. destruct (d3 v) eqn:Dv; [|reflexivity]. rewrite (Hd1 H1) in U4. symmetry. exact (U4 eq_refl).
              * intros c Hc'. split; [exact (Hcell c Hc') | exact (proj2 (HX c Hc'))].
            + rewrite upd_other in Hx by exact Ek. specialize (R2 i' p' x Hx). destruct (kept i') as [[ty' k']|].
              * destruct R2 as [q [Q1 Q2]]. exists q. split; [exact Q1 | exact (col_has_mono C C' j p' q x Hj HM Q2)].
              * destruct R2 as [k' [Q1 Q2]]. exists k'. split; [exact Q1 | apply Hkeep, Q2]. }
        unfold kept in Hcol. destruct (assoc Nat.eqb im i) as [c|] eqn:Eim.
        { injection Hf as <- <-. exact (Hcol Ncm c eq_refl (or_introl eq_refl) eq_refl). }
        destruct (assoc Nat.eqb texp i) as [k|] eqn:Ete.
        { injection Hf as <- <-. exact (Hcol NtmpExp k eq_refl (or_intror eq_refl) eq_refl). }
        clear Hcol HT. destruct (exp_tmp f (p, i)) as [t f1] eqn:Et. injection Hf as <- <-.
        destruct (exp_tmp_ok T _ _ _ _ I Et) as [_ [_ [J3 _]]].
        pose proof I' as [_ [J1 [J2 _]]]. pose proof (J1 _ _ J3) as Jt.
        set (d0 := mkN Ntmp t (n_value dst) (n_dim dst) p (CodegenModel.n_pos dst)) in *.
        assert (Hlt : n_id d0 < length (m_sec C Stmp)) by (rewrite (i_tmp C HI); unfold d0; cbn [n_id]; lia).
        destruct (write_tmp si true j C d0 v' eq_refl Hlt) as [l [C' [N1 [N2 [N3 [E [ES F]]]]]]].
        exists C'. split; [exact E|].
        destruct (inv_tmp C C' HI F ltac:(rewrite ES, N3; exact (i_tmp C HI))) as [HI' HM]. split; [exact HI'|]. split; [exact HM|].
        assert (Hkeep : forall k x, k <> t -> tmp_has C k x -> tmp_has C' k x).
        { intros k x Hk [y [Y1 Y2]]. exists y. split; [rewrite ES, (N2 k Hk); exact Y1 | exact Y2]. }
        split.
        + intros k x Hx Hk. rewrite upd_other in Hx by discriminate. apply Hkeep; [lia | now apply R1].
        + intros i' p' x Hx. destruct (key_eqb_spec (Nexp, i', p') (Nexp, i, p)) as [Ek|Ek].
          * injection Ek as -> ->. rewrite upd_same in Hx. injection Hx as <-. unfold kept. rewrite Eim, Ete. exists t. split; [exact J3|].
            exists v'. split; [rewrite ES; exact N1|]. split; [exact HU | exact Hdt].
          * rewrite upd_other in Hx by exact Ek. specialize (R2 i' p' x Hx). destruct (kept i') as [[ty' k']|].
            -- destruct R2 as [q [Q1 Q2]]. exists q. split; [exact Q1 | exact (col_has_mono C C' j p' q x Hj HM Q2)].
            -- destruct R2 as [k' [Q1 Q2]]. exists k'. split; [exact Q1|]. apply Hkeep; [|exact Q2].
               intros ->. apply Ek. pose proof (J2 _ _ _ Q1 J3) as EE. injection EE as -> ->. reflexivity.
    Qed.

    (* the expressions assigned by the code *)
    Definition exp_dest (c : instr) : list (bool * nat) := match n_ty (i_dest c) with Nexp => [(n_prime (i_dest c), n_id (i_dest c))] | _ => [] end.
    Definition exp_dests (l : list instr) : list (bool * nat) := flat_map exp_dest l.
    Lemma run_keep l : forall s s' p i, run rho s l = Some s' -> ~ In (p, i) (exp_dests l) -> s' (Nexp, i, p) = s (Nexp, i, p).
    Proof.
      induction l as [|c l IH]; intros s s' p i H Hni; cbn [run] in H; [now injection H as <-|].
      destruct (exec_op rho s (i_op c) (i_src c)) as [v|]; [|discriminate H]. unfold exp_dests in Hni. cbn [flat_map] in Hni.
      rewrite (IH _ _ _ _ H) by (intros HH; apply Hni, in_or_app; now right). apply upd_other. unfold key. intros Ek. injection Ek as E1 E2 E3.
      apply Hni, in_or_app. left. unfold exp_dest. rewrite <- E1, <- E2, <- E3. now left.
    Qed.

    Lemma body_run l : forall f l' f' s s' C, inv C -> SR s f C j -> f_inv T f -> Forall (ok_instr T []) l -> iter_code fixr f l = Ok (l', f') ->
      f_tmp f' <= tused -> Forall (fun c => i_op c <> CMuladd /\ Forall lsrc (i_src c)) l -> Forall typed l' ->
      run rho s l = Some s' -> NoDup (exp_dests l) ->
      (forall p i v, In (p, i) (exp_dests l) -> s' (Nexp, i, p) = Some v -> truth_ok i p v) ->
      exists C', foldM (direct_step si true j) l' C = Ok C' /\ inv C' /\ mono C C' /\ SR s' f' C' j.
    Proof.
      induction l as [|c l IH]; intros f l' f' s s' C HI HR I Hok Hf Htu Hsrc Hty Hrun HN HT; cbn [iter_code run] in *.
      - injection Hf as <- <-. injection Hrun as <-. exists C. split; [reflexivity|]. split; [exact HI|]. split; [apply mono_refl | exact HR].
      - destruct (iter_refs fixr f (i_src c)) as [[r1 f1]| | |] eqn:E1; try discriminate Hf. cbn [bind fst snd] in Hf.
        destruct (fixr f1 (i_dest c)) as [[d f2]| | |] eqn:E2; try discriminate Hf. cbn [bind fst snd] in Hf.
        destruct (iter_code fixr f2 l) as [[l1 f3]| | |] eqn:E3; try discriminate Hf. cbn [bind fst snd] in Hf. injection Hf as <- <-.
        destruct (exec_op rho s (i_op c) (i_src c)) as [v|] eqn:Ev; [|discriminate Hrun]. unfold exec_op in Ev.
        destruct (rds rho s (i_src c)) as [vs|] eqn:Er; [|discriminate Ev].
        inversion Hok as [|? ? [Ho1 Ho2] Hok']; subst. inversion Hsrc as [|? ? [Hs1 Hs2] Hsrc']; subst. inversion Hty as [|? ? Ht1 Hty']; subst.
        destruct (nreads C s (i_src c) f vs r1 f1 HI HR I Ho1 Hs2 Er E1) as [vs' [A1 [A2 A3]]].
        destruct (nop C (i_op c) r1 vs vs' v Hs1 Ev A2 A1 A3) as [v' [B1 [B2 B3]]].
        destruct (nfixs_ok _ _ _ _ I E1) as [I1 L1]. destruct (nfix_ok _ _ _ _ I1 E2) as [I2 L2].
        assert (Htu2 : f_tmp f2 <= tused).
        { assert (Hle1 : forall f r r' f', fixr f r = Ok (r', f') -> f_tmp f <= f_tmp f').
          { clear. intros f r r' f' E. unfold fixp_ref in E. destruct (n_ty r); try discriminate E; try (injection E as _ <-; lia).
            - destruct (assoc Nat.eqb im (n_id r)); [injection E as _ <-; lia|]. destruct (assoc Nat.eqb texp (n_id r)); [injection E as _ <-; lia|]. unfold exp_tmp in E.
              destruct (assoc pkey_eqb (f_exp f) (n_prime r, n_id r)); injection E as _ <-; cbn [f_tmp]; lia.
            - destruct (vget (si_cm_n si) (n_id r)); try discriminate E. injection E as _ <-. lia. }
          assert (Hle2 : forall l f l' f', iter_refs fixr f l = Ok (l', f') -> f_tmp f <= f_tmp f').
          { clear -Hle1. induction l as [|r l IH]; intros f l' f' E; cbn [iter_refs] in E; [injection E as _ <-; lia|].
            destruct (fixr f r) as [[r1 f1]| | |] eqn:E1; try discriminate E. cbn [bind fst snd] in E.
            destruct (iter_refs fixr f1 l) as [[l1 f2]| | |] eqn:E2; try discriminate E. cbn [bind fst snd] in E. injection E as _ <-.
            apply Hle1 in E1. apply IH in E2. lia. }
          assert (Hle3 : forall l f l' f', iter_code fixr f l = Ok (l', f') -> f_tmp f <= f_tmp f').
          { clear -Hle1 Hle2. induction l as [|c l IH]; intros f l' f' E; cbn [iter_code] in E; [injection E as _ <-; lia|].
            destruct (iter_refs fixr f (i_src c)) as [[r1 f1]| | |] eqn:E1; try discriminate E. cbn [bind fst snd] in E.
            destruct (fixr f1 (i_dest c)) as [[d f2]| | |] eqn:E2; try discriminate E. cbn [bind fst snd] in E.
            destruct (iter_code fixr f2 l) as [[l1 f3]| | |] eqn:E3; try discriminate E. cbn [bind fst snd] in E. injection E as _ <-.
            apply Hle2 in E1. apply Hle1 in E2. apply IH in E3. lia. }
          apply Hle3 in E3. lia. }
        unfold exp_dests in HN, HT. cbn [flat_map] in HN, HT. fold (exp_dests l) in HN, HT.
        assert (HN' : NoDup (exp_dests l) /\ forall k, In k (exp_dest c) -> ~ In k (exp_dests l)).
        { clear -HN. unfold exp_dest in *. destruct (n_ty (i_dest c)); cbn [app] in HN; try (split; [exact HN | intros k []]).
          inversion HN as [|? ? H1 H2]; subst. split; [exact H2|]. intros k [<-|[]]. exact H1. }
        destruct HN' as [HN1 HN2].
        assert (Hd : n_ty (i_dest c) = Nexp -> truth_ok (n_id (i_dest c)) (n_prime (i_dest c)) v).
        { intros Ht. assert (Hin : In (n_prime (i_dest c), n_id (i_dest c)) (exp_dest c)) by (unfold exp_dest; rewrite Ht; now left).
          apply HT; [apply in_or_app; now left|]. rewrite (run_keep l _ _ _ _ Hrun (HN2 _ Hin)). unfold key. rewrite Ht. apply upd_same. }
        assert (Hw : wnode d = false -> d3 v' = false) by (intros H; apply B3, Ht1, H).
        destruct (nwrite C s f1 (i_dest c) d f2 v v' [] HI (SR_le _ _ _ _ _ L1 HR) I1 Htu2 Ho2 E2 B2 Hw Hd) as [C1 [D1 [D2 [D3 D4]]]].
        destruct (IH f2 l1 f3 _ s' C1 D2 D4 I2 Hok' E3 Htu Hsrc' Hty' Hrun HN1 (fun p i v H => HT p i v (in_or_app _ _ _ (or_intror H)))) as [C2 [F1 [F2 [F3 F4]]]].
        exists C2. cbn [foldM]. unfold direct_step at 1. cbn [i_op i_src i_dest]. rewrite B1, bind_Ok.
        change (dest_ref si d true ?a ?b) with (dest_ref si d true (dom_next si true) (dom_size si true)) in *.
        rewrite D1, bind_Ok. split; [exact F1|]. split; [exact F2|]. split; [exact (mono_trans _ _ _ D3 F3) | exact F4].
    Qed.
  End Chunk.

  (* ---------- all rows of a chunk ---------- *)
  Local Notation cell C s r c := (nth_error (m_sec C s) (r * w s + c)).
  Variables (l l' : list instr) (fe : fstate) (blk : list iop).
  Variable rho : nat -> node -> F3G.
  Hypothesis Hfix : iter_code (fixp_ref si im texp true) (f_start T) l = Ok (l', fe).
  Hypothesis Htu : f_tmp fe <= tused.
  Hypothesis Hok : Forall (ok_instr T []) l.
  Hypothesis Hsrc : Forall (fun c => i_op c <> CMuladd /\ Forall lsrc (i_src c)) l.
  Hypothesis Hty : Forall typed l'.
  Hypothesis HN : NoDup (exp_dests l).
  Hypothesis Hblk : compile_code si l' true false = Ok blk.
  Hypothesis Hrho : forall g r, g < n -> lread r -> read_ref si true g m0 r = Ok (rho g r).
  (* at row g the expression i, or that of the next row if p, has the value v *)
  Definition row_truth (g : nat) (i : nat) (p : bool) (v : F3G) : Prop :=
    match kept i with
    | None => True
    | Some (ty, k) => exists s pos dim, ncol ty k = Some (s, pos, dim) /\ col_ok (s, pos, dim) /\ In s (step_out st) /\
        (forall c, c < dim -> W s (pos + c) = true /\ X s (pos + c) ((g + if p then 1 else 0) mod n) = kc c (val v)) /\
        (dim = 3 -> d3 v = false -> forall c, 1 <= c < 3 -> init s (pos + c) ((g + if p then 1 else 0) mod n) = Some e_ZERO)
    end.
  Hypothesis Hval : forall g, g < n -> exists s', run (rho g) (fun _ => None) l = Some s' /\
    forall p i, In (p, i) (exp_dests l) -> exists v, s' (Nexp, i, p) = Some v /\ row_truth g i p v.

  (* the columns of the unprimed kept expressions hold their values at chunk row r *)
  Definition row_done (s0 : nat) (C : mem) (r : nat) : Prop :=
    (forall i ty k s pos dim c, In (false, i) (exp_dests l) -> kept i = Some (ty, k) -> ncol ty k = Some (s, pos, dim) -> c < dim ->
      cell C s r (pos + c) = Some (e_from (X s (pos + c) ((s0 + r) mod n)))) /\
    forall i ty k s pos s' v, In (false, i) (exp_dests l) -> kept i = Some (ty, k) -> ncol ty k = Some (s, pos, 1) ->
      run (rho (s0 + r)) (fun _ => None) l = Some s' -> s' (Nexp, i, false) = Some v -> d3 v = false.

  Lemma one_row s0 cur j C : s0 + cur <= n -> j < cur -> inv s0 cur C ->
    exists C', rmap snd (block_eval C [] blk j) = Ok C' /\ inv s0 cur C' /\ mono s0 cur C C' /\ row_done s0 C' j.
  Proof.
    intros Hcur Hj HI. destruct (Hval (s0 + j) ltac:(lia)) as [s' [Hrun HT]].
    destruct (body_run s0 cur Hcur (rho (s0 + j)) j Hj (fun r => Hrho (s0 + j) r ltac:(lia)) l (f_start T) l' fe (fun _ => None) s' C HI) as [C' [E [I' [M HS]]]].
    - split; [intros k v H; discriminate H | intros i p v H; discriminate H].
    - apply f_start_inv.
    - exact Hok.
    - exact Hfix.
    - exact Htu.
    - exact Hsrc.
    - exact Hty.
    - exact Hrun.
    - exact HN.
    - intros p i v Hin Hv. destruct (HT p i Hin) as [v' [Ev Hr]]. rewrite Ev in Hv. injection Hv as ->.
      unfold row_truth in Hr. unfold truth_ok. rewrite !lrow_row. exact Hr.
    - exists C'. split.
      { pose proof (compile_correct si l' true false blk Hblk C j) as HC. cbv zeta in HC. rewrite E in HC. rewrite HC. reflexivity. }
      split; [exact I'|]. split; [exact M|]. destruct HS as [_ HS]. split.
      2:{ intros i ty k s pos s2 v Hin Hk Hc Hr2 Ev. rewrite Hrun in Hr2. injection Hr2 as <-. specialize (HS i false v Ev). rewrite Hk in HS.
        destruct HS as [q [Eq Hq]]. rewrite Hc in Eq. injection Eq as <-. destruct Hq as [_ [_ [Hq _]]]. exact (Hq eq_refl). }
      intros i ty k s pos dim c Hin Hk Hc Hcd.
      destruct (HT false i Hin) as [v [Ev _]]. specialize (HS i false v Ev). rewrite Hk in HS.
      destruct HS as [q [Eq Hq]]. rewrite Hc in Eq. injection Eq as <-. destruct Hq as [_ [_ [_ Hq]]].
      assert (El : lrow j false = j) by (unfold lrow; rewrite Nat.add_0_r; apply Nat.mod_small; lia).
      destruct (Hq c Hcd) as [Hq1 _]. rewrite El in Hq1. exact Hq1.
  Qed.

  Lemma kept_col i ty k s pos dim : In (false, i) (exp_dests l) -> kept i = Some (ty, k) -> ncol ty k = Some (s, pos, dim) ->
    col_ok (s, pos, dim) /\ In s (step_out st) /\ forall c, c < dim -> W s (pos + c) = true.
  Proof.
    intros Hin Hk Hc. pose proof nn as Hn. destruct (Hval 0 ltac:(lia)) as [s' [_ HT]]. destruct (HT false i Hin) as [v [_ HR]].
    unfold row_truth in HR. rewrite Hk in HR. destruct HR as [s1 [p1 [d1 [E [A [B [D _]]]]]]]. rewrite Hc in E. injection E as <- <- <-.
    split; [exact A|]. split; [exact B|]. intros c Hcc. exact (proj1 (D c Hcc)).
  Qed.

  Lemma rows_run s0 cur : s0 + cur <= n -> forall k C, k <= cur -> inv s0 cur C ->
    exists C', foldM (fun m i => rmap snd (block_eval m [] blk i)) (seq 0 k) C = Ok C' /\ inv s0 cur C' /\ forall r, r < k -> row_done s0 C' r.
  Proof.
    intros Hcur. induction k as [|k IH]; intros C Hk HI.
    - exists C. split; [reflexivity|]. split; [exact HI|]. intros r Hr. lia.
    - destruct (IH C ltac:(lia) HI) as [C1 [E1 [I1 D1]]]. destruct (one_row s0 cur k C1 Hcur ltac:(lia) I1) as [C2 [E2 [I2 [M2 D2]]]].
      exists C2. split; [rewrite seq_S, foldM_app, E1, bind_Ok; cbn [foldM Nat.add]; rewrite E2; reflexivity|]. split; [exact I2|].
      intros r Hr. destruct (Nat.eq_dec r k) as [->|Hne]; [exact D2|].
      split; [|exact (proj2 (D1 r ltac:(lia)))].
      intros i ty q s pos dim c Hin Hkp Hc Hcd. pose proof (kept_col i ty q s pos dim Hin Hkp Hc) as [[_ [Hs [_ Hp]]] _].
      apply M2; [exact Hs | lia | lia|]. apply (proj1 (D1 r ltac:(lia)) i ty q s pos dim c Hin Hkp Hc Hcd).
  Qed.

  (* ---------- the chunks ---------- *)
  Variable per : nat.
  Hypothesis Hper : per <> 0.
  Variable seg : segment.
  Hypothesis Hseg1 : sg_first seg = l'.
  Hypothesis Hseg2 : sg_tmp seg = tused.
  Local Notation width k := (Nat.min per (n - k * per)).

  Lemma nchunk k : k * per < n -> exists c C, make_chunk si st m0 per (k * per) = Ok c /\ run_chunk si st seg per (k, c) = Ok C /\
    inv (k * per) (width k) C /\ forall r, r < width k -> row_done (k * per) C r.
  Proof.
    intros Hk. set (s0 := k * per) in *. set (cur := Nat.min per (n - s0)).
    assert (Hc : s0 + cur <= n) by (unfold cur; lia).
    assert (Hend : s0 + cur = n \/ s0 + cur + 1 <= n) by lia.
    pose proof nn as Hn0. destruct Hmem as [M1 [M2 M3]].
    assert (Hcopy : forall s, In s (step_in st) -> exists q, copy_rows (m_sec m0 s) (w s) n s0 cur 1 = Ok q).
    { intros s Hs. pose proof (m0_len s (in_or_app _ _ s (or_introl Hs))) as L.
      destruct (copy_rows_spec (m_sec m0 s) (w s) n s0 cur 1 Hn0 L Hc ltac:(lia) Hend) as [q [E _]]. now exists q. }
    destruct (foldM_sets _ _ (empty_ctx m0) Hcopy) as [c1 [E1 [P1 [P2 [P3 [P4' P5]]]]]].
    assert (Hin : forall s, In s (step_in st) -> length (m_sec c1 s) = (cur + 1) * w s /\
              forall r c, r < cur + 1 -> c < w s -> nth_error (m_sec c1 s) (r * w s + c) = nth_error (m_sec m0 s) (((s0 + r) mod n) * w s + c)).
    { intros s Hs. pose proof (m0_len s (in_or_app _ _ s (or_introl Hs))) as L.
      destruct (copy_rows_spec (m_sec m0 s) (w s) n s0 cur 1 Hn0 L Hc ltac:(lia) Hend) as [q [E [Ll N]]].
      rewrite (P1 s Hs) in E. injection E as E. rewrite E. split; [exact Ll | exact N]. }
    assert (Hx : exists c2, make_chunk si st m0 per s0 = Ok c2 /\ m_sec c2 = m_sec c1).
    { unfold make_chunk. rewrite par_n_n, par_next_n. change (Nat.min per (n - s0)) with cur. rewrite E1, bind_Ok. destruct (step_xdiv st) eqn:Ex.
      - destruct (M2 eq_refl) as [X1 X2]. rewrite par_n_n in X1, X2.
        destruct (copy_rows_spec (m_xdiv m0) 3 n s0 cur 1 Hn0 X1 Hc ltac:(lia) Hend) as [la [Ea _]].
        destruct (copy_rows_spec (m_xdivw m0) 3 n s0 cur 1 Hn0 X2 Hc ltac:(lia) Hend) as [lb [Eb _]].
        rewrite Ea, bind_Ok, Eb, bind_Ok. eexists. split; reflexivity.
      - exists c1. split; reflexivity. }
    destruct Hx as [c2 [E2 S2]].
    set (ca := mkM (m_sec c2) (m_xdiv c2) (m_xdivw c2) (build_Zh_Inv (si_nbits si) (si_nbits_ext si - si_nbits si) s0)).
    set (cb := fold_left (fun c s => match m_sec c s with [] => m_set c s (repeat e_ZERO (w s * (cur + 1))) | _ => c end) (step_out st) ca).
    destruct (fold_fills (fun s => w s * (cur + 1)) (step_out st) ca) as [Q1 [Q2 [Q3 [Q4 Q5]]]]. fold cb in Q1, Q2, Q3, Q4, Q5.
    assert (HinIo : forall s, In s (step_in st) -> In s io) by (intros s Hs; apply in_or_app; now left).
    assert (HoutIo : forall s, In s (step_out st) -> In s io) by (intros s Hs; apply in_or_app; now right).
    set (C0 := m_set cb Stmp (repeat e_ZERO tused)).
    assert (Hio : forall s, In s io -> m_sec C0 s = m_sec cb s) by (intros s Hs; apply m_set_other; exact (proj1 (step_secs st s Hs))).
    assert (Hcb_in : forall s, In s (step_in st) -> length (m_sec cb s) = (cur + 1) * w s /\
              forall r c, r < cur + 1 -> c < w s -> nth_error (m_sec cb s) (r * w s + c) = nth_error (m_sec m0 s) (((s0 + r) mod n) * w s + c)).
    { intros s Hs. destruct (Hin s Hs) as [L N]. destruct (in_dec sec_dec s (step_out st)) as [Ho|Ho].
      - rewrite (Q1 s Ho). unfold ca. cbn [m_sec]. rewrite S2. unfold fill. destruct (m_sec c1 s) as [|x q] eqn:El; [|split; [exact L | exact N]].
        cbn [length] in L. split; [rewrite repeat_length; lia|]. intros r c Hr Hcc. exfalso.
        pose proof (row_bound (w s) r c (cur + 1) Hcc Hr). lia.
      - rewrite (Q2 s Ho). unfold ca. cbn [m_sec]. rewrite S2. split; [exact L | exact N]. }
    assert (Hcb_out : forall s, In s (step_out st) -> ~ In s (step_in st) -> m_sec cb s = repeat e_ZERO (w s * (cur + 1))).
    { intros s Hs Hni. rewrite (Q1 s Hs). unfold ca. cbn [m_sec]. rewrite S2, P2 by exact Hni.
      destruct (step_secs st s (HoutIo s Hs)) as [_ Hg]. unfold empty_ctx. cbn [m_sec].
      destruct s; try discriminate Hg; reflexivity. }
    assert (I0 : inv s0 cur C0).
    { constructor.
      - intros s Hs. assert (Hne : s <> Stmp) by (intros ->; discriminate Hs).
        assert (Hni : ~ In s io) by (intros HH; destruct (step_secs st s HH) as [_ HH2]; rewrite Hs in HH2; discriminate HH2).
        unfold C0. rewrite m_set_other by exact Hne.
        rewrite Q2 by (intros HH; apply Hni; now apply HoutIo). unfold ca. cbn [m_sec]. rewrite S2, P2 by (intros HH; apply Hni; now apply HinIo).
        unfold empty_ctx. cbn [m_sec]. destruct s; try discriminate Hs; reflexivity.
      - intros s Hs. rewrite (Hio s Hs). destruct (in_dec sec_dec s (step_in st)) as [Hi|Hi]; [exact (proj1 (Hcb_in s Hi))|].
        assert (Ho : In s (step_out st)) by (apply in_app_or in Hs; destruct Hs; [contradiction | assumption]).
        rewrite (Hcb_out s Ho Hi), repeat_length. apply Nat.mul_comm.
      - intros s r c Hs Hr Hcc. left. rewrite (Hio s Hs). unfold init. destruct (in_dec sec_dec s (step_in st)) as [Hi|Hi]; [now apply (proj2 (Hcb_in s Hi))|].
        assert (Ho : In s (step_out st)) by (apply in_app_or in Hs; destruct Hs; [contradiction | assumption]).
        rewrite (Hcb_out s Ho Hi). apply nth_error_repeat. rewrite (Nat.mul_comm (w s) (cur + 1)). apply row_bound; assumption.
      - unfold C0. rewrite m_set_same. apply repeat_length. }
    destruct (rows_run s0 cur Hc cur C0 ltac:(lia) I0) as [C [E [I D]]].
    exists c2, C. split; [exact E2|]. split.
    { unfold run_chunk. rewrite par_n_n, par_next_n, Hdom. fold s0. fold ca. change (Nat.min per (n - s0)) with cur. fold cb.
      unfold calculate_exps. rewrite Hseg1, Hblk, bind_Ok, Hseg2. exact E. }
    split; [exact I | exact D].
  Qed.

  Lemma nchunks K : (forall k, k < K -> k * per < n) -> exists cs cs', mapM (make_chunk si st m0 per) (map (fun i => i * per) (seq 0 K)) = Ok cs /\ length cs = K /\
    mapM (run_chunk si st seg per) (combine (seq 0 K) cs) = Ok cs' /\ length cs' = K /\
    forall k C, nth_error cs' k = Some C -> inv (k * per) (width k) C /\ forall r, r < width k -> row_done (k * per) C r.
  Proof.
    induction K as [|K IH]; intros HK.
    - exists [], []. do 4 (split; [reflexivity|]). intros k C H. destruct k; discriminate H.
    - destruct (IH (fun k H => HK k ltac:(lia))) as [cs [cs' [E1 [L1 [E2 [L2 D]]]]]]. destruct (nchunk K (HK K ltac:(lia))) as [c [C [F1 [F2 F3]]]].
      exists (cs ++ [c]), (cs' ++ [C]). rewrite seq_S, Nat.add_0_l, map_app. cbn [map].
      split; [rewrite mapM_app, E1; cbn [bind mapM]; rewrite F1; reflexivity|].
      split; [rewrite app_length, L1; cbn [length]; lia|].
      split; [rewrite combine_app_len by (rewrite seq_length; now symmetry); rewrite mapM_app, E2; cbn [bind combine mapM]; rewrite F2; reflexivity|].
      split; [rewrite app_length, L2; cbn [length]; lia|].
      intros k C' Hk. destruct (lt_dec k K) as [Hlt|Hge].
      + rewrite nth_error_app1 in Hk by lia. exact (D k C' Hk).
      + rewrite nth_error_app2 in Hk by lia. rewrite L2 in Hk. destruct (k - K) as [|z] eqn:Ez; [|destruct z; discriminate Hk].
        injection Hk as <-. replace k with K by lia. exact F3.
  Qed.

  (* the memory whose rows are those of the chunks *)
  Definition gather (cs : list mem) : mem :=
    mkM (fun s => map (fun x => nth ((x / w s) mod per * w s + x mod w s) (m_sec (nth ((x / w s) / per) cs m0) s) e_ZERO) (seq 0 (n * w s))) [] [] (fun _ => Panic).
  Lemma gather_cell cs s r c k C : c < w s -> k * per + r < n -> r < per -> nth_error cs k = Some C ->
    nth_error (m_sec (gather cs) s) ((k * per + r) * w s + c) = Some (nth (r * w s + c) (m_sec C s) e_ZERO).
  Proof.
    intros Hc Hr Hrp Hk. unfold gather. cbn [m_sec]. rewrite nth_error_map.
    pose proof (row_bound (w s) (k * per + r) c n Hc Hr) as Hb.
    rewrite (nth_error_nth' _ 0) by (rewrite seq_length; exact Hb). rewrite seq_nth by exact Hb. cbn [option_map Nat.add]. f_equal.
    assert (Hw : w s <> 0) by lia.
    rewrite Nat.div_add_l by exact Hw. rewrite (Nat.div_small c) by exact Hc. rewrite Nat.add_0_r.
    rewrite (Nat.add_comm ((k * per + r) * w s) c), Nat.mod_add, (Nat.mod_small c) by assumption.
    rewrite Nat.div_add_l by exact Hper. rewrite (Nat.div_small r), Nat.add_0_r by exact Hrp.
    rewrite (Nat.add_comm (k * per) r), Nat.mod_add, (Nat.mod_small r) by assumption.
    rewrite (nth_error_nth cs k m0 Hk). reflexivity.
  Qed.

  Theorem nstep_chunked : exists p, exps_chunked si st m0 seg per = Ok p /\
    (forall s, ~ In s (step_out st) -> m_sec p s = m_sec m0 s) /\
    (forall s, In s (step_out st) -> length (m_sec p s) = n * w s /\
      forall r c, r < n -> c < w s -> cell p s r c = init s c r \/ (W s c = true /\ cell p s r c = Some (e_from (X s c r)))) /\
    (forall i ty k s pos dim c r, In (false, i) (exp_dests l) -> kept i = Some (ty, k) -> ncol ty k = Some (s, pos, dim) -> c < dim -> r < n ->
      cell p s r (pos + c) = Some (e_from (X s (pos + c) r))) /\
    forall i ty k s pos r s' v, In (false, i) (exp_dests l) -> kept i = Some (ty, k) -> ncol ty k = Some (s, pos, 1) -> r < n ->
      run (rho r) (fun _ => None) l = Some s' -> s' (Nexp, i, false) = Some v -> d3 v = false.
  Proof.
    pose proof nn as Hn0. set (K := (n + per - 1) / per).
    assert (HK : forall i, i < K -> i * per < n).
    { intros i Hi. unfold K in Hi.
      pose proof (Nat.mul_div_le (n + per - 1) per Hper) as Hd. rewrite Nat.mul_comm in Hd.
      pose proof (Nat.mul_le_mono_r (S i) _ per Hi) as Hm. rewrite Nat.mul_succ_l in Hm. lia. }
    assert (HKn : n <= K * per).
    { unfold K. pose proof (Nat.div_mod (n + per - 1) per Hper) as Hd.
      pose proof (Nat.mod_upper_bound (n + per - 1) per Hper). rewrite Nat.mul_comm in Hd. lia. }
    assert (Hall : drows per n K = n) by (unfold drows; lia).
    destruct (nchunks K HK) as [cs [cs' [E1 [L1 [E2 [L2 D]]]]]].
    set (g := gather cs').
    assert (HD : forall i C, nth_error cs' i = Some C -> cdone si st per n 1 (fun s r c => cell g s r c) i C).
    { intros i C Hi. assert (HiK : i < K) by (rewrite <- L2; apply nth_error_Some; congruence). pose proof (HK i HiK) as Hin.
      destruct (D i C Hi) as [HI _]. intros s Hs. assert (Hsio : In s io) by (apply in_or_app; now right).
      unfold wid. split; [exact (i_len _ _ _ HI s Hsio)|].
      intros r c Hr Hc. unfold g. rewrite (gather_cell cs' s r c i C Hc) by (try exact Hi; lia).
      destruct (inv_cell (i * per) (width i) C s r c HI Hsio ltac:(lia) Hc) as [x Hx]. rewrite (nth_error_nth _ _ _ Hx). exact Hx. }
    assert (Hwc : exists p, foldM (write_back si st per) (combine (seq 0 K) (firstn K cs')) m0 = Ok p /\
      (forall s, ~ In s (step_out st) -> m_sec p s = m_sec m0 s) /\
      forall s, In s (step_out st) -> length (m_sec p s) = n * w s /\
        forall r c, r < n -> c < w s -> cell p s r c = cell g s r c).
    { destruct (nwrite_chunks si st m0 per n 1 (fun s r c => cell g s r c) par_next_n (fun s Hs => m0_len s (in_or_app _ _ s (or_intror Hs))) cs' HD K ltac:(lia) HK) as [p [A [B C]]].
      exists p. split; [exact A|]. split; [exact B|]. intros s Hs. destruct (C s Hs) as [C1 C2]. split; [exact C1|].
      intros r c Hr Hc. rewrite (C2 r c Hr Hc), Hall. replace (r <? n) with true by (symmetry; now apply Nat.ltb_lt). reflexivity. }
    destruct Hwc as [p [E4 [O4 N4]]]. exists p. split.
    { unfold exps_chunked, chunk_starts. rewrite par_n_n. fold K. rewrite E1, bind_Ok, L1, E2, bind_Ok, L2.
      rewrite firstn_all2 in E4 by lia. exact E4. }
    split; [exact O4|].
    assert (Hcell : forall s r c, In s (step_out st) -> r < n -> c < w s -> exists C, nth_error cs' (r / per) = Some C /\ r mod per < width (r / per) /\
      r / per * per + r mod per = r /\ cell p s r c = cell C s (r mod per) c).
    { intros s r c Hs Hr Hc. destruct (N4 s Hs) as [_ N]. rewrite (N r c Hr Hc).
      pose proof (Nat.div_mod r per Hper) as Hdm. rewrite (Nat.mul_comm per) in Hdm. pose proof (Nat.mod_upper_bound r per Hper) as Hmb.
      assert (Hq : r / per < K). { apply Nat.div_lt_upper_bound; [exact Hper|]. rewrite Nat.mul_comm. lia. }
      destruct (nth_error cs' (r / per)) as [C|] eqn:EC; [|apply nth_error_None in EC; lia].
      exists C. split; [reflexivity|]. split; [lia|]. split; [lia|].
      assert (Hsio : In s io) by (apply in_or_app; now right).
      destruct (D _ C EC) as [HI _]. destruct (inv_cell _ _ C s (r mod per) c HI Hsio ltac:(lia) Hc) as [x Hx].
      rewrite Hx. rewrite Hdm at 1. unfold g. rewrite (gather_cell cs' s (r mod per) c (r / per) C Hc) by (try exact EC; lia).
      rewrite (nth_error_nth _ _ _ Hx). reflexivity. }
    split.
    - intros s Hs. split; [exact (proj1 (N4 s Hs))|]. intros r c Hr Hc. destruct (Hcell s r c Hs Hr Hc) as [C [EC [Hm [Hre Ep]]]].
      rewrite Ep. destruct (D _ C EC) as [HI _]. assert (Hsio : In s io) by (apply in_or_app; now right).
      pose proof (i_cell _ _ C HI s (r mod per) c Hsio ltac:(lia) Hc) as HC. rewrite Hre, (Nat.mod_small r n Hr) in HC.
      destruct HC as [HC|[_ HC]]; [left; exact HC | right; exact HC].
    - split.
      2:{ intros i ty k s pos r s2 v Hin Hk Hc Hr Hr2 Ev. destruct (kept_col i ty k s pos 1 Hin Hk Hc) as [[_ [_ [_ Hp]]] [Ho _]].
        destruct (Hcell s r pos Ho Hr ltac:(lia)) as [C [EC [Hm [Hre _]]]]. destruct (D _ C EC) as [_ HDn].
        apply (proj2 (HDn (r mod per) Hm) i ty k s pos s2 v Hin Hk Hc); [rewrite Hre; exact Hr2 | exact Ev]. }
      intros i ty k s pos dim c r Hin Hk Hc Hcd Hr. destruct (kept_col i ty k s pos dim Hin Hk Hc) as [[_ [_ [_ Hp]]] [Ho _]].
      destruct (Hcell s r (pos + c) Ho Hr ltac:(lia)) as [C [EC [Hm [Hre Ep]]]]. rewrite Ep. destruct (D _ C EC) as [_ HDn].
      rewrite (proj1 (HDn (r mod per) Hm) i ty k s pos dim c Hin Hk Hc Hcd), Hre, (Nat.mod_small r n Hr). reflexivity.
  Qed.
End NStep.
