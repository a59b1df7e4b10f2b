(* fft_p.rs: the rounds, the reversals and the two transforms. *)
From Coq Require Import Ring ArithRing Lia.
From Verif Require Import Base GlModel FrField F3gModel Cubic F3gProof ListAux PolyModel Roots PolyProof FftProof FftTop FriMath HashModel HashProof FftpModel BrProof FftpMath FftpProof.
Open Scope nat_scope.
Open Scope res_scope.
Add Ring Kr3 : K_ring.

Section Top.
  Variable np : nat.
  Hypothesis Hnp : 0 < np.

  (** ** the rounds *)
  Lemma parity_step nbits i bb : 0 < bb -> i < nbits -> (nbits - i + (bb - 1)) / bb = S ((nbits - (i + bb) + (bb - 1)) / bb).
  Proof.
    intros Hb Hi. destruct (Nat.le_gt_cases bb (nbits - i)) as [L|L].
    - replace (nbits - i + (bb - 1)) with (1 * bb + (nbits - (i + bb) + (bb - 1))) by lia. rewrite Nat.div_add_l by lia. reflexivity.
    - replace (nbits - (i + bb) + (bb - 1)) with (bb - 1) by lia. rewrite (Nat.div_small (bb - 1)) by lia.
      replace (nbits - i + (bb - 1)) with (1 * bb + (nbits - i - 1)) by lia. rewrite Nat.div_add_l by lia. rewrite Nat.div_small by lia. reflexivity.
  Qed.
  Lemma rounds_ok nbits bb C (a : nat -> nat -> K) : 1 <= bb -> bb < nbits -> nbits <= 32 -> 1 <= C -> (Z.of_nat (C * pow2 nbits) <= 2 ^ 32)%Z ->
    forall cnt i bin bout sw, nbits <= i + cnt * bb ->
    length bin = C * pow2 nbits * np -> length bout = C * pow2 nbits * np ->
    (forall k b, k < np -> b < pow2 nbits -> col np bin k (rot nbits (Nat.min i nbits) b) = rowS (a k) (Nat.min i nbits) b) ->
    exists bin' bout', fft_rounds cnt i np nbits bb bin bout sw = Ok (bin', bout', xorb sw (Nat.odd ((nbits - i + (bb - 1)) / bb))) /\
      length bin' = C * pow2 nbits * np /\ length bout' = C * pow2 nbits * np /\
      (forall k b, k < np -> b < pow2 nbits -> col np bin' k b = rowS (a k) nbits b) /\
      (tailz np (pow2 nbits) (if Nat.odd ((nbits - i + (bb - 1)) / bb) then bout else bin) -> tailz np (pow2 nbits) bin').
  Proof.
    intros Hb Hbn Hn HC Hz.
    assert (Done : forall i bin bout sw, nbits <= i -> length bin = C * pow2 nbits * np -> length bout = C * pow2 nbits * np ->
      (forall k b, k < np -> b < pow2 nbits -> col np bin k (rot nbits (Nat.min i nbits) b) = rowS (a k) (Nat.min i nbits) b) ->
      exists bin' bout', Ok (bin, bout, sw) = Ok (bin', bout', xorb sw (Nat.odd ((nbits - i + (bb - 1)) / bb))) /\
      length bin' = C * pow2 nbits * np /\ length bout' = C * pow2 nbits * np /\
      (forall k b, k < np -> b < pow2 nbits -> col np bin' k b = rowS (a k) nbits b) /\
      (tailz np (pow2 nbits) (if Nat.odd ((nbits - i + (bb - 1)) / bb) then bout else bin) -> tailz np (pow2 nbits) bin')).
    { intros i bin bout sw Hi L1 L2 H. exists bin, bout. replace (nbits - i) with 0 by lia. rewrite Nat.div_small by lia. cbn [Nat.odd]. change (Nat.odd 0) with false.
      rewrite xorb_false_r. split; [reflexivity|]. split; [exact L1|]. split; [exact L2|]. split; [|auto].
      intros k b Hk Hb'. specialize (H k b Hk Hb'). rewrite Nat.min_r in H by exact Hi. rewrite rot_n in H by exact Hb'. exact H. }
    induction cnt as [|cnt IH]; intros i bin bout sw Hc L1 L2 H.
    - cbn [fft_rounds]. apply Done; try assumption. lia.
    - cbn [fft_rounds]. destruct (Nat.leb_spec nbits i) as [Le|Lt]; [apply Done; assumption|].
      set (L := Nat.min bb (nbits - i)) in *.
      assert (EC : C * pow2 nbits = C * pow2 (nbits - bb) * pow2 bb) by (rewrite <- Nat.mul_assoc, <- Nat.pow_add_r; do 2 f_equal; lia).
      destruct (pass_ok np Hnp nbits i L bb (C * pow2 (nbits - bb)) bin ltac:(lia) ltac:(lia) ltac:(lia) Hn) as [b1 [E1 [Lb1 C1]]].
      { rewrite <- EC. exact Hz. } { rewrite <- EC. exact L1. }
      rewrite E1. cbn [bind]. replace (L <? nbits) with true by (symmetry; apply Nat.ltb_lt; lia).
      pose proof (pow2_pos nbits) as Pn.
      destruct (transpose_ok np Hnp nbits L bout b1 ltac:(lia)) as [b2 [E2 [Lb2 [C2 T2]]]]; [rewrite Lb1, L1; nia|rewrite L2; nia|].
      rewrite E2. cbn [bind].
      destruct (IH (i + bb) b2 b1 (negb sw)) as [bin' [bout' [E [A1 [A2 [A3 A4]]]]]]; [cbn [Nat.mul] in Hc; lia|congruence|congruence| |].
      { replace (Nat.min (i + bb) nbits) with (i + L) by lia. intros k b Hk Hb'.
        apply (round_step nbits i L (a k) (col np bin k) (col np b2 k) ltac:(lia) ltac:(lia) Hn); [| |exact Hb'].
        - intros b0 Hb0. specialize (H k b0 Hk Hb0). rewrite Nat.min_l in H by lia. exact H.
        - intros I J HI HJ. rewrite C2 by assumption. apply C1; [exact Hk|]. rewrite <- EC.
          assert (J * pow2 L + I < pow2 nbits); [|nia].
          replace (pow2 nbits) with (pow2 (nbits - L) * pow2 L) by (rewrite <- Nat.pow_add_r; f_equal; lia). nia. }
      exists bin', bout'. rewrite (parity_step nbits i bb) by lia. rewrite Nat.odd_succ, <- Nat.negb_odd.
      set (od := Nat.odd ((nbits - (i + bb) + (bb - 1)) / bb)) in *. split; [rewrite E; destruct sw, od; reflexivity|].
      split; [exact A1|]. split; [exact A2|]. split; [exact A3|]. intros T. apply A4. destruct od; cbn [negb] in T.
      + apply (pass_tail np Hnp nbits i L bb (C * pow2 (nbits - bb)) bin b1); try assumption; try lia. rewrite <- EC. exact L1.
      + intros k r Hk Hr. rewrite T2 by assumption. apply T; assumption.
  Qed.
  Lemma all_rounds_ok nbits bb C (a : nat -> nat -> K) bin bout nt : 1 <= bb -> bb <= nbits -> nbits <= 32 -> 1 <= C -> (Z.of_nat (C * pow2 nbits) <= 2 ^ 32)%Z ->
    n_transposes nbits bb = Ok nt -> length bin = C * pow2 nbits * np -> length bout = C * pow2 nbits * np ->
    (forall k b, k < np -> b < pow2 nbits -> col np bin k b = a k b) ->
    exists bin' bout', all_rounds np nbits bb bin bout = Ok (bin', bout', Nat.odd nt) /\
      length bin' = C * pow2 nbits * np /\ length bout' = C * pow2 nbits * np /\
      (forall k b, k < np -> b < pow2 nbits -> col np bin' k b = rowS (a k) nbits b) /\
      (tailz np (pow2 nbits) (if Nat.odd nt then bout else bin) -> tailz np (pow2 nbits) bin').
  Proof.
    intros Hb Hbn Hn HC Hz Hnt L1 L2 H. unfold all_rounds. replace (bb =? 0) with false by (symmetry; apply Nat.eqb_neq; lia).
    unfold n_transposes in Hnt. destruct (Nat.eqb_spec nbits bb) as [E|Ne].
    - assert (nt = 0) as -> by congruence. subst bb. destruct nbits as [|m] eqn:Em; [lia|]. cbn [fft_rounds Nat.leb]. rewrite <- Em in *.
      rewrite Nat.sub_0_r, Nat.min_id.
      destruct (pass_ok np Hnp nbits 0 nbits nbits C bin ltac:(lia) ltac:(lia) ltac:(lia) Hn Hz L1) as [b1 [E1 [Lb1 C1]]].
      rewrite E1. cbn [bind]. rewrite Nat.ltb_irrefl, Nat.add_0_l. pose proof (pow2_pos nbits) as Pn.
      assert (Ef : fft_rounds m nbits np nbits nbits b1 bout false = Ok (b1, bout, false)).
      { destruct m; cbn [fft_rounds]; [reflexivity|]. rewrite Nat.leb_refl. reflexivity. }
      rewrite Ef. exists b1, bout. split; [reflexivity|]. split; [lia|]. split; [exact L2|]. split.
      + intros k b Hk Hb'. rewrite C1 by (try exact Hk; nia). apply round_one; [exact Hn|exact Hb'|]. intros b0 Hb0. apply H; assumption.
      + change (Nat.odd 0) with false. cbn iota. intros T. apply (pass_tail np Hnp nbits 0 nbits nbits C bin b1); try assumption; lia.
    - destruct (Nat.eqb_spec bb 0) as [Z|_]; [lia|]. assert (Ent : nt = (nbits - 1) / bb + 1) by congruence.
      destruct (rounds_ok nbits bb C a Hb ltac:(lia) Hn HC Hz nbits 0 bin bout false) as [bin' [bout' [E [A1 [A2 [A3 A4]]]]]]; [nia|exact L1|exact L2| |].
      { cbn [Nat.min]. intros k b Hk Hb'. rewrite rot_0, rowS_0. apply H; assumption. }
      assert (Q : (nbits - 0 + (bb - 1)) / bb = nt).
      { rewrite Ent. replace (nbits - 0 + (bb - 1)) with (1 * bb + (nbits - 1)) by lia. rewrite Nat.div_add_l by lia. lia. }
      rewrite Q in *. rewrite xorb_false_l in E. exists bin', bout'. exact (conj E (conj A1 (conj A2 (conj A3 A4)))).
  Qed.

  (** ** the reversals *)
  Definition colL (buf : list F3G) (k n : nat) : list K := map (col np buf k) (seq 0 n).
  Lemma colL_len buf k n : length (colL buf k n) = n.
  Proof. unfold colL. rewrite map_length, seq_length. reflexivity. Qed.
  Lemma colL_nth buf k n r : r < n -> nth r (colL buf k n) kzero = col np buf k r.
  Proof. intros H. unfold colL. apply nth_map_seq. exact H. Qed.
  Definition rv (nbits r : nat) : nat := Z.to_nat (rev_bits nbits (Z.of_nat r)).
  Lemma rv_lt nbits r : rv nbits r < pow2 nbits.
  Proof. unfold rv. pose proof (rev_bits_range nbits (Z.of_nat r)). apply Nat2Z.inj_lt. rewrite Z2Nat.id by lia. rewrite Nat2Z.inj_pow. lia. Qed.
  Lemma brp_rv nbits (p : list K) r : length p = pow2 nbits -> r < pow2 nbits -> nth r (brp nbits p) kzero = nth (rv nbits r) p kzero.
  Proof.
    intros Hp Hr. pose proof (brp_nth nbits p (Z.of_nat r) Hp) as N. rewrite Nat2Z.id in N. fold (rv nbits r) in N.
    assert (Hz : (0 <= Z.of_nat r < 2 ^ Z.of_nat nbits)%Z).
    { split; [lia|]. apply Nat2Z.inj_lt in Hr. rewrite Nat2Z.inj_pow in Hr. exact Hr. }
    specialize (N Hz). pose proof (rv_lt nbits r). rewrite (nth_error_nth_lt p _ kzero) in N by lia. apply (nth_error_nth _ _ kzero) in N. exact N.
  Qed.
  Definition table (nbits : nat) : list nat := map (fun i => Z.to_nat (br_cal (Z.of_nat i) (Z.of_nat nbits))) (seq 0 (pow2 nbits)).
  Lemma table_get nbits r : nbits <= 32 -> r < pow2 nbits -> vget (table nbits) r = Ok (rv nbits r).
  Proof.
    intros Hn Hr. apply vget_some. unfold table. rewrite nth_error_map, (nth_error_nth' _ 0) by (rewrite seq_length; exact Hr).
    rewrite seq_nth by exact Hr. cbn [option_map Nat.add]. unfold rv. rewrite br_cal_rev; [reflexivity| |exact Hn].
    pose proof (pow2_32 np Hnp nbits Hn). lia.
  Qed.
  Lemma mapM_fun {A B} (f : A -> res B) (g : A -> B) l : (forall x, In x l -> f x = Ok (g x)) -> mapM f l = Ok (map g l).
  Proof.
    induction l as [|x l IH]; intros H; [reflexivity|]. cbn [mapM map]. rewrite H by (left; reflexivity). cbn [bind].
    rewrite IH by (intros y Hy; apply H; right; exact Hy). reflexivity.
  Qed.
  Lemma bit_reverse_ok nbits dst src : nbits <= 32 -> length dst = pow2 nbits * np -> pow2 nbits * np <= length src ->
    exists out, bit_reverse (table nbits) dst src np nbits = Ok out /\ length out = pow2 nbits * np /\
      forall k r, k < np -> r < pow2 nbits -> col np out k r = nth r (brp nbits (colL src k (pow2 nbits))) kzero.
  Proof.
    intros Hn Hd Hs. unfold bit_reverse. rewrite Hd, Nat.eqb_refl. cbn [negb].
    rewrite (mapM_fun _ (fun j => nth (rv nbits (j / np) * np + j mod np) src e_ZERO)).
    2: { intros j Hj. apply in_seq in Hj. assert (j / np < pow2 nbits) by (apply Nat.div_lt_upper_bound; lia).
      rewrite table_get by assumption. cbn [bind]. apply vget_nth. pose proof (rv_lt nbits (j / np)). pose proof (Nat.mod_upper_bound j np ltac:(lia)). nia. }
    eexists. split; [reflexivity|]. split; [rewrite map_length, seq_length; reflexivity|]. intros k r Hk Hr.
    rewrite brp_rv by (try apply colL_len; exact Hr). rewrite colL_nth by apply rv_lt. unfold col.
    rewrite (nth_indep _ e_ZERO (nth (rv nbits (0 / np) * np + 0 mod np) src e_ZERO)) by (rewrite map_length, seq_length; nia).
    rewrite (map_nth (fun j => nth (rv nbits (j / np) * np + j mod np) src e_ZERO)). rewrite seq_nth by nia. cbn [Nat.add].
    rewrite (div_eq (r * np + k) np r k Hk eq_refl), (mod_eq (r * np + k) np r k Hk eq_refl). reflexivity.
  Qed.
  Lemma sub_mod n r : r < n -> (n - r) mod n < n.
  Proof. intros H. apply Nat.mod_upper_bound. lia. Qed.
  Lemma back_brp nbits src k r : r < pow2 nbits ->
    nth r (brp nbits (back (colL src k (pow2 nbits)))) kzero = col np src k ((pow2 nbits - rv nbits r) mod pow2 nbits).
  Proof.
    intros Hr. pose proof (rv_lt nbits r) as V. rewrite brp_rv by (try (rewrite back_len; apply colL_len); exact Hr).
    unfold back. rewrite colL_len, nth_map_seq by exact V. apply colL_nth. apply sub_mod. exact V.
  Qed.
  Lemma inv_bit_reverse_ok nbits dst src : nbits <= 32 -> length dst = pow2 nbits * np -> pow2 nbits * np <= length src ->
    exists out, inv_bit_reverse (table nbits) dst src np nbits = Ok out /\ length out = pow2 nbits * np /\
      forall k r, k < np -> r < pow2 nbits -> col np out k r = kmul (nth r (brp nbits (back (colL src k (pow2 nbits)))) kzero) (ninv nbits).
  Proof.
    intros Hn Hd Hs. unfold inv_bit_reverse. rewrite Hd, Nat.eqb_refl. cbn [negb]. set (ni := e_inv (e_from (fof (Z.of_nat (pow2 nbits))))).
    assert (Vni : val ni = ninv nbits) by (unfold ni, ninv; rewrite val_inv, val_from, Nat2Z.inj_pow; reflexivity).
    rewrite (mapM_fun _ (fun j => e_mul (nth ((pow2 nbits - rv nbits (j / np)) mod pow2 nbits * np + j mod np) src e_ZERO) ni)).
    2: { intros j Hj. apply in_seq in Hj. assert (j / np < pow2 nbits) by (apply Nat.div_lt_upper_bound; lia).
      rewrite table_get by assumption. cbn [bind]. pose proof (rv_lt nbits (j / np)) as V.
      replace (pow2 nbits <? rv nbits (j / np)) with false by (symmetry; apply Nat.ltb_ge; lia).
      rewrite vget_nth; [reflexivity|]. pose proof (sub_mod _ _ V). pose proof (Nat.mod_upper_bound j np ltac:(lia)). nia. }
    eexists. split; [reflexivity|]. split; [rewrite map_length, seq_length; reflexivity|]. intros k r Hk Hr.
    rewrite back_brp by exact Hr. unfold col.
    set (g := fun j => e_mul (nth ((pow2 nbits - rv nbits (j / np)) mod pow2 nbits * np + j mod np) src e_ZERO) ni).
    rewrite (nth_indep _ e_ZERO (g 0)) by (rewrite map_length, seq_length; nia). rewrite (map_nth g), seq_nth by nia. cbn [Nat.add]. unfold g.
    rewrite (div_eq (r * np + k) np r k Hk eq_refl), (mod_eq (r * np + k) np r k Hk eq_refl). rewrite val_mul, Vni. reflexivity.
  Qed.
  Lemma ibr_ok nbits dst src : nbits <= 32 -> pow2 nbits * np <= length dst -> pow2 nbits * np <= length src ->
    exists out, interpolate_bit_reverse (table nbits) dst src np nbits = Ok out /\ length out = length dst /\
      (forall k r, k < np -> r < pow2 nbits -> col np out k r = nth r (brp nbits (back (colL src k (pow2 nbits)))) kzero) /\
      (forall k r, k < np -> pow2 nbits <= r -> col np out k r = col np dst k r).
  Proof.
    intros Hn Hd Hs. unfold interpolate_bit_reverse. replace (length dst <? pow2 nbits * np) with false by (symmetry; apply Nat.ltb_ge; lia).
    replace (np =? 0) with false by (symmetry; apply Nat.eqb_neq; lia). cbn [orb].
    set (row := fun i => map (fun k => nth ((pow2 nbits - rv nbits i) mod pow2 nbits * np + k) src e_ZERO) (seq 0 np)).
    rewrite (mapM_fun _ row).
    2: { intros i Hi. apply in_seq in Hi. rewrite table_get by lia. cbn [bind]. pose proof (rv_lt nbits i) as V.
      replace (pow2 nbits <? rv nbits i) with false by (symmetry; apply Nat.ltb_ge; lia). apply mapM_fun.
      intros k Hk. apply in_seq in Hk. apply vget_nth. pose proof (sub_mod _ _ V). nia. }
    cbn [bind]. eexists. split; [reflexivity|].
    assert (Lr : forall i, length (row i) = np) by (intros i; unfold row; rewrite map_length, seq_length; reflexivity).
    assert (Lc : forall q, length (concat (map row q)) = length q * np).
    { induction q as [|x q IH]; [reflexivity|]. cbn [map concat length]. rewrite app_length, Lr, IH. lia. }
    assert (Lcc : length (concat (map row (seq 0 (pow2 nbits)))) = pow2 nbits * np) by (rewrite Lc, seq_length; reflexivity).
    split; [rewrite app_length, Lcc, skipn_length; lia|].
    assert (Cr : forall n s r k, k < np -> r < n -> nth (r * np + k) (concat (map row (seq s n))) e_ZERO = nth k (row (s + r)) e_ZERO).
    { induction n as [|n IH]; intros s r k Hk Hr; [lia|]. cbn [seq map concat]. destruct r as [|r].
      - rewrite app_nth1 by (rewrite Lr; lia). rewrite Nat.add_0_r. reflexivity.
      - rewrite app_nth2 by (rewrite Lr; lia). rewrite Lr. replace (S r * np + k - np) with (r * np + k) by lia. rewrite IH by lia. f_equal. f_equal. lia. }
    split.
    - intros k r Hk Hr. rewrite (col_app np Hnp _ _ k r (pow2 nbits) Lcc Hk). replace (r <? pow2 nbits) with true by (symmetry; apply Nat.ltb_lt; exact Hr).
      rewrite back_brp by exact Hr. unfold col. rewrite Cr by assumption. cbn [Nat.add]. unfold row.
      set (g := fun k0 => nth ((pow2 nbits - rv nbits r) mod pow2 nbits * np + k0) src e_ZERO).
      rewrite (nth_indep _ e_ZERO (g 0)) by (rewrite map_length, seq_length; lia). rewrite (map_nth g), seq_nth by lia. reflexivity.
    - intros k r Hk Hr. rewrite (col_app np Hnp _ _ k r (pow2 nbits) Lcc Hk). replace (r <? pow2 nbits) with false by (symmetry; apply Nat.ltb_ge; exact Hr).
      unfold col. rewrite nth_skipn'. f_equal. f_equal. rewrite Nat.mul_sub_distr_r. assert (pow2 nbits * np <= r * np) by nia. lia.
  Qed.

  (** ** scaling between the transforms *)
  Lemma prep_rows_ok inc cnt : forall w buff, cnt * np <= length buff ->
    length (prep_rows cnt np w inc buff) = length buff /\
    forall k r, k < np -> col np (prep_rows cnt np w inc buff) k r =
      if r <? cnt then kmul (col np buff k r) (kmul (val w) (kpow (val inc) r)) else col np buff k r.
  Proof.
    induction cnt as [|cnt IH]; intros w buff HL.
    - split; [reflexivity|]. intros k r Hk. reflexivity.
    - cbn [prep_rows]. set (h := firstn np buff). set (t := skipn np buff).
      assert (Lh : length h = np) by (unfold h; rewrite firstn_length; lia). assert (Lt : length t = length buff - np) by (unfold t; apply skipn_length).
      destruct (IH (e_mul w inc) t ltac:(lia)) as [L C]. split; [rewrite app_length, map_length, L; lia|]. intros k r Hk.
      assert (E1 : length (map (fun x => e_mul x w) h) = 1 * np) by (rewrite map_length; lia).
      rewrite (col_app np Hnp _ _ k r 1 E1 Hk).
      assert (Eb : col np buff k r = if r <? 1 then col np h k r else col np t k (r - 1)).
      { replace buff with (h ++ t) by apply firstn_skipn. apply col_app; try assumption. lia. }
      destruct (Nat.ltb_spec r 1) as [R|R].
      + assert (r = 0) as -> by lia. replace (0 <? S cnt) with true by reflexivity. rewrite Eb. unfold col. cbn [Nat.mul Nat.add kpow].
        rewrite (nth_indep _ e_ZERO (e_mul e_ZERO w)) by (rewrite map_length; lia). rewrite (map_nth (fun x => e_mul x w)), val_mul. ring.
      + rewrite C by exact Hk. rewrite Eb. destruct (Nat.ltb_spec (r - 1) cnt) as [Q|Q].
        * replace (r <? S cnt) with true by (symmetry; apply Nat.ltb_lt; lia). rewrite val_mul.
          assert (EP : kpow (val inc) r = kmul (kpow (val inc) (r - 1)) (val inc)) by (rewrite <- kpow_S; f_equal; lia). rewrite EP. ring.
        * replace (r <? S cnt) with false by (symmetry; apply Nat.ltb_ge; lia). reflexivity.
  Qed.
  Lemma prep_from per (inv : F3G) m : 0 < per -> forall j c buff, length buff = m * np -> m <= c ->
    exists l, mapM (fun jc : nat * list F3G => interpolate_prepare_block (snd jc) np
        (e_mul inv (e_exp (e_from SHIFT) (Z.of_nat (fst jc * per)))) (e_from SHIFT))
        (combine (seq j c) (chunks (per * np) buff)) = Ok l /\ length (concat l) = m * np /\
      forall k r, k < np -> r < m -> col np (concat l) k r = kmul (col np buff k r) (kmul (val inv) (kpow (kconst SHIFT) (j * per + r))).
  Proof.
    intros Hp. induction m as [m IH] using (well_founded_induction lt_wf). intros j c buff HL Hc.
    assert (Hk0 : per * np <> 0) by nia.
    destruct (Nat.eq_dec m 0) as [->|Nm].
    - assert (buff = []) as -> by (apply length_0_nil; lia). rewrite chunks_nil. exists []. destruct (seq j c); (split; [reflexivity|]; split; [reflexivity|]; intros; lia).
    - assert (Hne : buff <> []) by (intros ->; cbn [length] in HL; nia).
      rewrite chunks_step by assumption. destruct c as [|c]; [lia|]. cbn [seq combine mapM fst snd].
      set (h := firstn (per * np) buff). set (t := skipn (per * np) buff). set (q := Nat.min per m).
      assert (Lh : length h = q * np) by (unfold h, q; rewrite firstn_length, HL; nia).
      assert (Lt : length t = (m - q) * np) by (unfold t, q; rewrite skipn_length, HL; nia).
      unfold interpolate_prepare_block at 1. replace (np =? 0) with false by (symmetry; apply Nat.eqb_neq; lia). cbn [bind].
      rewrite Lh, Nat.div_mul by lia.
      set (w := e_mul inv (e_exp (e_from SHIFT) (Z.of_nat (j * per)))).
      destruct (prep_rows_ok (e_from SHIFT) q w h ltac:(lia)) as [L1 C1].
      destruct (IH (m - q) ltac:(unfold q; lia) (S j) c t Lt ltac:(unfold q; lia)) as [l [E [L2 C2]]].
      rewrite E. cbn [bind]. exists (prep_rows q np w (e_from SHIFT) h :: l). split; [reflexivity|]. cbn [concat].
      split; [rewrite app_length, L1, Lh, L2; nia|]. intros k r Hk Hr.
      assert (Eb : col np buff k r = if r <? q then col np h k r else col np t k (r - q)).
      { replace buff with (h ++ t) by apply firstn_skipn. apply col_app; assumption. }
      rewrite (col_app np Hnp _ _ k r q) by (try exact Hk; rewrite L1; exact Lh). rewrite Eb.
      destruct (Nat.ltb_spec r q) as [R|R].
      + rewrite C1 by exact Hk. replace (r <? q) with true by (symmetry; apply Nat.ltb_lt; exact R). unfold w.
        rewrite val_mul, val_exp, val_from, Nat2Z.id, kpow_add by lia. ring.
      + rewrite C2 by (try exact Hk; lia). replace (S j * per + (r - q)) with (j * per + r) by (unfold q in *; cbn [Nat.mul]; lia). reflexivity.
  Qed.

  Lemma per_pos workers n : np <= MAX_OPS -> per_thread workers np n <> 0.
  Proof.
    intros H. unfold per_thread. assert (1 <= MAX_OPS / np) by (apply Nat.div_le_lower_bound; lia).
    generalize dependent (MAX_OPS / np). generalize (MIN_OPS / np). generalize ((n - 1) / workers). lia.
  Qed.
  Lemma prepare_ok workers nbits buff : 0 < workers -> np <= MAX_OPS -> pow2 nbits * np <= length buff ->
    exists b', interpolate_prepare workers buff np nbits = Ok b' /\ length b' = length buff /\
      (forall k r, k < np -> r < pow2 nbits -> col np b' k r = kmul (col np buff k r) (kmul (ninv nbits) (kpow (kconst SHIFT) r))) /\
      (forall k r, k < np -> pow2 nbits <= r -> col np b' k r = col np buff k r).
  Proof.
    intros Hw Hm HL. unfold interpolate_prepare. pose proof (per_pos workers (pow2 nbits) Hm) as Hper.
    remember (per_thread workers np (pow2 nbits)) as per eqn:Eper. clear Eper.
    replace (workers =? 0) with false by (symmetry; apply Nat.eqb_neq; lia). replace (np =? 0) with false by (symmetry; apply Nat.eqb_neq; lia).
    replace (length buff <? pow2 nbits * np) with false by (symmetry; apply Nat.ltb_ge; lia). replace (per =? 0) with false by (symmetry; apply Nat.eqb_neq; lia).
    cbn [orb]. cbv zeta. set (inv := e_inv (e_from (fof (Z.of_nat (pow2 nbits))))). set (h := firstn (pow2 nbits * np) buff). set (t := skipn (pow2 nbits * np) buff).
    assert (Vni : val inv = ninv nbits) by (unfold inv, ninv; rewrite val_inv, val_from, Nat2Z.inj_pow; reflexivity).
    assert (Lh : length h = pow2 nbits * np) by (unfold h; rewrite firstn_length; lia).
    destruct (prep_from per inv (pow2 nbits) ltac:(lia) 0 (pow2 nbits) h Lh ltac:(lia)) as [l [E [L C]]]. rewrite E. cbn [bind].
    eexists. split; [reflexivity|]. split; [rewrite app_length, L; unfold t; rewrite skipn_length; lia|].
    assert (Eb : forall k r, k < np -> col np buff k r = if r <? pow2 nbits then col np h k r else col np t k (r - pow2 nbits)).
    { intros k r Hk. replace buff with (h ++ t) by apply firstn_skipn. apply col_app; assumption. }
    split; intros k r Hk Hr; rewrite (col_app np Hnp _ _ k r (pow2 nbits) L Hk), (Eb k r Hk).
    - replace (r <? pow2 nbits) with true by (symmetry; apply Nat.ltb_lt; lia). rewrite C by assumption. rewrite Vni. reflexivity.
    - replace (r <? pow2 nbits) with false by (symmetry; apply Nat.ltb_ge; lia). reflexivity.
  Qed.

  (** ** block sizes *)
  Lemma block_bits_ok workers nbits : 0 < workers -> 1 <= nbits -> exists bb, block_bits workers np nbits = Ok bb /\ 1 <= bb /\ bb <= nbits /\ (bb = nbits \/ 12 <= bb).
  Proof.
    intros Hw Hn. unfold block_bits. replace (workers * 8 =? 0) with false by (symmetry; apply Nat.eqb_neq; lia).
    eexists. split; [reflexivity|]. generalize (Z.to_nat (log2_any (Z.of_nat (pow2 nbits * np / (workers * 8))))). lia.
  Qed.
  Lemma n_transposes_ok nbits bb : 1 <= bb -> exists nt, n_transposes nbits bb = Ok nt.
  Proof. intros H. unfold n_transposes. destruct (nbits =? bb); [eauto|]. destruct (Nat.eqb_spec bb 0); [lia|eauto]. Qed.
  Lemma n_transposes_even nbits bb nt : bb <= nbits -> (bb = nbits \/ 12 <= bb) -> nbits <= 24 -> n_transposes nbits bb = Ok nt -> Nat.odd nt = false.
  Proof.
    intros H1 H2 H3 E. unfold n_transposes in E. destruct (Nat.eqb_spec nbits bb) as [Q|Q].
    - assert (nt = 0) as -> by congruence. reflexivity.
    - destruct (Nat.eqb_spec bb 0); [discriminate E|]. assert (nt = (nbits - 1) / bb + 1) as -> by congruence.
      replace ((nbits - 1) / bb) with 1; [reflexivity|]. symmetry. apply (div_eq _ _ _ (nbits - 1 - bb)); lia.
  Qed.
  Lemma zero_tail n m : tailz np n (repeat e_ZERO m).
  Proof.
    intros k r _ _. unfold col.
    assert (G : nth (r * np + k) (repeat e_ZERO m) e_ZERO = e_ZERO).
    { generalize (r * np + k). induction m as [|m IH]; intros [|q]; cbn [repeat nth]; auto. }
    rewrite G. reflexivity.
  Qed.

  (** ** the transforms *)
  Theorem p_fft_ok workers (inverse : bool) src nbits dst st : 0 < workers -> 1 <= nbits -> nbits <= 31 ->
    length src = pow2 nbits * np -> length dst = pow2 nbits * np -> nice st ->
    exists out st', p_fft workers inverse src np nbits dst st = (Ok out, st') /\ nice st' /\ length out = pow2 nbits * np /\
      forall k, k < np -> colL out k (pow2 nbits) = if inverse then idft nbits (colL src k (pow2 nbits)) else dft nbits (colL src k (pow2 nbits)).
  Proof.
    intros Hw Hn1 Hn Hs Hd N. unfold p_fft.
    destruct (block_bits_ok workers nbits Hw Hn1) as [bb [Eb [B1 [B2 _]]]]. rewrite Eb.
    destruct (n_transposes_ok nbits bb B1) as [nt Et]. rewrite Et.
    destruct (BRs_ok nbits st N ltac:(lia)) as [st' [ER N']]. fold (table nbits) in ER.
    assert (HZ : (Z.of_nat (1 * pow2 nbits) <= 2 ^ 32)%Z) by (rewrite Nat.mul_1_l; apply (pow2_32 np Hnp); lia).
    set (tmp := repeat e_ZERO (pow2 nbits * np)). assert (Ltmp : length tmp = pow2 nbits * np) by apply repeat_length.
    assert (Main : forall bout bin, length bout = pow2 nbits * np -> length bin = pow2 nbits * np ->
      exists b0 b1 bo1, (if inverse then inv_bit_reverse (table nbits) bout src np nbits else bit_reverse (table nbits) bout src np nbits) = Ok b0 /\
        all_rounds np nbits bb b0 bin = Ok (b1, bo1, Nat.odd nt) /\ length b1 = pow2 nbits * np /\
        forall k, k < np -> colL b1 k (pow2 nbits) = if inverse then idft nbits (colL src k (pow2 nbits)) else dft nbits (colL src k (pow2 nbits))).
    { intros bout bin L1 L2.
      assert (Rv : exists b0, (if inverse then inv_bit_reverse (table nbits) bout src np nbits else bit_reverse (table nbits) bout src np nbits) = Ok b0 /\
        length b0 = pow2 nbits * np /\ forall k r, k < np -> r < pow2 nbits -> col np b0 k r =
          if inverse then kmul (nth r (brp nbits (back (colL src k (pow2 nbits)))) kzero) (ninv nbits) else nth r (brp nbits (colL src k (pow2 nbits))) kzero).
      { destruct inverse.
        - apply inv_bit_reverse_ok; lia.
        - apply bit_reverse_ok; lia. }
      destruct Rv as [b0 [E0 [L0 C0]]].
      destruct (all_rounds_ok nbits bb 1 (fun k r => if inverse then kmul (nth r (brp nbits (back (colL src k (pow2 nbits)))) kzero) (ninv nbits) else nth r (brp nbits (colL src k (pow2 nbits))) kzero)
        b0 bin nt B1 B2 ltac:(lia) ltac:(lia) HZ Et) as [b1 [bo1 [E1 [A1 [_ [A3 _]]]]]]; [lia|lia|exact C0|].
      exists b0, b1, bo1. split; [exact E0|]. split; [exact E1|]. split; [lia|]. intros k Hk. unfold colL at 1. apply list_eq_map_seq.
      - destruct inverse; [apply idft_len|apply dft_len].
      - intros r Hr. rewrite A3 by assumption. symmetry. destruct inverse.
        + rewrite idft_back by (try apply colL_len; try exact Hr; lia).
          unfold rowS. rewrite Nat.div_small, Nat.mod_small by exact Hr.
          assert (Q : length (back (colL src k (pow2 nbits))) = pow2 nbits) by (rewrite back_len; apply colL_len).
          rewrite <- (pev_brp nbits _ _ Q). rewrite <- (pev_scale nbits). apply pev_ext. intros; reflexivity.
        + rewrite rowS_brp by (try apply colL_len; exact Hr). unfold dft. rewrite nth_map_seq by exact Hr. reflexivity. }
    destruct (Nat.odd nt) eqn:Eo; rewrite ER.
    - destruct (Main tmp dst Ltmp Hd) as [b0 [b1 [bo1 [E0 [E1 [L1 C1]]]]]]. cbn [bind]. rewrite E0. cbn [bind]. rewrite E1. cbn [bind xorb].
      exists b1, st'. exact (conj eq_refl (conj N' (conj L1 C1))).
    - destruct (Main dst tmp Hd Ltmp) as [b0 [b1 [bo1 [E0 [E1 [L1 C1]]]]]]. cbn [bind]. rewrite E0. cbn [bind]. rewrite E1. cbn [bind xorb].
      exists b1, st'. exact (conj eq_refl (conj N' (conj L1 C1))).
  Qed.

  Theorem interpolate_ok workers src nbits dst nbitsext st : 0 < workers -> np <= MAX_OPS -> 1 <= nbits -> nbits <= nbitsext -> nbitsext <= 31 ->
    length src = pow2 nbits * np -> length dst = pow2 nbitsext * np -> nice st -> (nbitsext <= 24 \/ tailz np (pow2 nbits) dst) ->
    exists out st', interpolate workers src np nbits dst nbitsext st = (Ok out, st') /\ nice st' /\ length out = pow2 nbitsext * np /\
      forall k, k < np -> colL out k (pow2 nbitsext) = lde nbits (nbitsext - nbits) (idft nbits (colL src k (pow2 nbits))).
  Proof.
    intros Hw Hm Hn1 Hne Hn Hs Hd N Tl. unfold interpolate. pose proof (pow2_pos nbits) as Pn.
    destruct src as [|s0 src'] eqn:Esrc; [cbn [length] in Hs; nia|]. rewrite <- Esrc in *. clear Esrc.
    destruct (block_bits_ok workers nbits Hw Hn1) as [bb [Eb [B1 [B2 _]]]]. rewrite Eb.
    destruct (n_transposes_ok nbits bb B1) as [nt1 Et1]. rewrite Et1.
    destruct (block_bits_ok workers nbitsext Hw ltac:(lia)) as [bbe [Ebe [B1e [B2e B3e]]]]. rewrite Ebe.
    destruct (n_transposes_ok nbitsext bbe B1e) as [nt2 Et2]. rewrite Et2.
    destruct (BRs_ok nbits st N ltac:(lia)) as [st1 [ER1 N1]]. fold (table nbits) in ER1.
    destruct (BRs_ok nbitsext st1 N1 ltac:(lia)) as [st2 [ER2 N2]]. fold (table nbitsext) in ER2.
    set (C := pow2 (nbitsext - nbits)). assert (EC : pow2 nbitsext = C * pow2 nbits) by (unfold C; rewrite <- Nat.pow_add_r; f_equal; lia).
    pose proof (pow2_pos (nbitsext - nbits)) as PC. fold C in PC.
    assert (HZ : (Z.of_nat (C * pow2 nbits) <= 2 ^ 32)%Z) by (rewrite <- EC; apply (pow2_32 np Hnp); lia).
    set (tmp := repeat e_ZERO (pow2 nbitsext * np)). assert (Ltmp : length tmp = pow2 nbitsext * np) by apply repeat_length.
    set (e := fun k => colL src k (pow2 nbits)).
    assert (Le : forall k, length (e k) = pow2 nbits) by (intros k; apply colL_len).
    assert (Main : forall bout bin, length bout = pow2 nbitsext * np -> length bin = pow2 nbitsext * np ->
      tailz np (pow2 nbits) (if Nat.odd nt1 then bin else bout) ->
      exists b0 b1 bo1 b2 b3 b4 bo4, interpolate_bit_reverse (table nbits) bout src np nbits = Ok b0 /\
        all_rounds np nbits bb b0 bin = Ok (b1, bo1, Nat.odd nt1) /\
        interpolate_prepare workers b1 np nbits = Ok b2 /\
        bit_reverse (table nbitsext) bo1 b2 np nbitsext = Ok b3 /\
        all_rounds np nbitsext bbe b3 b2 = Ok (b4, bo4, Nat.odd nt2) /\ length b4 = pow2 nbitsext * np /\
        forall k, k < np -> colL b4 k (pow2 nbitsext) = lde nbits (nbitsext - nbits) (idft nbits (e k))).
    { intros bout bin L1 L2 Tz.
      destruct (ibr_ok nbits bout src ltac:(lia) ltac:(rewrite L1, EC; nia) ltac:(lia)) as [b0 [E0 [L0 [C0 T0]]]].
      destruct (all_rounds_ok nbits bb C (fun k r => nth r (brp nbits (back (e k))) kzero) b0 bin nt1 B1 B2 ltac:(lia) ltac:(lia) HZ Et1) as [b1 [bo1 [E1 [A1 [A2 [A3 A4]]]]]];
        [rewrite L0, L1, EC; reflexivity|rewrite L2, EC; reflexivity|exact C0|].
      assert (Tz1 : tailz np (pow2 nbits) b1).
      { apply A4. destruct (Nat.odd nt1); [exact Tz|]. intros k r Hk Hr. rewrite T0 by assumption. apply Tz; assumption. }
      destruct (prepare_ok workers nbits b1 Hw Hm ltac:(rewrite A1; nia)) as [b2 [E2 [L2' [C2 T2]]]].
      destruct (bit_reverse_ok nbitsext bo1 b2 ltac:(lia) ltac:(rewrite A2, EC; reflexivity) ltac:(rewrite L2', A1, EC; lia)) as [b3 [E3 [L3 C3]]].
      assert (HZe : (Z.of_nat (1 * pow2 nbitsext) <= 2 ^ 32)%Z) by (rewrite Nat.mul_1_l; apply (pow2_32 np Hnp); lia).
      destruct (all_rounds_ok nbitsext bbe 1 (fun k r => nth r (brp nbitsext (colL b2 k (pow2 nbitsext))) kzero) b3 b2 nt2 B1e B2e ltac:(lia) ltac:(lia) HZe Et2) as [b4 [bo4 [E4 [A1' [_ [A3' _]]]]]];
        [rewrite L3; lia|rewrite L2', A1, <- EC; lia|exact C3|].
      exists b0, b1, bo1, b2, b3, b4, bo4. split; [exact E0|]. split; [exact E1|]. split; [exact E2|]. split; [exact E3|]. split; [exact E4|]. split; [lia|].
      intros k Hk. unfold colL. apply list_eq_map_seq; [unfold lde; rewrite map_length, seq_length; f_equal; lia|].
      intros r Hr. rewrite A3' by assumption. rewrite rowS_brp by (try apply colL_len; exact Hr).
      unfold lde. replace (nbits + (nbitsext - nbits)) with nbitsext by lia. rewrite nth_map_seq by exact Hr.
      set (X := kpow (kroot nbitsext) r). set (c := idft nbits (e k)).
      assert (Lc : length c = pow2 nbits) by apply idft_len.
      assert (Ec : colL b2 k (pow2 nbitsext) = map (fun r => kmul (nth r c kzero) (kpow (kconst SHIFT) r)) (seq 0 (pow2 nbits)) ++ repeat kzero (pow2 nbitsext - pow2 nbits)).
      { unfold colL. replace (pow2 nbitsext) with (pow2 nbits + (pow2 nbitsext - pow2 nbits)) at 1 by (rewrite EC; nia).
        rewrite seq_app, map_app. cbn [Nat.add]. apply (f_equal2 (@app K)).
        - apply map_ext_in. intros q Hq. apply in_seq in Hq. rewrite C2 by lia. rewrite A3 by lia.
          rewrite rowS_brp by (try (rewrite back_len; apply Le); lia). unfold c. rewrite idft_back by (try apply Le; lia). ring.
        - rewrite map_seq_shift. assert (G : forall f n, (forall i, f i = kzero) -> map f (seq 0 n) = repeat kzero n).
          { intros f n F. rewrite <- (seq_length n 0) at 2. generalize (seq 0 n). induction l as [|x l IH]; [reflexivity|]. cbn [map length repeat]. rewrite F, IH. reflexivity. }
          apply G. intros q. rewrite T2 by lia. apply Tz1; [exact Hk|lia]. }
      rewrite Ec, peval_app, peval_zeros, peval_map_seq, peval_sum, Lc.
      replace (kadd (ksum (pow2 nbits) (fun k0 => kmul (kmul (nth k0 c kzero) (kpow (kconst SHIFT) k0)) (kpow X k0))) (kmul (kpow X (length (map (fun r0 => kmul (nth r0 c kzero) (kpow (kconst SHIFT) r0)) (seq 0 (pow2 nbits))))) kzero))
        with (ksum (pow2 nbits) (fun k0 => kmul (kmul (nth k0 c kzero) (kpow (kconst SHIFT) k0)) (kpow X k0))) by ring.
      apply ksum_ext. intros q Hq. rewrite kpow_prod. ring. }
    assert (OD : Nat.odd (nt1 + 1 + nt2) = xorb (negb (Nat.odd nt1)) (Nat.odd nt2)).
    { rewrite !Nat.odd_add. change (Nat.odd 1) with true. destruct (Nat.odd nt1), (Nat.odd nt2); reflexivity. }
    assert (Ev : nbitsext <= 24 -> Nat.odd nt2 = false) by (intros H24; exact (n_transposes_even nbitsext bbe nt2 B2e B3e H24 Et2)).
    pose proof (zero_tail (pow2 nbits) (pow2 nbitsext * np)) as ZT. fold tmp in ZT.
    destruct (Nat.odd (nt1 + 1 + nt2)) eqn:Eo; rewrite ER1; cbn [bind].
    - destruct (Main tmp dst Ltmp Hd) as [b0 [b1 [bo1 [b2 [b3 [b4 [bo4 [E0 [E1 [E2 [E3 [E4 [L4 C4]]]]]]]]]]]]].
      { destruct (Nat.odd nt1); [|exact ZT]. destruct Tl as [H24|Tl]; [|exact Tl]. rewrite (Ev H24) in OD. cbn in OD. congruence. }
      rewrite E0. cbn [bind]. rewrite E1. cbn [bind]. rewrite E2. cbn [bind]. rewrite ER2. cbn [bind]. rewrite E3. cbn [bind]. rewrite E4. cbn [bind].
      assert (X : xorb true (xorb (negb (Nat.odd nt1)) (Nat.odd nt2)) = false) by (rewrite <- OD; reflexivity). rewrite X.
      exists b4, st2. exact (conj eq_refl (conj N2 (conj L4 C4))).
    - destruct (Main dst tmp Hd Ltmp) as [b0 [b1 [bo1 [b2 [b3 [b4 [bo4 [E0 [E1 [E2 [E3 [E4 [L4 C4]]]]]]]]]]]]].
      { destruct (Nat.odd nt1); [exact ZT|]. destruct Tl as [H24|Tl]; [|exact Tl]. rewrite (Ev H24) in OD. cbn in OD. congruence. }
      rewrite E0. cbn [bind]. rewrite E1. cbn [bind]. rewrite E2. cbn [bind]. rewrite ER2. cbn [bind]. rewrite E3. cbn [bind]. rewrite E4. cbn [bind].
      assert (X : xorb false (xorb (negb (Nat.odd nt1)) (Nat.odd nt2)) = false) by (rewrite <- OD; reflexivity). rewrite X.
      exists b4, st2. exact (conj eq_refl (conj N2 (conj L4 C4))).
  Qed.
End Top.

(** ** the statements by column *)
Definition column (np : nat) (buf : list F3G) (k : nat) : list F3G := map (fun i => nth (i * np + k) buf e_ZERO) (seq 0 (length buf / np)).
Lemma column_val np buf k n : 0 < np -> length buf = n * np -> map val (column np buf k) = colL np buf k n.
Proof. intros H L. unfold column, colL, col. rewrite L, Nat.div_mul, map_map by lia. reflexivity. Qed.
Lemma column_len np buf k n : 0 < np -> length buf = n * np -> length (column np buf k) = n.
Proof. intros H L. unfold column. rewrite map_length, seq_length, L. apply Nat.div_mul. lia. Qed.

Definition in_range (c : nat * nat) : Prop := snd c <= 32 /\ fst c <= 2 ^ snd c.
Lemma reach_nice calls : Forall in_range calls -> nice (snd (run_BR calls br_new)).
Proof. intros H. exact (proj2 (history_total calls H br_new new_nice)). Qed.

Theorem p_fft_columns workers (inverse : bool) src np nbits dst calls : 0 < workers -> 0 < np -> 1 <= nbits <= 31 ->
  length src = 2 ^ nbits * np -> length dst = 2 ^ nbits * np -> Forall in_range calls ->
  exists out, fst (p_fft workers inverse src np nbits dst (snd (run_BR calls br_new))) = Ok out /\ length out = 2 ^ nbits * np /\
    forall k, k < np -> exists r, (if inverse then ifft (F := opsE) (column np src k) else fft (F := opsE) (column np src k)) = Ok r /\
      map val (column np out k) = map val r.
Proof.
  intros Hw Hnp [Hn1 Hn] Hs Hd Hc.
  destruct (p_fft_ok np Hnp workers inverse src nbits dst _ Hw Hn1 Hn Hs Hd (reach_nice calls Hc)) as [out [st' [E [_ [L C]]]]].
  exists out. rewrite E. split; [reflexivity|]. split; [exact L|]. intros k Hk. rewrite (column_val np out k _ Hnp L), (C k Hk).
  pose proof (column_len np src k _ Hnp Hs) as Lc. pose proof (column_val np src k _ Hnp Hs) as Vc. destruct inverse.
  - destruct (ifft_E nbits (column np src k) Hn Lc) as [r [Er Vr]]. exists r. split; [exact Er|]. rewrite Vr, Vc. reflexivity.
  - destruct (fft_E nbits (column np src k) Hn Lc) as [r [Er Vr]]. exists r. split; [exact Er|]. rewrite Vr, Vc. reflexivity.
Qed.
Theorem interpolate_columns workers src np nbits dst nbitsext calls : 0 < workers -> 0 < np <= MAX_OPS -> 1 <= nbits <= nbitsext -> nbitsext <= 31 ->
  length src = 2 ^ nbits * np -> length dst = 2 ^ nbitsext * np -> Forall in_range calls ->
  (nbitsext <= 24 \/ Forall (fun x => val x = kzero) dst) ->
  exists out, fst (interpolate workers src np nbits dst nbitsext (snd (run_BR calls br_new))) = Ok out /\ length out = 2 ^ nbitsext * np /\
    forall k, k < np -> exists r, extend_pol (F := opsE) (column np src k) (nbitsext - nbits) = Ok r /\ map val (column np out k) = map val r.
Proof.
  intros Hw [Hnp Hm] [Hn1 Hne] Hn Hs Hd Hc T.
  assert (T' : nbitsext <= 24 \/ tailz np (2 ^ nbits) dst).
  { destruct T as [T|T]; [left; exact T|right]. intros k r Hk _. unfold col. destruct (Nat.lt_ge_cases (r * np + k) (length dst)) as [I|I].
    - rewrite Forall_forall in T. apply T. apply nth_In. exact I.
    - rewrite nth_overflow by exact I. reflexivity. }
  destruct (interpolate_ok np Hnp workers src nbits dst nbitsext _ Hw Hm Hn1 Hne Hn Hs Hd (reach_nice calls Hc) T') as [out [st' [E [_ [L C]]]]].
  exists out. rewrite E. split; [reflexivity|]. split; [exact L|]. intros k Hk. rewrite (column_val np out k _ Hnp L), (C k Hk).
  pose proof (column_len np src k _ Hnp Hs) as Lc. pose proof (column_val np src k _ Hnp Hs) as Vc.
  destruct (extend_E nbits (nbitsext - nbits) (column np src k) (idft nbits (map val (column np src k)))) as [r [Er Vr]]; [lia|apply idft_len| |].
  { symmetry. apply dft_idft; [lia|]. rewrite map_length. exact Lc. }
  exists r. split; [exact Er|]. rewrite Vr, Vc. reflexivity.
Qed.
(* a single row is refused although the reference extends it *)
Theorem interpolate_one_row workers src np dst nbitsext calls : 0 < workers -> 0 < np -> nbitsext <= 31 -> length src = np -> length dst = 2 ^ nbitsext * np -> Forall in_range calls ->
  fst (interpolate workers src np 0 dst nbitsext (snd (run_BR calls br_new))) = Panic /\
  forall k, k < np -> exists r, extend_pol (F := opsE) (column np src k) nbitsext = Ok r.
Proof.
  intros Hw Hnp Hn Hs Hd Hc. pose proof (reach_nice calls Hc) as N. set (st := snd (run_BR calls br_new)) in *. split.
  - unfold interpolate. destruct src as [|s0 src'] eqn:Es; [cbn [length] in Hs; lia|]. rewrite <- Es in *. clear Es.
    assert (Eb0 : block_bits workers np 0 = Ok 0).
    { unfold block_bits. replace (workers * 8 =? 0) with false by (symmetry; apply Nat.eqb_neq; lia). reflexivity. }
    rewrite Eb0. change (n_transposes 0 0) with (@Ok nat 0).
    assert (Ebe : exists bbe nt2, block_bits workers np nbitsext = Ok bbe /\ n_transposes nbitsext bbe = Ok nt2).
    { destruct (Nat.eq_dec nbitsext 0) as [->|Nz]; [exists 0, 0; split; [exact Eb0|reflexivity]|].
      destruct (block_bits_ok np Hnp workers nbitsext Hw ltac:(lia)) as [bbe [E [B1 _]]]. destruct (n_transposes_ok np Hnp nbitsext bbe B1) as [nt E2]. exists bbe, nt. exact (conj E E2). }
    destruct Ebe as [bbe [nt2 [Ebe Et2]]]. rewrite Ebe, Et2. destruct (BRs_ok 0 st N ltac:(lia)) as [st1 [ER _]].
    pose proof (pow2_pos nbitsext) as Pe.
    assert (Main : forall bout bin, length bout = 2 ^ nbitsext * np ->
      (do b <- interpolate_bit_reverse (table 0) bout src np 0; do r <- all_rounds np 0 0 b bin;
       let '(b, bo, sw) := r in do b <- interpolate_prepare workers b np 0; Ok (b, bo, sw)) = Panic).
    { intros bout bin L. destruct (ibr_ok np Hnp 0 bout src ltac:(lia) ltac:(cbn; rewrite L; nia) ltac:(cbn; lia)) as [b0 [E0 _]]. rewrite E0. reflexivity. }
    fold (table 0) in ER. destruct (Nat.odd (0 + 1 + nt2)); rewrite ER; cbn [bind]; rewrite Main by (try exact Hd; apply repeat_length); reflexivity.
  - intros k Hk. assert (Lc : length (column np src k) = pow2 0) by (apply column_len; [exact Hnp|cbn; lia]).
    destruct (extend_E 0 nbitsext (column np src k) (idft 0 (map val (column np src k)))) as [r [Er _]]; [lia|apply idft_len| |exists r; exact Er].
    symmetry. apply dft_idft; [lia|]. rewrite map_length. exact Lc.
Qed.
