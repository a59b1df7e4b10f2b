(* The buffer level of fft_p.rs and fft_worker.rs: every column is transformed independently. *)
From Coq Require Import Ring ArithRing Lia.
From Verif Require Import Base GlModel FrField F3gModel Cubic F3gProof ListAux PolyModel Roots PolyProof FftProof FftTop FriMath HashModel HashProof FftpModel FftpMath.
Open Scope nat_scope.
Open Scope res_scope.
Add Ring Kr2 : K_ring.

Lemma combine_seq_len {A} j (l : list A) : forall a b, length l <= a -> length l <= b -> combine (seq j a) l = combine (seq j b) l.
Proof.
  revert j. induction l as [|x l IH]; intros j a b Ha Hb; [destruct (seq j a), (seq j b); reflexivity|].
  destruct a as [|a]; [cbn in Ha; lia|]. destruct b as [|b]; [cbn in Hb; lia|]. cbn [length] in *. cbn [seq combine]. f_equal. apply IH; lia.
Qed.
Lemma div_ceil_le a b : b <> 0 -> div_ceil a b <= a.
Proof.
  intros Hb. unfold div_ceil. pose proof (Nat.div_mod a b Hb) as E. pose proof (Nat.mod_upper_bound a b Hb).
  destruct (Nat.eqb_spec (a mod b) 0); nia.
Qed.

Section Cols.
  Variable np : nat.
  Hypothesis Hnp : 0 < np.
  Definition col (buf : list F3G) (k r : nat) : K := val (nth (r * np + k) buf e_ZERO).

  Lemma cells r k r' k' : k < np -> k' < np -> r * np + k = r' * np + k' -> r = r' /\ k = k'.
  Proof.
    intros A B E. assert (r = r').
    { apply (f_equal (fun x => x / np)) in E. rewrite !Nat.div_add_l, !Nat.div_small in E by lia. lia. }
    subst. lia.
  Qed.
  Lemma vget_nth (l : list F3G) i : i < length l -> vget l i = Ok (nth i l e_ZERO).
  Proof. intros H. apply vget_some. apply nth_error_nth_lt. exact H. Qed.
  Lemma vset_nth (l : list F3G) i y : i < length l -> exists l', vset l i y = Ok l' /\ length l' = length l /\
    nth i l' e_ZERO = y /\ forall j, j <> i -> nth j l' e_ZERO = nth j l e_ZERO.
  Proof.
    intros H. destruct (vset_ok l i y H) as [l' [E [L [N O]]]]. exists l'. split; [exact E|]. split; [exact L|]. split.
    - apply (nth_error_nth _ _ _ N).
    - intros j Hj. specialize (O j Hj). destruct (nth_error l j) as [x|] eqn:X.
      + rewrite (nth_error_nth _ _ _ O), (nth_error_nth _ _ _ X). reflexivity.
      + apply nth_error_None in O, X. rewrite !nth_overflow by assumption. reflexivity.
  Qed.
  Lemma row_lt r k R len : k < np -> r < R -> R * np <= len -> r * np + k < len.
  Proof. nia. Qed.

  (** ** butterflies *)
  Definition bfr (w : K) (pos md2 : nat) (f : nat -> K) (r : nat) : K :=
    if r =? pos then kadd (f pos) (kmul w (f (pos + md2)))
    else if r =? pos + md2 then ksub (f pos) (kmul w (f (pos + md2))) else f r.
  Lemma bf_cell_ok w buff pos md2 j : 0 < md2 -> j < np -> (pos + md2 + 1) * np <= length buff ->
    exists b', bf_cell w buff (pos * np + j) ((pos + md2) * np + j) = Ok b' /\ length b' = length buff /\
      forall k r, k < np -> col b' k r = if k =? j then bfr (val w) pos md2 (col buff k) r else col buff k r.
  Proof.
    intros Hm Hj HL. unfold bf_cell.
    assert (A1 : pos * np + j < length buff) by (apply (row_lt _ _ (pos + md2 + 1)); lia).
    assert (A2 : (pos + md2) * np + j < length buff) by (apply (row_lt _ _ (pos + md2 + 1)); lia).
    rewrite vget_nth by exact A2. cbn [bind]. rewrite vget_nth by exact A1. cbn [bind].
    set (t := e_mul w (nth ((pos + md2) * np + j) buff e_ZERO)). set (u := nth (pos * np + j) buff e_ZERO).
    destruct (vset_nth buff (pos * np + j) (e_add u t) A1) as [b1 [E1 [L1 [N1 O1]]]]. rewrite E1. cbn [bind].
    destruct (vset_nth b1 ((pos + md2) * np + j) (e_sub u t)) as [b2 [E2 [L2 [N2 O2]]]]; [rewrite L1; exact A2|].
    exists b2. split; [exact E2|]. split; [rewrite L2; exact L1|]. intros k r Hk. unfold col.
    assert (Vt : val t = kmul (val w) (col buff j (pos + md2))) by apply val_mul.
    destruct (Nat.eqb_spec k j) as [->|Nk].
    - unfold bfr. destruct (Nat.eqb_spec r pos) as [->|Nr].
      + rewrite O2 by (intros X; destruct (cells _ _ _ _ Hj Hj X); lia). rewrite N1, val_add, Vt. reflexivity.
      + destruct (Nat.eqb_spec r (pos + md2)) as [->|Nr2].
        * rewrite N2, val_sub, Vt. reflexivity.
        * rewrite O2, O1; [reflexivity| |]; intros X; destruct (cells _ _ _ _ Hj Hj X); lia.
    - rewrite O2, O1; [reflexivity| |]; intros X; destruct (cells _ _ _ _ Hk Hj X); lia.
  Qed.
  Lemma bf_row_ok w pos md2 cnt : forall j0 buff, 0 < md2 -> j0 + cnt <= np -> (pos + md2 + 1) * np <= length buff ->
    exists b', foldM (fun b j => bf_cell w b (pos * np + j) ((pos + md2) * np + j)) (seq j0 cnt) buff = Ok b' /\ length b' = length buff /\
      forall k r, k < np -> col b' k r = if (j0 <=? k) && (k <? j0 + cnt) then bfr (val w) pos md2 (col buff k) r else col buff k r.
  Proof.
    induction cnt; intros j0 buff Hm Hj HL.
    - exists buff. split; [reflexivity|]. split; [reflexivity|]. intros k r Hk.
      destruct (Nat.leb_spec j0 k), (Nat.ltb_spec k (j0 + 0)); cbn [andb]; try reflexivity. lia.
    - cbn [seq foldM]. destruct (bf_cell_ok w buff pos md2 j0 Hm ltac:(lia) HL) as [b1 [E1 [L1 C1]]]. rewrite E1. cbn [bind].
      destruct (IHcnt (S j0) b1 Hm ltac:(lia) ltac:(rewrite L1; exact HL)) as [b2 [E2 [L2 C2]]]. exists b2. split; [exact E2|]. split; [lia|].
      intros k r Hk. rewrite C2 by exact Hk.
      destruct (Nat.eqb_spec k j0) as [->|Nk].
      + replace (S j0 <=? j0) with false by (symmetry; apply Nat.leb_gt; lia). cbn [andb]. rewrite C1 by exact Hk. rewrite Nat.eqb_refl.
        rewrite Nat.leb_refl. replace (j0 <? j0 + S cnt) with true by (symmetry; apply Nat.ltb_lt; lia). reflexivity.
      + assert (B : forall r, col b1 k r = col buff k r) by (intros r0; rewrite C1 by exact Hk; apply Nat.eqb_neq in Nk; rewrite Nk; reflexivity).
        replace (j0 <=? k) with (S j0 <=? k) by (destruct (Nat.leb_spec (S j0) k), (Nat.leb_spec j0 k); try reflexivity; lia).
        replace (j0 + S cnt) with (S j0 + cnt) by lia. destruct ((S j0 <=? k) && (k <? S j0 + cnt)); [|apply B]. unfold bfr. rewrite !B. reflexivity.
  Qed.
  Definition bfs (w g : K) (pos md2 cnt : nat) (f : nat -> K) (r : nat) : K :=
    if (pos <=? r) && (r <? pos + cnt) then kadd (f r) (kmul (kmul w (kpow g (r - pos))) (f (r + md2)))
    else if (pos + md2 <=? r) && (r <? pos + md2 + cnt) then ksub (f (r - md2)) (kmul (kmul w (kpow g (r - md2 - pos))) (f r)) else f r.
  Ltac dec1 := match goal with
    | |- context [?a <=? ?b] => first [replace (a <=? b) with true by (symmetry; apply Nat.leb_le; lia) | replace (a <=? b) with false by (symmetry; apply Nat.leb_gt; lia)]
    | |- context [?a <? ?b] => first [replace (a <? b) with true by (symmetry; apply Nat.ltb_lt; lia) | replace (a <? b) with false by (symmetry; apply Nat.ltb_ge; lia)]
    | |- context [?a =? ?b] => first [replace (a =? b) with true by (symmetry; apply Nat.eqb_eq; lia) | replace (a =? b) with false by (symmetry; apply Nat.eqb_neq; lia)]
    end.
  Ltac dec := repeat dec1; cbn [andb].
  Lemma bf_rows_ok md2 g cnt : forall pos w buff, 0 < md2 -> cnt <= md2 -> (pos + md2 + cnt) * np <= length buff ->
    exists b', bf_rows cnt pos md2 np w g buff = Ok b' /\ length b' = length buff /\
      forall k r, k < np -> col b' k r = bfs (val w) (val g) pos md2 cnt (col buff k) r.
  Proof.
    induction cnt; intros pos w buff Hm Hc HL.
    - exists buff. split; [reflexivity|]. split; [reflexivity|]. intros k r Hk. unfold bfs. replace ((pos <=? r) && (r <? pos + 0)) with false.
      2: { symmetry. apply andb_false_iff. destruct (Nat.leb_spec pos r); [right; apply Nat.ltb_ge; lia|left; reflexivity]. }
      replace ((pos + md2 <=? r) && (r <? pos + md2 + 0)) with false; [reflexivity|].
      symmetry. apply andb_false_iff. destruct (Nat.leb_spec (pos + md2) r); [right; apply Nat.ltb_ge; lia|left; reflexivity].
    - cbn [bf_rows]. destruct (bf_row_ok w pos md2 np 0 buff Hm ltac:(lia) ltac:(nia)) as [b1 [E1 [L1 C1]]]. rewrite E1. cbn [bind].
      destruct (IHcnt (S pos) (e_mul w g) b1 Hm ltac:(lia) ltac:(rewrite L1; nia)) as [b2 [E2 [L2 C2]]]. exists b2. split; [exact E2|]. split; [lia|].
      intros k r Hk. rewrite C2 by exact Hk.
      assert (B : forall r, col b1 k r = bfr (val w) pos md2 (col buff k) r).
      { intros r0. rewrite C1 by exact Hk. cbn [Nat.leb andb Nat.add]. replace (k <? np) with true by (symmetry; apply Nat.ltb_lt; exact Hk). reflexivity. }
      unfold bfs. rewrite !B, val_mul. set (f := col buff k). unfold bfr.
      assert (X : forall a, kmul (kmul (val w) (val g)) (kpow (val g) a) = kmul (val w) (kpow (val g) (S a))) by (intros a; rewrite kpow_S; ring).
      destruct (Nat.eq_dec r pos) as [->|N1].
      { dec. replace (pos - pos) with 0 by lia. cbn [kpow]. ring. }
      destruct (Nat.eq_dec r (pos + md2)) as [->|N2].
      { dec. replace (pos + md2 - md2) with pos by lia. rewrite Nat.sub_diag. cbn [kpow]. ring. }
      destruct (Nat.le_gt_cases pos r) as [P1|P1].
      2: { dec. reflexivity. }
      destruct (Nat.lt_ge_cases r (pos + S cnt)) as [P2|P2].
      { dec. rewrite X. replace (S (r - S pos)) with (r - pos) by lia. reflexivity. }
      destruct (Nat.lt_ge_cases r (pos + md2)) as [P3|P3].
      { dec. reflexivity. }
      destruct (Nat.lt_ge_cases r (pos + md2 + S cnt)) as [P4|P4].
      { dec. rewrite X. replace (S (r - md2 - S pos)) with (r - md2 - pos) by lia. reflexivity. }
      dec. reflexivity.
  Qed.

  (** ** blocks *)
  Lemma fexp_nat a n : (Z.of_nat n < W)%Z -> fexp a (Z.of_nat n) = fpow a n.
  Proof. intros H. apply fint_inj. rewrite fint_exp, fint_fpow by lia. reflexivity. Qed.
  Lemma pow2_32 n : n <= 32 -> (Z.of_nat (pow2 n) <= 2 ^ 32)%Z.
  Proof. intros H. rewrite Nat2Z.inj_pow. apply Z.pow_le_mono_r; lia. Qed.
  Definition inb (lo len r : nat) : bool := (lo <=? r) && (r <? lo + len).
  Lemma inb_T lo len r : inb lo len r = true <-> lo <= r < lo + len.
  Proof. unfold inb. rewrite andb_true_iff, Nat.leb_le, Nat.ltb_lt. tauto. Qed.
  Lemma inb_F lo len r : inb lo len r = false <-> ~ lo <= r < lo + len.
  Proof. rewrite <- inb_T. destruct (inb lo len r); split; congruence. Qed.

  Lemma first_w_ok start nbits i l : l <= nbits -> i + l <= nbits -> nbits <= 32 -> (Z.of_nat start < 2 ^ 32)%Z -> Nat.divide (pow2 l) start ->
    exists w, first_w start nbits (i + l) l l = Ok w /\ val w = kpow (kroot (i + l)) (blkY nbits i start).
  Proof.
    intros Hl Hi Hn Hs [c Hc]. assert (H32 : i + l <= 32) by lia. unfold first_w, blkY. destruct (Nat.eqb_spec i 0) as [->|Ni].
    - rewrite Nat.add_0_l, Nat.ltb_irrefl. exists e_ONE. split; reflexivity.
    - replace (l <? i + l) with true by (symmetry; apply Nat.ltb_lt; lia). replace (i + l <? l) with false by (symmetry; apply Nat.ltb_ge; lia).
      cbv zeta. replace (i + l - l) with i by lia. pose proof (pow2_pos i). pose proof (pow2_pos (nbits - i)).
      assert (E : pow2 nbits / pow2 i = pow2 (nbits - i)).
      { replace (pow2 nbits) with (pow2 (nbits - i) * pow2 i) by (rewrite <- Nat.pow_add_r; f_equal; lia). apply Nat.div_mul. lia. }
      rewrite E. replace (pow2 (nbits - i) =? 0) with false by (symmetry; apply Nat.eqb_neq; lia).
      rewrite MG_root by exact H32. cbn [bind]. eexists. split; [reflexivity|]. rewrite val_from.
      assert (Hw : (Z.of_nat (start mod pow2 (nbits - i) * pow2 i + start / pow2 (nbits - i)) < W)%Z).
      { pose proof (Nat.mod_upper_bound start (pow2 (nbits - i)) ltac:(lia)) as M.
        assert (Q : start / pow2 (nbits - i) <= start) by (apply Nat.div_le_upper_bound; [lia|nia]).
        assert (T : start mod pow2 (nbits - i) * pow2 i <= pow2 nbits).
        { replace (pow2 nbits) with (pow2 (nbits - i) * pow2 i) by (rewrite <- Nat.pow_add_r; f_equal; lia). nia. }
        pose proof (pow2_32 nbits Hn) as P32. unfold W. change (2 ^ 64)%Z with (2 ^ 32 * 2 ^ 32)%Z. lia. }
      assert (X : kconst (fexp (root (i + l)) (Z.of_nat (start mod pow2 (nbits - i) * pow2 i + start / pow2 (nbits - i)))) =
                  kpow (kroot (i + l)) (start mod pow2 (nbits - i) * pow2 i + start / pow2 (nbits - i))).
      { rewrite fexp_nat, kconst_pow; [reflexivity|]. exact Hw. }
      rewrite X. clear X.
      assert (D : exists q, start mod pow2 (nbits - i) = q * pow2 l).
      { replace (pow2 (nbits - i)) with (pow2 l * pow2 (nbits - i - l)) by (rewrite <- Nat.pow_add_r; f_equal; lia).
        rewrite Hc, (Nat.mul_comm c). pose proof (pow2_pos l). pose proof (pow2_pos (nbits - i - l)). rewrite Nat.mul_mod_distr_l by lia.
        exists (c mod pow2 (nbits - i - l)). lia. }
      destruct D as [q ->]. rewrite (Nat.add_comm (_ * _)).
      replace (q * pow2 l * pow2 i) with (pow2 (i + l) * q) by (rewrite Nat.pow_add_r; ring). apply kroot_period. exact H32.
  Qed.

  Definition blockrow (nbits i L start base : nat) (f : nat -> K) (r : nat) : K :=
    pev L (fun q => f (base + q)) (kpow (kroot (i + L)) (blkY nbits i start + (r - base) * pow2 i)).
  Lemma blk_Y nbits i l start : S l + i <= nbits -> Nat.divide (pow2 (S l)) start -> blkY nbits i (start + pow2 l) = blkY nbits i start.
  Proof.
    intros H [c Hc]. unfold blkY. destruct (i =? 0); [reflexivity|].
    pose proof (pow2_pos l). pose proof (pow2_pos (S l)). pose proof (pow2_pos (nbits - i - S l)).
    assert (E : pow2 (nbits - i) = pow2 (S l) * pow2 (nbits - i - S l)) by (rewrite <- Nat.pow_add_r; f_equal; lia).
    rewrite E, <- !Nat.div_div by lia. f_equal. rewrite Hc, Nat.div_mul by lia.
    rewrite Nat.div_add_l by lia. rewrite (Nat.div_small (pow2 l)) by (rewrite pow2_S; lia). lia.
  Qed.
  Lemma divide_half l start : Nat.divide (pow2 (S l)) start -> Nat.divide (pow2 l) start /\ Nat.divide (pow2 l) (start + pow2 l).
  Proof.
    intros [c Hc]. rewrite pow2_S in Hc. split.
    - exists (c + c). lia.
    - exists (c + c + 1). lia.
  Qed.

  Lemma block_full nbits i l : forall start rel buff, i + S l <= nbits -> nbits <= 32 -> rel <= start -> (Z.of_nat (start + pow2 (S l)) <= 2 ^ 32)%Z -> Nat.divide (pow2 (S l)) start ->
    (start - rel + pow2 (S l)) * np <= length buff ->
    exists b', fft_block (S l) buff rel start np nbits (i + S l) (S l) = Ok b' /\ length b' = length buff /\
      forall k r, k < np -> col b' k r = if inb (start - rel) (pow2 (S l)) r then blockrow nbits i (S l) start (start - rel) (col buff k) r else col buff k r.
  Proof.
    induction l as [|l IH]; intros start rel buff Hi Hn Hr Hs Hd HL.
    - (* one layer *)
      cbn [fft_block]. change (pow2 1) with 2 in *. change (2 / 2) with 1. rewrite Nat.ltb_irrefl. cbn [bind].
      destruct (first_w_ok start nbits i 1 ltac:(lia) Hi Hn ltac:(lia) Hd) as [w [Ew Vw]]. rewrite Ew. cbn [bind Nat.eqb].
      rewrite MG_root by lia. cbn [bind].
      destruct (bf_rows_ok 1 (e_from (root 1)) 1 (start - rel) w buff ltac:(lia) ltac:(lia) ltac:(nia)) as [b' [E [L C]]].
      exists b'. split; [exact E|]. split; [exact L|]. intros k r Hk. rewrite C by exact Hk. set (f := col buff k). set (base := start - rel).
      unfold bfs, blockrow. cbn [pev]. rewrite Vw. change (pow2 0) with 1.
      destruct (Nat.eq_dec r base) as [->|N1].
      { unfold inb. dec. rewrite Nat.sub_diag, Nat.add_0_r. cbn [kpow Nat.mul]. rewrite !Nat.add_0_r. ring. }
      destruct (Nat.eq_dec r (base + 1)) as [->|N2].
      { unfold inb. dec. replace (base + 1 - 1) with base by lia. rewrite Nat.sub_diag. cbn [kpow]. replace (base + 1 - base) with 1 by lia.
        rewrite Nat.add_0_r, Nat.mul_1_l, kpow_add. replace (i + 1) with (S i) by lia. rewrite kroot_half by lia. change (1 + 0) with 1. ring. }
      replace (inb base 2 r) with false by (symmetry; apply inb_F; lia).
      replace ((base <=? r) && (r <? base + 1)) with false by (symmetry; apply inb_F; lia).
      replace ((base + 1 <=? r) && (r <? base + 1 + 1)) with false by (symmetry; apply inb_F; lia). reflexivity.
    - set (L := S l) in *. change (fft_block (S L)) with (fft_block (S L)).
      cbn [fft_block]. rewrite Nat.ltb_irrefl. replace (1 <? S L) with true by (symmetry; apply Nat.ltb_lt; unfold L; lia).
      replace (i + S L =? 0) with false by (symmetry; apply Nat.eqb_neq; lia).
      pose proof (pow2_pos L) as PL. assert (M : pow2 (S L) / 2 = pow2 L) by (rewrite Nat.pow_succ_r', Nat.mul_comm; apply Nat.div_mul; lia). rewrite M.
      replace (i + S L - 1) with (i + L) by lia. replace (S L - 1) with L by lia.
      destruct (divide_half L start Hd) as [D1 D2]. pose proof (pow2_S L) as P2.
      destruct (IH start rel buff ltac:(lia) Hn Hr ltac:(lia) D1 ltac:(nia)) as [b1 [E1 [L1 C1]]]. rewrite E1. cbn [bind].
      destruct (IH (start + pow2 L) rel b1 ltac:(lia) Hn ltac:(lia) ltac:(lia) D2) as [b2 [E2 [L2 C2]]].
      { rewrite L1. replace (start + pow2 L - rel + pow2 L) with (start - rel + pow2 (S L)) by lia. exact HL. }
      rewrite E2. cbn [bind].
      destruct (first_w_ok start nbits i (S L) ltac:(lia) Hi Hn ltac:(lia) Hd) as [w [Ew Vw]]. rewrite Ew. cbn [bind].
      replace (pow2 L =? 0) with false by (symmetry; apply Nat.eqb_neq; lia). rewrite MG_root by lia. cbn [bind].
      destruct (bf_rows_ok (pow2 L) (e_from (root (S L))) (pow2 L) (start - rel) w b2 ltac:(lia) ltac:(lia)) as [b' [E [LL C]]].
      { rewrite L2, L1. replace (start - rel + pow2 L + pow2 L) with (start - rel + pow2 (S L)) by lia. exact HL. }
      exists b'. split; [exact E|]. split; [lia|]. intros k r Hk. rewrite C by exact Hk. set (f := col buff k). set (base := start - rel).
      assert (Lo : forall q, q < pow2 L -> col b2 k (base + q) = pev L (fun q => f (base + q)) (kpow (kroot (i + L)) (blkY nbits i start + q * pow2 i))).
      { intros q Hq. rewrite C2 by exact Hk. replace (inb (start + pow2 L - rel) (pow2 L) (base + q)) with false by (symmetry; apply inb_F; unfold base; lia).
        rewrite C1 by exact Hk. replace (inb (start - rel) (pow2 L) (base + q)) with true by (symmetry; apply inb_T; unfold base; lia).
        unfold blockrow. fold base. replace (base + q - base) with q by lia. reflexivity. }
      assert (Hi2 : forall q, q < pow2 L -> col b2 k (base + pow2 L + q) = pev L (fun q => f (base + (pow2 L + q))) (kpow (kroot (i + L)) (blkY nbits i start + q * pow2 i))).
      { intros q Hq. rewrite C2 by exact Hk. replace (inb (start + pow2 L - rel) (pow2 L) (base + pow2 L + q)) with true by (symmetry; apply inb_T; unfold base; lia).
        unfold blockrow. rewrite blk_Y by (try exact Hd; lia). replace (start + pow2 L - rel) with (base + pow2 L) by (unfold base; lia).
        replace (base + pow2 L + q - (base + pow2 L)) with q by lia. apply pev_ext. intros q' Hq'. rewrite C1 by exact Hk.
        replace (inb (start - rel) (pow2 L) (base + pow2 L + q')) with false by (symmetry; apply inb_F; unfold base; lia). unfold f. f_equal. lia. }
      assert (Out : ~ base <= r < base + pow2 (S L) -> col b2 k r = f r).
      { intros Ho. rewrite C2 by exact Hk. replace (inb (start + pow2 L - rel) (pow2 L) r) with false by (symmetry; apply inb_F; unfold base in *; lia).
        rewrite C1 by exact Hk. replace (inb (start - rel) (pow2 L) r) with false by (symmetry; apply inb_F; unfold base in *; lia). reflexivity. }
      assert (Sq : forall e, kmul (kpow (kroot (i + S L)) e) (kpow (kroot (i + S L)) e) = kpow (kroot (i + L)) e).
      { intros e. rewrite <- kpow_prod. rewrite Nat.add_succ_r, <- kroot_step by lia. reflexivity. }
      assert (Tw : forall q, kmul (val w) (kpow (val (e_from (root (S L)))) q) = kpow (kroot (i + S L)) (blkY nbits i start + q * pow2 i)).
      { intros q. rewrite Vw, val_from, kpow_add. refine (f_equal2 kmul eq_refl _). rewrite Nat.mul_comm, kpow_mul, kroot_down by lia.
        replace (i + S L - i) with (S L) by lia. reflexivity. }
      destruct (inb base (pow2 (S L)) r) eqn:B.
      + apply inb_T in B. unfold blockrow. cbn [pev]. rewrite Sq.
        destruct (Nat.lt_ge_cases r (base + pow2 L)) as [Lt|Ge].
        * unfold bfs. replace ((base <=? r) && (r <? base + pow2 L)) with true by (symmetry; apply inb_T; lia).
          rewrite Tw. replace (r + pow2 L) with (base + pow2 L + (r - base)) by lia. rewrite Hi2 by lia.
          replace r with (base + (r - base)) at 1 by lia. rewrite Lo by lia. reflexivity.
        * unfold bfs. replace ((base <=? r) && (r <? base + pow2 L)) with false by (symmetry; apply inb_F; lia).
          replace ((base + pow2 L <=? r) && (r <? base + pow2 L + pow2 L)) with true by (symmetry; apply inb_T; lia).
          rewrite Tw. set (q := r - pow2 L - base). replace (r - pow2 L) with (base + q) by (unfold q; lia). rewrite Lo by (unfold q; lia).
          replace r with (base + pow2 L + q) at 1 by (unfold q; lia). rewrite Hi2 by (unfold q; lia).
          replace (r - base) with (q + pow2 L) by (unfold q; lia).
          assert (E2' : forall s c, s = i + L -> kpow (kroot s) (c + (q + pow2 L) * pow2 i) = kpow (kroot s) (c + q * pow2 i)).
          { intros s c ->. replace (c + (q + pow2 L) * pow2 i) with (c + q * pow2 i + pow2 (i + L) * 1) by (rewrite Nat.pow_add_r; ring). apply kroot_period. lia. }
          rewrite E2' by reflexivity.
          assert (E3 : kpow (kroot (i + S L)) (blkY nbits i start + (q + pow2 L) * pow2 i) = kneg (kpow (kroot (i + S L)) (blkY nbits i start + q * pow2 i))).
          { replace (blkY nbits i start + (q + pow2 L) * pow2 i) with (blkY nbits i start + q * pow2 i + pow2 (i + L)) by (rewrite Nat.pow_add_r; ring).
            rewrite kpow_add. rewrite Nat.add_succ_r, kroot_half by lia. ring. }
          rewrite E3. ring.
      + apply inb_F in B. unfold bfs. replace ((base <=? r) && (r <? base + pow2 L)) with false by (symmetry; apply inb_F; lia).
        replace ((base + pow2 L <=? r) && (r <? base + pow2 L + pow2 L)) with false by (symmetry; apply inb_F; lia). apply Out. exact B.
  Qed.

  (* blocks larger than the number of layers are split *)
  Definition subrow (nbits i L start base : nat) (f : nat -> K) (r : nat) : K :=
    pev L (fun q => f (base + ((r - base) / pow2 L * pow2 L + q)))
      (kpow (kroot (i + L)) (blkY nbits i (start + (r - base) / pow2 L * pow2 L) + (r - base) mod pow2 L * pow2 i)).
  Lemma block_split nbits i l d : forall start rel buff, i + S l <= nbits -> nbits <= 32 -> rel <= start ->
    (Z.of_nat (start + pow2 (S l + d)) <= 2 ^ 32)%Z -> Nat.divide (pow2 (S l + d)) start ->
    (start - rel + pow2 (S l + d)) * np <= length buff ->
    exists b', fft_block (S l + d) buff rel start np nbits (i + S l) (S l) = Ok b' /\ length b' = length buff /\
      forall k r, k < np -> col b' k r = if inb (start - rel) (pow2 (S l + d)) r then subrow nbits i (S l) start (start - rel) (col buff k) r else col buff k r.
  Proof.
    pose proof (pow2_pos (S l)) as PL.
    induction d as [|d IH]; intros start rel buff Hi Hn Hr Hs Hd HL.
    - rewrite Nat.add_0_r in *. destruct (block_full nbits i l start rel buff Hi Hn Hr Hs Hd HL) as [b' [E [L C]]].
      exists b'. split; [exact E|]. split; [exact L|]. intros k r Hk. rewrite C by exact Hk. destruct (inb _ _ r) eqn:B; [|reflexivity].
      apply inb_T in B. unfold blockrow, subrow. rewrite Nat.div_small, Nat.mod_small by lia. cbn [Nat.mul Nat.add]. rewrite Nat.add_0_r. reflexivity.
    - assert (ES : S l + S d = S (S l + d)) by lia. rewrite ES in *. set (B := S l + d) in *. pose proof (pow2_pos B) as PB.
      cbn [fft_block]. replace (S l <? S B) with true by (symmetry; apply Nat.ltb_lt; unfold B; lia).
      assert (M : pow2 (S B) / 2 = pow2 B) by (rewrite Nat.pow_succ_r', Nat.mul_comm; apply Nat.div_mul; lia). rewrite M.
      destruct (divide_half B start Hd) as [D1 D2]. pose proof (pow2_S B) as P2.
      destruct (IH start rel buff Hi Hn Hr ltac:(lia) D1 ltac:(nia)) as [b1 [E1 [L1 C1]]]. rewrite E1. cbn [bind].
      destruct (IH (start + pow2 B) rel b1 Hi Hn ltac:(lia) ltac:(lia) D2) as [b2 [E2 [L2 C2]]].
      { rewrite L1. replace (start + pow2 B - rel + pow2 B) with (start - rel + pow2 (S B)) by lia. exact HL. }
      exists b2. split; [exact E2|]. split; [lia|]. intros k r Hk. rewrite C2 by exact Hk. set (base := start - rel).
      replace (start + pow2 B - rel) with (base + pow2 B) by (unfold base; lia).
      assert (DB : exists m, pow2 B = m * pow2 (S l)) by (exists (pow2 d); unfold B; rewrite Nat.pow_add_r; lia). destruct DB as [m DB].
      destruct (inb (base + pow2 B) (pow2 B) r) eqn:I1.
      + apply inb_T in I1. replace (inb base (pow2 (S B)) r) with true by (symmetry; apply inb_T; lia).
        unfold subrow. set (o := r - (base + pow2 B)). replace (r - base) with (o + m * pow2 (S l)) by (unfold o; lia).
        rewrite Nat.div_add, Nat.mod_add by lia. rewrite Nat.mul_add_distr_r, <- DB.
        replace (start + pow2 B + o / pow2 (S l) * pow2 (S l)) with (start + (o / pow2 (S l) * pow2 (S l) + pow2 B)) by lia.
        apply pev_ext. intros q Hq. rewrite C1 by exact Hk. fold base.
        replace (inb base (pow2 B) (base + pow2 B + (o / pow2 (S l) * pow2 (S l) + q))) with false by (symmetry; apply inb_F; lia). f_equal. lia.
      + apply inb_F in I1. rewrite C1 by exact Hk. fold base.
        destruct (inb base (pow2 B) r) eqn:I2.
        * apply inb_T in I2. replace (inb base (pow2 (S B)) r) with true by (symmetry; apply inb_T; lia). reflexivity.
        * apply inb_F in I2. replace (inb base (pow2 (S B)) r) with false by (symmetry; apply inb_F; lia). reflexivity.
  Qed.

  (** ** one pass over all chunks *)
  Lemma col_app a b k r R : length a = R * np -> k < np -> col (a ++ b) k r = if r <? R then col a k r else col b k (r - R).
  Proof.
    intros Ha Hk. unfold col. destruct (Nat.ltb_spec r R).
    - rewrite app_nth1; [reflexivity|]. rewrite Ha. nia.
    - rewrite app_nth2 by (rewrite Ha; nia). rewrite Ha. f_equal. f_equal. rewrite Nat.mul_sub_distr_r. assert (R * np <= r * np) by nia. lia.
  Qed.
  Lemma col_over a k r : length a <= r * np -> col a k r = kzero.
  Proof. intros H. unfold col. rewrite nth_overflow by lia. reflexivity. Qed.

  Lemma pass_from nbits i l d C : forall j buff, i + S l <= nbits -> nbits <= 32 ->
    (Z.of_nat ((j + C) * pow2 (S l + d)) <= 2 ^ 32)%Z -> length buff = C * pow2 (S l + d) * np ->
    exists out, mapM (fun jc : nat * list F3G => fft_block (S l + d) (snd jc) (fst jc * pow2 (S l + d)) (fst jc * pow2 (S l + d)) np nbits (i + S l) (S l))
        (combine (seq j (length buff)) (chunks (pow2 (S l + d) * np) buff)) = Ok out /\
      length (concat out) = length buff /\
      forall k r, k < np -> r < C * pow2 (S l + d) -> col (concat out) k r = subrow nbits i (S l) (j * pow2 (S l + d)) 0 (col buff k) r.
  Proof.
    pose proof (pow2_pos (S l)) as PL. pose proof (pow2_pos (S l + d)) as PB.
    set (B := S l + d) in *. induction C as [|C IH]; intros j buff Hi Hn Hs Hlen.
    - assert (buff = []) as -> by (apply length_0_nil; lia). exists []. split; [reflexivity|]. split; [reflexivity|]. intros. lia.
    - assert (Hk0 : pow2 B * np <> 0) by nia.
      assert (Hbs : (pow2 B) * np <= length buff) by (rewrite Hlen; nia).
      assert (Hne : buff <> []) by (intros ->; cbn [length] in Hbs; lia).
      rewrite chunks_step by assumption. destruct (length buff) as [|len] eqn:EL; [lia|]. cbn [seq combine mapM fst snd].
      set (c := firstn (pow2 B * np) buff). set (rest := skipn (pow2 B * np) buff).
      assert (Lc : length c = pow2 B * np) by (unfold c; rewrite firstn_length; lia).
      assert (Lr : length rest = C * pow2 B * np) by (unfold rest; rewrite skipn_length, EL, Hlen; nia).
      destruct (block_split nbits i l d (j * pow2 B) (j * pow2 B) c Hi Hn ltac:(lia)) as [b1 [E1 [L1 C1]]].
      { fold B. replace (j * pow2 B + pow2 B) with ((j + 1) * pow2 B) by ring. assert ((j + 1) * pow2 B <= (j + S C) * pow2 B) by nia. lia. }
      { exists j. reflexivity. }
      { fold B. rewrite Nat.sub_diag, Lc. lia. }
      fold B in E1, C1. rewrite E1. cbn [bind].
      destruct (IH (S j) rest Hi Hn) as [out [E2 [L2 C2]]].
      { replace (S j + C) with (j + S C) by lia. exact Hs. }
      { exact Lr. }
      assert (EC : combine (seq (S j) len) (chunks (pow2 B * np) rest) = combine (seq (S j) (length rest)) (chunks (pow2 B * np) rest)).
      { apply combine_seq_len.
        - rewrite chunks_len by exact Hk0. transitivity (length rest); [apply div_ceil_le; lia|]. rewrite Lr. nia.
        - rewrite chunks_len by exact Hk0. apply div_ceil_le; lia. }
      rewrite EC, E2. cbn [bind]. exists (b1 :: out). split; [reflexivity|]. cbn [concat].
      split; [rewrite app_length, L1, L2, Lc, Lr; nia|]. intros k r Hk Hr'.
      assert (Eb : buff = c ++ rest) by (symmetry; apply firstn_skipn).
      rewrite (col_app b1 _ k r (pow2 B)) by (try exact Hk; rewrite L1; exact Lc).
      assert (Fb : forall x, col buff k x = if x <? pow2 B then col c k x else col rest k (x - pow2 B)).
      { intros x. rewrite Eb. apply col_app; assumption. }
      assert (DB : exists m, pow2 B = m * pow2 (S l)) by (exists (pow2 d); unfold B; rewrite Nat.pow_add_r; lia). destruct DB as [m DB].
      destruct (Nat.ltb_spec r (pow2 B)) as [Lt|Ge].
      + rewrite C1 by exact Hk. rewrite Nat.sub_diag. replace (inb 0 (pow2 B) r) with true by (symmetry; apply inb_T; lia).
        unfold subrow. rewrite Nat.sub_0_r. apply pev_ext. intros q Hq. rewrite Fb. cbn [Nat.add].
        assert (r / pow2 (S l) < m) by (apply Nat.div_lt_upper_bound; lia).
        replace (r / pow2 (S l) * pow2 (S l) + q <? pow2 B) with true; [reflexivity|]. symmetry. apply Nat.ltb_lt. rewrite DB. nia.
      + rewrite C2 by (try exact Hk; nia). unfold subrow. rewrite !Nat.sub_0_r. set (o := r - pow2 B). replace r with (o + m * pow2 (S l)) by (unfold o; lia).
        rewrite Nat.div_add, Nat.mod_add by lia. rewrite Nat.mul_add_distr_r, <- DB.
        replace (j * pow2 B + (o / pow2 (S l) * pow2 (S l) + pow2 B)) with (S j * pow2 B + o / pow2 (S l) * pow2 (S l)) by (cbn [Nat.mul]; lia).
        apply pev_ext. intros q Hq. rewrite Fb. cbn [Nat.add].
        replace (o / pow2 (S l) * pow2 (S l) + pow2 B + q <? pow2 B) with false by (symmetry; apply Nat.ltb_ge; lia). f_equal. lia.
  Qed.
  Lemma subrow_pass nbits i L mem R : subrow nbits i L 0 0 mem R = passrow nbits i L mem R.
  Proof. unfold subrow, passrow. rewrite Nat.sub_0_r. cbn [Nat.add Nat.mul]. reflexivity. Qed.

  Lemma pass_ok nbits i L B C buff : 1 <= L -> L <= B -> i + L <= nbits -> nbits <= 32 -> (Z.of_nat (C * pow2 B) <= 2 ^ 32)%Z ->
    length buff = C * pow2 B * np ->
    exists b', fft_pass buff np nbits B i L = Ok b' /\ length b' = length buff /\
      forall k r, k < np -> r < C * pow2 B -> col b' k r = passrow nbits i L (col buff k) r.
  Proof.
    intros H1 HB Hi Hn Hs Hlen. destruct L as [|l]; [lia|]. assert (EB : B = S l + (B - S l)) by lia. set (d := B - S l) in *. rewrite EB in *.
    unfold fft_pass. pose proof (pow2_pos (S l + d)). replace (pow2 (S l + d) * np =? 0) with false by (symmetry; apply Nat.eqb_neq; nia).
    destruct (pass_from nbits i l d C 0 buff Hi Hn Hs Hlen) as [out [E [L C1]]]. rewrite E. cbn [bind].
    eexists. split; [reflexivity|]. split; [exact L|]. intros k r Hk Hr. rewrite C1 by assumption. apply subrow_pass.
  Qed.
  (* rows from 2^nbits on that are zero stay zero *)
  Definition tailz (n : nat) (buff : list F3G) : Prop := forall k r, k < np -> n <= r -> col buff k r = kzero.
  Lemma pass_tail nbits i L B C buff b' : L <= B -> B <= nbits -> length buff = C * pow2 B * np -> length b' = length buff ->
    (forall k r, k < np -> r < C * pow2 B -> col b' k r = passrow nbits i L (col buff k) r) -> tailz (pow2 nbits) buff -> tailz (pow2 nbits) b'.
  Proof.
    intros HL HB Hlen L' Hc T k r Hk Hr. destruct (Nat.lt_ge_cases r (C * pow2 B)) as [Lt|Ge].
    - rewrite Hc by assumption. unfold passrow. apply pev_zero. intros q Hq. apply T; [exact Hk|].
      assert (E : pow2 nbits = pow2 (nbits - L) * pow2 L) by (rewrite <- Nat.pow_add_r; f_equal; lia). pose proof (pow2_pos L).
      assert (pow2 (nbits - L) <= r / pow2 L) by (apply Nat.div_le_lower_bound; lia). rewrite E. nia.
    - apply col_over. rewrite L', Hlen. nia.
  Qed.

  (** ** transposition *)
  Lemma writes_ok {X} (sf tf : X -> nat) (src : list F3G) (G : nat -> F3G) xs : forall d,
    Forall (fun x => sf x < length src /\ tf x < length d /\ nth (sf x) src e_ZERO = G (tf x)) xs ->
    exists d', foldM (fun d x => do v <- vget src (sf x); vset d (tf x) v) xs d = Ok d' /\ length d' = length d /\
      forall y, (In y (map tf xs) -> nth y d' e_ZERO = G y) /\ (~ In y (map tf xs) -> nth y d' e_ZERO = nth y d e_ZERO).
  Proof.
    induction xs as [|x xs IH]; intros d F.
    - exists d. split; [reflexivity|]. split; [reflexivity|]. intros y. cbn [map In]. tauto.
    - inversion F as [|? ? [Hs [Ht Hv]] F' E0]; subst. cbn [foldM]. rewrite vget_nth by exact Hs. cbn [bind].
      destruct (vset_nth d (tf x) (nth (sf x) src e_ZERO) Ht) as [d1 [E1 [L1 [N1 O1]]]]. rewrite E1. cbn [bind].
      destruct (IH d1) as [d2 [E2 [L2 C2]]]. { rewrite L1. exact F'. }
      exists d2. split; [exact E2|]. split; [lia|]. intros y. destruct (C2 y) as [A1 A2].
      destruct (in_dec Nat.eq_dec y (map tf xs)) as [I|I].
      + split; [intros _; exact (A1 I)|]. intros N. exfalso. apply N. right. exact I.
      + split.
        * intros [<-|I']; [|contradiction]. rewrite A2, N1 by exact I. exact Hv.
        * intros N. rewrite A2 by exact I. apply O1. intros ->. apply N. left. reflexivity.
  Qed.
  Lemma foldM_flat {X Y D} (f : D -> X * Y -> res D) (g : X -> list Y) xs : forall d,
    foldM (fun d x => foldM (fun d y => f d (x, y)) (g x) d) xs d = foldM f (concat (map (fun x => map (fun y => (x, y)) (g x)) xs)) d.
  Proof.
    assert (H : forall x l d, foldM (fun d y => f d (x, y)) l d = foldM f (map (fun y => (x, y)) l) d).
    { intros x l. induction l as [|y l IH]; intros d; [reflexivity|]. cbn [foldM map]. destruct (f d (x, y)); cbn [bind]; auto. }
    induction xs as [|x xs IH]; intros d; [reflexivity|]. cbn [foldM map concat]. rewrite foldM_app, <- H.
    destruct (foldM _ (g x) d); cbn [bind]; auto.
  Qed.
  Lemma foldM_ext {X D} (f g : D -> X -> res D) xs : (forall d x, f d x = g d x) -> forall d, foldM f xs d = foldM g xs d.
  Proof. intros H. induction xs as [|x xs IH]; intros d; [reflexivity|]. cbn [foldM]. rewrite H. destruct (g d x); cbn [bind]; auto. Qed.
  Lemma in_grid {X Y} (g : X -> list Y) xs x y : In (x, y) (concat (map (fun x => map (fun y => (x, y)) (g x)) xs)) <-> In x xs /\ In y (g x).
  Proof.
    rewrite <- flat_map_concat_map, in_flat_map. split.
    - intros [x' [I H]]. apply in_map_iff in H. destruct H as [y' [E I']]. inversion E; subst. tauto.
    - intros [I I']. exists x. split; [exact I|]. apply in_map. exact I'.
  Qed.

  Lemma transpose_ok nbits L dst src : L <= nbits -> pow2 nbits * np <= length src -> pow2 nbits * np <= length dst ->
    exists d', transpose dst src np nbits L = Ok d' /\ length d' = length dst /\
      (forall k I J, k < np -> I < pow2 L -> J < pow2 (nbits - L) -> col d' k (I * pow2 (nbits - L) + J) = col src k (J * pow2 L + I)) /\
      (forall k r, k < np -> pow2 nbits <= r -> col d' k r = col dst k r).
  Proof.
    intros HL Hs Hd. unfold transpose. pose proof (pow2_pos L) as PL. set (w := pow2 L) in *. set (h := pow2 (nbits - L)). pose proof (pow2_pos (nbits - L)) as Ph. fold h in Ph.
    assert (En : pow2 nbits = w * h) by (unfold w, h; rewrite <- Nat.pow_add_r; f_equal; lia).
    assert (Eh : pow2 nbits / w = h) by (rewrite En, Nat.mul_comm; apply Nat.div_mul; lia). rewrite Eh.
    set (sf := fun x : nat * (nat * nat) => (fst (snd x) * w + fst x) * np + snd (snd x)).
    set (tf := fun x : nat * (nat * nat) => (fst x * h + fst (snd x)) * np + snd (snd x)).
    set (inner := concat (map (fun j => map (fun k => (j, k)) (seq 0 np)) (seq 0 h))).
    set (xs := concat (map (fun i => map (fun y => (i, y)) inner) (seq 0 w))).
    assert (Ef : forall d, foldM (fun d i => foldM (fun d j => foldM (fun d k =>
        do v <- vget src ((j * w + i) * np + k); vset d ((i * h + j) * np + k) v) (seq 0 np) d) (seq 0 h) d) (seq 0 w) d =
        foldM (fun d x => do v <- vget src (sf x); vset d (tf x) v) xs d).
    { intros d. unfold xs. rewrite <- (foldM_flat (fun d x => do v <- vget src (sf x); vset d (tf x) v) (fun _ => inner)).
      apply foldM_ext. intros d0 i. unfold inner.
      rewrite <- (foldM_flat (fun d y => do v <- vget src (sf (i, y)); vset d (tf (i, y)) v) (fun _ => seq 0 np)). reflexivity. }
    rewrite Ef. clear Ef.
    assert (Ix : forall i j k, In (i, (j, k)) xs <-> i < w /\ j < h /\ k < np).
    { intros i j k. unfold xs. rewrite (in_grid (fun _ => inner)). unfold inner. rewrite (in_grid (fun _ => seq 0 np)). rewrite !in_seq. lia. }
    set (G := fun y => nth (((y / np) mod h * w + (y / np) / h) * np + y mod np) src e_ZERO).
    assert (RT : forall i j k, j < h -> k < np -> ((i * h + j) * np + k) / np = i * h + j /\ ((i * h + j) * np + k) mod np = k /\ (i * h + j) / h = i /\ (i * h + j) mod h = j).
    { intros i j k Hj Hk. split; [apply (div_eq _ _ _ k Hk); reflexivity|]. split; [apply (mod_eq _ _ (i * h + j) k Hk); reflexivity|].
      split; [apply (div_eq _ _ _ j Hj); reflexivity|apply (mod_eq _ _ i j Hj); reflexivity]. }
    destruct (writes_ok sf tf src G xs dst) as [d' [E [Ln C]]].
    { apply Forall_forall. intros [i [j k]] I. apply Ix in I. destruct I as [Hi [Hj Hk]]. unfold sf, tf. cbn [fst snd].
      split; [|split].
      - apply (row_lt _ _ (pow2 nbits)); [exact Hk| |exact Hs]. rewrite En. nia.
      - apply (row_lt _ _ (pow2 nbits)); [exact Hk| |exact Hd]. rewrite En. nia.
      - unfold G. destruct (RT i j k Hj Hk) as [-> [-> [-> ->]]]. reflexivity. }
    exists d'. split; [exact E|]. split; [exact Ln|]. split.
    - intros k I J Hk HI HJ. unfold col. destruct (C ((I * h + J) * np + k)) as [C1 _]. rewrite C1.
      + unfold G. destruct (RT I J k HJ Hk) as [-> [-> [-> ->]]]. reflexivity.
      + apply (in_map tf xs (I, (J, k))). apply Ix. lia.
    - intros k r Hk Hr. unfold col. destruct (C (r * np + k)) as [_ C2]. rewrite C2; [reflexivity|].
      intros I. apply in_map_iff in I. destruct I as [[i [j k']] [Et I]]. apply Ix in I. unfold tf in Et. cbn [fst snd] in Et.
      destruct (cells (i * h + j) k' r k) as [X _]; try lia. rewrite En in Hr. nia.
  Qed.
End Cols.
