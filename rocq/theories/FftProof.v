(* fft.rs computes the discrete Fourier transform: over K. *)
From Verif Require Import Base ListAux NumTheory GlModel GlProof GlSqrt FrField F3gModel Cubic F3gProof PolyModel Roots PolyProof.
From Coq Require Import Field.
Open Scope nat_scope.

Notation pow2 s := (2 ^ s)%nat.
Lemma pow2_pos s : (0 < pow2 s)%nat.
Proof. pose proof (Nat.pow_nonzero 2 s). lia. Qed.
Lemma pow2_S s : pow2 (S s) = (pow2 s + pow2 s)%nat.
Proof. rewrite Nat.pow_succ_r'. lia. Qed.

(* even and odd positions *)
Fixpoint evens {A} (l : list A) : list A := match l with [] => [] | [a] => [a] | a :: _ :: r => a :: evens r end.
Fixpoint odds {A} (l : list A) : list A := match l with [] => [] | [_] => [] | _ :: b :: r => b :: odds r end.

Lemma pair_ind {A} (Q : list A -> Prop) : Q [] -> (forall a, Q [a]) -> (forall a b l, Q l -> Q (a :: b :: l)) -> forall l, Q l.
Proof.
  intros H0 H1 H2. assert (forall l, Q l /\ forall a, Q (a :: l)) as H; [|intros l; apply H].
  induction l as [|b l [IH1 IH2]]; auto.
Qed.

Lemma evens_nth {A} (l : list A) i : nth_error (evens l) i = nth_error l (2 * i).
Proof.
  revert i. induction l using pair_ind; intros i.
  - cbn [evens]. destruct i as [|i]; [reflexivity|]. destruct (2 * S i) eqn:E; [lia|]. reflexivity.
  - destruct i as [|i]; [reflexivity|]. replace (2 * S i) with (S (S (2 * i))) by lia. cbn. destruct i; reflexivity.
  - destruct i as [|i]; [reflexivity|]. replace (2 * S i) with (S (S (2 * i))) by lia. cbn [evens nth_error]. apply IHl.
Qed.
Lemma odds_nth {A} (l : list A) i : nth_error (odds l) i = nth_error l (2 * i + 1).
Proof.
  revert i. induction l using pair_ind; intros i.
  - cbn [odds]. destruct (2 * i + 1) eqn:E; [lia|]. destruct i; reflexivity.
  - cbn [odds]. destruct (2 * i + 1) eqn:E; [lia|]. cbn [nth_error]. destruct i, n; reflexivity.
  - destruct i as [|i]; [reflexivity|]. replace (2 * S i + 1) with (S (S (2 * i + 1))) by lia. cbn [odds nth_error]. apply IHl.
Qed.
Lemma evens_len {A} (l : list A) n : length l = n + n -> length (evens l) = n.
Proof.
  revert n. induction l using pair_ind; intros n H; cbn in *; [lia|lia|].
  destruct n as [|n]; [lia|]. f_equal. apply IHl. lia.
Qed.
Lemma odds_len {A} (l : list A) n : length l = n + n -> length (odds l) = n.
Proof.
  revert n. induction l using pair_ind; intros n H; cbn in *; [lia|lia|].
  destruct n as [|n]; [lia|]. f_equal. apply IHl. lia.
Qed.

Lemma peval_split p x : peval p x = kadd (peval (evens p) (kmul x x)) (kmul x (peval (odds p) (kmul x x))).
Proof.
  induction p using pair_ind; cbn [peval evens odds]; [ring|ring|]. rewrite IHp. ring.
Qed.

(* one butterfly layer on two halves, with running twiddle w *)
Fixpoint zadd (w g : K) (lo hi : list K) : list K :=
  match lo, hi with a :: l, b :: h => kadd a (kmul w b) :: zadd (kmul w g) g l h | _, _ => [] end.
Fixpoint zsub (w g : K) (lo hi : list K) : list K :=
  match lo, hi with a :: l, b :: h => ksub a (kmul w b) :: zsub (kmul w g) g l h | _, _ => [] end.
Definition bfly (g : K) (lo hi : list K) : list K := zadd kone g lo hi ++ zsub kone g lo hi.

Lemma zadd_len w g lo hi : length lo = length hi -> length (zadd w g lo hi) = length lo.
Proof. revert w hi. induction lo; intros w [|b hi] H; cbn in *; try lia. rewrite IHlo; lia. Qed.
Lemma zsub_len w g lo hi : length lo = length hi -> length (zsub w g lo hi) = length lo.
Proof. revert w hi. induction lo; intros w [|b hi] H; cbn in *; try lia. rewrite IHlo; lia. Qed.
Lemma bfly_len g lo hi : length lo = length hi -> length (bfly g lo hi) = length lo + length hi.
Proof. intros H. unfold bfly. rewrite app_length, zadd_len, zsub_len by exact H. lia. Qed.

(* recursive decimation in time *)
Fixpoint frec (s : nat) (p : list K) : list K :=
  match s with
  | O => p
  | S s' => bfly (kroot (S s')) (frec s' (evens p)) (frec s' (odds p))
  end.

(* the transform *)
Definition dft (s : nat) (p : list K) : list K := map (fun i => peval p (kpow (kroot s) i)) (seq 0 (pow2 s)).

Lemma zadd_map w g n i0 (f h : nat -> K) :
  zadd (kmul w (kpow g i0)) g (map f (seq i0 n)) (map h (seq i0 n)) =
  map (fun i => kadd (f i) (kmul (kmul w (kpow g i)) (h i))) (seq i0 n).
Proof.
  revert i0. induction n; intros i0; cbn [seq map zadd]; [reflexivity|]. f_equal.
  rewrite <- IHn. f_equal. cbn [kpow]. ring.
Qed.
Lemma zsub_map w g n i0 (f h : nat -> K) :
  zsub (kmul w (kpow g i0)) g (map f (seq i0 n)) (map h (seq i0 n)) =
  map (fun i => ksub (f i) (kmul (kmul w (kpow g i)) (h i))) (seq i0 n).
Proof.
  revert i0. induction n; intros i0; cbn [seq map zsub]; [reflexivity|]. f_equal.
  rewrite <- IHn. f_equal. cbn [kpow]. ring.
Qed.

Lemma map_seq_shift {A} (f : nat -> A) a n : map f (seq a n) = map (fun i => f (a + i)) (seq 0 n).
Proof.
  revert a. induction n; intros a; cbn [seq map]; [reflexivity|]. rewrite Nat.add_0_r. f_equal.
  rewrite IHn, <- seq_shift, map_map. apply map_ext. intros. f_equal. lia.
Qed.

Lemma frec_dft s p : s <= 32 -> length p = pow2 s -> frec s p = dft s p.
Proof.
  revert p. induction s as [|s IH]; intros p Hs Hp.
  - cbn in Hp. destruct p as [|a [|b p]]; try discriminate. cbn [frec dft seq map Nat.pow peval kpow].
    unfold dft. cbn [Nat.pow seq map peval kpow]. f_equal. ring.
  - rewrite pow2_S in Hp. cbn [frec].
    rewrite IH by (try lia; apply evens_len; exact Hp).
    rewrite IH by (try lia; apply odds_len; exact Hp).
    unfold bfly, dft. rewrite pow2_S, seq_app, map_app.
    set (g := kroot (S s)).
    assert (SQ : forall i, kpow (kroot s) i = kmul (kpow g i) (kpow g i)).
    { intros i. rewrite (kroot_step s) by lia. apply kpow_prod. }
    assert (T1 : kone = kmul kone (kpow g 0)) by (cbn [kpow]; ring).
    rewrite T1 at 1 2. rewrite zadd_map, zsub_map. f_equal.
    + apply map_ext. intros i. rewrite (peval_split p). rewrite SQ. ring.
    + cbn [Nat.add]. rewrite (map_seq_shift _ (pow2 s)). apply map_ext. intros i.
      rewrite (peval_split p). rewrite kpow_add. unfold g. rewrite kroot_half by lia. fold g. rewrite SQ.
      replace (kmul (kmul (kneg kone) (kpow g i)) (kmul (kneg kone) (kpow g i))) with (kmul (kpow g i) (kpow g i)) by ring.
      ring.
Qed.

(* ---- the in-place loops ---- *)
Lemma butterflies_ok cnt : forall j m w g (pre lo1 lo2 hi1 hi2 post : list K),
  length lo1 = j -> length hi1 = j -> length lo2 = cnt -> length hi2 = cnt -> j + cnt = m ->
  butterflies (F := opsK) cnt (length pre) j m w g (pre ++ (lo1 ++ lo2) ++ (hi1 ++ hi2) ++ post) =
  Ok (pre ++ (lo1 ++ zadd w g lo2 hi2) ++ (hi1 ++ zsub w g lo2 hi2) ++ post).
Proof.
  induction cnt; intros j m w g pre lo1 lo2 hi1 hi2 post L1 L2 L3 L4 LM.
  - apply length_0_nil in L3, L4. subst lo2 hi2. reflexivity.
  - destruct lo2 as [|u lo2]; [discriminate|]. destruct hi2 as [|b hi2]; [discriminate|].
    cbn [butterflies zadd zsub]. cbn in L3, L4.
    assert (E1 : pre ++ (lo1 ++ u :: lo2) ++ (hi1 ++ b :: hi2) ++ post =
                 (pre ++ (lo1 ++ u :: lo2) ++ hi1) ++ b :: (hi2 ++ post)) by (rewrite <- !app_assoc; cbn; rewrite <- ?app_assoc; reflexivity).
    rewrite E1. rewrite vget_app' by (rewrite !app_length; cbn; lia). rewrite <- E1. cbn [bind].
    assert (E2 : pre ++ (lo1 ++ u :: lo2) ++ (hi1 ++ b :: hi2) ++ post =
                 (pre ++ lo1) ++ u :: (lo2 ++ (hi1 ++ b :: hi2) ++ post)) by (rewrite <- !app_assoc; cbn; rewrite <- ?app_assoc; reflexivity).
    rewrite E2. rewrite vget_app' by (rewrite !app_length; lia). cbn [bind].
    rewrite vset_app' by (rewrite !app_length; lia). cbn [bind].
    cbn [o_mul o_add o_sub opsK]. set (u' := kadd u (kmul w b)). set (b' := ksub u (kmul w b)).
    assert (E3 : (pre ++ lo1) ++ u' :: (lo2 ++ (hi1 ++ b :: hi2) ++ post) =
                 (pre ++ (lo1 ++ u' :: lo2) ++ hi1) ++ b :: (hi2 ++ post)) by (rewrite <- !app_assoc; cbn; rewrite <- ?app_assoc; reflexivity).
    kn. rewrite E3. rewrite vset_app' by (rewrite !app_length; cbn; lia). cbn [bind].
    assert (E4 : (pre ++ (lo1 ++ u' :: lo2) ++ hi1) ++ b' :: (hi2 ++ post) =
                 pre ++ ((lo1 ++ [u']) ++ lo2) ++ ((hi1 ++ [b']) ++ hi2) ++ post) by (rewrite <- !app_assoc; cbn; rewrite <- ?app_assoc; reflexivity).
    rewrite E4. rewrite IHcnt by (rewrite ?app_length; cbn; lia).
    f_equal. rewrite <- !app_assoc. cbn [app]. reflexivity.
Qed.

Fixpoint bst (cnt m : nat) (g : K) (l : list K) : list K :=
  match cnt with
  | O => l
  | S c => bfly g (firstn (m / 2) l) (firstn (m / 2) (skipn (m / 2) l)) ++ bst c m g (skipn m l)
  end.

Lemma blocks_ok cnt : forall m g (pre l : list K), m = m / 2 + m / 2 -> length l = cnt * m ->
  blocks (F := opsK) cnt (length pre) m g (pre ++ l) = Ok (pre ++ bst cnt m g l).
Proof.
  induction cnt; intros m g pre l Hm Hl; cbn [blocks bst]; [reflexivity|].
  set (h := m / 2) in *. cbn in Hl.
  assert (EL : l = firstn h l ++ firstn h (skipn h l) ++ skipn m l).
  { rewrite <- (firstn_skipn h l) at 1. f_equal. rewrite <- (firstn_skipn h (skipn h l)) at 1. f_equal.
    rewrite skipn_skipn'. f_equal. lia. }
  set (lo := firstn h l) in *. set (hi := firstn h (skipn h l)) in *. set (rest := skipn m l) in *.
  assert (Llo : length lo = h) by (unfold lo; rewrite firstn_length; lia).
  assert (Lhi : length hi = h) by (unfold hi; rewrite firstn_length, skipn_length; lia).
  pose proof (butterflies_ok h 0 h kone g pre [] lo [] hi rest eq_refl eq_refl Llo Lhi eq_refl) as B.
  cbn [app] in B. kn. rewrite EL. rewrite B. cbn [bind].
  set (X := zadd kone g lo hi). set (Y := zsub kone g lo hi).
  assert (LXY : length (X ++ Y) = m).
  { unfold X, Y. rewrite app_length, zadd_len, zsub_len; lia. }
  replace (pre ++ X ++ Y ++ rest) with ((pre ++ (X ++ Y)) ++ rest) by (rewrite <- !app_assoc; reflexivity).
  replace (length pre + m) with (length (pre ++ (X ++ Y))) by (rewrite (app_length pre); lia).
  rewrite IHcnt.
  - unfold bfly. fold X Y. rewrite <- !app_assoc. reflexivity.
  - exact Hm.
  - unfold rest. rewrite skipn_length. lia.
Qed.

Lemma bst_app c1 c2 m g l1 l2 : m = m / 2 + m / 2 -> length l1 = c1 * m ->
  bst (c1 + c2) m g (l1 ++ l2) = bst c1 m g l1 ++ bst c2 m g l2.
Proof.
  intros Hm. revert l1. induction c1; intros l1 H; cbn [Nat.add bst].
  - apply length_0_nil in H. subst. reflexivity.
  - set (h := m / 2) in *. cbn in H.
    rewrite <- app_assoc. f_equal.
    + f_equal.
      * rewrite firstn_app. replace (h - length l1) with 0 by lia. cbn. apply app_nil_r.
      * rewrite skipn_app, firstn_app. rewrite skipn_length.
        replace (h - (length l1 - h)) with 0 by lia. cbn. apply app_nil_r.
    + rewrite skipn_app. replace (m - length l1) with 0 by lia. cbn [skipn]. apply IHc1.
      rewrite skipn_length. lia.
Qed.

Lemma bst_len c m g l : m = m / 2 + m / 2 -> length l = c * m -> length (bst c m g l) = length l.
Proof.
  intros Hm. revert l. induction c; intros l H; cbn [bst]; [reflexivity|]. cbn in H.
  rewrite app_length, bfly_len, IHc.
  - rewrite !firstn_length, !skipn_length. lia.
  - rewrite skipn_length. lia.
  - rewrite !firstn_length, !skipn_length. lia.
Qed.

Lemma pow2_even s : pow2 (S s) = pow2 (S s) / 2 + pow2 (S s) / 2.
Proof. rewrite Nat.pow_succ_r', (Nat.mul_comm 2), Nat.div_mul by lia. lia. Qed.

(* stages as a pure function; the list length is c * 2^(top) *)
Fixpoint stg (cnt s : nat) (l : list K) : list K :=
  match cnt with
  | O => l
  | S c => stg c (S s) (bst (length l / pow2 s) (pow2 s) (kroot s) l)
  end.

Lemma mul_pow_div c e s : s <= e -> (c * pow2 e) / pow2 s * pow2 s = c * pow2 e.
Proof.
  intros H. replace e with ((e - s) + s) by lia. rewrite Nat.pow_add_r, Nat.mul_assoc, Nat.div_mul; [reflexivity|].
  pose proof (pow2_pos s). lia.
Qed.

Lemma stages_ok cnt : forall s (l : list K) c, 1 <= s -> s + cnt <= 33 -> length l = c * pow2 (s + cnt - 1) ->
  stages (F := opsK) cnt s (length l) l = Ok (stg cnt s l).
Proof.
  induction cnt; intros s l c Hs Hc Hl; cbn [stages stg]; [reflexivity|].
  rewrite MG_root by lia. cbn [bind].
  pose proof (pow2_pos s) as Pp.
  assert (D : (length l + pow2 s - 1) / pow2 s = length l / pow2 s).
  { pose proof (mul_pow_div c (s + S cnt - 1) s ltac:(lia)) as E. rewrite <- Hl in E.
    set (q := length l / pow2 s) in *. rewrite <- E.
    replace (q * pow2 s + pow2 s - 1) with (q * pow2 s + (pow2 s - 1)) by lia.
    rewrite Nat.div_add_l by lia. rewrite (Nat.div_small (pow2 s - 1)) by lia. lia. }
  rewrite D.
  pose proof (blocks_ok (length l / pow2 s) (pow2 s) (kmul kone (kconst (root s))) [] l) as B.
  assert (Ev : pow2 s = pow2 s / 2 + pow2 s / 2) by (destruct s; [lia|apply pow2_even]).
  assert (LL : length l = length l / pow2 s * pow2 s).
  { rewrite Hl at 2. rewrite mul_pow_div by lia. exact Hl. }
  specialize (B Ev LL). cbn [app length] in B. kn. rewrite B. cbn [bind].
  replace (kmul kone (kconst (root s))) with (kroot s) by (unfold kroot; ring).
  set (l' := bst (length l / pow2 s) (pow2 s) (kroot s) l).
  assert (Ll : length l' = length l) by (apply bst_len; assumption).
  rewrite <- Ll. rewrite (IHcnt (S s) l' c); [|lia|lia|].
  - reflexivity.
  - rewrite Ll, Hl. f_equal. f_equal. lia.
Qed.

Lemma stg_len cnt : forall s l c, 1 <= s -> length l = c * pow2 (s + cnt - 1) -> length (stg cnt s l) = length l.
Proof.
  induction cnt; intros s l c Hs Hl; cbn [stg]; [reflexivity|].
  assert (Ev : pow2 s = pow2 s / 2 + pow2 s / 2) by (destruct s; [lia|apply pow2_even]).
  assert (LL : length l = length l / pow2 s * pow2 s).
  { rewrite Hl at 2. rewrite mul_pow_div by lia. exact Hl. }
  assert (Lb : length (bst (length l / pow2 s) (pow2 s) (kroot s) l) = length l) by (apply bst_len; assumption).
  rewrite (IHcnt _ _ c); [exact Lb|lia|]. rewrite Lb, Hl. f_equal. f_equal. lia.
Qed.

Lemma stg_app cnt : forall s l1 l2 c1 c2, 1 <= s -> length l1 = c1 * pow2 (s + cnt - 1) -> length l2 = c2 * pow2 (s + cnt - 1) ->
  stg cnt s (l1 ++ l2) = stg cnt s l1 ++ stg cnt s l2.
Proof.
  induction cnt; intros s l1 l2 c1 c2 Hs H1 H2; cbn [stg]; [reflexivity|].
  assert (Ev : pow2 s = pow2 s / 2 + pow2 s / 2) by (destruct s; [lia|apply pow2_even]).
  pose proof (pow2_pos s).
  assert (L1 : length l1 = length l1 / pow2 s * pow2 s) by (rewrite H1 at 2; rewrite mul_pow_div by lia; exact H1).
  assert (L2 : length l2 = length l2 / pow2 s * pow2 s) by (rewrite H2 at 2; rewrite mul_pow_div by lia; exact H2).
  assert (D : length (l1 ++ l2) / pow2 s = length l1 / pow2 s + length l2 / pow2 s).
  { rewrite app_length. rewrite L1 at 1. rewrite Nat.div_add_l by lia. reflexivity. }
  rewrite D, bst_app by assumption.
  apply IHcnt with c1 c2; [lia| |]; rewrite bst_len by assumption; [rewrite H1|rewrite H2]; f_equal; f_equal; lia.
Qed.

Lemma stg_last cnt : forall s l c, 1 <= s -> length l = c * pow2 (s + cnt) ->
  stg (S cnt) s l = bst c (pow2 (s + cnt)) (kroot (s + cnt)) (stg cnt s l).
Proof.
  induction cnt; intros s l c Hs Hl.
  - cbn [stg]. rewrite Nat.add_0_r in *. rewrite Hl, Nat.div_mul by (pose proof (pow2_pos s); lia). reflexivity.
  - change (stg (S (S cnt)) s l) with (stg (S cnt) (S s) (bst (length l / pow2 s) (pow2 s) (kroot s) l)).
    assert (Ev : pow2 s = pow2 s / 2 + pow2 s / 2) by (destruct s; [lia|apply pow2_even]).
    assert (LL : length l = length l / pow2 s * pow2 s).
    { rewrite Hl at 2. rewrite mul_pow_div by lia. exact Hl. }
    rewrite (IHcnt (S s) _ c); [|lia|].
    + replace (S s + cnt) with (s + S cnt) by lia. reflexivity.
    + rewrite bst_len by assumption. rewrite Hl. f_equal. f_equal. lia.
Qed.

Fixpoint brp {A} (s : nat) (p : list A) : list A :=
  match s with O => p | S s' => brp s' (evens p) ++ brp s' (odds p) end.

Lemma brp_len {A} s (p : list A) : length p = pow2 s -> length (brp s p) = pow2 s.
Proof.
  revert p. induction s; intros p H; cbn [brp]; [exact H|]. rewrite pow2_S in H.
  rewrite app_length, !IHs by (try (apply evens_len); try (apply odds_len); exact H). rewrite pow2_S. reflexivity.
Qed.

Lemma stg_brp s p : length p = pow2 s -> stg s 1 (brp s p) = frec s p.
Proof.
  revert p. induction s; intros p H; [reflexivity|]. rewrite pow2_S in H. cbn [brp frec].
  pose proof (evens_len p _ H) as HE. pose proof (odds_len p _ H) as HO.
  rewrite (stg_last s 1 _ 1); [|lia|].
  - rewrite (stg_app s 1 _ _ 1 1); [|lia| |].
    + rewrite !IHs by assumption. replace (1 + s) with (S s) by lia. cbn [bst].
      assert (LE : length (frec s (evens p)) = pow2 s).
      { rewrite <- IHs by exact HE. rewrite (stg_len s 1 _ 1); [apply brp_len; exact HE|lia|]. rewrite brp_len by exact HE. replace (1 + s - 1) with s by lia. lia. }
      assert (LO : length (frec s (odds p)) = pow2 s).
      { rewrite <- IHs by exact HO. rewrite (stg_len s 1 _ 1); [apply brp_len; exact HO|lia|]. rewrite brp_len by exact HO. replace (1 + s - 1) with s by lia. lia. }
      assert (HH : pow2 (S s) / 2 = pow2 s) by (rewrite Nat.pow_succ_r', Nat.mul_comm, Nat.div_mul; lia).
      rewrite HH. rewrite firstn_app, skipn_app, LE, Nat.sub_diag. cbn [firstn skipn].
      rewrite app_nil_r, firstn_all2 by lia. rewrite skipn_all2 by lia. cbn [app].
      rewrite firstn_all2 by lia.
      rewrite skipn_all2 by (rewrite app_length, LE, LO, pow2_S; lia). apply app_nil_r.
    + replace (1 + s - 1) with s by lia. rewrite brp_len by exact HE. lia.
    + replace (1 + s - 1) with s by lia. rewrite brp_len by exact HO. lia.
  - rewrite app_length, !brp_len by assumption. replace (1 + s) with (S s) by lia. rewrite pow2_S. lia.
Qed.

(* ---- the initial permutation ---- *)
Lemma brp_nth {A} s (p : list A) r : length p = pow2 s -> (0 <= r < 2 ^ Z.of_nat s)%Z ->
  nth_error (brp s p) (Z.to_nat r) = nth_error p (Z.to_nat (rev_bits s r)).
Proof.
  revert p r. induction s; intros p r Hp Hr.
  - change (2 ^ Z.of_nat 0)%Z with 1%Z in Hr. replace r with 0%Z by lia. reflexivity.
  - rewrite pow2_S in Hp. pose proof (evens_len p _ Hp) as HE. pose proof (odds_len p _ Hp) as HO.
    cbn [brp]. rewrite rev_bits_msb by exact Hr.
    rewrite Nat2Z.inj_succ, Z.pow_succ_r in Hr by lia.
    assert (ZP : Z.of_nat (pow2 s) = (2 ^ Z.of_nat s)%Z) by (rewrite Nat2Z.inj_pow; reflexivity).
    destruct (Z.lt_ge_cases r (2 ^ Z.of_nat s)) as [L|L].
    + rewrite nth_error_app1 by (rewrite brp_len by exact HE; lia).
      rewrite IHs by (try exact HE; lia). rewrite Z.div_small, Z.mod_small by lia.
      rewrite evens_nth. f_equal. pose proof (rev_bits_range s r). lia.
    + rewrite nth_error_app2 by (rewrite brp_len by exact HE; lia). rewrite brp_len by exact HE.
      replace (Z.to_nat r - pow2 s) with (Z.to_nat (r - 2 ^ Z.of_nat s)) by lia.
      rewrite IHs by (try exact HO; lia). rewrite odds_nth. f_equal.
      replace (r / 2 ^ Z.of_nat s)%Z with 1%Z.
      * replace (r mod 2 ^ Z.of_nat s)%Z with (r - 2 ^ Z.of_nat s)%Z.
        -- pose proof (rev_bits_range s (r - 2 ^ Z.of_nat s)). lia.
        -- apply Z.mod_unique with 1%Z; lia.
      * apply Z.div_unique with (r - 2 ^ Z.of_nat s)%Z; lia.
Qed.

Lemma scatter_ok {F : FOps} bits (p : list F) : forall i buff, bits <= 32 -> (0 <= i)%Z ->
  (i + Z.of_nat (length p) <= 2 ^ Z.of_nat bits)%Z -> length buff = pow2 bits ->
  exists b, scatter bits i p buff = Ok b /\ length b = pow2 bits /\
    (forall k x, nth_error p k = Some x -> nth_error b (Z.to_nat (rev_bits bits (i + Z.of_nat k))) = Some x) /\
    (forall r, (forall k, k < length p -> r <> Z.to_nat (rev_bits bits (i + Z.of_nat k))) -> nth_error b r = nth_error buff r).
Proof.
  assert (ZP : Z.of_nat (pow2 bits) = (2 ^ Z.of_nat bits)%Z) by (rewrite Nat2Z.inj_pow; reflexivity).
  induction p as [|x p IH]; intros i buff Hb Hi Hle Hl; cbn [scatter].
  - exists buff. repeat split; auto. intros [|k] y; discriminate.
  - cbn [length] in Hle. rewrite rev_bits_shift by lia. pose proof (rev_bits_range bits i) as R.
    destruct (vset_ok buff (Z.to_nat (rev_bits bits i)) x) as [b1 [E1 [L1 [G1 O1]]]]; [lia|].
    rewrite E1. cbn [bind].
    destruct (IH (i + 1)%Z b1) as [b [E [L [G O]]]]; [lia|lia|lia|lia|].
    exists b. split; [exact E|]. split; [exact L|]. split.
    + intros [|k] y Hy; cbn in Hy.
      * injection Hy as ->. rewrite Z.add_0_r. rewrite O; [exact G1|].
        intros k Hk E2. pose proof (rev_bits_range bits (i + 1 + Z.of_nat k)) as R2.
        assert (E3 : rev_bits bits i = rev_bits bits (i + 1 + Z.of_nat k)) by lia.
        apply (f_equal (rev_bits bits)) in E3. rewrite !rev_bits_invol in E3 by lia. lia.
      * rewrite <- (G k y Hy). do 3 f_equal. lia.
    + intros r Hr. rewrite O.
      * apply O1. specialize (Hr 0). rewrite Z.add_0_r in Hr. apply Hr. cbn. lia.
      * intros k Hk. specialize (Hr (S k)). rewrite <- Z.add_assoc.
        replace (1 + Z.of_nat k)%Z with (Z.of_nat (S k)) by lia. apply Hr. cbn. lia.
Qed.

Lemma scatter_brp {F : FOps} bits (p : list F) : bits <= 32 -> length p = pow2 bits ->
  scatter bits 0 p (repeat o_zero (length p)) = Ok (brp bits p).
Proof.
  intros Hb Hp.
  assert (ZP : Z.of_nat (pow2 bits) = (2 ^ Z.of_nat bits)%Z) by (rewrite Nat2Z.inj_pow; reflexivity).
  destruct (scatter_ok bits p 0 (repeat o_zero (length p)) Hb) as [b [E [L [G _]]]];
    [lia|lia|rewrite repeat_length; exact Hp|].
  rewrite E. f_equal. apply nth_error_ext_len.
  - rewrite L, brp_len by exact Hp. reflexivity.
  - intros r Hr. rewrite L in Hr.
    pose proof (brp_nth bits p (Z.of_nat r) Hp ltac:(lia)) as B. rewrite Nat2Z.id in B. rewrite B.
    pose proof (rev_bits_range bits (Z.of_nat r)) as R.
    destruct (nth_error p (Z.to_nat (rev_bits bits (Z.of_nat r)))) as [x|] eqn:N.
    + apply G in N. rewrite <- N. f_equal. cbn [Z.add].
      rewrite Z2Nat.id by lia. change (0 + ?x)%Z with x. rewrite rev_bits_invol by lia. lia.
    + apply nth_error_None in N. lia.
Qed.

(* ---- fft ---- *)
Lemma fft_K s (p : list K) : s <= 31 -> length p = pow2 s -> fft (F := opsK) p = Ok (dft s p).
Proof.
  intros Hs Hp.
  destruct s as [|s].
  - destruct p as [|a [|b p]]; try discriminate. cbn [fft]. f_equal. unfold dft. cbn [Nat.pow seq map peval kpow].
    f_equal. ring.
  - assert (ZP : Z.of_nat (length p) = (2 ^ Z.of_nat (S s))%Z) by (rewrite Hp, Nat2Z.inj_pow; reflexivity).
    assert (BITS : Z.to_nat (log2_any (Z.of_nat (length p) - 1) + 1) = S s).
    { rewrite ZP. rewrite Nat2Z.inj_succ, Z.pow_succ_r by lia.
      assert (0 < 2 ^ Z.of_nat s)%Z by (apply Z.pow_pos_nonneg; lia).
      assert (2 ^ Z.of_nat s <= 2 ^ 30)%Z by (apply Z.pow_le_mono_r; lia).
      rewrite log2_any_spec by (change (2 ^ 32)%Z with (4 * 2 ^ 30)%Z; lia).
      rewrite (Z.log2_unique (2 * 2 ^ Z.of_nat s - 1) (Z.of_nat s)).
      - lia.
      - lia.
      - rewrite Z.pow_succ_r by lia. lia. }
    assert (U : fft (F := opsK) p = (
        let bits := Z.to_nat (log2_any (Z.of_nat (length p) - 1) + 1) in
        if (32 <=? bits)%nat then Panic
        else if negb (Z.of_nat (length p) =? 2 ^ Z.of_nat bits)%Z then Panic
        else
          bind (scatter (F := opsK) bits 0 p (repeat kzero (length p)))
          (fun buff => stages (F := opsK) bits 1 (length p) buff))).
    { destruct p as [|a [|b p]]; [exfalso|exfalso|reflexivity].
      - cbn in Hp. pose proof (pow2_pos s). lia.
      - cbn [length] in Hp. pose proof (pow2_pos s). rewrite pow2_S in Hp. lia. }
    rewrite U. cbv zeta. rewrite BITS, ZP, Z.eqb_refl.
    replace (32 <=? S s) with false by (symmetry; apply Nat.leb_gt; lia). cbn [negb].
    pose proof (scatter_brp (F := opsK) (S s) p ltac:(lia) Hp) as SC. kn. rewrite SC. cbn [bind].
    rewrite Hp. rewrite <- (brp_len (S s) p Hp).
    rewrite (stages_ok (S s) 1 (brp (S s) p) 1); [|lia|lia|].
    + rewrite stg_brp by exact Hp. rewrite frec_dft by (try exact Hp; lia). reflexivity.
    + rewrite brp_len by exact Hp. replace (1 + S s - 1) with (S s) by lia. lia.
Qed.

Lemma fft_panics {F : FOps} (p : list F) : (forall s, s <= 31 -> length p <> pow2 s) -> 2 <= length p -> fft p = Panic.
Proof.
  intros H H2. unfold fft. destruct p as [|a [|b p]]; [cbn in H2; lia|cbn in H2; lia|].
  set (q := a :: b :: p) in *. cbv zeta. set (bits := Z.to_nat (log2_any (Z.of_nat (length q) - 1) + 1)).
  destruct (32 <=? bits) eqn:E; [reflexivity|]. apply Nat.leb_gt in E.
  destruct (Z.eqb_spec (Z.of_nat (length q)) (2 ^ Z.of_nat bits)) as [E2|E2]; [|reflexivity].
  exfalso. apply (H bits); [lia|]. apply Nat2Z.inj. rewrite E2, Nat2Z.inj_pow. reflexivity.
Qed.
