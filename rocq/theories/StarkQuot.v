(* The quotient polynomial of the prover: from its values on the coset, through the inverse transform, the split and
   the forward transform, to the columns of the last committed section. *)
From Coq Require Import Ring Field Arith.
From Verif Require Import Base GlModel FrField F3gModel Cubic F3gProof ListAux PolyModel Roots PolyProof FftProof FftTop FriMath CodegenModel InterpModel InterpProof
  HashModel HashProof FftpModel BrProof FftpMath FftpProof FftpTop FftpBase VerifierModel FriModel FriProof ProverModel ProverProof ParModel ParProof
  StarkMath StarkModel StarkRow.
Open Scope nat_scope.
Open Scope list_scope.
Open Scope res_scope.
Add Field K_field_sq : K_field.
Add Field Fr_field_sq : Fr_field.

(* ---------- loops that write cells ---------- *)
Definition wr (L : nat) (f : list F3G -> res (list F3G)) (own : nat -> bool) (out : nat -> F3G) : Prop :=
  forall b, length b = L -> exists b', f b = Ok b' /\ length b' = L /\
    forall j, nth j b' e_ZERO = if own j then out j else nth j b e_ZERO.
Lemma wr_one L a v out : a < L -> v = out a -> wr L (fun b => vset b a v) (Nat.eqb a) out.
Proof.
  intros H -> b Hb. destruct (vset_spec b a (out a) ltac:(lia)) as [b' [E [Lb N]]]. exists b'. split; [exact E|]. split; [lia|].
  intros j. specialize (N j). destruct (Nat.eqb_spec a j) as [->|Ne].
  - rewrite Nat.eqb_refl in N. apply nth_error_nth. exact N.
  - assert (E1 : (j =? a) = false) by (apply Nat.eqb_neq; congruence). rewrite E1 in N.
    destruct (nth_error b j) as [x|] eqn:Ex; [rewrite (nth_error_nth _ _ _ N), (nth_error_nth _ _ _ Ex); reflexivity|].
    apply nth_error_None in N, Ex. rewrite !nth_overflow by assumption. reflexivity.
Qed.
Lemma wr_foldM {A} (f : list F3G -> A -> res (list F3G)) (own : A -> nat -> bool) L out xs :
  (forall x, In x xs -> wr L (fun b => f b x) (own x) out) -> wr L (fun b => foldM f xs b) (fun j => existsb (fun x => own x j) xs) out.
Proof.
  induction xs as [|x xs IH]; intros H b Hb.
  - exists b. split; [reflexivity|]. split; [exact Hb|]. reflexivity.
  - destruct (H x (or_introl eq_refl) b Hb) as [b1 [E1 [L1 N1]]]. destruct (IH (fun y I => H y (or_intror I)) b1 L1) as [b2 [E2 [L2 N2]]].
    exists b2. cbn [foldM]. rewrite E1. cbn [bind]. split; [exact E2|]. split; [exact L2|]. intros j. rewrite N2, N1. cbn [existsb].
    destruct (own x j), (existsb (fun x0 => own x0 j) xs); reflexivity.
Qed.

Lemma wr_get L l a c (s : F3G) out : a < length l -> c < L -> out c = e_mul (nth a l e_ZERO) s ->
  wr L (fun b => do v <- vget l a; vset b c (e_mul v s)) (Nat.eqb c) out.
Proof.
  intros Ha Hc E b Hb. rewrite (vget_nth l a e_ZERO Ha). cbn [bind]. apply (wr_one L c _ out Hc); [symmetry; exact E|exact Hb].
Qed.

(* ---------- the split ---------- *)
Fixpoint cur (s : F3G) (p : nat) : F3G := match p with O => e_ONE | S q => e_mul (cur s q) s end.
Section Split.
  Variables (d deg N L : nat) (s : F3G) (q1 : list F3G).
  Hypothesis Hd : 0 < d.
  Hypothesis Hdeg : 0 < deg.
  Hypothesis Hq1 : deg * N * d <= length q1.
  Hypothesis HL : N * d * deg <= L.
  Definition s_out (j : nat) : F3G :=
    let i := j / (d * deg) in let c := j mod (d * deg) in
    e_mul (nth ((c / d) * N * d + i * d + c mod d) q1 e_ZERO) (cur s (c / d)).
  Definition s_pos (p i k : nat) : nat := i * d * deg + d * p + k.
  Lemma s_col p k : p < deg -> k < d -> d * p + k < d * deg.
  Proof. intros A B. assert (d * (p + 1) <= d * deg) by (apply Nat.mul_le_mono_l; lia). lia. Qed.
  Lemma s_out_at p i k : p < deg -> k < d -> s_out (s_pos p i k) = e_mul (nth (p * N * d + i * d + k) q1 e_ZERO) (cur s p).
  Proof.
    intros A B. pose proof (s_col p k A B) as C. unfold s_out, s_pos.
    assert (X : (i * d * deg + d * p + k) / (d * deg) = i)
      by (symmetry; apply (Nat.div_unique _ (d * deg) i (d * p + k)); [exact C|ring]).
    assert (Y : (i * d * deg + d * p + k) mod (d * deg) = d * p + k)
      by (symmetry; apply (Nat.mod_unique _ (d * deg) i (d * p + k)); [exact C|ring]).
    rewrite X, Y. assert (X' : (d * p + k) / d = p) by (symmetry; apply (Nat.div_unique _ d p k); [exact B|ring]).
    assert (Y' : (d * p + k) mod d = k) by (symmetry; apply (Nat.mod_unique _ d p k); [exact B|ring]).
    rewrite X', Y'. reflexivity.
  Qed.
  Lemma s_src p i k : p < deg -> i < N -> k < d -> p * N * d + i * d + k < length q1.
  Proof.
    intros A B C. eapply Nat.lt_le_trans; [|exact Hq1]. apply Nat.lt_le_trans with (p * N * d + (i + 1) * d); [lia|].
    apply Nat.le_trans with (p * N * d + N * d); [apply Nat.add_le_mono_l, Nat.mul_le_mono_r; lia|].
    replace (p * N * d + N * d) with ((p + 1) * N * d) by ring. apply Nat.mul_le_mono_r, Nat.mul_le_mono_r. lia.
  Qed.
  Lemma s_dst p i k : p < deg -> i < N -> k < d -> s_pos p i k < L.
  Proof.
    intros A B C. eapply Nat.lt_le_trans; [|exact HL]. unfold s_pos. pose proof (s_col p k A C).
    apply Nat.lt_le_trans with ((i + 1) * (d * deg)); [lia|]. replace (N * d * deg) with (N * (d * deg)) by ring. apply Nat.mul_le_mono_r. lia.
  Qed.
  Definition own_k (p i j : nat) : bool := existsb (fun k => s_pos p i k =? j) (seq 0 d).
  Definition own_i (p j : nat) : bool := existsb (fun i => own_k p i j) (seq 0 N).
  Definition own_p (ps : list nat) (j : nat) : bool := existsb (fun p => own_i p j) ps.
  Lemma split_p p : p < deg ->
    wr L (fun b => foldM (fun b i => foldM (fun b k => do v <- vget q1 (p * N * d + i * d + k); vset b (i * d * deg + d * p + k) (e_mul v (cur s p)))
              (seq 0 d) b) (seq 0 N) b) (own_i p) s_out.
  Proof.
    intros Hp. unfold own_i. apply (wr_foldM _ (own_k p)). intros i Ii. apply in_seq in Ii.
    unfold own_k. apply (wr_foldM _ (fun k j => s_pos p i k =? j)). intros k Ik. apply in_seq in Ik.
    apply wr_get; [apply s_src; lia|apply s_dst; lia|]. apply s_out_at; lia.
  Qed.
  Lemma split_loop ps : forall p0, ps = seq p0 (deg - p0) -> p0 <= deg ->
    wr L (fun b => rmap fst (foldM (fun (st : list F3G * F3G) p =>
      let '(b, cur_s) := st in
      do b <- foldM (fun b i => foldM (fun b k =>
                do v <- vget q1 (p * N * d + i * d + k);
                vset b (i * d * deg + d * p + k) (e_mul v cur_s))
              (seq 0 d) b) (seq 0 N) b;
      Ok (b, e_mul cur_s s)) ps (b, cur s p0))) (own_p ps) s_out.
  Proof.
    induction ps as [|p ps IH]; intros p0 E H b Hb.
    - exists b. split; [reflexivity|]. split; [exact Hb|]. reflexivity.
    - destruct (deg - p0) as [|c] eqn:Ec; [discriminate E|]. cbn [seq] in E. injection E as -> E.
      destruct (split_p p0 ltac:(lia) b Hb) as [b1 [E1 [L1 N1]]]. destruct (IH (S p0) ltac:(rewrite E; f_equal; lia) ltac:(lia) b1 L1) as [b2 [E2 [L2 N2]]].
      exists b2. cbn [foldM]. rewrite E1. cbn [bind]. split; [exact E2|]. split; [exact L2|]. intros j. rewrite N2, N1. unfold own_p. cbn [existsb].
      destruct (own_i p0 j), (existsb (fun p => own_i p j) ps); reflexivity.
  Qed.
  Lemma split_ok qq : length qq = L -> exists out, split_q d deg N s q1 qq = Ok out /\ length out = L /\
    (forall p i k, p < deg -> i < N -> k < d -> nth (s_pos p i k) out e_ZERO = e_mul (nth (p * N * d + i * d + k) q1 e_ZERO) (cur s p)) /\
    (forall c i, c < d * deg -> N <= i -> nth (i * (d * deg) + c) out e_ZERO = nth (i * (d * deg) + c) qq e_ZERO) /\
    (forall j, nth j out e_ZERO = nth j qq e_ZERO \/ nth j out e_ZERO = s_out j).
  Proof.
    intros Hq. destruct (split_loop (seq 0 deg) 0 ltac:(f_equal; lia) ltac:(lia) qq Hq) as [out [E [Lo No]]].
    exists out. split; [exact E|]. split; [exact Lo|]. split; [|split].
    - intros p i k A B C. rewrite No. rewrite <- (s_out_at p i k A C). replace (own_p (seq 0 deg) (s_pos p i k)) with true; [reflexivity|].
      symmetry. unfold own_p. apply existsb_exists. exists p. split; [apply in_seq; lia|]. apply existsb_exists. exists i. split; [apply in_seq; lia|].
      apply existsb_exists. exists k. split; [apply in_seq; lia|]. apply Nat.eqb_refl.
    - intros c i A B. rewrite No. destruct (own_p (seq 0 deg) (i * (d * deg) + c)) eqn:Eo; [|reflexivity]. exfalso.
      unfold own_p in Eo. apply existsb_exists in Eo. destruct Eo as [p [Ip Eo]]. apply existsb_exists in Eo. destruct Eo as [i' [Ii Eo]].
      apply existsb_exists in Eo. destruct Eo as [k [Ik Eo]]. apply Nat.eqb_eq in Eo. apply in_seq in Ip, Ii, Ik.
      pose proof (s_col p k ltac:(lia) ltac:(lia)) as C. unfold s_pos in Eo.
      assert (X : i' * (d * deg) + (d * p + k) = i * (d * deg) + c) by lia.
      destruct (FftpProof.cells (d * deg) ltac:(lia) i' (d * p + k) i c C A X) as [Y _]. lia.
    - intros j. rewrite No. destruct (own_p (seq 0 deg) j); [right|left]; reflexivity.
  Qed.
End Split.

(* ---------- coordinates ---------- *)
Definition bas (k : nat) : K := match k with 0 => kone | 1 => kX | _ => kmul kX kX end.
Definition comb (d : nat) (f : nat -> K) : K := ksum d (fun k => kmul (bas k) (f k)).
Local Transparent kadd kmul kone kzero kconst.
Lemma comb3 a b c : mkK a b c = comb 3 (fun k => match k with 0 => kconst a | 1 => kconst b | _ => kconst c end).
Proof. unfold comb. cbn [ksum bas]. apply k_ext; unfold kadd, kmul, kX, kone, kzero, kconst; cbn [k0 k1 k2]; ring. Qed.
Local Opaque kadd kmul kone kzero kconst.
Lemma comb1 a : a = comb 1 (fun _ => a).
Proof. unfold comb. cbn [ksum bas]. ring. Qed.
Lemma comb_ext d f g : (forall k, k < d -> f k = g k) -> comb d f = comb d g.
Proof. intros H. apply ksum_ext. intros k Hk. rewrite H by exact Hk. reflexivity. Qed.
Lemma comb_scale d c f : comb d (fun k => kmul c (f k)) = kmul c (comb d f).
Proof. unfold comb. rewrite <- ksum_scale. apply ksum_ext. intros k _. ring. Qed.
Lemma comb_sum d n (f : nat -> nat -> K) : comb d (fun k => ksum n (f k)) = ksum n (fun i => comb d (fun k => f k i)).
Proof.
  unfold comb. rewrite ksum_swap. apply ksum_ext. intros k Hk. rewrite ksum_scale. reflexivity.
Qed.
Lemma elem_comb l w pos d r : Forall vbase l -> d = 1 \/ d = 3 -> val (elem l w pos d r) = comb d (fun k => val (nth (pos + r * w + k) l e_ZERO)).
Proof.
  intros Hl [->| ->].
  - unfold elem. cbn [Nat.eqb]. rewrite (comb1 (val _)). apply comb_ext. intros k Hk. replace k with 0 by lia. rewrite Nat.add_0_r. reflexivity.
  - unfold elem. cbn [Nat.eqb]. change (val (e_new ?a ?b ?c)) with (mkK a b c). rewrite comb3. apply comb_ext. intros k Hk.
    assert (V : forall j, kconst (c0 (nth j l e_ZERO)) = val (nth j l e_ZERO)) by (intros j; destruct (nth_vbase l j Hl) as [x ->]; reflexivity).
    destruct k as [|[|[|k]]]; [| | |lia]; rewrite V; [rewrite Nat.add_0_r|idtac|idtac]; reflexivity.
Qed.
Lemma peval_comb d n (f : nat -> nat -> K) x : peval (map (fun i => comb d (fun k => f k i)) (seq 0 n)) x = comb d (fun k => peval (map (f k) (seq 0 n)) x).
Proof.
  rewrite peval_map_seq. transitivity (comb d (fun k => ksum n (fun i => kmul (f k i) (kpow x i)))).
  - rewrite comb_sum. apply ksum_ext. intros i Hi. set (y := kpow x i). rewrite <- (comb_scale d y) with (f := fun k => f k i) || idtac.
    transitivity (kmul y (comb d (fun k => f k i))); [ring|]. rewrite <- comb_scale. apply comb_ext. intros k Hk. ring.
  - apply comb_ext. intros k Hk. rewrite peval_map_seq. reflexivity.
Qed.
Lemma idft_comb d s (f : nat -> nat -> K) j : j < pow2 s ->
  nth j (idft s (map (fun i => comb d (fun k => f k i)) (seq 0 (pow2 s)))) kzero = comb d (fun k => nth j (idft s (map (f k) (seq 0 (pow2 s)))) kzero).
Proof.
  intros Hj. unfold idft. rewrite nth_map_seq by exact Hj. rewrite peval_comb. set (y := ninv s).
  transitivity (kmul y (comb d (fun k => peval (map (f k) (seq 0 (pow2 s))) (kpow (kroot s) (pow2 s - j))))); [ring|].
  rewrite <- comb_scale. apply comb_ext. intros k Hk. rewrite nth_map_seq by exact Hj. ring.
Qed.

(* ---------- the columns of the quotient ---------- *)
Definition cpt (e r : nat) : K := kmul K_shift (kpow (kroot e) r).
Definition q_shift (N : nat) : F3G := e_exp (e_inv (e_from SHIFT)) (Z.of_nat N).
Lemma q_shift_val N : val (q_shift N) = kpow (kinv K_shift) N.
Proof. unfold q_shift. rewrite val_exp by lia. rewrite Nat2Z.id, val_inv, val_from. reflexivity. Qed.
Lemma cur_val s p : val (cur s p) = kpow (val s) p.
Proof. induction p; [reflexivity|]. cbn [cur kpow]. rewrite val_mul, IHp. reflexivity. Qed.
Lemma cur_base s p : base s -> base (cur s p).
Proof. intros H. induction p; [exists f1; reflexivity|]. apply base_mul; assumption. Qed.
Lemma forall_nth (P : F3G -> Prop) l : (forall j, j < length l -> P (nth j l e_ZERO)) -> Forall P l.
Proof. intros H. apply Forall_forall. intros x I. apply (In_nth _ _ e_ZERO) in I. destruct I as [j [Hj <-]]. apply H. exact Hj. Qed.
Lemma pad_same n c i : nth i (pad n c) kzero = nth i c kzero.
Proof.
  destruct (Nat.lt_ge_cases i (length c)) as [L|L]; [unfold pad; apply app_nth1; exact L|]. rewrite pad_nth by exact L. symmetry. apply nth_overflow. exact L.
Qed.
Lemma kinv_pow a n : a <> kzero -> kmul (kpow a n) (kpow (kinv a) n) = kone.
Proof. intros H. rewrite <- kpow_prod. replace (kmul a (kinv a)) with kone by (field; exact H). apply kpow_1. Qed.

Theorem quotient_columns workers d deg e nb Sq cm4 Q br : 0 < workers -> 1 <= e <= 31 -> nb <= e -> d = 1 \/ d = 3 -> 0 < deg -> deg * pow2 nb <= pow2 e ->
  length Sq = pow2 e * d -> length cm4 = pow2 e * (d * deg) -> Forall vbase Sq -> Forall vbase cm4 -> nice br -> length Q <= deg * pow2 nb ->
  (forall i, i < pow2 e -> val (elem Sq d 0 d i) = peval Q (cpt e i)) ->
  exists qq1 br1 qq2 cm4' br2, p_fft workers true Sq d e (repeat e_ZERO (length Sq)) br = (Ok qq1, br1) /\
    split_q d deg (2 ^ nb) (q_shift (2 ^ nb)) qq1 (repeat e_ZERO (d * 2 ^ e * deg)) = Ok qq2 /\
    p_fft workers false qq2 (d * deg) e cm4 br1 = (Ok cm4', br2) /\ nice br2 /\ length cm4' = pow2 e * (d * deg) /\ Forall vbase cm4' /\
    forall p r, p < deg -> r < pow2 e -> val (elem cm4' (d * deg) (d * p) d r) = peval (qpart (pow2 nb) p Q) (cpt e r).
Proof.
  intros Hw He Hnb Hd Hdeg Hfit LS Lc BS Bc Nb LQ HS. assert (Hd0 : 0 < d) by lia.
  set (n := pow2 e) in *. set (N := pow2 nb) in *.
  assert (HN : N <= n) by (unfold N, n; apply Nat.pow_le_mono_r; lia).
  assert (LZ : length (repeat e_ZERO (length Sq)) = n * d) by (rewrite repeat_length; exact LS).
  destruct (p_fft_ok d Hd0 workers true Sq e (repeat e_ZERO (length Sq)) br Hw ltac:(lia) ltac:(lia) LS LZ Nb) as [q1 [br1 [E1 [N1 [L1 C1]]]]].
  fold n in C1, L1. cbv beta iota in C1.
  assert (B1 : Forall base q1) by (eapply p_fft_base; [exact BS| |exact E1]; apply repeat_P; eexists; reflexivity).
  assert (V1 : forall j, j < n -> comb d (fun k => col d q1 k j) = kmul (nth j Q kzero) (kpow K_shift j)).
  { intros j Hj. transitivity (comb d (fun k => nth j (idft e (map (fun i => col d Sq k i) (seq 0 n))) kzero)).
    - apply comb_ext. intros k Hk. rewrite <- (colL_nth d q1 k n j Hj). rewrite (C1 k Hk). reflexivity.
    - etransitivity; [symmetry; exact (idft_comb d e (fun k i => col d Sq k i) j Hj)|]. cbv beta.
      replace (map (fun i => comb d (fun k => col d Sq k i)) (seq 0 (pow2 e))) with (map (fun i => peval (pad n Q) (kmul K_shift (kpow (kroot e) i))) (seq 0 (pow2 e))).
      + etransitivity; [apply (f_equal (fun l => nth j l kzero)); apply (coset_idft e (pad n Q) K_shift); [lia|apply pad_len; fold n; lia]|]. rewrite nth_map_seq by exact Hj. rewrite pad_same. reflexivity.
      + apply map_ext_in. intros i Ii. apply in_seq in Ii. rewrite pad_v. fold (cpt e i). rewrite <- HS by (fold n in Ii; lia).
        rewrite elem_comb by assumption. apply comb_ext. intros k Hk. unfold col. rewrite Nat.add_0_l. reflexivity. }
  assert (Hq1 : deg * N * d <= length q1) by (rewrite L1; apply Nat.mul_le_mono_r; exact Hfit).
  assert (HL : N * d * deg <= d * n * deg) by (apply Nat.mul_le_mono_r; rewrite Nat.mul_comm; apply Nat.mul_le_mono_l; exact HN).
  destruct (split_ok d deg N (d * n * deg) (q_shift N) q1 Hd0 Hdeg Hq1 HL (repeat e_ZERO (d * n * deg)) (repeat_length _ _)) as [q2 [E2 [L2 [A2 [Z2 O2]]]]].
  assert (B2 : Forall base q2).
  { apply forall_nth. intros j Hj. destruct (O2 j) as [-> | ->].
    - apply nth_vbase. apply repeat_P. eexists; reflexivity.
    - unfold s_out. apply base_mul; [apply nth_vbase; exact B1|]. apply cur_base. unfold q_shift. apply base_exp, base_inv, base_from. }
  assert (Hdd : 0 < d * deg) by (apply Nat.mul_pos_pos; assumption).
  destruct (p_fft_ok (d * deg) Hdd workers false q2 e cm4 br1 Hw ltac:(lia) ltac:(lia)) as [o [br2 [E3 [N3 [L3 C3]]]]];
    [rewrite L2; fold n; ring | exact Lc | exact N1|]. fold n in C3, L3. cbv beta iota in C3.
  assert (B3 : Forall base o) by (eapply p_fft_base; [exact B2|exact Bc|exact E3]).
  exists q1, br1, q2, o, br2. split; [exact E1|]. split; [exact E2|]. split; [exact E3|]. split; [exact N3|]. split; [exact L3|]. split; [exact B3|].
  intros p r Hp Hr. rewrite elem_comb by assumption.
  assert (Hc : forall k, k < d -> d * p + k < d * deg) by (intros k Hk; eapply s_col; eassumption).
  transitivity (comb d (fun k => peval (map (fun i => col (d * deg) q2 (d * p + k) i) (seq 0 n)) (kpow (kroot e) r))).
  { apply comb_ext. intros k Hk. transitivity (col (d * deg) o (d * p + k) r); [unfold col; f_equal; f_equal; ring|].
    rewrite <- (colL_nth (d * deg) o (d * p + k) n r Hr), (C3 _ (Hc k Hk)). apply dft_nth. exact Hr. }
  rewrite <- (peval_comb d n (fun k i => col (d * deg) q2 (d * p + k) i)). rewrite peval_map_seq.
  unfold qpart. rewrite peval_map_seq. replace n with (N + (n - N)) at 1 by lia. rewrite ksum_app.
  assert (T : ksum (n - N) (fun i => kmul (comb d (fun k => col (d * deg) q2 (d * p + k) (N + i))) (kpow (kpow (kroot e) r) (N + i))) = kzero).
  { rewrite <- (ksum_zero (n - N)). apply ksum_ext. intros i Hi.
    replace (comb d (fun k => col (d * deg) q2 (d * p + k) (N + i))) with kzero; [ring|]. symmetry.
    transitivity (comb d (fun k => kmul kzero kzero)); [|rewrite comb_scale; ring]. apply comb_ext. intros k Hk. unfold col.
    rewrite Z2 by (try apply Hc; lia). rewrite nth_repeat. rewrite val_ZERO. ring. }
  rewrite T. transitivity (ksum N (fun i => kmul (comb d (fun k => col (d * deg) q2 (d * p + k) i)) (kpow (kpow (kroot e) r) i))); [ring|].
  apply ksum_ext. intros i Hi. unfold cpt. rewrite (kpow_prod K_shift).
  assert (Hj : p * N + i < n).
  { apply Nat.lt_le_trans with ((p + 1) * N); [lia|]. apply Nat.le_trans with (deg * N); [apply Nat.mul_le_mono_r; lia|exact Hfit]. }
  replace (comb d (fun k => col (d * deg) q2 (d * p + k) i)) with (kmul (nth (p * N + i) Q kzero) (kpow K_shift i)); [ring|]. symmetry.
  transitivity (comb d (fun k => kmul (kpow (kpow (kinv K_shift) N) p) (col d q1 k (p * N + i)))).
  - apply comb_ext. intros k Hk. unfold col. replace (i * (d * deg) + (d * p + k)) with (s_pos d deg p i k) by (unfold s_pos; ring).
    rewrite A2 by assumption. rewrite val_mul, cur_val, q_shift_val. replace (p * N * d + i * d + k) with ((p * N + i) * d + k) by ring. ring.
  - rewrite comb_scale, (V1 _ Hj). rewrite kpow_add. rewrite (Nat.mul_comm p N), <- (kpow_mul (kinv K_shift)).
    pose proof (kinv_pow K_shift (N * p) K_shift_nz) as Z. set (a := kpow K_shift (N * p)) in *. set (b := kpow (kinv K_shift) (N * p)) in *.
    transitivity (kmul (kmul a b) (kmul (nth (N * p + i) Q kzero) (kpow K_shift i))); [ring|]. rewrite Z. ring.
Qed.
(* the stored cells of a row, as an element *)
Lemma cells_elem d l i v : d = 1 \/ d = 3 -> wf v -> (d = 1 -> d3 v = false) -> cells_of d l i v -> val (elem l d 0 d i) = val v.
Proof.
  intros [->| ->] W D C; unfold elem; cbn [Nat.eqb].
  - specialize (C 0 ltac:(lia)). rewrite Nat.add_0_r in C. rewrite (nth_error_nth _ _ _ C). unfold val. cbn [d3 e_from]. rewrite (D eq_refl). reflexivity.
  - pose proof (C 0 ltac:(lia)) as C0. pose proof (C 1 ltac:(lia)) as C1. pose proof (C 2 ltac:(lia)) as C2. rewrite Nat.add_0_r in C0.
    rewrite !Nat.add_0_l. rewrite (nth_error_nth _ _ _ C0), (nth_error_nth _ _ _ C1), (nth_error_nth _ _ _ C2). unfold val. cbn [d3 e_new e_from c0 coord].
    destruct (d3 v) eqn:E; [reflexivity|]. destruct (W E) as [-> ->]. reflexivity.
Qed.
Lemma cells_base d l n w : 0 < d -> length l = n * d -> (forall i, i < n -> cells_of d l i (w i)) -> Forall vbase l.
Proof.
  intros Hd Hl H. apply forall_nth. intros j Hj. rewrite Hl in Hj.
  assert (Hi : j / d < n) by (apply Nat.div_lt_upper_bound; lia). pose proof (H _ Hi (j mod d) (Nat.mod_upper_bound j d ltac:(lia))) as E.
  replace (j / d * d + j mod d) with j in E by (rewrite (Nat.div_mod j d) at 1 by lia; ring). rewrite (nth_error_nth _ _ _ E). eexists; reflexivity.
Qed.
