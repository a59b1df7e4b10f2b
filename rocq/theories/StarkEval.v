(* The evaluations of the prover at the challenge point. *)
From Coq Require Import Ring Field Arith.
From Verif Require Import Base GlModel FrField F3gModel Cubic F3gProof ListAux PolyModel Roots PolyProof FftProof FftTop FriMath CodegenModel InterpModel InterpProof
  HashModel FftpModel FftpProof VerifierModel FriModel FriProof ProverModel ProverProof ParModel ParProof StarkMath StarkModel StarkRow StarkQuot.
Open Scope nat_scope.
Open Scope list_scope.
Open Scope res_scope.
Add Field K_field_se : K_field.

(* the column at [off] of a buffer with rows of [size] is the polynomial P on the extended coset *)
Record column (e : nat) (buf : list F3G) (size off dim : nat) (P : list K) : Prop := {
  co_dim : dim = 1 \/ dim = 3;
  co_in : off + dim <= size;
  co_len : length buf = 2 ^ e * size;
  co_base : Forall vbase buf;
  co_val : forall r, r < 2 ^ e -> val (elem buf size off dim r) = peval P (cpt e r) }.

Lemma lev_len n : forall x acc, length (lev n x acc) = n.
Proof. induction n; intros x acc; cbn [lev length]; [reflexivity|]. rewrite IHn. reflexivity. Qed.
Lemma lev_val n : forall x acc, map val (lev n x acc) = map (fun i => kmul (val acc) (kpow (val x) i)) (seq 0 n).
Proof.
  induction n as [|n IH]; intros x acc; cbn [lev map seq]; [reflexivity|]. refine (f_equal2 cons _ _); [cbn [kpow]; ring|].
  rewrite IH, <- seq_shift, map_map. apply map_ext. intros i. rewrite val_mul, kpow_S. ring.
Qed.
Definition is_lev (nb : nat) (z : K) (l : list F3G) : Prop :=
  length l = 2 ^ nb /\ map val l = idft nb (map (fun i => kpow (kmul z (kinv K_shift)) i) (seq 0 (pow2 nb))).
Lemma lev_ok nb y z : nb <= 31 -> val y = kmul z (kinv K_shift) -> exists l, ifft (F := opsE) (lev (2 ^ nb) y (e_from (fof 1))) = Ok l /\ is_lev nb z l.
Proof.
  intros Hn Hy. destruct (ifft_E nb (lev (2 ^ nb) y (e_from (fof 1))) Hn (lev_len _ _ _)) as [l [E V]]. exists l. split; [exact E|].
  rewrite lev_val in V. split.
  - rewrite <- (map_length val), V. apply idft_len.
  - rewrite V. f_equal. apply map_ext. intros i. rewrite Hy, val_from, fof_1. change (kconst f1) with kone. ring.
Qed.

Lemma kadd_as a b c : kadd (kadd a b) c = kadd a (kadd b c). Proof. ring. Qed.
Section Eval.
  Variables (nb e : nat).
  Hypothesis Hnb : nb <= e.
  Hypothesis He : e <= 31.
  Lemma cpt_step j : cpt e (j * 2 ^ (e - nb)) = kmul K_shift (kpow (kroot nb) j).
  Proof.
    unfold cpt. rewrite (Nat.mul_comm j), kpow_mul. rewrite (FriMath.kroot_down e (e - nb)) by lia. replace (e - (e - nb)) with nb by lia. reflexivity.
  Qed.
  Lemma step_lt j : j < 2 ^ nb -> j * 2 ^ (e - nb) < 2 ^ e.
  Proof.
    intros H. replace (2 ^ e) with (2 ^ nb * 2 ^ (e - nb)) by (rewrite <- Nat.pow_add_r; f_equal; lia).
    apply Nat.mul_lt_mono_pos_r; [apply Nat.neq_0_lt_0, Nat.pow_nonzero; lia|exact H].
  Qed.
  Lemma eval_loop buf size off dim P l z : column e buf size off dim P -> length P = pow2 nb -> is_lev nb z l ->
    exists v, foldM (fun acc j =>
      do v <- (if dim =? 1 then vget buf (j * 2 ^ (e - nb) * size + off) else three buf (off + j * 2 ^ (e - nb) * size));
      do lk <- vget l j;
      Ok (e_add acc (e_mul v lk))) (seq 0 (2 ^ nb)) e_ZERO = Ok v /\ wf v /\ val v = peval P z.
  Proof.
    intros [D I L B V] HP [Ll Vl].
    assert (G : forall k acc, k <= 2 ^ nb -> wf acc -> exists v, foldM (fun acc j =>
      do v <- (if dim =? 1 then vget buf (j * 2 ^ (e - nb) * size + off) else three buf (off + j * 2 ^ (e - nb) * size));
      do lk <- vget l j;
      Ok (e_add acc (e_mul v lk))) (seq (2 ^ nb - k) k) acc = Ok v /\ wf v /\
      val v = kadd (val acc) (ksum k (fun i => kmul (peval P (cpt e ((2 ^ nb - k + i) * 2 ^ (e - nb)))) (nth (2 ^ nb - k + i) (map val l) kzero)))).
    { induction k as [|k IH]; intros acc Hk W.
      - exists acc. split; [reflexivity|]. split; [exact W|]. cbn [ksum]. ring.
      - set (j := 2 ^ nb - S k). cbn [seq foldM]. assert (Hj : j < 2 ^ nb) by (unfold j; lia). pose proof (step_lt j Hj) as Hr. set (r := j * 2 ^ (e - nb)) in *.
        assert (Hrd : (if dim =? 1 then vget buf (r * size + off) else three buf (off + r * size)) = Ok (elem buf size off dim r)).
        { destruct (addr_inside size off dim r (2 ^ e) I Hr) as [A1 [A2 A3]]. unfold elem. destruct D as [-> | ->]; cbn [Nat.eqb].
          - rewrite Nat.add_comm. apply vget_nth. rewrite L. lia.
          - apply three_elem; [exact B|]. rewrite L. lia. }
        rewrite Hrd. cbn [bind]. rewrite (vget_nth l j e_ZERO) by lia. cbn [bind].
        destruct (IH (e_add acc (e_mul (elem buf size off dim r) (nth j l e_ZERO))) ltac:(lia) (wf_add _ _)) as [v [E [Wv Vv]]].
        replace (2 ^ nb - k) with (S j) in E, Vv by (unfold j; lia). exists v. split; [exact E|]. split; [exact Wv|].
        rewrite Vv, val_add, val_mul, (V r Hr), ksum_shift. rewrite Nat.add_0_r. fold r.
        replace (nth j (map val l) kzero) with (val (nth j l e_ZERO)) by (symmetry; rewrite <- val_ZERO; apply map_nth).
        rewrite kadd_as. refine (f_equal2 kadd eq_refl (f_equal2 kadd eq_refl _)). apply ksum_ext. intros i Hi.
        replace (S j + i) with (j + S i) by lia. reflexivity. }
    destruct (G (2 ^ nb) e_ZERO (Nat.le_refl _) wf_ZERO) as [v [E [W Vv]]]. rewrite Nat.sub_diag in E, Vv.
    exists v. split; [exact E|]. split; [exact W|]. rewrite Vv, val_ZERO.
    transitivity (kdot (pow2 nb) (map (fun i => peval P (kmul K_shift (kpow (kroot nb) i))) (seq 0 (pow2 nb)))
      (idft nb (map (fun i => kpow (kmul z (kinv K_shift)) i) (seq 0 (pow2 nb))))).
    - unfold kdot. rewrite <- Vl. transitivity (ksum (pow2 nb) (fun i => kmul (peval P (cpt e ((0 + i) * 2 ^ (e - nb)))) (nth (0 + i) (map val l) kzero))); [ring|].
      apply ksum_ext. intros i Hi. rewrite Nat.add_0_l, nth_map_seq by exact Hi. rewrite cpt_step. reflexivity.
    - apply coset_eval; [lia|exact HP|exact K_shift_nz].
  Qed.
End Eval.

Definition at_pt (nb : nat) (z : K) (prime : bool) : K := if prime then kmul z (kroot nb) else z.
Lemma eval_ok si m LEv LpEv k buf off size dim P z : si_nbits si <= si_nbits_ext si -> si_nbits_ext si <= 31 ->
  get_ev si m k = Ok (buf, off, size, dim) -> column (si_nbits_ext si) buf size off dim P -> length P = pow2 (si_nbits si) ->
  is_lev (si_nbits si) z LEv -> is_lev (si_nbits si) (kmul z (kroot (si_nbits si))) LpEv ->
  exists v, eval_at si m LEv LpEv k = Ok v /\ wf v /\ val v = peval P (at_pt (si_nbits si) z (snd (fst k))).
Proof.
  intros H1 H2 Eg C HP L1 L2. unfold eval_at. rewrite Eg. cbn [bind].
  destruct (eval_loop (si_nbits si) (si_nbits_ext si) H1 H2 buf size off dim P (if snd (fst k) then LpEv else LEv) (at_pt (si_nbits si) z (snd (fst k))) C HP) as [v [E W]].
  - unfold at_pt. destruct (snd (fst k)); assumption.
  - exists v. split; [exact E|exact W].
Qed.
