(* Polynomials over the cubic extension behind the STARK prover: division by the vanishing polynomial, evaluation
   from the values on a coset, splitting of the quotient. *)
From Coq Require Import Ring Field Arith.
From Verif Require Import Base GlModel FrField F3gModel Cubic F3gProof ListAux PolyModel Roots PolyProof FftProof FftTop FriMath ProverProof ImProof.
Open Scope nat_scope.
Open Scope list_scope.
Add Field K_field_sm : K_field.

Lemma pv_peval c x : pv c x = peval c x.
Proof. induction c as [|a r IH]; cbn [pv peval]; [reflexivity|]. rewrite IH. reflexivity. Qed.

Lemma padd_p a b x : peval (padd a b) x = kadd (peval a x) (peval b x).
Proof. rewrite <- !pv_peval. apply padd_v. Qed.
Lemma pscale_p k a x : peval (map (kmul k) a) x = kmul k (peval a x).
Proof. rewrite <- !pv_peval. apply pscale_v. Qed.

(* ---- division by x - a ---- *)
Fixpoint sdiv (a : K) (c : list K) : list K := match c with [] => [] | _ :: r => padd r (map (kmul a) (sdiv a r)) end.
Lemma sdiv_len a c : length (sdiv a c) = length c - 1.
Proof. induction c as [|u r IH]; [reflexivity|]. cbn [sdiv length]. rewrite padd_len, map_length, IH. lia. Qed.
Lemma sdiv_v a c x : peval c x = kadd (peval c a) (kmul (ksub x a) (peval (sdiv a c) x)).
Proof.
  induction c as [|u r IH]; cbn [sdiv peval]; [ring|]. rewrite padd_p, pscale_p, IH.
  set (A := peval r a). set (B := peval (sdiv a r) x). ring.
Qed.

Fixpoint vprod (pts : list K) (x : K) : K := match pts with [] => kone | a :: r => kmul (ksub x a) (vprod r x) end.
Lemma ksub_0 a b : ksub a b = kzero -> a = b.
Proof. intros H. replace a with (kadd (ksub a b) b) by ring. rewrite H. ring. Qed.
Lemma k_integral a b : kmul a b = kzero -> a = kzero \/ b = kzero.
Proof.
  intros H. destruct (k_dec a kzero) as [|Na]; [left; assumption|]. right. destruct (k_dec b kzero) as [|Nb]; [assumption|].
  exfalso. exact (k_mul_nz a b Na Nb H).
Qed.
Lemma factor pts : NoDup pts -> forall c, (forall a, In a pts -> peval c a = kzero) ->
  exists g, length g <= length c - length pts /\ forall x, peval c x = kmul (vprod pts x) (peval g x).
Proof.
  induction 1 as [|a r Na ND IH]; intros c Hc.
  - exists c. split; [cbn; lia|]. intros x. cbn [vprod]. ring.
  - destruct (IH (sdiv a c)) as [g [Lg Eg]].
    + intros b Hb. assert (E : peval c b = kzero) by (apply Hc; right; exact Hb). rewrite (sdiv_v a c b), (Hc a (or_introl eq_refl)) in E.
      assert (E' : kmul (ksub b a) (peval (sdiv a c) b) = kzero) by (rewrite <- E; ring).
      destruct (k_integral _ _ E') as [Z|Z]; [|exact Z]. apply ksub_0 in Z. subst b. contradiction.
    + exists g. rewrite sdiv_len in Lg. split; [cbn [length]; lia|]. intros x. rewrite (sdiv_v a c x), (Hc a (or_introl eq_refl)), Eg.
      cbn [vprod]. ring.
Qed.

(* ---- the vanishing polynomial of the subgroup ---- *)
Definition dpts (s : nat) : list K := map (kpow (kroot s)) (seq 0 (pow2 s)).
Lemma kroot_nz s : s <= 32 -> kroot s <> kzero.
Proof.
  intros Hs E. pose proof (kroot_full s Hs) as F. pose proof (pow2_pos s). destruct (pow2 s) as [|m]; [lia|].
  rewrite kpow_S, E in F. apply kone_neq. rewrite <- F. ring.
Qed.
Lemma kpow_nz a n : a <> kzero -> kpow a n <> kzero.
Proof. intros H. induction n; cbn [kpow]; [exact kone_neq|]. apply k_mul_nz; assumption. Qed.
Lemma kroot_inj s i j : s <= 32 -> i < pow2 s -> j < pow2 s -> kpow (kroot s) i = kpow (kroot s) j -> i = j.
Proof.
  intros Hs.
  assert (G : forall i j, i <= j -> i < pow2 s -> j < pow2 s -> kpow (kroot s) i = kpow (kroot s) j -> i = j).
  { clear i j. intros i j L Hi Hj E. replace j with (i + (j - i)) in E by lia. rewrite kpow_add in E.
    assert (E1 : kpow (kroot s) (j - i) = kone).
    { pose proof (kpow_nz (kroot s) i (kroot_nz s Hs)) as N. set (A := kpow (kroot s) i) in *. set (B := kpow (kroot s) (j - i)) in *.
      assert (Z : kmul A (ksub B kone) = kzero) by (transitivity (ksub (kmul A B) A); [ring|rewrite <- E; ring]).
      destruct (k_integral _ _ Z) as [Z'|Z']; [contradiction|]. apply ksub_0. exact Z'. }
    apply kroot_order in E1; [|exact Hs]. destruct E1 as [q E1]. change (2 ^ s) with (pow2 s) in E1.
    destruct q; [lia|]. assert (S q * pow2 s >= pow2 s) by (cbn; lia). lia. }
  intros Hi Hj E. destruct (Nat.le_ge_cases i j) as [L|L]; [apply G; assumption|]. symmetry. apply G; auto.
Qed.
Lemma dpts_nodup s : s <= 32 -> NoDup (dpts s).
Proof.
  intros Hs. unfold dpts. assert (G : forall n b, b + n <= pow2 s -> NoDup (map (kpow (kroot s)) (seq b n))).
  { induction n; intros b Hb; cbn [seq map]; constructor; [|apply IHn; lia]. rewrite in_map_iff. intros [j [E I]]. apply in_seq in I.
    apply kroot_inj in E; [|exact Hs|lia|lia]. lia. }
  apply G. lia.
Qed.
Definition zhl (N : nat) : list K := kneg kone :: repeat kzero (N - 1) ++ [kone].
Lemma zhl_len N : 1 <= N -> length (zhl N) = S N.
Proof. intros H. unfold zhl. cbn [length]. rewrite app_length, repeat_length. cbn. lia. Qed.
Lemma zhl_v N x : 1 <= N -> peval (zhl N) x = ksub (kpow x N) kone.
Proof.
  intros H. unfold zhl. cbn [peval]. rewrite peval_app, peval_zeros, repeat_length. cbn [peval]. destruct N as [|N]; [lia|].
  replace (S N - 1) with N by lia. rewrite kpow_S. ring.
Qed.
Lemma in_dpts s a : In a (dpts s) -> s <= 32 -> kpow a (pow2 s) = kone.
Proof.
  intros H Hs. unfold dpts in H. apply in_map_iff in H. destruct H as [i [<- _]]. rewrite <- kpow_mul, Nat.mul_comm, kpow_mul.
  change (pow2 s) with (2 ^ s). rewrite kroot_full by exact Hs. apply kpow_1.
Qed.
Lemma vprod_zh s : s <= 32 -> exists k, k <> kzero /\ forall x, ksub (kpow x (pow2 s)) kone = kmul (vprod (dpts s) x) k.
Proof.
  intros Hs. pose proof (pow2_pos s) as Pp. destruct (factor (dpts s) (dpts_nodup s Hs) (zhl (pow2 s))) as [g [Lg Eg]].
  - intros a I. rewrite zhl_v by lia. rewrite (in_dpts s a I Hs). ring.
  - rewrite zhl_len in Lg by lia. unfold dpts in Lg at 1. rewrite map_length, seq_length in Lg.
    destruct g as [|k [|? ?]]; [| |cbn [length] in Lg; lia].
    + exfalso. specialize (Eg kzero). rewrite zhl_v in Eg by lia. destruct (pow2 s) as [|m]; [lia|]. rewrite kpow_S in Eg. cbn [peval] in Eg.
      apply kone_neq. replace kone with (kneg (ksub (kmul (kpow kzero m) kzero) kone)) by ring. rewrite Eg. ring.
    + exists k. split.
      * intros ->. specialize (Eg kzero). rewrite zhl_v in Eg by lia. destruct (pow2 s) as [|m]; [lia|]. rewrite kpow_S in Eg. cbn [peval] in Eg.
        apply kone_neq. replace kone with (kneg (ksub (kmul (kpow kzero m) kzero) kone)) by ring. rewrite Eg. ring.
      * intros x. rewrite <- zhl_v by lia. rewrite Eg. cbn [peval]. ring.
Qed.
(* a polynomial vanishing on the subgroup is a multiple of x^N - 1 *)
Lemma zh_div s c : s <= 32 -> (forall i, i < pow2 s -> peval c (kpow (kroot s) i) = kzero) ->
  exists g, length g <= length c - pow2 s /\ forall x, peval c x = kmul (ksub (kpow x (pow2 s)) kone) (peval g x).
Proof.
  intros Hs Hc. destruct (factor (dpts s) (dpts_nodup s Hs) c) as [g [Lg Eg]].
  - intros a I. unfold dpts in I. apply in_map_iff in I. destruct I as [i [<- I]]. apply in_seq in I. apply Hc. lia.
  - unfold dpts in Lg at 1. rewrite map_length, seq_length in Lg. destruct (vprod_zh s Hs) as [k [Nk Ek]].
    exists (map (kmul (kinv k)) g). rewrite map_length. split; [exact Lg|]. intros x. rewrite pscale_p, Eg, Ek.
    set (V := vprod (dpts s) x). set (G := peval g x). field. exact Nk.
Qed.

(* ---- division by x - z for a polynomial vanishing at z ---- *)
Lemma root_div c z : peval c z = kzero -> exists g, length g <= length c - 1 /\ forall x, peval c x = kmul (ksub x z) (peval g x).
Proof. intros H. exists (sdiv z c). rewrite sdiv_len. split; [lia|]. intros x. rewrite (sdiv_v z c x), H. ring. Qed.

(* ---- evaluation at z from the values on the coset ---- *)
Definition kdot (n : nat) (a b : list K) : K := ksum n (fun k => kmul (nth k a kzero) (nth k b kzero)).
Lemma dft_nth s e k : k < pow2 s -> nth k (dft s e) kzero = peval e (kpow (kroot s) k).
Proof. intros H. unfold dft. apply nth_map_seq. exact H. Qed.
Lemma parseval s r e : s <= 31 -> length r = pow2 s -> length e = pow2 s -> kdot (pow2 s) (dft s r) (idft s e) = kdot (pow2 s) r e.
Proof.
  intros Hs Hr He. unfold kdot.
  transitivity (ksum (pow2 s) (fun m => kmul (nth m r kzero) (ksum (pow2 s) (fun k => kmul (nth k (idft s e) kzero) (kpow (kpow (kroot s) m) k))))).
  - transitivity (ksum (pow2 s) (fun k => ksum (pow2 s) (fun m => kmul (kmul (nth m r kzero) (kpow (kpow (kroot s) k) m)) (nth k (idft s e) kzero)))).
    + apply ksum_ext. intros k Hk. rewrite dft_nth by exact Hk. rewrite peval_sum, Hr.
      replace (kmul (ksum (pow2 s) (fun k0 => kmul (nth k0 r kzero) (kpow (kpow (kroot s) k) k0))) (nth k (idft s e) kzero))
        with (kmul (nth k (idft s e) kzero) (ksum (pow2 s) (fun k0 => kmul (nth k0 r kzero) (kpow (kpow (kroot s) k) k0)))) by ring.
      rewrite <- ksum_scale. apply ksum_ext. intros m Hm. ring.
    + rewrite ksum_swap. apply ksum_ext. intros m Hm. rewrite <- ksum_scale. apply ksum_ext. intros k Hk.
      rewrite <- !kpow_mul. rewrite (Nat.mul_comm k m). ring.
  - apply ksum_ext. intros m Hm. refine (f_equal2 kmul eq_refl _).
    transitivity (nth m (dft s (idft s e)) kzero); [|rewrite dft_idft by assumption; reflexivity].
    rewrite dft_nth by exact Hm. rewrite peval_sum, idft_len. reflexivity.
Qed.
Lemma coset_eval s (p : list K) g z : s <= 31 -> length p = pow2 s -> g <> kzero ->
  kdot (pow2 s) (map (fun i => peval p (kmul g (kpow (kroot s) i))) (seq 0 (pow2 s)))
    (idft s (map (fun i => kpow (kmul z (kinv g)) i) (seq 0 (pow2 s)))) = peval p z.
Proof.
  intros Hs Hp Hg. set (r := map (fun m => kmul (nth m p kzero) (kpow g m)) (seq 0 (pow2 s))).
  assert (Er : forall x, peval r x = peval p (kmul g x)).
  { intros x. unfold r. rewrite peval_map_seq, peval_sum, Hp. apply ksum_ext. intros k Hk. rewrite kpow_prod. ring. }
  replace (map (fun i => peval p (kmul g (kpow (kroot s) i))) (seq 0 (pow2 s))) with (dft s r).
  2:{ unfold dft. apply map_ext. intros i. apply Er. }
  rewrite parseval; [|exact Hs|unfold r; rewrite map_length, seq_length; reflexivity|rewrite map_length, seq_length; reflexivity].
  unfold kdot. rewrite peval_sum, Hp. apply ksum_ext. intros k Hk. unfold r. rewrite !nth_map_seq by exact Hk. rewrite kpow_prod.
  assert (I : kmul (kpow g k) (kpow (kinv g) k) = kone).
  { rewrite <- kpow_prod. replace (kmul g (kinv g)) with kone by (field; exact Hg). apply kpow_1. }
  transitivity (kmul (kmul (nth k p kzero) (kpow z k)) (kmul (kpow g k) (kpow (kinv g) k))); [ring|]. rewrite I. ring.
Qed.

(* ---- padding and the coefficients on the coset ---- *)
Definition pad (n : nat) (c : list K) : list K := c ++ repeat kzero (n - length c).
Lemma pad_len n c : length c <= n -> length (pad n c) = n.
Proof. intros H. unfold pad. rewrite app_length, repeat_length. lia. Qed.
Lemma pad_v n c x : peval (pad n c) x = peval c x.
Proof. unfold pad. rewrite peval_app, peval_zeros. ring. Qed.
Lemma pad_nth n c i : length c <= i -> nth i (pad n c) kzero = kzero.
Proof.
  intros H. unfold pad. rewrite app_nth2 by exact H. destruct (Nat.lt_ge_cases (i - length c) (n - length c)) as [L|L].
  - apply nth_repeat.
  - apply nth_overflow. rewrite repeat_length. exact L.
Qed.
Lemma coset_idft b p g : b <= 31 -> length p = pow2 b ->
  idft b (map (fun i => peval p (kmul g (kpow (kroot b) i))) (seq 0 (pow2 b))) = map (fun k => kmul (nth k p kzero) (kpow g k)) (seq 0 (pow2 b)).
Proof.
  intros Hb Hp. set (r := map (fun m => kmul (nth m p kzero) (kpow g m)) (seq 0 (pow2 b))).
  assert (E : map (fun i => peval p (kmul g (kpow (kroot b) i))) (seq 0 (pow2 b)) = dft b r).
  { unfold dft. apply map_ext. intros i. unfold r. rewrite peval_map_seq, peval_sum, Hp. apply ksum_ext. intros k Hk. rewrite kpow_prod. ring. }
  rewrite E. apply idft_dft; [exact Hb|]. unfold r. rewrite map_length, seq_length. reflexivity.
Qed.

(* ---- splitting the quotient ---- *)
Definition qpart (N p : nat) (c : list K) : list K := map (fun i => nth (p * N + i) c kzero) (seq 0 N).
Lemma qpart_len N p c : length (qpart N p c) = N.
Proof. unfold qpart. rewrite map_length, seq_length. reflexivity. Qed.
Lemma split_eval N q c x : length c <= q * N -> peval c x = ksum q (fun p => kmul (kpow (kpow x N) p) (peval (qpart N p c) x)).
Proof.
  intros H. rewrite <- (pad_v (q * N) c x), peval_sum, (pad_len _ _ H), ksum_block. apply ksum_ext. intros p Hp.
  unfold qpart. rewrite peval_map_seq, <- ksum_scale. apply ksum_ext. intros i Hi.
  assert (En : nth (p * N + i) (pad (q * N) c) kzero = nth (p * N + i) c kzero).
  { unfold pad. destruct (Nat.lt_ge_cases (p * N + i) (length c)) as [L|L]; [apply app_nth1; exact L|].
    rewrite (nth_overflow c) by exact L. rewrite app_nth2 by exact L. destruct (Nat.lt_ge_cases (p * N + i - length c) (q * N - length c)); [apply nth_repeat|].
    apply nth_overflow. rewrite repeat_length. lia. }
  rewrite En, kpow_add, (Nat.mul_comm p N), kpow_mul. ring.
Qed.

