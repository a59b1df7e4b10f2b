(* Algebra behind the lookup, permutation and connection arguments: products of linear factors, running products. *)
From Coq Require Import Ring Field Permutation.
From Verif Require Import Base GlModel FrField F3gModel Cubic F3gProof ListAux PolyModel PolyProof FriMath ProverModel ProverProof StarkMath SoundLast.
From Verif Require ImProof.
Open Scope nat_scope.
Open Scope list_scope.
Add Ring K_ring_arg : K_ring.
Add Field K_field_arg : K_field.

(* ---- products ---- *)
Lemma kprod_app a b : kprod (a ++ b) = kmul (kprod a) (kprod b).
Proof. induction a as [|x a IH]; cbn [app kprod]; [ring|]. rewrite IH. ring. Qed.
Lemma kprod_perm a b : Permutation a b -> kprod a = kprod b.
Proof. induction 1; cbn [kprod]; [reflexivity|rewrite IHPermutation; reflexivity|ring|congruence]. Qed.
Lemma kprod_map_mul {A} (f g : A -> K) l : kprod (map (fun x => kmul (f x) (g x)) l) = kmul (kprod (map f l)) (kprod (map g l)).
Proof. induction l as [|x l IH]; cbn [map kprod]; [ring|]. rewrite IH. ring. Qed.
Lemma kprod_in_zero l : In kzero l -> kprod l = kzero.
Proof. induction l as [|x l IH]; cbn [In kprod]; [contradiction|]. intros [-> | H]; [ring|]. rewrite (IH H). ring. Qed.
Lemma kprod_zero_in l : kprod l = kzero -> In kzero l.
Proof.
  induction l as [|x l IH]; cbn [kprod]; intros H; [exfalso; exact (kone_neq H)|]. destruct (k_integral _ _ H) as [Z|Z]; [left; exact Z|right; exact (IH Z)].
Qed.
Lemma kprod_const {A} c (l : list A) : c <> kzero -> kprod (map (fun _ => c) l) <> kzero.
Proof. intros H. induction l as [|x l IH]; cbn [map kprod]; [exact kone_neq|]. apply k_mul_nz; assumption. Qed.

(* the polynomial in g with value the product of a + g over a list *)
Fixpoint lpol (l : list K) : list K := match l with [] => [kone] | a :: r => ImProof.pmul [a; kone] (lpol r) end.
Lemma lpol_v l x : peval (lpol l) x = kprod (map (fun a => kadd a x) l).
Proof. induction l as [|a l IH]; cbn [lpol map kprod]; [cbn [peval]; ring|]. rewrite pmul_p, IH. cbn [peval]. ring. Qed.
Lemma lpol_l l : length (lpol l) <= S (length l).
Proof.
  induction l as [|a l IH]; cbn [lpol]; [cbn [length]; lia|]. destruct (pmul_l [a; kone] (lpol l)) as [H|[H|H]].
  - cbn [length] in H |- *. lia.
  - discriminate H.
  - rewrite H. cbn. lia.
Qed.

Lemma lprod_everywhere a b pts : NoDup pts -> length a < length pts -> length b < length pts ->
  (forall g, In g pts -> kprod (map (fun x => kadd x g) a) = kprod (map (fun x => kadd x g) b)) ->
  forall g, kprod (map (fun x => kadd x g) a) = kprod (map (fun x => kadd x g) b).
Proof.
  intros ND La Lb H g. rewrite <- !lpol_v. apply ksub_0.
  transitivity (peval (ImProof.padd (lpol a) (map (kmul (kneg kone)) (lpol b))) g).
  - rewrite padd_p. assert (E : forall c x, peval (map (kmul (kneg kone)) c) x = kneg (peval c x)).
    { induction c as [|u c IH]; intros x; cbn [map peval]; [ring|]. rewrite IH. ring. }
    rewrite E. ring.
  - apply (vanish pts); [exact ND| |].
    + rewrite ImProof.padd_len, map_length. pose proof (lpol_l a). pose proof (lpol_l b). lia.
    + intros x Hx. rewrite padd_p. assert (E : forall c x, peval (map (kmul (kneg kone)) c) x = kneg (peval c x)).
      { induction c as [|u c IH]; intros y; cbn [map peval]; [ring|]. rewrite IH. ring. }
      rewrite E, !lpol_v, (H x Hx). ring.
Qed.
(* equal products at more points than there are factors: the same factors *)
Lemma lprod_perm : forall a b pts, NoDup pts -> length a < length pts -> length b < length pts ->
  (forall g, In g pts -> kprod (map (fun x => kadd x g) a) = kprod (map (fun x => kadd x g) b)) -> Permutation a b.
Proof.
  induction a as [|u a IH]; intros b pts ND La Lb H; pose proof (lprod_everywhere _ _ pts ND La Lb H) as ALL.
  - destruct b as [|v b]; [constructor|]. exfalso. specialize (ALL (kneg v)). cbn [map kprod] in ALL.
    apply kone_neq. rewrite ALL. ring.
  - assert (IN : In u b).
    { assert (Z : kprod (map (fun x => kadd x (kneg u)) b) = kzero).
      { etransitivity; [symmetry; apply ALL|]. cbn [map kprod]. ring. }
      apply kprod_zero_in in Z. apply in_map_iff in Z. destruct Z as [v [E Hv]]. assert (E' : v = u) by (apply ksub_0; etransitivity; [|exact E]; ring). subst v. exact Hv. }
    apply in_split in IN. destruct IN as [b1 [b2 ->]].
    apply Permutation_cons_app. pose (pts' := filter (fun x => if k_dec x (kneg u) then false else true) pts).
    assert (C : length pts <= S (length pts')).
    { unfold pts'. clear -ND. induction ND as [|x l Nx ND IH]; [cbn; lia|]. cbn [filter length]. destruct (k_dec x (kneg u)) as [->|N]; [|cbn [length]; lia].
      assert (E : filter (fun y => if k_dec y (kneg u) then false else true) l = l).
      { clear -Nx. induction l as [|y l IH]; [reflexivity|]. cbn [filter]. destruct (k_dec y (kneg u)) as [->|N]; [exfalso; apply Nx; left; reflexivity|].
        f_equal. apply IH. intros H. apply Nx. right. exact H. }
      rewrite E. lia. }
    rewrite app_length in Lb. cbn [length] in La, Lb. apply (IH (b1 ++ b2) pts').
    + apply NoDup_filter. exact ND.
    + lia.
    + rewrite app_length. lia.
    + intros g Hg. apply filter_In in Hg. destruct Hg as [Hg Ng]. destruct (k_dec g (kneg u)) as [|N]; [discriminate Ng|].
      assert (NZ : kadd u g <> kzero). { intros Z. apply N. apply ksub_0. etransitivity; [|exact Z]. ring. }
      specialize (H g Hg). cbn [map kprod] in H. rewrite map_app, kprod_app in H |- *. cbn [map kprod] in H.
      apply ksub_0. match goal with |- ?X = _ => destruct (k_integral (kadd u g) X) as [Z|Z]; [|contradiction|exact Z] end.
      transitivity (ksub (kmul (kadd u g) (kprod (map (fun x => kadd x g) a))) (kmul (kadd u g) (kmul (kprod (map (fun x => kadd x g) b1)) (kprod (map (fun x => kadd x g) b2))))); [ring|].
      rewrite H. ring.
Qed.

(* ---- running products ---- *)
Definition nxt (n i : nat) : nat := (i + 1) mod n.
Definition running (n : nat) (z num den : nat -> K) : Prop :=
  z 0 = kone /\ forall i, i < n -> kmul (z (nxt n i)) (den i) = kmul (z i) (num i).
Lemma nxt_small n i : S i < n -> nxt n i = S i.
Proof. intros H. unfold nxt. rewrite Nat.mod_small; lia. Qed.
Lemma nxt_last n : nxt (S n) n = 0.
Proof. unfold nxt. rewrite Nat.add_1_r. apply Nat.mod_same. lia. Qed.
Lemma nxt_lt n i : 0 < n -> nxt n i < n.
Proof. intros H. apply Nat.mod_upper_bound. lia. Qed.
Lemma running_prod n z num den : running n z num den -> kprod (map num (seq 0 n)) = kprod (map den (seq 0 n)).
Proof.
  intros [Z0 R]. destruct n as [|n]; [reflexivity|].
  assert (P : forall k, k <= n -> kmul (z k) (kprod (map den (seq 0 k))) = kprod (map num (seq 0 k))).
  { induction k as [|k IH]; intros Hk; [cbn [seq map kprod]; rewrite Z0; ring|].
    rewrite seq_S, !map_app, !kprod_app. cbn [map kprod Nat.add]. rewrite <- IH by lia.
    specialize (R k ltac:(lia)). rewrite nxt_small in R by lia.
    transitivity (kmul (kprod (map den (seq 0 k))) (kmul (z (S k)) (den k))); [ring|]. rewrite R. ring. }
  rewrite seq_S, !map_app, !kprod_app. cbn [map kprod Nat.add]. rewrite <- (P n (le_n n)). specialize (R n (Nat.lt_succ_diag_r n)).
  rewrite nxt_last, Z0 in R. transitivity (kmul (kprod (map den (seq 0 n))) (kmul (z n) (num n))); [ring|]. rewrite <- R. ring.
Qed.
(* the converse: the products agree and no denominator is zero *)
Lemma running_exists n num den : (forall i, i < n -> den i <> kzero) -> kprod (map num (seq 0 n)) = kprod (map den (seq 0 n)) -> exists z, running n z num den.
Proof.
  intros NZ E. exists (fun k => kdiv (kprod (map num (seq 0 k))) (kprod (map den (seq 0 k)))).
  assert (D : forall k, k <= n -> kprod (map den (seq 0 k)) <> kzero).
  { intros k Hk Z. apply kprod_zero_in, in_map_iff in Z. destruct Z as [i [Zi Hi]]. apply in_seq in Hi. apply (NZ i); [lia|exact Zi]. }
  split; [cbn [seq map kprod]; field; exact kone_neq|]. intros i Hi. destruct (Nat.eq_dec (S i) n) as [<-|Ni].
  - rewrite nxt_last. cbn [seq map kprod]. rewrite seq_S, !map_app, !kprod_app in E. cbn [map kprod Nat.add] in E.
    pose proof (D i ltac:(lia)) as Di. set (a := kprod (map num (seq 0 i))) in *. set (b := kprod (map den (seq 0 i))) in *.
    transitivity (kdiv (kmul b (kmul (den i) kone)) b); [field; split; [exact Di|exact kone_neq]|]. rewrite <- E. field. exact Di.
  - rewrite nxt_small by lia. rewrite seq_S, !map_app, !kprod_app. cbn [map kprod Nat.add].
    pose proof (D i ltac:(lia)) as Di. pose proof (NZ i Hi) as Ni'. field. split; assumption.
Qed.

(* ---- pairs combined with a challenge ---- *)
Definition pairv (b : K) (p : K * K) : K := kadd (fst p) (kmul b (snd p)).
Definition clash (p q : K * K) : K := kdiv (ksub (fst q) (fst p)) (ksub (snd p) (snd q)).
Lemma pairv_inj b p q : pairv b p = pairv b q -> p = q \/ b = clash p q.
Proof.
  destruct p as [p0 p1], q as [q0 q1]. unfold pairv, clash. cbn [fst snd]. intros E. destruct (k_dec p1 q1) as [->|N].
  - left. f_equal. apply ksub_0. transitivity (ksub (kadd p0 (kmul b q1)) (kadd q0 (kmul b q1))); [ring|]. rewrite E. ring.
  - right. assert (NZ : ksub p1 q1 <> kzero) by (intros Z; apply N, ksub_0, Z).
    assert (E' : kmul b (ksub p1 q1) = ksub q0 p0).
    { transitivity (ksub (ksub (kadd p0 (kmul b p1)) (kmul b q1)) p0); [ring|]. rewrite E. ring. }
    rewrite <- E'. field. exact NZ.
Qed.
Definition clashes (A B : list (K * K)) : list K := flat_map (fun p => map (clash p) B) A.
Lemma clashes_len A B : length (clashes A B) = length A * length B.
Proof. unfold clashes. induction A as [|p A IH]; [reflexivity|]. cbn [flat_map length]. rewrite app_length, map_length, IH. lia. Qed.
Lemma clashes_in A B p q : In p A -> In q B -> In (clash p q) (clashes A B).
Proof. intros Hp Hq. apply in_flat_map. exists p. split; [exact Hp|]. apply in_map. exact Hq. Qed.
(* outside the clashes, equal combinations come from equal pairs *)
Lemma pairs_perm b A B : ~ In b (clashes A B) -> Permutation (map (pairv b) A) (map (pairv b) B) -> Permutation A B.
Proof.
  intros NB P. destruct (Permutation_map_inv _ _ P) as [l3 [E P3]].
  (* map A = map l3, Permutation B l3 *)
  enough (E' : A = l3) by (subst l3; apply Permutation_sym; exact P3).
  assert (S3 : forall q, In q l3 -> In q B) by (intros q Hq; apply (Permutation_in q (Permutation_sym P3) Hq)).
  clear P P3. revert A E NB. induction l3 as [|q l3 IH]; intros A E NB.
  - destruct A as [|p A]; [reflexivity|]. apply (f_equal (@length K)) in E. discriminate E.
  - destruct A as [|p A]; [apply (f_equal (@length K)) in E; discriminate E|].
    assert (E1 : pairv b p = pairv b q) by (apply (f_equal (hd kzero)) in E; exact E).
    assert (E2 : map (pairv b) A = map (pairv b) l3) by (apply (f_equal (@tl K)) in E; exact E).
    rewrite (IH (fun r Hr => S3 r (or_intror Hr)) A E2).
    + destruct (pairv_inj _ _ _ E1) as [H|H]; [rewrite H; reflexivity|]. exfalso. apply NB. rewrite H. apply clashes_in; [left; reflexivity|apply S3; left; reflexivity].
    + intros H. apply NB. unfold clashes. cbn [flat_map]. apply in_or_app. right. exact H.
Qed.

(* more distinct elements than bad ones: a good one *)
Lemma good_one (bs bad : list K) : NoDup bs -> length bad < length bs -> exists b, In b bs /\ ~ In b bad.
Proof.
  intros ND L. destruct (Exists_dec (fun b => ~ In b bad) bs) as [H|H].
  - intros b. destruct (in_dec k_dec b bad) as [I|I]; [right; intros N; exact (N I)|left; exact I].
  - apply Exists_exists in H. exact H.
  - exfalso. assert (I : incl bs bad).
    { intros b Hb. destruct (in_dec k_dec b bad) as [I|I]; [exact I|]. exfalso. apply H. apply Exists_exists. exists b. split; assumption. }
    pose proof (NoDup_incl_length ND I). lia.
Qed.

Lemma in_mapseq {A} (f : nat -> A) n x : In x (map f (seq 0 n)) <-> exists i, i < n /\ f i = x.
Proof.
  rewrite in_map_iff. split.
  - intros [i [E H]]. apply in_seq in H. exists i. split; [lia|exact E].
  - intros [i [H E]]. exists i. split; [exact E|]. apply in_seq. lia.
Qed.
