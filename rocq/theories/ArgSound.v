(* The lookup, permutation and connection arguments: what a running product at enough challenges establishes, and that
   an honest prover always has one. *)
From Coq Require Import Ring Field Permutation.
From Verif Require Import Base GlModel FrField F3gModel Cubic F3gProof ListAux PolyModel PolyProof FriMath ProverModel ProverProof StarkMath SoundLast ArgMath.
From Verif Require ImProof.
Open Scope nat_scope.
Open Scope list_scope.
Add Ring K_ring_args : K_ring.
Add Field K_field_args : K_field.

(* more than m elements have the property *)
Definition many (m : nat) (P : K -> Prop) : Prop := exists l, NoDup l /\ m < length l /\ forall x, In x l -> P x.
Lemma many_good m (P : K -> Prop) bad : many m P -> length bad <= m -> exists x, P x /\ ~ In x bad.
Proof. intros [l [ND [L A]]] H. destruct (good_one l bad ND) as [x [Hx Nx]]; [lia|]. exists x. split; [apply A, Hx|exact Nx]. Qed.
Lemma many_mono m (P Q : K -> Prop) : (forall x, P x -> Q x) -> many m P -> many m Q.
Proof. intros H [l [ND [L A]]]. exists l. repeat split; auto. Qed.

Lemma lprod_scaled a b c m : c <> kzero -> length a <= m -> length b <= m ->
  many m (fun g => kprod (map (fun x => kadd x (kmul g c)) a) = kprod (map (fun x => kadd x (kmul g c)) b)) -> Permutation a b.
Proof.
  intros Hc La Lb [gs [ND [L A]]]. apply (lprod_perm a b (map (fun g => kmul g c) gs)).
  - apply nodup_map; [|exact ND]. intros u v _ _ E. apply ksub_0. destruct (k_integral (ksub u v) c) as [Z|Z]; [|exact Z|contradiction].
    transitivity (ksub (kmul u c) (kmul v c)); [ring|]. rewrite E. ring.
  - rewrite map_length. lia.
  - rewrite map_length. lia.
  - intros g Hg. apply in_map_iff in Hg. destruct Hg as [g' [<- Hg']]. apply A. exact Hg'.
Qed.

(* ---- permutation ---- *)
Theorem perm_sound n (f t : nat -> K) :
  many n (fun b => exists z, running n z (fun i => kadd (f i) b) (fun i => kadd (t i) b)) ->
  Permutation (map f (seq 0 n)) (map t (seq 0 n)).
Proof.
  intros [bs [ND [L A]]]. apply (lprod_perm _ _ bs); [exact ND|rewrite map_length, seq_length; exact L|rewrite map_length, seq_length; exact L|].
  intros g Hg. destruct (A g Hg) as [z R]. apply running_prod in R. rewrite !map_map. exact R.
Qed.
Theorem perm_complete n (f t : nat -> K) b : Permutation (map f (seq 0 n)) (map t (seq 0 n)) -> (forall i, i < n -> kadd (t i) b <> kzero) ->
  exists z, running n z (fun i => kadd (f i) b) (fun i => kadd (t i) b).
Proof.
  intros P NZ. apply running_exists; [exact NZ|]. rewrite <- (map_map f (fun x => kadd x b)), <- (map_map t (fun x => kadd x b)). apply kprod_perm, Permutation_map, P.
Qed.

(* ---- lookup ---- *)
Section Lookup.
  Variables (n : nat) (f t h1 h2 : nat -> K).
  Definition lk_num (b g : K) (i : nat) : K :=
    kmul (kmul (kadd (f i) g) (kadd (kadd (t i) (kmul (t (nxt n i)) b)) (kmul g (kadd kone b)))) (kadd kone b).
  Definition lk_den (b g : K) (i : nat) : K :=
    kmul (kadd (kadd (h1 i) (kmul (h2 i) b)) (kmul g (kadd kone b))) (kadd (kadd (h2 i) (kmul (h1 (nxt n i)) b)) (kmul g (kadd kone b))).
  Definition lk_A : list (K * K) := map (fun i => (f i, f i)) (seq 0 n) ++ map (fun i => (t i, t (nxt n i))) (seq 0 n).
  Definition lk_B : list (K * K) := map (fun i => (h1 i, h2 i)) (seq 0 n) ++ map (fun i => (h2 i, h1 (nxt n i))) (seq 0 n).
  Lemma lk_num_prod b g : kprod (map (lk_num b g) (seq 0 n)) = kprod (map (fun x => kadd x (kmul g (kadd kone b))) (map (pairv b) lk_A)).
  Proof.
    unfold lk_A. rewrite !map_app, kprod_app, !map_map, <- kprod_map_mul. refine (f_equal kprod _). apply map_ext. intros i. unfold lk_num, pairv. cbn [fst snd]. ring.
  Qed.
  Lemma lk_den_prod b g : kprod (map (lk_den b g) (seq 0 n)) = kprod (map (fun x => kadd x (kmul g (kadd kone b))) (map (pairv b) lk_B)).
  Proof.
    unfold lk_B. rewrite !map_app, kprod_app, !map_map, <- kprod_map_mul. refine (f_equal kprod _). apply map_ext. intros i. unfold lk_den, pairv. cbn [fst snd]. ring.
  Qed.
  Lemma lk_A_len : length lk_A = 2 * n. Proof. unfold lk_A. rewrite app_length, !map_length, seq_length. lia. Qed.
  Lemma lk_B_len : length lk_B = 2 * n. Proof. unfold lk_B. rewrite app_length, !map_length, seq_length. lia. Qed.
  Lemma in_A p : In p lk_A <-> (exists i, i < n /\ (f i, f i) = p) \/ (exists i, i < n /\ (t i, t (nxt n i)) = p).
  Proof. unfold lk_A. rewrite in_app_iff, !in_mapseq. reflexivity. Qed.
  Lemma in_B p : In p lk_B <-> (exists i, i < n /\ (h1 i, h2 i) = p) \/ (exists i, i < n /\ (h2 i, h1 (nxt n i)) = p).
  Proof. unfold lk_B. rewrite in_app_iff, !in_mapseq. reflexivity. Qed.

  (* every row of f is among the rows of t *)
  Lemma runs : Permutation lk_A lk_B -> forall i, i < n -> exists j, j < n /\ t j = f i.
  Proof.
    intros P i Hi. destruct (in_dec k_dec (f i) (map t (seq 0 n))) as [H|H].
    { apply in_mapseq in H. exact H. }
    exfalso. set (v := f i) in *.
    assert (NT : forall j, j < n -> t j <> v). { intros j Hj E. apply H. apply in_mapseq. exists j. split; assumption. }
    assert (ST : forall p, In p lk_B -> fst p = v -> snd p = v).
    { intros p Hp E. apply (Permutation_in p (Permutation_sym P)) in Hp. apply in_A in Hp. destruct Hp as [[j [Hj <-]]|[j [Hj <-]]]; cbn [fst snd] in *; [exact E|].
      exfalso. exact (NT j Hj E). }
    assert (S1 : forall j, j < n -> h1 j = v -> h2 j = v).
    { intros j Hj E. apply (ST (h1 j, h2 j)); [|exact E]. apply in_B. left. exists j. split; [exact Hj|reflexivity]. }
    assert (S2 : forall j, j < n -> h2 j = v -> h1 (nxt n j) = v).
    { intros j Hj E. apply (ST (h2 j, h1 (nxt n j))); [|exact E]. apply in_B. right. exists j. split; [exact Hj|reflexivity]. }
    assert (IN : In (v, v) lk_B).
    { apply (Permutation_in _ P). apply in_A. left. exists i. split; [exact Hi|reflexivity]. }
    assert (ST0 : exists j, j < n /\ h1 j = v).
    { apply in_B in IN. destruct IN as [[j [Hj E]]|[j [Hj E]]].
      - exists j. split; [exact Hj|]. apply (f_equal fst) in E. exact E.
      - exists (nxt n j). split; [apply nxt_lt; lia|]. apply (f_equal snd) in E. exact E. }
    destruct ST0 as [j0 [Hj0 E0]].
    assert (ALL : forall k, h1 ((j0 + k) mod n) = v).
    { induction k as [|k IH]; [rewrite Nat.add_0_r, Nat.mod_small by exact Hj0; exact E0|].
      assert (L : (j0 + k) mod n < n) by (apply Nat.mod_upper_bound; lia). specialize (S2 _ L (S1 _ L IH)).
      unfold nxt in S2. rewrite Nat.add_mod_idemp_l in S2 by lia. replace (j0 + S k) with (j0 + k + 1) by lia. exact S2. }
    assert (ALL1 : forall j, j < n -> h1 j = v).
    { intros j Hj. specialize (ALL (n - j0 + j)). replace (j0 + (n - j0 + j)) with (j + 1 * n) in ALL by lia. rewrite Nat.mod_add, Nat.mod_small in ALL by lia. exact ALL. }
    assert (T0 : In (t 0, t (nxt n 0)) lk_B).
    { apply (Permutation_in _ P). apply in_A. right. exists 0. split; [lia|reflexivity]. }
    apply in_B in T0. destruct T0 as [[j [Hj E]]|[j [Hj E]]]; apply (f_equal fst) in E; cbn [fst] in E; apply (NT 0); try lia; rewrite <- E.
    - apply ALL1. exact Hj.
    - apply S1; [exact Hj|]. apply ALL1. exact Hj.
  Qed.

  Theorem lookup_sound :
    many (1 + 4 * n * n) (fun b => many (2 * n) (fun g => exists z, running n z (lk_num b g) (lk_den b g))) ->
    forall i, i < n -> exists j, j < n /\ t j = f i.
  Proof.
    intros M. destruct (many_good _ _ (kneg kone :: clashes lk_A lk_B) M) as [b [G Nb]].
    { cbn [length]. rewrite clashes_len, lk_A_len, lk_B_len. lia. }
    apply runs. apply (pairs_perm b).
    - intros H. apply Nb. right. exact H.
    - apply (lprod_scaled _ _ (kadd kone b) (2 * n)).
      + intros Z. apply Nb. left. apply ksub_0. transitivity (kneg (kadd kone b)); [ring|]. rewrite Z. ring.
      + rewrite map_length, lk_A_len. lia.
      + rewrite map_length, lk_B_len. lia.
      + revert G. apply many_mono. intros g [z R]. apply running_prod in R. rewrite lk_num_prod, lk_den_prod in R. exact R.
  Qed.
End Lookup.

(* the cyclic neighbours of a list *)
Fixpoint prs {A} (l : list A) (e : A) : list (A * A) := match l with [] => [] | a :: r => (a, hd e r) :: prs r e end.
Lemma prs_app {A} (a b : list A) e : prs (a ++ b) e = prs a (hd e b) ++ prs b e.
Proof.
  induction a as [|x a IH]; [reflexivity|]. cbn [app prs]. rewrite IH. f_equal. f_equal. destruct a; reflexivity.
Qed.
Lemma prs_repeat {A} (x : A) c e : prs (repeat x (S c)) e = repeat (x, x) c ++ [(x, e)].
Proof. induction c as [|c IH]; [reflexivity|]. cbn [repeat prs] in IH |- *. cbn [hd app]. f_equal. exact IH. Qed.
Lemma prs_seq {A} (d : A) l e : prs l e = map (fun i => (nth i l d, nth (S i) (l ++ [e]) d)) (seq 0 (length l)).
Proof.
  revert e. induction l as [|a l IH]; intros e; [reflexivity|]. cbn [prs length seq map]. f_equal.
  - cbn [nth app]. f_equal. destruct l; reflexivity.
  - rewrite IH, <- seq_shift, map_map. apply map_ext. intros i. reflexivity.
Qed.
Lemma prs_cyc {A} (d : A) l n : length l = n -> 0 < n -> prs l (hd d l) = map (fun i => (nth i l d, nth (nxt n i) l d)) (seq 0 n).
Proof.
  intros L Hn. rewrite (prs_seq d), L. apply map_ext_in. intros i Hi. apply in_seq in Hi. f_equal. destruct (Nat.eq_dec (S i) n) as [E|N].
  - rewrite app_nth2 by lia. replace (S i - length l) with 0 by lia. destruct n as [|m]; [lia|]. assert (i = m) by lia. subst i. rewrite nxt_last.
    cbn [nth]. destruct l; reflexivity.
  - rewrite nxt_small by lia. rewrite app_nth1 by lia. reflexivity.
Qed.
Definition weave {A} (l r : list A) : list A := flat_map (fun p => [fst p; snd p]) (combine l r).
Lemma weave_prs {A} (d : A) : forall l r e, length l = length r ->
  Permutation (prs (weave l r) e) (combine l r ++ map (fun i => (nth i r d, nth (S i) (l ++ [e]) d)) (seq 0 (length l))).
Proof.
  induction l as [|a l IH]; intros [|b r] e L; try discriminate L; [constructor|]. cbn [length] in L. unfold weave. cbn [combine flat_map app prs hd fst snd length seq map].
  fold (weave l r). constructor. assert (H : hd e (weave l r) = nth 0 (l ++ [e]) d).
  { destruct l as [|x l], r as [|y r]; try discriminate L; reflexivity. }
  rewrite H. change (nth 0 (l ++ [e]) d) with (nth 1 (a :: l ++ [e]) d). change b with (nth 0 (b :: r) d) at 1. apply Permutation_cons_app.
  rewrite <- seq_shift, map_map. apply IH. lia.
Qed.

Lemma map_prs {A B} (h : A -> B) l e : map (fun p => (h (fst p), h (snd p))) (prs l e) = prs (map h l) (h e).
Proof. induction l as [|a l IH]; [reflexivity|]. cbn [prs map fst snd]. rewrite IH. f_equal. f_equal. destruct l; reflexivity. Qed.
Lemma map_repeat' {A B} (h : A -> B) x k : map h (repeat x k) = repeat (h x) k.
Proof. induction k as [|k IH]; [reflexivity|]. cbn [repeat map]. now rewrite IH. Qed.
Definition blocks {A} (t : list A) (c : list nat) : list A := concat (map (fun p => repeat (fst p) (S (snd p))) (combine t c)).
Definition extras {A} (t : list A) (c : list nat) : list A := concat (map (fun p => repeat (fst p) (snd p)) (combine t c)).
Lemma blocks_perm {A} : forall (t : list A) c, length c = length t -> Permutation (blocks t c) (t ++ extras t c).
Proof.
  induction t as [|a t IH]; intros [|k c] L; try discriminate L; [constructor|]. unfold blocks, extras. cbn [combine map concat fst snd]. fold (blocks t c) (extras t c).
  cbn [repeat app]. constructor. rewrite (Permutation_app_comm t), <- app_assoc. apply Permutation_app_head. rewrite Permutation_app_comm. apply IH. cbn in L; lia.
Qed.
Lemma blocks_prs {A} : forall (t : list A) c e, length c = length t -> Permutation (prs (blocks t c) e) (map (fun x => (x, x)) (extras t c) ++ prs t e).
Proof.
  induction t as [|a t IH]; intros [|k c] e L; try discriminate L; [constructor|]. cbn [length] in L. unfold blocks, extras. cbn [combine map concat fst snd]. fold (blocks t c) (extras t c).
  rewrite prs_app, prs_repeat, map_app, map_repeat', <- !app_assoc. apply Permutation_app_head. cbn [app].
  assert (H : hd e (blocks t c) = hd e t). { destruct t as [|x t], c as [|y c]; try discriminate L; reflexivity. }
  rewrite H. cbn [prs]. apply Permutation_cons_app. apply IH. lia.
Qed.

(* the columns calculated by the prover *)
Theorem lookup_products n (f t h1 h2 : list F3G) : 0 < n -> length f = n -> length t = n -> calculate_H1H2 f t = Ok (h1, h2) ->
  let col l := fun i => val (nth i l e_ZERO) in
  forall b g, kprod (map (lk_num n (col f) (col t) b g) (seq 0 n)) = kprod (map (lk_den n (col h1) (col h2) b g) (seq 0 n)).
Proof.
  intros Hn Lf Lt E. destruct (h1h2_spec f t h1 h2 E) as [L1 [L2 [_ [_ [s [cs [Lc [Es [P F]]]]]]]]]. intros col b g.
  rewrite lk_num_prod, lk_den_prod. apply kprod_perm, Permutation_map, Permutation_map.
  pose (vv := fun p : F3G * F3G => (val (fst p), val (snd p))).
  assert (Ls : length s = 2 * n). { rewrite (Permutation_length P), app_length. lia. }
  assert (F' : weave h1 h2 = s). { transitivity (firstn (2 * length f) s); [exact F|]. apply firstn_all2. lia. }
  assert (PF : Permutation f (extras t cs)).
  { apply (Permutation_app_inv_l t). rewrite <- P, Es. apply blocks_perm. exact Lc. }
  fold (blocks t cs) in Es.
  assert (HD : hd e_ZERO s = hd e_ZERO t). { rewrite Es. destruct t as [|x t], cs as [|y cs]; try discriminate Lc; reflexivity. }
  assert (HH : hd e_ZERO h1 = hd e_ZERO s). { rewrite <- F'. destruct h1 as [|x h1], h2 as [|y h2]; try reflexivity; cbn [length] in L1, L2; lia. }
  assert (A1 : lk_A n (col f) (col t) = map vv (map (fun x => (x, x)) f ++ prs t (hd e_ZERO t))).
  { unfold lk_A. rewrite map_app. f_equal.
    - rewrite map_map. rewrite <- Lf. apply (nth_ext _ _ (kzero, kzero) (vv (e_ZERO, e_ZERO))).
      + rewrite !map_length, seq_length. reflexivity.
      + intros i Hi. rewrite map_length, seq_length in Hi. rewrite (nth_indep _ _ ((fun i => (col f i, col f i)) 0)) by (rewrite map_length, seq_length; exact Hi).
        rewrite (map_nth (fun i => (col f i, col f i))), seq_nth by exact Hi. rewrite (map_nth (fun x => vv (x, x)) f e_ZERO). reflexivity.
    - rewrite (prs_cyc e_ZERO t n Lt Hn), map_map. apply map_ext. intros i. reflexivity. }
  assert (B1 : Permutation (lk_B n (col h1) (col h2)) (map vv (prs s (hd e_ZERO s)))).
  { rewrite <- F' at 1. rewrite <- HH. rewrite (weave_prs e_ZERO h1 h2 (hd e_ZERO h1)) by lia. unfold lk_B. rewrite map_app. apply Permutation_app.
    - match goal with |- Permutation ?a ?b => enough (EE : a = b) by (rewrite EE; apply Permutation_refl) end. apply (nth_ext _ _ (kzero, kzero) (vv (e_ZERO, e_ZERO))).
      + rewrite !map_length, seq_length, combine_length. lia.
      + intros i Hi. rewrite map_length, seq_length in Hi. rewrite (nth_indep _ _ ((fun i => (col h1 i, col h2 i)) 0)) by (rewrite map_length, seq_length; exact Hi).
        rewrite (map_nth (fun i => (col h1 i, col h2 i))), seq_nth by exact Hi. rewrite (map_nth vv (combine h1 h2) (e_ZERO, e_ZERO)), combine_nth by lia. reflexivity.
    - match goal with |- Permutation ?a ?b => enough (EE : a = b) by (rewrite EE; apply Permutation_refl) end. rewrite map_map, L1, Lf. apply map_ext_in. intros i Hi. apply in_seq in Hi. unfold vv. cbn [fst snd]. unfold col. f_equal. apply (f_equal val).
      destruct (Nat.eq_dec (S i) n) as [Ei|N].
      + destruct n as [|m]; [lia|]. assert (i = m) by lia. subst i. rewrite nxt_last, app_nth2 by lia. replace (S m - length h1) with 0 by lia. destruct h1; reflexivity.
      + rewrite nxt_small by lia. rewrite app_nth1 by lia. reflexivity. }
  rewrite A1, B1. apply Permutation_map. rewrite HD, Es, (blocks_prs t cs (hd e_ZERO t) Lc). apply Permutation_app_tail. apply Permutation_map. exact PF.
Qed.
