(* Rows of several columns combined by powers of a challenge, selectors, and copy constraints. *)
From Coq Require Import Ring Field Permutation.
From Verif Require Import Base GlModel FrField F3gModel Cubic F3gProof ListAux PolyModel PolyProof FriMath ProverModel ProverProof StarkMath SoundLast ArgMath ArgSound.
From Verif Require ImProof.
Open Scope nat_scope.
Open Scope list_scope.
Add Ring K_ring_argr : K_ring.
Add Field K_field_argr : K_field.

Lemma without a pts : NoDup pts -> exists pts' : list K, NoDup pts' /\ (forall x, In x pts' -> In x pts /\ x <> a) /\ length pts <= S (length pts').
Proof.
  induction 1 as [|x l Nx ND [q [NDq [Iq Lq]]]]; [exists []; split; [constructor|split; [intros x []|cbn; lia]]|].
  destruct (k_dec x a) as [->|N].
  - exists l. split; [exact ND|split; [|cbn [length]; lia]]. intros x Hx. split; [right; exact Hx|]. intros ->. exact (Nx Hx).
  - exists (x :: q). split; [|split].
    + constructor; [|exact NDq]. intros H. apply Nx. apply Iq, H.
    + intros y [<-|Hy]; [split; [left; reflexivity|exact N]|]. destruct (Iq y Hy) as [A B]. split; [right; exact A|exact B].
    + cbn [length]. lia.
Qed.
Lemma coef_zero : forall c pts, NoDup pts -> length c <= length pts -> (forall a, In a pts -> peval c a = kzero) -> forall x, In x c -> x = kzero.
Proof.
  induction c as [|u c IH]; intros pts ND L V x Hx; [destruct Hx|]. cbn [length] in L.
  pose proof (vanish pts (u :: c) ND L V) as ALL. assert (U : u = kzero).
  { specialize (ALL kzero). cbn [peval] in ALL. etransitivity; [|exact ALL]. ring. }
  destruct Hx as [<-|Hx]; [exact U|]. destruct (without kzero pts ND) as [q [NDq [Iq Lq]]].
  apply (IH q NDq); [lia| |exact Hx]. intros a Ha. destruct (Iq a Ha) as [_ Na]. specialize (ALL a). cbn [peval] in ALL. rewrite U in ALL.
  destruct (k_integral a (peval c a)) as [Z|Z]; [|contradiction|exact Z]. etransitivity; [|exact ALL]. ring.
Qed.

(* ---- a row of columns as one value ---- *)
Definition hor (u : K) (l : list K) : K := match l with [] => kzero | a :: r => fold_left (fun s e => kadd (kmul s u) e) r a end.
Lemma fold_hor u l : forall a, fold_left (fun s e => kadd (kmul s u) e) l a = peval (rev l ++ [a]) u.
Proof.
  induction l as [|e l IH] using rev_ind; intros a; [cbn [fold_left rev app peval]; ring|].
  rewrite fold_left_app, rev_app_distr. cbn [fold_left rev app peval]. rewrite IH. ring.
Qed.
Lemma hor_peval u l : hor u l = peval (rev l) u.
Proof. destruct l as [|a r]; [reflexivity|]. unfold hor. rewrite fold_hor. reflexivity. Qed.
Lemma psub_v : forall a b x, length a = length b -> peval (map (fun p => ksub (fst p) (snd p)) (combine a b)) x = ksub (peval a x) (peval b x).
Proof.
  induction a as [|u a IH]; intros b x L.
  - destruct b; [|discriminate L]. cbn [combine map peval]. ring.
  - destruct b as [|v b]; [discriminate L|]. cbn [combine map peval fst snd]. rewrite IH by (cbn [length] in L; lia). ring.
Qed.
(* different rows of m columns agree for less than m challenges *)
Lemma hor_inj m v w us : length v = m -> length w = m -> NoDup us -> m <= length us -> (forall u, In u us -> hor u v = hor u w) -> v = w.
Proof.
  intros Lv Lw ND L A. rewrite <- (rev_involutive v), <- (rev_involutive w). f_equal.
  assert (Ll : length (rev v) = length (rev w)) by (rewrite !rev_length; lia).
  assert (Z : forall x, In x (map (fun p => ksub (fst p) (snd p)) (combine (rev v) (rev w))) -> x = kzero).
  { apply (coef_zero _ us ND).
    - rewrite map_length, combine_length, !rev_length. lia.
    - intros a Ha. rewrite psub_v by exact Ll. rewrite <- !hor_peval, (A a Ha). ring. }
  revert Z Ll. generalize (rev v) (rev w). clear. induction l as [|a l IH]; intros r Z L.
  - destruct r; [reflexivity|discriminate L].
  - destruct r as [|b r]; [discriminate L|]. cbn [combine map fst snd length] in *. rewrite (IH r).
    + rewrite (ksub_0 a b); [reflexivity|]. apply Z. left. reflexivity.
    + intros x Hx. apply Z. right. exact Hx.
    + lia.
Qed.
(* ... so a challenge outside a small exceptional set distinguishes all rows of two tables *)
Definition collide (u : K) (p : list K * list K) : bool := if k_dec (hor u (fst p)) (hor u (snd p)) then true else false.
Lemma list_dec (v w : list K) : {v = w} + {v <> w}.
Proof. exact (list_eq_dec k_dec v w). Qed.
Lemma separating m (ps : list (list K * list K)) (P : K -> Prop) :
  (forall p, In p ps -> length (fst p) = m /\ length (snd p) = m) -> many (length ps * (m - 1)) P ->
  exists u, P u /\ forall p, In p ps -> hor u (fst p) = hor u (snd p) -> fst p = snd p.
Proof.
  intros W [us [ND [L A]]].
  pose (ps' := filter (fun p => if list_dec (fst p) (snd p) then false else true) ps).
  pose (bad := flat_map (fun p => filter (fun u => collide u p) us) ps').
  assert (LB : length bad <= length ps * (m - 1)).
  { assert (L1 : length ps' <= length ps) by (unfold ps'; clear; induction ps as [|p l IH]; [cbn; lia|]; cbn [filter]; destruct (list_dec (fst p) (snd p)); cbn [length]; lia).
    assert (L2 : length bad <= length ps' * (m - 1)).
    { unfold bad. assert (Q : forall p, In p ps' -> length (filter (fun u => collide u p) us) <= m - 1).
      { intros p Hp. unfold ps' in Hp. apply filter_In in Hp. destruct Hp as [Hp Np]. destruct (list_dec (fst p) (snd p)) as [|N]; [discriminate Np|].
        destruct (W p Hp) as [W1 W2]. destruct (Nat.le_gt_cases m (length (filter (fun u => collide u p) us))) as [H|H]; [|lia]. exfalso. apply N.
        apply (hor_inj m _ _ (filter (fun u => collide u p) us)); [exact W1|exact W2|apply NoDup_filter, ND|exact H|]. intros u Hu. apply filter_In in Hu. destruct Hu as [_ Hu].
        unfold collide in Hu. destruct (k_dec (hor u (fst p)) (hor u (snd p))) as [E|]; [exact E|discriminate Hu]. }
      clear -Q. revert Q. generalize ps'. induction ps'0 as [|p l IH]; intros Q; [cbn; lia|]. cbn [flat_map length]. rewrite app_length.
      pose proof (Q p (or_introl eq_refl)). specialize (IH (fun q Hq => Q q (or_intror Hq))). lia. }
    etransitivity; [exact L2|]. apply Nat.mul_le_mono_r. exact L1. }
  destruct (good_one us bad ND) as [u [Hu Nu]]; [lia|]. exists u. split; [apply A, Hu|].
  intros p Hp E. destruct (list_dec (fst p) (snd p)) as [|N]; [assumption|]. exfalso. apply Nu. apply in_flat_map. exists p. split.
  - apply filter_In. split; [exact Hp|]. destruct (list_dec (fst p) (snd p)); [contradiction|reflexivity].
  - apply filter_In. split; [exact Hu|]. unfold collide. destruct (k_dec (hor u (fst p)) (hor u (snd p))); [reflexivity|contradiction].
Qed.

(* ---- selectors ---- *)
Definition sel (s x d : K) : K := kadd (kmul (ksub x d) s) d.
Lemma sel_1 x d : sel kone x d = x. Proof. unfold sel. ring. Qed.
Lemma sel_0 x d : sel kzero x d = d. Proof. unfold sel. ring. Qed.
Definition bit (s : K) : Prop := s = kzero \/ s = kone.
Definition isone (s : K) : bool := if k_dec s kone then true else false.
Lemma isone_1 s : isone s = true <-> s = kone.
Proof. unfold isone. destruct (k_dec s kone); split; intros H; try assumption; try reflexivity; try discriminate H. contradiction. Qed.

(* a lookup of rows of m columns with optional selectors; F and T are the rows, sF and sT the selectors *)
Theorem lookup_rows n m (F T : nat -> list K) (sF sT : nat -> K) :
  (forall i, i < n -> length (F i) = m /\ length (T i) = m /\ bit (sF i) /\ bit (sT i)) ->
  many (n * n * (m - 1)) (fun u => many n (fun d => exists h1 h2,
    many (1 + 4 * n * n) (fun b => many (2 * n) (fun g => exists z,
      let t := fun i => sel (sT i) (hor u (T i)) d in
      let f := fun i => sel (sF i) (hor u (F i)) (t i) in
      running n z (lk_num n f t b g) (lk_den n h1 h2 b g))))) ->
  forall i, i < n -> sF i = kone -> exists j, j < n /\ sT j = kone /\ T j = F i.
Proof.
  intros W M i Hi Si.
  pose (ps := list_prod (map T (seq 0 n)) (map F (seq 0 n))).
  destruct (separating m ps) with (P := fun u => many n (fun d => exists h1 h2,
    many (1 + 4 * n * n) (fun b => many (2 * n) (fun g => exists z,
      let t := fun i => sel (sT i) (hor u (T i)) d in
      let f := fun i => sel (sF i) (hor u (F i)) (t i) in
      running n z (lk_num n f t b g) (lk_den n h1 h2 b g))))) as [u [Mu Su]].
  - intros [a c] Hp. unfold ps in Hp. apply in_prod_iff in Hp. destruct Hp as [Ha Hc]. apply in_mapseq in Ha, Hc. destruct Ha as [j [Hj <-]], Hc as [k [Hk <-]].
    cbn [fst snd]. split; [apply W, Hj|apply W, Hk].
  - unfold ps. rewrite prod_length, !map_length, seq_length. exact M.
  - destruct (many_good _ _ (map (fun i => hor u (F i)) (seq 0 n)) Mu) as [d [[h1 [h2 G]] Nd]]; [rewrite map_length, seq_length; lia|].
    cbv zeta in G. destruct (lookup_sound n _ _ h1 h2 G i Hi) as [j [Hj E]]. rewrite Si, sel_1 in E.
    destruct (proj2 (proj2 (proj2 (W j Hj)))) as [Z|O].
    + exfalso. apply Nd. rewrite Z, sel_0 in E. rewrite E. apply in_mapseq. exists i. split; [exact Hi|reflexivity].
    + exists j. split; [exact Hj|]. split; [exact O|]. rewrite O, sel_1 in E. apply (Su (T j, F i)); [|exact E].
      unfold ps. apply in_prod_iff. split; apply in_mapseq; [exists j|exists i]; (split; [assumption|reflexivity]).
Qed.

(* rows with their selector on, as values and as rows *)
Lemma filter_perm {A} (p : A -> bool) (l r : list A) : Permutation l r -> Permutation (filter p l) (filter p r).
Proof.
  induction 1 as [|x l r H IH|x y l|l r q H1 IH1 H2 IH2]; cbn [filter]; [constructor| | |].
  - destruct (p x); [constructor|]; exact IH.
  - destruct (p x), (p y); try constructor; apply Permutation_refl.
  - etransitivity; eassumption.
Qed.
Definition isnt (d x : K) : bool := if k_dec x d then false else true.
Lemma selected n (x s : nat -> K) d : (forall i, i < n -> bit (s i) /\ x i <> d) ->
  filter (isnt d) (map (fun i => sel (s i) (x i) d) (seq 0 n)) = map x (filter (fun i => isone (s i)) (seq 0 n)).
Proof.
  intros W. assert (W' : forall i, In i (seq 0 n) -> bit (s i) /\ x i <> d) by (intros i Hi; apply in_seq in Hi; apply W; lia).
  revert W'. generalize (seq 0 n) as l. clear. induction l as [|i l IH]; intros W; [reflexivity|]. cbn [map filter].
  destruct (W i (or_introl eq_refl)) as [B N]. specialize (IH (fun j Hj => W j (or_intror Hj))). destruct B as [Z|O].
  - rewrite Z, sel_0. unfold isnt at 1. destruct (k_dec d d) as [_|N']; [|contradiction].
    assert (Eo : isone kzero = false). { unfold isone. destruct (k_dec kzero kone) as [E|_]; [exfalso; apply kone_neq; symmetry; exact E|reflexivity]. }
    rewrite Eo. exact IH.
  - rewrite O, sel_1. unfold isnt at 1. destruct (k_dec (x i) d) as [E|_]; [contradiction|].
    assert (Eo : isone kone = true) by (apply isone_1; reflexivity). rewrite Eo. cbn [map]. rewrite IH. reflexivity.
Qed.
Lemma map_perm_inj {A B} (h : A -> B) (l r : list A) : (forall x y, In x l -> In y r -> h x = h y -> x = y) -> Permutation (map h l) (map h r) -> Permutation l r.
Proof.
  intros I P. destruct (Permutation_map_inv _ _ P) as [q [E Pq]]. enough (Eq : l = q) by (subst q; apply Permutation_sym; exact Pq).
  assert (I' : forall x y, In x l -> In y q -> h x = h y -> x = y).
  { intros x y Hx Hy. apply I; [exact Hx|]. apply (Permutation_in y (Permutation_sym Pq) Hy). }
  clear -E I'. revert q E I'. induction l as [|a l IH]; intros [|b q] E I'; [reflexivity|apply (f_equal (@length B)) in E; discriminate E|apply (f_equal (@length B)) in E; discriminate E|].
  cbn [map] in E. assert (E1 : h a = h b) by (apply (f_equal (@hd_error B)) in E; cbn [hd_error] in E; congruence).
  assert (E2 : map h l = map h q) by (apply (f_equal (@tl B)) in E; exact E).
  rewrite (IH q E2); [|intros x y Hx Hy; apply I'; right; assumption]. rewrite (I' a b (or_introl eq_refl) (or_introl eq_refl) E1). reflexivity.
Qed.

Theorem perm_rows n m (F T : nat -> list K) (sF sT : nat -> K) :
  (forall i, i < n -> length (F i) = m /\ length (T i) = m /\ bit (sF i) /\ bit (sT i)) ->
  many (n * n * (m - 1)) (fun u => many (2 * n) (fun d => many n (fun b => exists z,
      running n z (fun i => kadd (sel (sF i) (hor u (F i)) d) b) (fun i => kadd (sel (sT i) (hor u (T i)) d) b)))) ->
  Permutation (map F (filter (fun i => isone (sF i)) (seq 0 n))) (map T (filter (fun i => isone (sT i)) (seq 0 n))).
Proof.
  intros W M.
  pose (ps := list_prod (map F (seq 0 n)) (map T (seq 0 n))).
  destruct (separating m ps) with (P := fun u => many (2 * n) (fun d => many n (fun b => exists z,
      running n z (fun i => kadd (sel (sF i) (hor u (F i)) d) b) (fun i => kadd (sel (sT i) (hor u (T i)) d) b)))) as [u [Mu Su]].
  - intros [a c] Hp. unfold ps in Hp. apply in_prod_iff in Hp. destruct Hp as [Ha Hc]. apply in_mapseq in Ha, Hc. destruct Ha as [j [Hj <-]], Hc as [k [Hk <-]].
    cbn [fst snd]. split; [apply W, Hj|apply W, Hk].
  - unfold ps. rewrite prod_length, !map_length, seq_length. exact M.
  - destruct (many_good _ _ (map (fun i => hor u (F i)) (seq 0 n) ++ map (fun i => hor u (T i)) (seq 0 n)) Mu) as [d [G Nd]]; [rewrite app_length, !map_length, seq_length; lia|].
    apply (perm_sound n (fun i => sel (sF i) (hor u (F i)) d) (fun i => sel (sT i) (hor u (T i)) d)) in G.
    apply (filter_perm (isnt d)) in G.
    assert (E1 : forall i, i < n -> bit (sF i) /\ hor u (F i) <> d).
    { intros i Hi. split; [apply W, Hi|]. intros E. apply Nd. apply in_or_app. left. apply in_mapseq. exists i. split; assumption. }
    assert (E2 : forall i, i < n -> bit (sT i) /\ hor u (T i) <> d).
    { intros i Hi. split; [apply W, Hi|]. intros E. apply Nd. apply in_or_app. right. apply in_mapseq. exists i. split; assumption. }
    rewrite (selected n (fun i => hor u (F i)) sF d E1), (selected n (fun i => hor u (T i)) sT d E2) in G.
    apply (map_perm_inj (hor u)).
    + intros x y Hx Hy E.
      apply in_map_iff in Hx, Hy. destruct Hx as [i [<- Hi]], Hy as [j [<- Hj]]. apply filter_In in Hi, Hj. destruct Hi as [Hi _], Hj as [Hj _].
      apply (Su (F i, T j)); [|exact E]. unfold ps. apply in_prod_iff. split; apply in_map; assumption.
    + rewrite !map_map. exact G.
Qed.

(* ---- copy constraints ---- *)
Section Connect.
  (* n rows, k columns: the values, the column's own labels and the labels stored in the connection polynomials *)
  Variables (n k : nat) (p own con : nat -> nat -> K).
  Definition cn (l : nat -> nat -> K) (b g : K) (i : nat) : K := kprod (map (fun c => kadd (pairv b (p c i, l c i)) g) (seq 0 k)).
  Definition cellsl (l : nat -> nat -> K) : list (K * K) := flat_map (fun i => map (fun c => (p c i, l c i)) (seq 0 k)) (seq 0 n).
  Lemma cellsl_len l : length (cellsl l) = n * k.
  Proof.
    unfold cellsl. enough (H : forall m s, length (flat_map (fun i => map (fun c => (p c i, l c i)) (seq 0 k)) (seq s m)) = m * k) by apply H.
    induction m as [|m IH]; intros s; [reflexivity|]. cbn [seq flat_map]. rewrite app_length, map_length, seq_length, IH. lia.
  Qed.
  Lemma cellsl_in l x : In x (cellsl l) <-> exists c i, c < k /\ i < n /\ (p c i, l c i) = x.
  Proof.
    unfold cellsl. rewrite in_flat_map. split.
    - intros [i [Hi Hx]]. apply in_seq in Hi. apply in_mapseq in Hx. destruct Hx as [c [Hc E]]. exists c, i. repeat split; [exact Hc|lia|exact E].
    - intros [c [i [Hc [Hi E]]]]. exists i. split; [apply in_seq; lia|]. apply in_mapseq. exists c. split; assumption.
  Qed.
  Lemma cn_prod l b g : kprod (map (cn l b g) (seq 0 n)) = kprod (map (fun x => kadd x g) (map (pairv b) (cellsl l))).
  Proof.
    unfold cellsl. generalize (seq 0 n) as r. induction r as [|i r IH]; [reflexivity|]. cbn [map kprod flat_map]. rewrite !map_app, kprod_app, <- IH.
    unfold cn at 1. rewrite !map_map. reflexivity.
  Qed.
  Theorem connect_sound :
    (forall c d i j, c < k -> d < k -> i < n -> j < n -> own c i = own d j -> c = d /\ i = j) ->
    many (n * k * (n * k)) (fun b => many (n * k) (fun g => exists z, running n z (cn own b g) (cn con b g))) ->
    Permutation (cellsl own) (cellsl con) /\
    forall c d i j, c < k -> d < k -> i < n -> j < n -> con c i = own d j -> p c i = p d j.
  Proof.
    intros INJ M. destruct (many_good _ _ (clashes (cellsl own) (cellsl con)) M) as [b [G Nb]]; [rewrite clashes_len, !cellsl_len; lia|].
    assert (P : Permutation (cellsl own) (cellsl con)).
    { apply (pairs_perm b _ _ Nb). apply (lprod_scaled _ _ kone (n * k)).
      - exact kone_neq.
      - rewrite map_length, cellsl_len. lia.
      - rewrite map_length, cellsl_len. lia.
      - revert G. apply many_mono. intros g [z R]. apply running_prod in R. rewrite !cn_prod in R.
        assert (E : forall l, map (fun x => kadd x (kmul g kone)) l = map (fun x => kadd x g) l) by (intros l; apply map_ext; intros x; ring).
        rewrite !E. exact R. }
    split; [exact P|]. intros c d i j Hc Hd Hi Hj E.
    assert (IN : In (p c i, con c i) (cellsl own)).
    { apply (Permutation_in _ (Permutation_sym P)). apply cellsl_in. exists c, i. repeat split; assumption. }
    apply cellsl_in in IN. destruct IN as [c' [i' [Hc' [Hi' E']]]]. assert (E1 : p c' i' = p c i) by (apply (f_equal fst) in E'; exact E').
    assert (E2 : own c' i' = con c i) by (apply (f_equal snd) in E'; exact E').
    rewrite E in E2. destruct (INJ c' d i' j Hc' Hd Hi' Hj E2) as [-> ->]. symmetry. exact E1.
  Qed.
  (* labels moved by a permutation of the cells along which the values do not change *)
  Theorem connect_complete (sg : nat * nat -> nat * nat) b g :
    (forall x, fst x < k /\ snd x < n -> fst (sg x) < k /\ snd (sg x) < n) ->
    (forall x y, fst x < k /\ snd x < n -> fst y < k /\ snd y < n -> sg x = sg y -> x = y) ->
    (forall c i, c < k -> i < n -> con c i = own (fst (sg (c, i))) (snd (sg (c, i))) /\ p c i = p (fst (sg (c, i))) (snd (sg (c, i)))) ->
    kprod (map (cn own b g) (seq 0 n)) = kprod (map (cn con b g) (seq 0 n)).
  Proof.
    intros IN INJ ST. rewrite !cn_prod. apply kprod_perm, Permutation_map, Permutation_map.
    pose (cs := flat_map (fun i => map (fun c => (c, i)) (seq 0 k)) (seq 0 n)).
    assert (CI : forall x, In x cs <-> fst x < k /\ snd x < n).
    { intros [c i]. unfold cs. rewrite in_flat_map. cbn [fst snd]. split.
      - intros [j [Hj Hx]]. apply in_seq in Hj. apply in_mapseq in Hx. destruct Hx as [c' [Hc E]]. injection E as -> ->. split; [exact Hc|lia].
      - intros [Hc Hi]. exists i. split; [apply in_seq; lia|]. apply in_mapseq. exists c. split; [exact Hc|reflexivity]. }
    assert (ND : NoDup cs).
    { unfold cs. generalize (seq_NoDup n 0). generalize (seq 0 n) as r. induction r as [|i r IH]; intros N; [constructor|]. inversion N as [|? ? Ni Nr]; subst. cbn [flat_map].
      assert (AP : forall a q : list (nat * nat), NoDup a -> NoDup q -> (forall x, In x a -> ~ In x q) -> NoDup (a ++ q)).
      { induction a as [|x a IHa]; intros q Na Nq D; [exact Nq|]. cbn [app]. inversion Na as [|? ? Nx Na']; subst. constructor.
        - rewrite in_app_iff. intros [H|H]; [exact (Nx H)|]. exact (D x (or_introl eq_refl) H).
        - apply IHa; [exact Na'|exact Nq|]. intros y Hy. apply D. right. exact Hy. }
      apply AP; [|exact (IH Nr)|].
      - apply nodup_map; [|apply seq_NoDup]. intros x y _ _ E. congruence.
      - intros x Hx Hq. apply in_map_iff in Hx. destruct Hx as [c [<- _]]. apply in_flat_map in Hq. destruct Hq as [j [Hj Hx]]. apply in_map_iff in Hx. destruct Hx as [c' [E _]].
        assert (j = i) by congruence. subst j. exact (Ni Hj). }
    assert (EL : forall l, cellsl l = map (fun x => (p (fst x) (snd x), l (fst x) (snd x))) cs).
    { intros l. unfold cellsl, cs. generalize (seq 0 n) as r. induction r as [|i r IH]; [reflexivity|]. cbn [flat_map]. rewrite map_app, <- IH, map_map. reflexivity. }
    rewrite !EL.
    assert (E2 : map (fun x => (p (fst x) (snd x), con (fst x) (snd x))) cs = map (fun x => (p (fst x) (snd x), own (fst x) (snd x))) (map sg cs)).
    { rewrite map_map. apply map_ext_in. intros [c i] Hx. apply CI in Hx. destruct Hx as [Hc Hi]. cbn [fst snd] in *. destruct (ST c i Hc Hi) as [-> ->]. reflexivity. }
    rewrite E2. apply Permutation_map. apply Permutation_sym. apply NoDup_Permutation_bis.
    - apply nodup_map; [|exact ND]. intros x y Hx Hy. apply INJ; apply CI; assumption.
    - rewrite map_length. lia.
    - intros y Hy. apply in_map_iff in Hy. destruct Hy as [x [<- Hx]]. apply CI, IN, CI, Hx.
  Qed.
End Connect.

(* selected rows in equal numbers: so are the unselected ones *)
Lemma select_split n (F : nat -> list K) (sF : nat -> K) u d : (forall i, i < n -> bit (sF i)) ->
  Permutation (map (fun i => sel (sF i) (hor u (F i)) d) (seq 0 n))
    (map (hor u) (map F (filter (fun i => isone (sF i)) (seq 0 n))) ++ repeat d (n - length (filter (fun i => isone (sF i)) (seq 0 n)))).
Proof.
  intros B. assert (B' : forall i, In i (seq 0 n) -> bit (sF i)) by (intros i Hi; apply in_seq in Hi; apply B; lia).
  rewrite <- (seq_length n 0) at 3. revert B'. generalize (seq 0 n) as l. clear. induction l as [|i l IH]; intros B; [constructor|].
  specialize (IH (fun j Hj => B j (or_intror Hj))). cbn [map filter].
  assert (L : length (filter (fun j => isone (sF j)) l) <= length l).
  { clear. induction l as [|j l IH]; [cbn; lia|]. cbn [filter]. destruct (isone (sF j)); cbn [length]; lia. }
  destruct (B i (or_introl eq_refl)) as [Z|O].
  - rewrite Z, sel_0. assert (Eo : isone kzero = false). { unfold isone. destruct (k_dec kzero kone) as [E|_]; [exfalso; apply kone_neq; symmetry; exact E|reflexivity]. }
    rewrite Eo. cbn [length]. rewrite Nat.sub_succ_l by exact L. cbn [repeat]. apply Permutation_cons_app. exact IH.
  - rewrite O, sel_1. assert (Eo : isone kone = true) by (apply isone_1; reflexivity). rewrite Eo. cbn [map length app Nat.sub]. constructor. exact IH.
Qed.
Lemma select_perm n u d (F T : nat -> list K) (sF sT : nat -> K) : (forall i, i < n -> bit (sF i) /\ bit (sT i)) ->
  Permutation (map F (filter (fun i => isone (sF i)) (seq 0 n))) (map T (filter (fun i => isone (sT i)) (seq 0 n))) ->
  Permutation (map (fun i => sel (sF i) (hor u (F i)) d) (seq 0 n)) (map (fun i => sel (sT i) (hor u (T i)) d) (seq 0 n)).
Proof.
  intros B P. rewrite (select_split n F sF u d (fun i Hi => proj1 (B i Hi))), (select_split n T sT u d (fun i Hi => proj2 (B i Hi))).
  pose proof (Permutation_length P) as L. rewrite !map_length in L. rewrite L. apply Permutation_app_tail. apply Permutation_map. exact P.
Qed.
