(* The constraint system made from a circom circuit. *)
From Verif Require Import Base ListAux SynthModel.
Open Scope nat_scope.
Open Scope list_scope.
Open Scope res_scope.

Section Alloc.
  Context {F : Type}.
  Lemma fold_in (g : nat -> res (option F)) l : forall s, foldM (fun s i => do v <- g i; Ok (mkCs (cs_in s ++ [v]) (cs_aux s) (cs_cons s))) l s =
    do vs <- mapM g l; Ok (mkCs (cs_in s ++ vs) (cs_aux s) (cs_cons s)).
  Proof.
    induction l as [|i l IH]; intros s; cbn [foldM mapM]; [cbn [bind]; rewrite app_nil_r; destruct s; reflexivity|]. destruct (g i) as [v| | |]; cbn [bind]; [|reflexivity..].
    rewrite IH. destruct (mapM g l) as [vs| | |]; cbn [bind]; [|reflexivity..]. cbn [cs_in cs_aux cs_cons]. now rewrite <- app_assoc.
  Qed.
  Lemma fold_aux (g : nat -> res (option F)) l : forall s, foldM (fun s i => do v <- g i; Ok (mkCs (cs_in s) (cs_aux s ++ [v]) (cs_cons s))) l s =
    do vs <- mapM g l; Ok (mkCs (cs_in s) (cs_aux s ++ vs) (cs_cons s)).
  Proof.
    induction l as [|i l IH]; intros s; cbn [foldM mapM]; [cbn [bind]; rewrite app_nil_r; destruct s; reflexivity|]. destruct (g i) as [v| | |]; cbn [bind]; [|reflexivity..].
    rewrite IH. destruct (mapM g l) as [vs| | |]; cbn [bind]; [|reflexivity..]. cbn [cs_in cs_aux cs_cons]. now rewrite <- app_assoc.
  Qed.
  Lemma make_lc_map (c : circuit F) d : make_lc c d = map (fun t => (snd t, make_index c (fst t))) d.
  Proof.
    unfold make_lc. assert (G : forall l, fold_left (fun l t => l ++ [(snd t, make_index c (fst t))]) d l = l ++ map (fun t => (snd t, make_index c (fst t))) d).
    { induction d as [|t d IH]; intros l; cbn [fold_left map]; [now rewrite app_nil_r|]. rewrite IH, <- app_assoc. reflexivity. }
    exact (G []).
  Qed.
  Definition kept (k : constraint F) : bool := let '(x, y, z) := k in negb ((is_empty x || is_empty y) && is_empty z).
  Definition image (c : circuit F) (k : constraint F) := let '(x, y, z) := k in (make_lc c x, make_lc c y, make_lc c z).
  Lemma fold_enforce (c : circuit F) ks : forall s, fold_left (enforce c) ks s = mkCs (cs_in s) (cs_aux s) (cs_cons s ++ map (image c) (filter kept ks)).
  Proof.
    induction ks as [|[[x y] z] ks IH]; intros s; cbn [fold_left filter]; [rewrite app_nil_r; destruct s; reflexivity|]. rewrite IH. unfold enforce, kept. destruct (negb _); [|reflexivity]. cbn [map cs_in cs_aux cs_cons image]. now rewrite <- app_assoc.
  Qed.
  Lemma synth_eq p (c : circuit F) s : synthesize p c s =
    do vi <- mapM (fun i => value_of p (wire c i)) (seq 1 (num_inputs (c_r1cs c) - 1));
    do va <- mapM (fun i => value_of p (wire c (i + num_inputs (c_r1cs c)))) (seq 0 (num_aux (c_r1cs c)));
    Ok (mkCs (cs_in s ++ vi) (cs_aux s ++ va) (cs_cons s ++ map (image c) (filter kept (constraints (c_r1cs c))))).
  Proof.
    unfold synthesize, alloc_inputs. rewrite fold_in. destruct (mapM _ (seq 1 _)) as [vi| | |]; cbn [bind]; [|reflexivity..].
    unfold alloc_aux. rewrite fold_aux. destruct (mapM _ (seq 0 _)) as [va| | |]; cbn [bind]; [|reflexivity..]. rewrite fold_enforce. reflexivity.
  Qed.
  Lemma mapM_none {A} (l : list A) (g : A -> res F) : mapM (fun i => value_of false (g i)) l = Ok (repeat None (length l)).
  Proof. induction l as [|x l IH]; [reflexivity|]. cbn [mapM]. rewrite IH. reflexivity. Qed.
  Lemma mapM_true {A} (g : A -> res F) l : mapM (fun i => value_of true (g i)) l = do vs <- mapM g l; Ok (map Some vs).
  Proof.
    induction l as [|x l IH]; [reflexivity|]. cbn [mapM]. rewrite IH. unfold value_of at 1. destruct (g x) as [v| | |]; cbn [bind]; [|reflexivity..]. destruct (mapM g l) as [vs| | |]; reflexivity.
  Qed.
  Lemma mapM_all {A} (g : A -> res F) l : (forall x, In x l -> exists v, g x = Ok v) -> exists vs, mapM g l = Ok vs.
  Proof.
    induction l as [|x l IH]; intros H; [exists []; reflexivity|]. destruct (H x (or_introl eq_refl)) as [v E]. destruct (IH (fun y Hy => H y (or_intror Hy))) as [vs E2]. exists (v :: vs). cbn [mapM]. rewrite E. cbn [bind]. now rewrite E2.
  Qed.
  Lemma mapM_each {A} (g : A -> res F) l vs : mapM g l = Ok vs -> length vs = length l /\ forall k x, nth_error l k = Some x -> exists v, g x = Ok v /\ nth_error vs k = Some v.
  Proof.
    revert vs. induction l as [|x l IH]; intros vs H; cbn [mapM] in H; [injection H as <-; split; [reflexivity | intros [|k] y E; discriminate E]|].
    apply bind_ok in H. destruct H as [v [E H]]. apply bind_ok in H. destruct H as [ws [E2 H]]. injection H as <-. destruct (IH ws E2) as [L K]. split; [cbn; now rewrite L|].
    intros [|k] y Hy; [injection Hy as <-; exists v; auto | exact (K k y Hy)].
  Qed.

  (** ** setup and proof have the same constraints *)
  Theorem same_constraints p p' (c c' : circuit F) s s' t t' : c_r1cs c = c_r1cs c' -> c_offset c = c_offset c' -> cs_cons s = cs_cons s' ->
    synthesize p c s = Ok t -> synthesize p' c' s' = Ok t' -> cs_cons t = cs_cons t' /\ length (cs_in t) - length (cs_in s) = length (cs_in t') - length (cs_in s') /\ length (cs_aux t) - length (cs_aux s) = length (cs_aux t') - length (cs_aux s').
  Proof.
    intros E1 E2 E3 H H'. rewrite synth_eq in H, H'. apply bind_ok in H. destruct H as [vi [A H]]. apply bind_ok in H. destruct H as [va [B H]]. injection H as <-.
    apply bind_ok in H'. destruct H' as [vi' [A' H]]. apply bind_ok in H. destruct H as [va' [B' H]]. injection H as <-. cbn [cs_cons cs_in cs_aux].
    assert (I : forall k, image c k = image c' k).
    { intros [[x y] z]. unfold image. rewrite !make_lc_map. assert (M : forall t, make_index c t = make_index c' t) by (intros t; unfold make_index; now rewrite E1, E2). f_equal; [f_equal|]; apply map_ext; intros u; now rewrite M. }
    assert (L : forall (q : bool) (g : nat -> res F) l r, mapM (fun i => value_of q (g i)) l = Ok r -> length r = length l).
    { intros q g l. induction l as [|x l IH]; intros r Hr; cbn [mapM] in Hr; [injection Hr as <-; reflexivity|]. apply bind_ok in Hr. destruct Hr as [v [_ Hr]]. apply bind_ok in Hr. destruct Hr as [ws [W Hr]]. injection Hr as <-. cbn. now rewrite (IH ws W). }
    split; [rewrite E3, E1; f_equal; apply map_ext; exact I|]. rewrite !app_length, (L _ _ _ _ A), (L _ _ _ _ B), (L _ _ _ _ A'), (L _ _ _ _ B'), !seq_length, E1. split; lia.
  Qed.
  Theorem setup_ends (c : circuit F) s : exists t, synthesize false c s = Ok t.
  Proof. rewrite synth_eq, !mapM_none. cbn [bind]. eexists. reflexivity. Qed.
  (* a prover needs the value of every wire but the first *)
  Theorem prover_ends (c : circuit F) s : let n := num_inputs (c_r1cs c) + num_aux (c_r1cs c) in 1 <= num_inputs (c_r1cs c) ->
    (exists t, synthesize true c s = Ok t) <-> forall i, 1 <= i < n -> exists v, wire c i = Ok v.
  Proof.
    intros n Hn. rewrite synth_eq, !mapM_true. split.
    - intros [t H]. apply bind_ok in H. destruct H as [vi [A H]]. apply bind_ok in H. destruct H as [va [B _]]. apply bind_ok in A. destruct A as [wi [A _]]. apply bind_ok in B. destruct B as [wa [B _]].
      destruct (mapM_each _ _ _ A) as [_ KA]. destruct (mapM_each _ _ _ B) as [_ KB]. intros i Hi. destruct (Nat.lt_ge_cases i (num_inputs (c_r1cs c))) as [L|L].
      + destruct (KA (i - 1) i) as [v [E _]]; [|exists v; exact E]. rewrite (nth_error_nth' _ 0) by (rewrite seq_length; lia). rewrite seq_nth by lia. f_equal. lia.
      + destruct (KB (i - num_inputs (c_r1cs c)) (i - num_inputs (c_r1cs c))) as [v [E _]]; [|exists v; rewrite <- E; f_equal; lia]. rewrite (nth_error_nth' _ 0) by (rewrite seq_length; lia). rewrite seq_nth by lia. reflexivity.
    - intros H. destruct (mapM_all (wire c) (seq 1 (num_inputs (c_r1cs c) - 1))) as [vi A]; [intros x Hx; apply in_seq in Hx; apply H; lia|].
      destruct (mapM_all (fun i => wire c (i + num_inputs (c_r1cs c))) (seq 0 (num_aux (c_r1cs c)))) as [va B]; [intros x Hx; apply in_seq in Hx; apply H; lia|].
      rewrite A, B. cbn [bind]. eexists. reflexivity.
  Qed.
  Theorem no_witness (c : circuit F) s : c_witness c = None -> 1 <= num_inputs (c_r1cs c) -> 2 <= num_inputs (c_r1cs c) + num_aux (c_r1cs c) -> synthesize true c s = Panic.
  Proof.
    intros Hw H1 H2. rewrite synth_eq. assert (W : forall i, wire c i = Panic) by (intros i; unfold wire; now rewrite Hw).
    destruct (num_inputs (c_r1cs c)) as [|[|n]]; [lia| |].
    - cbn [Nat.sub seq mapM bind]. destruct (num_aux (c_r1cs c)); [lia|]. cbn [seq mapM]. rewrite W. reflexivity.
    - cbn [Nat.sub seq mapM]. rewrite W. reflexivity.
  Qed.
  (** ** the public inputs *)
  Theorem public_inputs (c : circuit F) s t : 1 <= num_inputs (c_r1cs c) -> synthesize true c s = Ok t -> (forall w, c_witness c = Some w -> match c_map c with None => num_inputs (c_r1cs c) <= length w | Some m => num_inputs (c_r1cs c) <= length m end) ->
    c_witness c <> None -> exists v, get_public_inputs c = Ok (Some v) /\ cs_in t = cs_in s ++ map Some v.
  Proof.
    intros Hn H Hl Hw. rewrite synth_eq in H. apply bind_ok in H. destruct H as [vi [A H]]. apply bind_ok in H. destruct H as [va [_ H]]. injection H as <-. cbn [cs_in]. rewrite mapM_true in A. apply bind_ok in A. destruct A as [v [A E]]. injection E as <-. exists v. split; [|reflexivity].
    unfold get_public_inputs. destruct (c_witness c) as [w|] eqn:W; [|destruct (Hw eq_refl)]. specialize (Hl w eq_refl). set (n := num_inputs (c_r1cs c)) in *.
    assert (S : forall B (l : list B) k, k + 1 <= length l -> mapM (vget l) (seq 1 k) = Ok (firstn k (skipn 1 l))).
    { intros B l k. assert (G : forall k b, k + b <= length l -> mapM (vget l) (seq b k) = Ok (firstn k (skipn b l))).
      { clear. induction k as [|k IH]; intros b Hb; [reflexivity|]. cbn [seq mapM]. destruct (nth_error l b) as [x|] eqn:E; [|apply nth_error_None in E; lia]. rewrite (vget_some _ _ _ E). cbn [bind]. rewrite IH by lia. cbn [bind].
        f_equal. clear -E. revert l E. induction b as [|b IHb]; intros [|y l] E; try discriminate E; [injection E as ->; reflexivity | exact (IHb l E)]. }
      exact (G k 1). }
    destruct (c_map c) as [m|] eqn:M.
    - unfold slice. rewrite (proj2 (Nat.leb_le 1 n) Hn), (proj2 (Nat.leb_le n (length m)) Hl). cbn [andb bind].
      assert (A' : mapM (fun i => do j <- vget m i; vget w j) (seq 1 (n - 1)) = Ok v) by (rewrite <- A; f_equal; unfold wire; rewrite W, M; reflexivity).
      assert (C : forall l js, mapM (vget m) l = Ok js -> mapM (fun i => do j <- vget m i; vget w j) l = mapM (vget w) js).
      { clear. induction l as [|i l IH]; intros js Hj; cbn [mapM] in *; [injection Hj as <-; reflexivity|]. apply bind_ok in Hj. destruct Hj as [j [E Hj]]. apply bind_ok in Hj. destruct Hj as [js' [E2 Hj]]. injection Hj as <-. rewrite E. cbn [bind mapM]. rewrite (IH _ E2). reflexivity. }
      rewrite <- (C _ _ (S _ m (n - 1) ltac:(lia))), A'. reflexivity.
    - unfold slice. rewrite (proj2 (Nat.leb_le 1 n) Hn), (proj2 (Nat.leb_le n (length w)) Hl). cbn [andb bind].
      assert (A' : mapM (vget w) (seq 1 (n - 1)) = Ok v) by (rewrite <- A; f_equal; unfold wire; rewrite W, M; reflexivity).
      rewrite (S _ w (n - 1)) in A' by lia. assert (E : firstn (n - 1) (skipn 1 w) = v) by congruence. rewrite E. reflexivity.
  Qed.
End Alloc.

(** ** satisfaction *)
Section Sat.
  Context {F : Type} (zero one : F) (add mul : F -> F -> F).
  Hypothesis mul_0_l : forall x, mul zero x = zero.
  Hypothesis mul_0_r : forall x, mul x zero = zero.
  (* the value of a linear combination over the wires *)
  Definition lcv (a : nat -> F) (d : list (nat * F)) : F := fold_right (fun t r => add (mul (snd t) (a (fst t))) r) zero d.
  Definition r1cs_sat (a : nat -> F) (ks : list (constraint F)) : Prop := forall x y z, In (x, y, z) ks -> mul (lcv a x) (lcv a y) = lcv a z.
  (* and over the variables of a constraint system *)
  Definition var (s : cs F) (v : index) : option F := match v with Input i => match nth_error (cs_in s) i with Some o => o | None => None end | Aux i => match nth_error (cs_aux s) i with Some o => o | None => None end end.
  Fixpoint lcs (s : cs F) (l : lc F) : option F :=
    match l with
    | [] => Some zero
    | (k, v) :: l => match var s v, lcs s l with Some x, Some r => Some (add (mul k x) r) | _, _ => None end
    end.
  Definition cs_sat (s : cs F) : Prop := forall x y z, In (x, y, z) (cs_cons s) -> exists u v w, lcs s x = Some u /\ lcs s y = Some v /\ lcs s z = Some w /\ mul u v = w.
  Definition below (n : nat) (ks : list (constraint F)) : Prop := forall x y z, In (x, y, z) ks -> Forall (fun t => fst t < n) (x ++ y ++ z).

  Theorem synth_sat (c : circuit F) auxs t (a : nat -> F) : let n := num_inputs (c_r1cs c) in
    1 <= n -> length auxs = c_offset c -> below (n + num_aux (c_r1cs c)) (constraints (c_r1cs c)) ->
    synthesize true c (mkCs [Some one] auxs []) = Ok t -> a 0 = one -> (forall i, 1 <= i < n + num_aux (c_r1cs c) -> wire c i = Ok (a i)) ->
    cs_sat t <-> r1cs_sat a (constraints (c_r1cs c)).
  Proof.
    intros n Hn Ho Hb H A0 Aw. rewrite synth_eq, !mapM_true in H. apply bind_ok in H. destruct H as [vi [A H]]. apply bind_ok in H. destruct H as [va [B H]]. injection H as <-.
    apply bind_ok in A. destruct A as [wi [A E]]. injection E as <-. apply bind_ok in B. destruct B as [wa [B E]]. injection E as <-. cbn [cs_in cs_aux cs_cons app].
    destruct (mapM_each _ _ _ A) as [LA KA]. destruct (mapM_each _ _ _ B) as [LB KB]. rewrite seq_length in LA, LB. fold n in LA, KA, KB.
    set (t := mkCs (Some one :: map Some wi) (auxs ++ map Some wa) (map (image c) (filter kept (constraints (c_r1cs c))))).
    assert (V : forall i, i < n + num_aux (c_r1cs c) -> var t (make_index c i) = Some (a i)).
    { intros i Hi. unfold make_index. fold n. destruct (Nat.ltb_spec i n) as [L|L]; cbn [var t cs_in cs_aux].
      - destruct i as [|i]; [cbn [nth_error]; now rewrite A0|]. cbn [nth_error]. destruct (KA i (S i)) as [v [E N]]; [rewrite (nth_error_nth' _ 0) by (rewrite seq_length; lia); rewrite seq_nth by lia; reflexivity|].
        rewrite nth_error_map, N. cbn. rewrite (Aw (S i)) in E by lia. congruence.
      - rewrite nth_error_app2 by lia. rewrite Ho. replace (i - n + c_offset c - c_offset c) with (i - n) by lia. destruct (KB (i - n) (i - n)) as [v [E N]]; [rewrite (nth_error_nth' _ 0) by (rewrite seq_length; lia); rewrite seq_nth by lia; reflexivity|].
        rewrite nth_error_map, N. cbn. replace (i - n + n) with i in E by lia. rewrite (Aw i) in E by lia. congruence. }
    assert (W : forall d, Forall (fun u => fst u < n + num_aux (c_r1cs c)) d -> lcs t (make_lc c d) = Some (lcv a d)).
    { intros d Hd. rewrite make_lc_map. induction Hd as [|[i k] d Hi _ IH]; [reflexivity|]. cbn [map lcs fst snd]. rewrite (V i Hi), IH. reflexivity. }
    split.
    - intros S x y z Hk. pose proof (Hb _ _ _ Hk) as Hbk. apply Forall_app in Hbk. destruct Hbk as [Bx Byz]. apply Forall_app in Byz. destruct Byz as [By Bz]. destruct (kept (x, y, z)) eqn:K.
      + destruct (S (make_lc c x) (make_lc c y) (make_lc c z)) as [u [v [w [E1 [E2 [E3 E4]]]]]]; [cbn [t cs_cons]; apply in_map_iff; exists (x, y, z); split; [reflexivity | apply filter_In; auto]|].
        rewrite (W _ Bx) in E1. rewrite (W _ By) in E2. rewrite (W _ Bz) in E3. congruence.
      + unfold kept in K. apply Bool.negb_false_iff in K. apply andb_prop in K. destruct K as [K1 K2]. destruct z; [|discriminate K2]. apply orb_prop in K1. destruct K1 as [K1|K1]; [destruct x; [|discriminate K1]; apply mul_0_l | destruct y; [|discriminate K1]; apply mul_0_r].
    - intros S x y z Hk. cbn [t cs_cons] in Hk. apply in_map_iff in Hk. destruct Hk as [[[x0 y0] z0] [E Hk]]. apply filter_In in Hk. destruct Hk as [Hk _]. cbn [image] in E. injection E as <- <- <-.
      pose proof (Hb _ _ _ Hk) as Hbk. apply Forall_app in Hbk. destruct Hbk as [Bx Byz]. apply Forall_app in Byz. destruct Byz as [By Bz].
      exists (lcv a x0), (lcv a y0), (lcv a z0). rewrite (W _ Bx), (W _ By), (W _ Bz). repeat split. exact (S _ _ _ Hk).
  Qed.
End Sat.

Theorem setup_same {F : Type} (c : circuit F) s : exists t, synthesize false c s = Ok t /\ forall c' s' t', c_r1cs c = c_r1cs c' -> c_offset c = c_offset c' ->
  cs_cons s = cs_cons s' -> synthesize true c' s' = Ok t' -> cs_cons t = cs_cons t' /\
  length (cs_in t) - length (cs_in s) = length (cs_in t') - length (cs_in s') /\ length (cs_aux t) - length (cs_aux s) = length (cs_aux t') - length (cs_aux s').
Proof.
  destruct (setup_ends c s) as [t H]. exists t. split; [exact H|]. intros c' s' t' A B C D. exact (same_constraints false true c c' s s' t t' A B C H D).
Qed.
Theorem prover_cases {F : Type} (c : circuit F) s : 1 <= num_inputs (c_r1cs c) ->
  ((exists t, synthesize true c s = Ok t) <-> forall i, 1 <= i < num_inputs (c_r1cs c) + num_aux (c_r1cs c) -> exists v, wire c i = Ok v) /\
  (c_witness c = None -> 2 <= num_inputs (c_r1cs c) + num_aux (c_r1cs c) -> synthesize true c s = Panic).
Proof. intros H. split; [exact (prover_ends c s H)|]. intros W L. exact (no_witness c s W H L). Qed.
Theorem public_same {F : Type} (c : circuit F) s t w : c_witness c = Some w -> 1 <= num_inputs (c_r1cs c) ->
  num_inputs (c_r1cs c) <= match c_map c with Some m => length m | None => length w end -> synthesize true c s = Ok t ->
  exists v, get_public_inputs c = Ok (Some v) /\ cs_in t = cs_in s ++ map Some v.
Proof.
  intros W H L E. apply (public_inputs c s t H E).
  - intros w' W'. assert (X : w' = w) by congruence. subst w'. destruct (c_map c); exact L.
  - rewrite W. discriminate.
Qed.
