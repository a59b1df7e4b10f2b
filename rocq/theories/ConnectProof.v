(* The connection loop of the compressor computes a permutation whose cycles are the signals. *)
From Verif Require Import Base GlModel FrField Cubic PolyModel Roots ListAux PlonkModel CompressorModel.
From Coq Require Import Field.
Open Scope nat_scope.

Notation cell := (nat * nat)%type. (* column, row *)
Definition cell_eqb (a b : cell) : bool := (fst a =? fst b) && (snd a =? snd b).
Lemma cell_eqb_eq a b : cell_eqb a b = true <-> a = b.
Proof.
  unfold cell_eqb. rewrite andb_true_iff, !Nat.eqb_eq. destruct a, b; cbn. split; [intros [-> ->]; reflexivity|intros [=]; auto].
Qed.
Lemma cell_dec (a b : cell) : {a = b} + {a <> b}.
Proof. destruct (cell_eqb a b) eqn:E; [left; apply cell_eqb_eq, E|right; intros H; apply cell_eqb_eq in H; congruence]. Qed.

(* [x] is reached from [a] by following s *)
Inductive orbit (s : cell -> cell) (a : cell) : cell -> Prop :=
| orb0 : orbit s a a
| orbS x : orbit s a x -> orbit s a (s x).

Section Connect.
  Variable d : dims.
  Variable smap : grid nat.
  Variable s0 : grid Fr.
  Hypothesis fits : n_used d <= n_rows d.

  (* the signal of a cell of the used rows *)
  Definition sig (c : cell) : nat := if snd c <? n_used d then smap (fst c) (snd c) else 0.

  Record inv (done : list cell) (st : grid Fr * list (nat * cell)) (f g : cell -> cell) : Prop := mkInv {
    iv_val : forall c r, fst st c r = s0 (fst (f (c, r))) (snd (f (c, r)));
    iv_fg : forall x, f (g x) = x;
    iv_gf : forall x, g (f x) = x;
    iv_out : forall x, ~ In x done -> f x = x;
    iv_zero : forall x, sig x = 0 -> f x = x;
    iv_sig : forall x, sig (f x) = sig x;
    iv_last : forall k c, lget k (snd st) = Some c -> In c done /\ sig c = k /\ k <> 0;
    iv_reach : forall x, In x done -> sig x <> 0 -> exists a, lget (sig x) (snd st) = Some a /\ orbit f a x
  }.

  Definition swap (f : cell -> cell) (c l : cell) : cell -> cell :=
    fun x => if cell_eqb x l then f c else if cell_eqb x c then f l else f x.

  Lemma lget_app k m e : lget k (m ++ [e]) = match lget k m with Some v => Some v | None => if k =? fst e then Some (snd e) else None end.
  Proof. induction m as [|[k' v] m IH]; cbn; [destruct e; cbn; destruct (k =? _); reflexivity|]. destruct (k =? k'); [reflexivity|exact IH]. Qed.

  Lemma step_inv done st f g j i :
    inv done st f g -> ~ In (j, i) done ->
    exists st' f' g', connect_cell d smap st (i, j) = Ok st' /\ inv ((j, i) :: done) st' f' g'.
  Proof.
    intros [V FG GF OUT Z SG L R] NI. destruct st as [s ls]. cbn [fst snd] in *.
    assert (SIG : i < n_used d -> sig (j, i) = smap j i).
    { intros H. unfold sig. cbn [fst snd]. apply Nat.ltb_lt in H. rewrite H. reflexivity. }
    unfold connect_cell. destruct (Nat.ltb_spec i (n_used d)) as [Hi|Hi].
    2:{ exists (s, ls), f, g. split; [reflexivity|].
        assert (S0 : sig (j, i) = 0). { unfold sig. cbn [fst snd]. destruct (Nat.ltb_spec i (n_used d)); [lia|reflexivity]. }
        constructor; cbn [fst snd]; auto.
        - intros x Hx. apply OUT. intros H. apply Hx. right. exact H.
        - intros k c H. destruct (L k c H) as [A B]. split; [right; exact A|exact B].
        - intros x [<-|Hx] Hn; [congruence|]. apply R; assumption. }
    specialize (SIG Hi). destruct (Nat.eqb_spec (smap j i) 0) as [E0|E0].
    { exists (s, ls), f, g. split; [reflexivity|]. constructor; cbn [fst snd]; auto.
      - intros x Hx. apply OUT. intros H. apply Hx. right. exact H.
      - intros k c H. destruct (L k c H) as [A B]. split; [right; exact A|exact B].
      - intros x [<-|Hx] Hn; [congruence|]. apply R; assumption. }
    destruct (lget (smap j i) ls) as [[cl rl]|] eqn:EL.
    - destruct (L _ _ EL) as [A [B C]].
      assert (Hrl : rl < n_used d).
      { unfold sig in B. cbn [fst snd] in B. destruct (Nat.ltb_spec rl (n_used d)); [assumption|congruence]. }
      destruct (Nat.ltb_spec i (n_rows d)); [|lia]. destruct (Nat.ltb_spec rl (n_rows d)); [|lia]. cbn [andb].
      assert (NE : (j, i) <> (cl, rl)) by (intros EE; rewrite EE in NI; auto).
      assert (Fc : f (j, i) = (j, i)) by (apply OUT; exact NI).
      exists (gset (gset s j i (s cl rl)) cl rl (s j i), ls), (swap f (j, i) (cl, rl)),
             (fun y => if cell_eqb y (f (j, i)) then (cl, rl) else if cell_eqb y (f (cl, rl)) then (j, i) else g y).
      split; [reflexivity|].
      assert (Finj : forall x y, f x = f y -> x = y) by (intros x y E; rewrite <- (GF x), <- (GF y), E; reflexivity).
      assert (SW : forall x, swap f (j, i) (cl, rl) x = if cell_eqb x (cl, rl) then f (j, i) else if cell_eqb x (j, i) then f (cl, rl) else f x) by reflexivity.
      constructor; cbn [fst snd].
      + intros c r. rewrite SW. unfold gset.
        change (cell_eqb (c, r) (cl, rl)) with ((c =? cl) && (r =? rl)). change (cell_eqb (c, r) (j, i)) with ((c =? j) && (r =? i)).
        destruct ((c =? cl) && (r =? rl)); [apply V|]. destruct ((c =? j) && (r =? i)); apply V.
      + intros x. destruct (cell_eqb x (f (j, i))) eqn:E1.
        * apply cell_eqb_eq in E1. subst x. rewrite SW. rewrite (proj2 (cell_eqb_eq (cl, rl) (cl, rl)) eq_refl). reflexivity.
        * destruct (cell_eqb x (f (cl, rl))) eqn:E2.
          -- apply cell_eqb_eq in E2. subst x. rewrite SW. destruct (cell_eqb (j, i) (cl, rl)) eqn:E3; [apply cell_eqb_eq in E3; congruence|].
             rewrite (proj2 (cell_eqb_eq (j, i) (j, i)) eq_refl). reflexivity.
          -- rewrite SW. destruct (cell_eqb (g x) (cl, rl)) eqn:E3.
             { apply cell_eqb_eq in E3. rewrite <- E3, FG in E2. rewrite (proj2 (cell_eqb_eq x x) eq_refl) in E2. discriminate. }
             destruct (cell_eqb (g x) (j, i)) eqn:E4.
             { apply cell_eqb_eq in E4. rewrite <- E4, FG in E1. rewrite (proj2 (cell_eqb_eq x x) eq_refl) in E1. discriminate. }
             apply FG.
      + intros x. rewrite SW. destruct (cell_eqb x (cl, rl)) eqn:E1.
        * apply cell_eqb_eq in E1. subst x. rewrite (proj2 (cell_eqb_eq (f (j, i)) (f (j, i))) eq_refl). reflexivity.
        * destruct (cell_eqb x (j, i)) eqn:E2.
          -- apply cell_eqb_eq in E2. subst x. destruct (cell_eqb (f (cl, rl)) (f (j, i))) eqn:E3.
             { apply cell_eqb_eq, Finj in E3. congruence. }
             rewrite (proj2 (cell_eqb_eq (f (cl, rl)) (f (cl, rl))) eq_refl). reflexivity.
          -- destruct (cell_eqb (f x) (f (j, i))) eqn:E3.
             { apply cell_eqb_eq, Finj in E3. subst x. rewrite (proj2 (cell_eqb_eq (j, i) (j, i)) eq_refl) in E2. discriminate. }
             destruct (cell_eqb (f x) (f (cl, rl))) eqn:E4.
             { apply cell_eqb_eq, Finj in E4. subst x. rewrite (proj2 (cell_eqb_eq (cl, rl) (cl, rl)) eq_refl) in E1. discriminate. }
             apply GF.
      + intros x Hx. rewrite SW. destruct (cell_eqb x (cl, rl)) eqn:E1.
        { apply cell_eqb_eq in E1. subst x. exfalso. apply Hx. right. exact A. }
        destruct (cell_eqb x (j, i)) eqn:E2.
        { apply cell_eqb_eq in E2. subst x. exfalso. apply Hx. left. reflexivity. }
        apply OUT. intros H'. apply Hx. right. exact H'.
      + intros x Hx. rewrite SW. destruct (cell_eqb x (cl, rl)) eqn:E1; [apply cell_eqb_eq in E1; congruence|].
        destruct (cell_eqb x (j, i)) eqn:E2; [apply cell_eqb_eq in E2; congruence|]. apply Z, Hx.
      + intros x. rewrite SW. destruct (cell_eqb x (cl, rl)) eqn:E1; [apply cell_eqb_eq in E1; subst x; rewrite SG; congruence|].
        destruct (cell_eqb x (j, i)) eqn:E2; [apply cell_eqb_eq in E2; subst x; rewrite SG; congruence|]. apply SG.
      + intros k c H'. destruct (L k c H') as [A' B']. split; [right; exact A'|exact B'].
      + assert (ORB : forall a x, (a = (cl, rl) \/ sig a <> sig (cl, rl)) -> orbit f a x -> orbit (swap f (j, i) (cl, rl)) a x).
        { intros a x Ha O. induction O as [|x O IH]; [constructor|].
          assert (Sx : sig x = sig a) by (clear -O SG; induction O; [reflexivity|rewrite SG; assumption]).
          destruct (cell_dec x (cl, rl)) as [->|N1].
          - destruct Ha as [->|Ha]; [|congruence].
            assert (E1 : swap f (j, i) (cl, rl) (cl, rl) = (j, i)) by (rewrite SW, (proj2 (cell_eqb_eq (cl, rl) (cl, rl)) eq_refl); exact Fc).
            assert (E2 : swap f (j, i) (cl, rl) (j, i) = f (cl, rl)).
            { rewrite SW. destruct (cell_eqb (j, i) (cl, rl)) eqn:E3; [apply cell_eqb_eq in E3; congruence|].
              rewrite (proj2 (cell_eqb_eq (j, i) (j, i)) eq_refl). reflexivity. }
            pose proof (orbS (swap f (j, i) (cl, rl)) (cl, rl) _ (orb0 _ _)) as O1. rewrite E1 in O1.
            pose proof (orbS _ _ _ O1) as O2. rewrite E2 in O2. exact O2.
          - destruct (cell_dec x (j, i)) as [->|N2]; [rewrite Fc; exact IH|].
            assert (E1 : swap f (j, i) (cl, rl) x = f x).
            { rewrite SW. destruct (cell_eqb x (cl, rl)) eqn:E3; [apply cell_eqb_eq in E3; congruence|].
              destruct (cell_eqb x (j, i)) eqn:E4; [apply cell_eqb_eq in E4; congruence|reflexivity]. }
            rewrite <- E1. constructor. exact IH. }
        intros x [<-|Hx] Hn.
        * exists (cl, rl). rewrite SIG. split; [exact EL|].
          assert (E1 : swap f (j, i) (cl, rl) (cl, rl) = (j, i)) by (rewrite SW, (proj2 (cell_eqb_eq (cl, rl) (cl, rl)) eq_refl); exact Fc).
          pose proof (orbS (swap f (j, i) (cl, rl)) (cl, rl) _ (orb0 _ _)) as O1. rewrite E1 in O1. exact O1.
        * destruct (R x Hx Hn) as [a [La Oa]]. exists a. split; [exact La|]. apply ORB; [|exact Oa].
          destruct (L _ _ La) as [_ [Sa _]]. destruct (Nat.eq_dec (sig x) (smap j i)) as [E|E].
          -- left. rewrite E, EL in La. congruence.
          -- right. congruence.
    - exists (s, ls ++ [(smap j i, (j, i))]), f, g. split; [reflexivity|]. constructor; cbn [fst snd]; auto.
      + intros x Hx. apply OUT. intros H. apply Hx. right. exact H.
      + intros k c H. rewrite lget_app in H. cbn [fst snd] in H. destruct (lget k ls) as [v|] eqn:E.
        * injection H as <-. destruct (L k v E) as [A B]. split; [right; exact A|exact B].
        * destruct (Nat.eqb_spec k (smap j i)) as [->|]; [|discriminate]. injection H as <-. split; [left; reflexivity|]. split; [exact SIG|exact E0].
      + intros x [<-|Hx] Hn.
        * exists (j, i). rewrite SIG, lget_app, EL. cbn [fst snd]. rewrite Nat.eqb_refl. split; [reflexivity|constructor].
        * destruct (R x Hx Hn) as [a [La Oa]]. exists a. rewrite lget_app, La. split; [reflexivity|exact Oa].
  Qed.

  Lemma fold_inv l : forall done st f g, inv done st f g -> NoDup (map (fun ij => (snd ij, fst ij)) l ++ done) ->
    exists st' f' g', foldM (connect_cell d smap) l st = Ok st' /\ inv (rev (map (fun ij => (snd ij, fst ij)) l) ++ done) st' f' g'.
  Proof.
    induction l as [|[i j] l IH]; intros done st f g I ND; cbn [foldM map rev app].
    - exists st, f, g. split; [reflexivity|exact I].
    - cbn [map app fst snd] in ND. inversion ND as [|? ? N1 N2]; subst.
      destruct (step_inv done st f g j i I) as [st1 [f1 [g1 [E1 I1]]]]; [intros H; apply N1, in_or_app; right; exact H|].
      rewrite E1. cbn [bind fst snd].
      destruct (IH ((j, i) :: done) st1 f1 g1 I1) as [st2 [f2 [g2 [E2 I2]]]].
      { apply NoDup_Add with (a := (j, i)) (l := map (fun ij => (snd ij, fst ij)) l ++ done); [apply Add_app|]. split; assumption. }
      exists st2, f2, g2. split; [exact E2|]. rewrite <- app_assoc. exact I2.
  Qed.

  Lemma cells_in r c i : In (c, i) (map (fun ij => (snd ij, fst ij)) (cells r)) <-> c < 12 /\ i < r.
  Proof.
    rewrite in_map_iff. unfold cells. split.
    - intros [[i' j'] [E H]]. injection E as <- <-. apply in_flat_map in H. destruct H as [x [Hx H]].
      apply in_map_iff in H. destruct H as [y [E H]]. injection E as <- <-. rewrite in_seq in *. lia.
    - intros [Hc Hi]. exists (i, c). split; [reflexivity|]. apply in_flat_map. exists i. rewrite in_seq. split; [lia|].
      apply in_map_iff. exists c. rewrite in_seq. split; [reflexivity|lia].
  Qed.
  Lemma NoDup_app' {A} (l m : list A) : NoDup l -> NoDup m -> (forall x, In x l -> In x m -> False) -> NoDup (l ++ m).
  Proof.
    intros NL NM D. induction l as [|x l IH]; cbn; [exact NM|]. inversion NL; subst. constructor.
    - intros H. apply in_app_or in H. destruct H as [H|H]; [contradiction|]. exact (D x (or_introl eq_refl) H).
    - apply IH; [assumption|]. intros y H1' H2'. apply (D y); [right; exact H1'|exact H2'].
  Qed.
  Lemma rows_nodup (cols : list nat) : NoDup cols -> forall r b, NoDup (map (fun ij => (snd ij, fst ij)) (flat_map (fun i => map (fun j => (i, j)) cols) (seq b r))).
  Proof.
    intros NC. induction r as [|r IH]; intros b; [constructor|].
    change (seq b (S r)) with (b :: seq (S b) r). cbn [flat_map]. rewrite map_app, map_map. cbn [fst snd].
    apply NoDup_app'; [|apply IH|].
    - apply FinFun.Injective_map_NoDup; [intros x y [=]; assumption|exact NC].
    - intros x H1 H2. apply in_map_iff in H1. destruct H1 as [j [<- _]]. apply in_map_iff in H2. destruct H2 as [[i' j'] [E H2]].
      injection E as -> ->. apply in_flat_map in H2. destruct H2 as [y [Hy H2]]. apply in_map_iff in H2. destruct H2 as [z [E _]].
      injection E as E _. rewrite in_seq in Hy. lia.
  Qed.
  Lemma cells_nodup r : NoDup (map (fun ij => (snd ij, fst ij)) (cells r)).
  Proof. apply rows_nodup, seq_NoDup. Qed.

  Definition used_cell (r : nat) (c : cell) : Prop := fst c < 12 /\ snd c < r.

  Theorem connect_perm r :
    exists s f g, connect d smap r s0 = Ok s /\
      (forall c i, s c i = s0 (fst (f (c, i))) (snd (f (c, i)))) /\
      (forall x, f (g x) = x) /\ (forall x, g (f x) = x) /\
      (forall x, ~ used_cell r x -> f x = x) /\ (forall x, sig x = 0 -> f x = x) /\
      (forall x, sig (f x) = sig x) /\
      (forall x y, used_cell r x -> used_cell r y -> sig x = sig y -> sig x <> 0 -> exists a, orbit f a x /\ orbit f a y).
  Proof.
    destruct (fold_inv (cells r) [] (s0, []) (fun x => x) (fun x => x)) as [[s ls] [f [g [E I]]]].
    - constructor; cbn; auto; try discriminate; try contradiction.
    - rewrite app_nil_r. apply cells_nodup.
    - exists s, f, g. unfold connect. rewrite E. cbn [bind]. split; [reflexivity|].
      destruct I as [V FG GF OUT Z SG L R]. rewrite app_nil_r in *. cbn [fst snd] in *.
      assert (IN : forall x, In x (rev (map (fun ij => (snd ij, fst ij)) (cells r))) <-> used_cell r x).
      { intros [c i]. rewrite <- in_rev. apply cells_in. }
      repeat split; auto.
      + intros x H. apply OUT. rewrite IN. exact H.
      + intros x y Hx Hy Es Hn. destruct (R x) as [a [La Oa]]; [apply IN, Hx|exact Hn|].
        destruct (R y) as [b [Lb Ob]]; [apply IN, Hy|congruence|]. rewrite <- Es in Lb. assert (a = b) by congruence. subst b.
        exists a. split; assumption.
  Qed.
End Connect.

(* ---- the labels of the cells ---- *)
Definition ks0 : Fr := fof 12275445934081160404.
Definition label (n : nat) (c i : nat) : Fr := fmul (fpow (root n) i) (fpow ks0 c).

Add Field FrFC : Fr_field.

Lemma fpow_comm1 a n : fmul a (fpow a n) = fpow a (S n).
Proof. cbn [fpow]. ring. Qed.
Lemma get_ks_from_nth n : forall j m, j < n -> nth_error (get_ks_from n (fpow ks0 (S m)) ks0) j = Some (fpow ks0 (S (m + j))).
Proof.
  induction n as [|n IH]; intros j m H; [lia|]. cbn [get_ks_from]. destruct j as [|j].
  - rewrite Nat.add_0_r. reflexivity.
  - cbn [nth_error]. change (fmul (fpow ks0 (S m)) ks0) with (fpow ks0 (S (S m))). rewrite IH by lia.
    apply (f_equal (@Some Fr)). apply (f_equal (fpow ks0)). lia.
Qed.
Lemma get_ks_nth n j : 1 <= n -> j < n -> exists ks, get_ks n = Ok ks /\ length ks = n /\ nth_error ks j = Some (fpow ks0 (S j)).
Proof.
  intros H1 H. destruct n as [|n]; [lia|]. cbn [get_ks]. eexists. split; [reflexivity|].
  fold ks0. assert (E : ks0 = fpow ks0 1) by (cbn [fpow]; ring).
  split.
  - clear. generalize ks0 at 1. generalize ks0. intros k. generalize (S n). clear n. intros n. induction n as [|n IH]; intros p; cbn [get_ks_from length]; [reflexivity|]. rewrite IH. reflexivity.
  - rewrite E at 1. rewrite get_ks_from_nth by exact H. reflexivity.
Qed.

Lemma init_s_val wn ks n : forall i w s c r,
  init_s n i w wn ks s c r =
  if (i <=? r) && (r <? i + n) then
    match c with O => fmul w (fpow wn (r - i)) | S c' => match nth_error ks c' with Some k => fmul (fmul w (fpow wn (r - i))) k | None => s c r end end
  else s c r.
Proof.
  induction n as [|n IH]; intros i w s c r; cbn [init_s].
  - destruct (Nat.leb_spec i r); cbn [andb]; [|reflexivity]. destruct (Nat.ltb_spec r (i + 0)); [lia|reflexivity].
  - rewrite IH. destruct (Nat.leb_spec (i + 1) r) as [L|L]; cbn [andb].
    + destruct (Nat.leb_spec i r); [|lia]. cbn [andb]. replace (i + S n) with (i + 1 + n) by lia.
      destruct (Nat.ltb_spec r (i + 1 + n)).
      * replace (r - i) with (S (r - (i + 1))) by lia. destruct (Nat.eqb_spec r i); [lia|].
        assert (EE : fmul (fmul w wn) (fpow wn (r - (i + 1))) = fmul w (fpow wn (S (r - (i + 1))))) by (cbn [fpow]; ring).
        rewrite EE. reflexivity.
      * destruct (Nat.eqb_spec r i); [lia|reflexivity].
    + destruct (Nat.eqb_spec r i) as [->|N].
      * rewrite Nat.leb_refl. destruct (Nat.ltb_spec i (i + S n)); [|lia]. cbn [andb]. rewrite Nat.sub_diag.
        assert (EE : fmul w (fpow wn 0) = w) by (cbn [fpow]; ring). rewrite EE. reflexivity.
      * destruct (Nat.leb_spec i r); cbn [andb]; [lia|reflexivity].
Qed.

Lemma init_label n ks s : n <= 32 -> get_ks 11 = Ok ks -> forall c i, c < 12 -> i < 2 ^ n ->
  init_s (2 ^ n) 0 f1 (root n) ks s c i = label n c i.
Proof.
  intros Hn Ek c i Hc Hi. rewrite init_s_val. cbn [Nat.leb andb Nat.add]. apply Nat.ltb_lt in Hi. rewrite Hi. rewrite Nat.sub_0_r.
  unfold label. destruct c as [|c]; [cbn [fpow]; ring|].
  destruct (get_ks_nth 11 c) as [ks' [E1 [_ E2]]]; [lia|lia|]. rewrite Ek in E1. injection E1 as <-. rewrite E2. ring.
Qed.

Definition ksbig : Fr := fpos ks0 4294967296.
Lemma ks_big_order : forallb (fun e => negb (Z.eqb (fint (fpos ksbig e)) 1)) [1; 2; 3; 4; 5; 6; 7; 8; 9; 10; 11]%positive = true.
Proof. vm_compute. reflexivity. Qed.
Lemma ks_order e : 1 <= e <= 11 -> fpow (fpow ks0 (2 ^ 32)) e <> f1.
Proof.
  intros He E. pose proof ks_big_order as H. rewrite forallb_forall in H.
  assert (B : fpow ks0 (2 ^ 32) = ksbig).
  { unfold ksbig. rewrite fpos_pow. apply f_equal. apply Nat2Z.inj. rewrite positive_nat_Z, Nat2Z.inj_pow. reflexivity. }
  rewrite B in E.
  specialize (H (Pos.of_nat e)). rewrite fpos_pow, Nat2Pos.id in H by lia. rewrite E, fint_1 in H.
  cbn [Z.eqb Pos.eqb negb] in H. assert (IN : In (Pos.of_nat e) [1; 2; 3; 4; 5; 6; 7; 8; 9; 10; 11]%positive).
  { assert (C : e = 1 \/ e = 2 \/ e = 3 \/ e = 4 \/ e = 5 \/ e = 6 \/ e = 7 \/ e = 8 \/ e = 9 \/ e = 10 \/ e = 11) by lia.
    repeat destruct C as [->|C]; try subst e; cbn; tauto. }
  specialize (H IN). discriminate H.
Qed.

Lemma ks0_nz : ks0 <> f0.
Proof. intros E. apply (f_equal fint) in E. revert E. vm_compute. discriminate. Qed.
Lemma fmul_cancel a b c : a <> f0 -> fmul a b = fmul a c -> b = c.
Proof.
  intros H E. transitivity (fmul (finv a) (fmul a b)); [field; exact H|]. rewrite E. field. exact H.
Qed.
Lemma fpow_nz a n : a <> f0 -> fpow a n <> f0.
Proof.
  intros H. induction n as [|n IH]; cbn [fpow]; [exact f1_nz|]. intros E. apply IH.
  transitivity (fmul (finv a) (fmul (fpow a n) a)); [field; exact H|]. rewrite E. ring.
Qed.
Lemma root_nz n : n <= 32 -> root n <> f0.
Proof.
  intros H E. pose proof (root_full n H) as R. rewrite E in R.
  assert (2 ^ n <> 0) by (apply Nat.pow_nonzero; lia). destruct (2 ^ n) as [|m]; [lia|]. cbn [fpow] in R.
  apply f1_nz. rewrite <- R. ring.
Qed.

Lemma label_lt_gen M q n c c' i i' : M = 2 ^ n * q -> (forall e, 1 <= e <= 11 -> fpow (fpow ks0 M) e <> f1) ->
  n <= 32 -> c < 12 -> c' < 12 -> c < c' -> label n c i = label n c' i' -> False.
Proof.
  intros HM KO Hn H1 H2 L E. apply (KO (c' - c)); [lia|].
  assert (W : forall i, fpow (fpow (root n) i) M = f1).
  { intros x. rewrite <- fpow_mul, Nat.mul_comm. rewrite fpow_mul.
    rewrite HM. rewrite (fpow_mul (root n)), root_full by exact Hn. rewrite !fpow_1. reflexivity. }
  apply (f_equal (fun x => fpow x M)) in E. unfold label in E. cbv beta in E.
  rewrite !fpow_prod in E. rewrite !W in E.
  assert (E' : fpow (fpow ks0 c) M = fpow (fpow ks0 c') M).
  { transitivity (fmul f1 (fpow (fpow ks0 c) M)); [ring|]. rewrite E. ring. }
  rewrite <- !fpow_mul in E'. rewrite !(Nat.mul_comm _ M) in E'. rewrite !fpow_mul in E'.
  replace c' with (c + (c' - c)) in E' by lia. rewrite fpow_add in E'.
  apply (fmul_cancel (fpow (fpow ks0 M) c)); [apply fpow_nz, fpow_nz, ks0_nz|].
  rewrite <- E'. ring.
Qed.
Lemma label_lt n c c' i i' : n <= 32 -> c < 12 -> c' < 12 -> c < c' -> label n c i = label n c' i' -> False.
Proof.
  intros Hn. apply (label_lt_gen (2 ^ 32) (2 ^ (32 - n))); [|exact ks_order|exact Hn].
  rewrite <- Nat.pow_add_r. apply (f_equal (Nat.pow 2)). lia.
Qed.
Lemma root_pow_lt n i i' : n <= 32 -> i < i' -> i' < 2 ^ n -> fpow (root n) i = fpow (root n) i' -> False.
Proof.
  intros Hn L B E. replace i' with (i + (i' - i)) in E by lia. rewrite fpow_add in E.
  assert (E1 : fpow (root n) (i' - i) = f1).
  { apply (fmul_cancel (fpow (root n) i)); [apply fpow_nz, root_nz, Hn|]. rewrite <- E. ring. }
  apply root_order in E1; [|exact Hn]. destruct E1 as [q E1].
  destruct q as [|q]; [lia|]. nia.
Qed.
Lemma label_inj n c c' i i' : n <= 32 -> c < 12 -> c' < 12 -> i < 2 ^ n -> i' < 2 ^ n ->
  label n c i = label n c' i' -> c = c' /\ i = i'.
Proof.
  intros Hn H1 H2 H3 H4 E. destruct (Nat.lt_trichotomy c c') as [L|[<-|L]].
  - exfalso. exact (label_lt n c c' i i' Hn H1 H2 L E).
  - split; [reflexivity|].
    assert (E' : fpow (root n) i = fpow (root n) i').
    { apply (fmul_cancel (fpow ks0 c)); [apply fpow_nz, ks0_nz|]. unfold label in E. transitivity (fmul (fpow (root n) i) (fpow ks0 c)); [ring|]. rewrite E. ring. }
    destruct (Nat.lt_trichotomy i i') as [L|[->|L]]; [|reflexivity|]; exfalso.
    + exact (root_pow_lt n i i' Hn L H4 E').
    + symmetry in E'. exact (root_pow_lt n i' i Hn L H3 E').
  - exfalso. symmetry in E. exact (label_lt n c' c i' i Hn H2 H1 L E).
Qed.

Lemma orbit_val {A} (v : cell -> A) f a x : (forall y, v (f y) = v y) -> orbit f a x -> v x = v a.
Proof. intros H O. induction O; [reflexivity|]. rewrite H. assumption. Qed.

(* the whole statement: the polynomials S name, for each cell, the next cell of its cycle *)
Theorem connect_ok d smap n r ks : n_rows d = 2 ^ n -> n_used d <= n_rows d -> r <= n_rows d -> n <= 32 -> get_ks 11 = Ok ks ->
  exists s f g, connect d smap r (init_s (n_rows d) 0 f1 (root n) ks (fun _ _ => f0)) = Ok s /\
    (forall x, fst x < 12 /\ snd x < 2 ^ n -> fst (f x) < 12 /\ snd (f x) < 2 ^ n) /\
    (forall c i, c < 12 -> i < 2 ^ n -> s c i = label n (fst (f (c, i))) (snd (f (c, i)))) /\
    (forall x, f (g x) = x) /\ (forall x, g (f x) = x) /\
    (forall x, ~ used_cell r x \/ sig d smap x = 0 -> f x = x) /\
    (forall V (v : cell -> V),
       (forall x, v (f x) = v x) <->
       (forall x y, used_cell r x -> used_cell r y -> sig d smap x = sig d smap y -> sig d smap x <> 0 -> v x = v y)).
Proof.
  intros En Hu Hr Hn Ek.
  destruct (connect_perm d smap (init_s (n_rows d) 0 f1 (root n) ks (fun _ _ => f0)) Hu r) as [s [f [g [E [V [FG [GF [OUT [Z [SG O]]]]]]]]]].
  exists s, f, g. split; [exact E|].
  assert (Finj : forall x y, f x = f y -> x = y) by (intros x y X; rewrite <- (GF x), <- (GF y), X; reflexivity).
  assert (UC : forall x, used_cell r x -> used_cell r (f x)).
  { intros x Hx. destruct (Nat.ltb_spec (fst (f x)) 12) as [A|A]; destruct (Nat.ltb_spec (snd (f x)) r) as [B|B]; [split; assumption| | |];
      exfalso; (assert (F : f (f x) = f x) by (apply OUT; intros [U1 U2]; lia)); apply Finj in F; rewrite F in *; destruct Hx; lia. }
  assert (RG : forall x, fst x < 12 /\ snd x < 2 ^ n -> fst (f x) < 12 /\ snd (f x) < 2 ^ n).
  { intros x Hx. destruct (Nat.ltb_spec (fst x) 12) as [A|A]; [|lia]. destruct (Nat.ltb_spec (snd x) r) as [B|B].
    - destruct (UC x); [split; assumption|]. lia.
    - rewrite OUT; [exact Hx|]. intros [U1 U2]. lia. }
  split; [exact RG|]. split; [|split; [exact FG|split; [exact GF|split]]].
  - intros c i Hc Hi. rewrite V. destruct (RG (c, i)) as [R1 R2]; [split; assumption|]. rewrite En. apply init_label; assumption.
  - intros x [H|H]; [apply OUT, H|apply Z, H].
  - intros T v. split.
    + intros H x y Hx Hy Es Hne. destruct (O x y Hx Hy Es Hne) as [a [Ox Oy]].
      rewrite (orbit_val v f a x H Ox), (orbit_val v f a y H Oy). reflexivity.
    + intros H x. destruct (Nat.eq_dec (sig d smap x) 0) as [E0|E0]; [rewrite Z by exact E0; reflexivity|].
      destruct (Nat.ltb_spec (fst x) 12) as [A|A]; [|rewrite OUT; [reflexivity|intros [U1 U2]; lia]].
      destruct (Nat.ltb_spec (snd x) r) as [B|B]; [|rewrite OUT; [reflexivity|intros [U1 U2]; lia]].
      symmetry. apply H; [split; assumption|apply UC; split; assumption|symmetry; apply SG|exact E0].
Qed.
